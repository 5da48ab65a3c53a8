(** Attributes survive being written as JSON text and read back. *)
From Coq Require Import NArith ZArith Bool List Lia String.
From stdpp Require Import base list gmap fin_maps.
From Verif.Model Require Import Types Mesh Attrs Binary Versioning AttrCodec Registry GraphCodec Json Rotation JsonCodec.
From Verif.Spec Require Import BinarySpec AttrSpec RegistrySpec ProgramSpec JsonSpec.
From Verif.Proof Require Import JsonNum JsonP RegistryP GraphCodecP.
Local Open Scope N_scope.

Definition modern (env : Env) : Prop := ev_version env = h_version header_current.
Lemma modern_bbox env : modern env -> version_ltb (ev_version env) (mkV 1 0 3) = false.
Proof. intros ->. reflexivity. Qed.


Lemma base_carried env b d : modern env -> base_ok b -> carried (base_jfields env) b d (base_through b).
Proof.
  intros He (Hp & Ht). unfold base_jfields. rewrite He. cbn [version_ltb]. change (version_ltb (h_version header_current) (mkV 1 0 4)) with false. cbn [app].
  eapply carried_cons; [apply carries_vec3d, Hp|]. eapply carried_cons; [apply (carries_unsigned 64), Ht|]. eapply carried_cons; [apply carries_bool|]. eapply carried_cons; [apply carries_bool|].
  apply carried_nil.
Qed.
Lemma matrixXd_carried m : json_matrix None None 64 m -> carries jc_matrixXd m (matrix_of coeff64 m).
Proof. intros H. eapply carries_matrix; [exact H|apply coeff_f64|left; reflexivity|discriminate]. Qed.
Lemma matrix2d_carried m : json_matrix (Some 2) (Some 2) 64 m -> carries jc_matrix2d m (matrix_of coeff64 m).
Proof. intros H. eapply carries_matrix; [exact H|apply coeff_f64|discriminate|intros; eexists; reflexivity]. Qed.
Lemma vectorXf_carried m : json_matrix None (Some 1) 32 m -> carries jc_vectorXf m (matrix_of coeff32 m).
Proof. intros H. eapply carries_matrix; [exact H|apply coeff_f32|right; reflexivity|discriminate]. Qed.
Lemma bowids_carried m : json_matrix None (Some 1) 32 m -> carries jc_bowids m m.
Proof.
  intros H. assert (E : matrix_of (fun v => v) m = m) by (destruct m; unfold matrix_of; cbn; rewrite map_id; reflexivity). rewrite <- E at 2.
  eapply carries_matrix; [exact H|intros v Hv; apply coeff_unsigned, Hv|right; reflexivity|discriminate].
Qed.
Lemma u64s_carried l : Forall (fits 64) l -> carries jc_u64s l l.
Proof. apply carries_list_id, carries_unsigned. Qed.
Lemma u8s_carried l : Forall (fits 8) l -> carries jc_u8s l l.
Proof. apply carries_list_id, carries_unsigned. Qed.
Lemma nvis_carried l : Forall json_nvi l -> carries jc_nvis l l.
Proof. apply carries_list_id, carries_nvi. Qed.
Lemma points_carried l : Forall (vec_ok 32) l -> carries jc_points l (map (vec_of coeff32) l).
Proof. apply carries_list_with, carries_vec3f. Qed.

Lemma sem_carried env s d : modern env -> json_sem s -> carried (sem_jfields env) s d (sem_through s).
Proof.
  intros He (Hb & Hn & Hc & Hbb & Hl & Hf). unfold sem_jfields. eapply carried_app.
  - apply (carried_lift s_base (fun b s => sem_set_base s b)); [reflexivity|reflexivity|intros []; reflexivity|]. apply base_carried; assumption.
  - eapply carried_cons; [apply carries_string, Hn|]. eapply carried_cons.
    { rewrite He. change (version_leb (h_version header_current) (mkV 1 0 2)) with false. apply carries_color, Hc. }
    eapply carried_cons; [apply carries_bbox; [apply modern_bbox, He|exact Hbb]|]. eapply carried_cons; [apply (carries_unsigned 32), Hl|]. eapply carried_cons; [apply matrixXd_carried, Hf|].
    apply carried_nil.
Qed.

Lemma obj_carried env o : modern env -> json_ok (AObj o) -> forall o', through_json (AObj o) = AObj o' -> carried (obj_jfields env) o obj_default o'.
Proof.
  intros He (Hs & Hm & Hq) o' [= <-]. unfold obj_jfields. eapply carried_app.
  - apply (carried_lift o_sem (fun s o => mkObj s (o_mesh_conn o) (o_registered o) (o_rot o))); [reflexivity|reflexivity|intros []; reflexivity|]. apply sem_carried; assumption.
  - eapply carried_cons; [apply u64s_carried, Hm|]. eapply carried_cons; [apply carries_bool|]. eapply carried_cons; [apply carries_quatd, Hq|]. apply carried_nil.
Qed.
Lemma room_carried env r : modern env -> json_ok (ARoom r) -> forall r', through_json (ARoom r) = ARoom r' -> carried (room_jfields env) r room_default r'.
Proof.
  intros He (Hs & Hm) r' [= <-]. unfold room_jfields. eapply carried_app.
  - apply (carried_lift r_sem (fun s r => mkRoom s (r_probs r))); [reflexivity|reflexivity|intros []; reflexivity|]. apply sem_carried; assumption.
  - eapply carried_cons; [apply carries_map; intros k v E; destruct (Hm k v E) as [H1 H2]; split; [exact H1|apply carries_f64, H2]|]. apply carried_nil.
Qed.
Lemma place_carried env p : modern env -> json_ok (APlace p) -> forall p', through_json (APlace p) = APlace p' -> carried (place_jfields env) p place_default p'.
Proof.
  intros He (Hs & Hd & Hb & Hv & Hp & Hl & Hdf & Hsc & Ho & Hn) p' [= <-]. unfold place_jfields. eapply carried_app.
  - apply (carried_lift p_sem (fun s p => mkPlace s (p_distance p) (p_basis p) (p_voxblox p) (p_pcl p) (p_labels p) (p_deform p)
                       (p_real p) (p_cleanup p) (p_frontier p) (p_scale p) (p_orient p) (p_nfv p))); [reflexivity|reflexivity|intros []; reflexivity|]. apply sem_carried; assumption.
  - eapply carried_cons; [apply carries_f64, Hd|]. eapply carried_cons; [apply (carries_unsigned 32), Hb|]. eapply carried_cons; [apply nvis_carried, Hv|].
    eapply carried_cons; [apply u64s_carried, Hp|]. eapply carried_cons; [apply u8s_carried, Hl|]. eapply carried_cons; [apply u64s_carried, Hdf|].
    eapply carried_cons; [apply carries_bool|]. eapply carried_cons; [apply carries_bool|]. eapply carried_cons; [apply carries_vec3d, Hsc|].
    eapply carried_cons; [apply carries_quatd, Ho|]. eapply carried_cons; [apply carries_bool|]. eapply carried_cons; [apply (carries_unsigned 64), Hn|]. apply carried_nil.
Qed.
Lemma place2d_carried env p : modern env -> json_ok (APlace2d p) -> forall p', through_json (APlace2d p) = APlace2d p' -> carried (place2d_jfields env) p place2d_default p'.
Proof.
  intros He (Hs & Hb & Hc & Hm1 & Hm2 & Hpb & Hv & Hp & Hl & Hd) p' [= <-]. unfold place2d_jfields. eapply carried_app.
  - apply (carried_lift d_sem (fun s d => mkPlace2d s (d_boundary d) (d_centroid d) (d_compress d) (d_expand d) (d_pcl_boundary d)
     (d_voxblox d) (d_pcl d) (d_min d) (d_max d) (d_labels d) (d_deform d) (d_finish_merge d) (d_cleanup_split d) (d_active_mesh d))); [reflexivity|reflexivity|intros []; reflexivity|]. apply sem_carried; assumption.
  - eapply carried_cons; [apply (carries_list_with _ (vec_ok 64)); [apply carries_vec3d|exact Hb]|]. eapply carried_cons; [apply carries_vec3d, Hc|].
    eapply carried_cons; [apply matrix2d_carried, Hm1|]. eapply carried_cons; [apply matrix2d_carried, Hm2|].
    eapply carried_cons; [apply u64s_carried, Hpb|]. eapply carried_cons; [apply nvis_carried, Hv|]. eapply carried_cons; [apply u64s_carried, Hp|].
    eapply carried_cons; [apply u8s_carried, Hl|]. eapply carried_cons; [apply u64s_carried, Hd|]. eapply carried_cons; [apply carries_bool|]. eapply carried_cons; [apply carries_bool|]. apply carried_nil.
Qed.
Lemma agent_carried env a : modern env -> json_ok (AAgent a) -> forall a', through_json (AAgent a) = AAgent a' -> carried (agent_jfields env) a agent_default a'.
Proof.
  intros He (Hs & Hq & Hx & Hi & Hv) a' [= <-]. unfold agent_jfields. eapply carried_app.
  - apply (carried_lift g_base (fun b a => mkAgent b (g_rot a) (g_ext a) (g_dbow_ids a) (g_dbow_vals a))); [reflexivity|reflexivity|intros []; reflexivity|]. apply base_carried; assumption.
  - eapply carried_cons; [apply carries_quatd, Hq|]. eapply carried_cons; [apply (carries_unsigned 64), Hx|]. eapply carried_cons; [apply bowids_carried, Hi|]. eapply carried_cons; [apply vectorXf_carried, Hv|]. apply carried_nil.
Qed.
Lemma khronos_carried env k : modern env -> json_ok (AKhronos k) -> forall k', through_json (AKhronos k) = AKhronos k' -> carried (khronos_jfields env) k khronos_default k'.
Proof.
  intros He (Hs & H1 & H2 & Hm & Hp & Ht & Hd & Hdet) k' [= <-]. unfold khronos_jfields. eapply carried_app.
  - apply (carried_lift (fun k => o_sem (k_obj k)) (fun s k => mkKhronos (mkObj s (o_mesh_conn (k_obj k)) (o_registered (k_obj k)) (o_rot (k_obj k)))
     (k_first k) (k_last k) (k_mesh k) (k_traj_t k) (k_traj_p k) (k_points k) (k_details k))); [reflexivity|reflexivity|intros [[] ? ? ? ? ? ? ?]; reflexivity|]. apply sem_carried; assumption.
  - eapply carried_cons; [apply u64s_carried, H1|]. eapply carried_cons; [apply u64s_carried, H2|]. eapply carried_cons; [apply carries_mesh, Hm|].
    eapply carried_cons; [apply points_carried, Hp|]. eapply carried_cons; [apply u64s_carried, Ht|].
    eapply carried_cons; [apply (carries_list_with _ (Forall (vec_ok 32))); [intros; apply points_carried; assumption|exact Hd]|].
    eapply carried_cons; [apply carries_map; intros key v E; destruct (Hdet key v E) as [U V]; split; [exact U|apply u64s_carried, V]|]. apply carried_nil.
Qed.

Lemma by_name {T} (l : list (Name * T)) infos r n : registers l infos r -> (length l <= 256)%nat -> known_as l n (create_by_name (reg_current r) n).
Proof.
  intros H Hl. destruct (registers_spec _ _ _ H) as (H1 & _ & H3 & H4). unfold reg_current. rewrite H1, H4.
  destruct (factory_lookup (list_to_map l) l.*1 H3) as (A & _ & B); [by rewrite fmap_length|]. destruct (decide (n ∈ l.*1)) as [Hn|Hn].
  - apply elem_of_list_lookup in Hn as [i Hi]. destruct (A i n Hi) as [_ ->]. by apply known_lookup.
  - rewrite B by exact Hn. intros c Hc. apply Hn. apply elem_of_list_fmap. exists (n, c). split; [reflexivity|exact Hc].
Qed.
Lemma program_small ks p : program_of ks p -> (length ks <= 8)%nat.
Proof.
  intros [(infos & H & _) _]. destruct (registers_spec _ _ _ H) as (_ & _ & ND & _). rewrite class_names in ND.
  assert (NDk : NoDup ks) by (apply (NoDup_fmap_1 kind_name), ND).
  apply (submseteq_length ks [KNode; KSem; KObj; KRoom; KPlace; KPlace2d; KAgent; KKhronos]). apply NoDup_submseteq; [exact NDk|].
  intros k _. destruct k; apply (bool_decide_unpack _); vm_compute; exact I.
Qed.
Lemma by_name_known ks p k : program_of ks p -> create_by_name (reg_current (pg_nodes p)) (kind_name k) = if bool_decide (k ∈ ks) then Some k else None.
Proof.
  intros Hp. pose proof (program_small ks p Hp) as Hl. destruct Hp as [(infos & H & _) _]. apply class_known. eapply by_name; [exact H|]. unfold class_list. rewrite map_length. lia.
Qed.
Lemma attrs_text env ks p a : modern env -> program_of ks p -> json_ok a ->
  exists t, dump (attrs_to_json env a) = Ok t /\
    attrs_from_json env (reg_current (pg_nodes p)) t = Ok (if bool_decide (kind_of a ∈ ks) then Some (through_json a) else None).
Proof.
  intros He Hp Ha. unfold attrs_to_json.
  assert (H : forall S (fs : list (JField S)) (s d d' : S) (wrap : S -> NodeAttrs), field_names_ok (map jf_name fs) = true -> carried fs s d d' ->
     (forall j, kind_from_json env (kind_of a) j = rmap wrap (read_jfields fs j d)) -> through_json a = wrap d' ->
     exists t, dump (JObject (write_jfields fs s [(str "type", JString (kind_name (kind_of a)))])) = Ok t /\
       attrs_from_json env (reg_current (pg_nodes p)) t = Ok (if bool_decide (kind_of a ∈ ks) then Some (through_json a) else None)).
  { intros S fs s d d' wrap HN HC HK HT. destruct (object_text fs s d d' (kind_name (kind_of a)) HN) as (o & D & G & R); [destruct (kind_of a); reflexivity|exact HC|].
    exists (JObject o). split; [exact D|]. unfold attrs_from_json. cbn [j_at]. rewrite G. cbn [at_ rbind get_string]. rewrite (by_name_known ks p _ Hp).
    destruct (bool_decide (kind_of a ∈ ks)); [|reflexivity]. rewrite HK, R, HT. reflexivity. }
  destruct a as [b|s|o|r|q|q|g|k].
  - apply (H _ _ _ base_default (base_through b) ANode); [unfold base_jfields; rewrite He; vm_compute; reflexivity|apply base_carried; assumption|reflexivity|reflexivity].
  - apply (H _ _ _ sem_default (sem_through s) ASem); [unfold sem_jfields, base_jfields; rewrite He; vm_compute; reflexivity|apply sem_carried; assumption|reflexivity|reflexivity].
  - eapply (H _ _ _ obj_default _ AObj); [unfold obj_jfields, sem_jfields, base_jfields; rewrite He; vm_compute; reflexivity|eapply obj_carried; [exact He|exact Ha|reflexivity]|reflexivity|reflexivity].
  - eapply (H _ _ _ room_default _ ARoom); [unfold room_jfields, sem_jfields, base_jfields; rewrite He; vm_compute; reflexivity|eapply room_carried; [exact He|exact Ha|reflexivity]|reflexivity|reflexivity].
  - eapply (H _ _ _ place_default _ APlace); [unfold place_jfields, sem_jfields, base_jfields; rewrite He; vm_compute; reflexivity|eapply place_carried; [exact He|exact Ha|reflexivity]|reflexivity|reflexivity].
  - eapply (H _ _ _ place2d_default _ APlace2d); [unfold place2d_jfields, sem_jfields, base_jfields; rewrite He; vm_compute; reflexivity|eapply place2d_carried; [exact He|exact Ha|reflexivity]|reflexivity|reflexivity].
  - eapply (H _ _ _ agent_default _ AAgent); [unfold agent_jfields, base_jfields; rewrite He; vm_compute; reflexivity|eapply agent_carried; [exact He|exact Ha|reflexivity]|reflexivity|reflexivity].
  - eapply (H _ _ _ khronos_default _ AKhronos); [unfold khronos_jfields, sem_jfields, base_jfields; rewrite He; vm_compute; reflexivity|eapply khronos_carried; [exact He|exact Ha|reflexivity]|reflexivity|reflexivity].
Qed.
Lemma edge_text ks p e : program_of ks p -> json_edge e ->
  exists t, dump (edge_attrs_to_json e) = Ok t /\ edge_attrs_from_json (reg_current (pg_edges p)) t = Ok (Some e).
Proof.
  intros [_ (info & H & _)] He.
  destruct (object_text edge_jfields e ea_default e edge_name) as (o & D & G & R); [vm_compute; reflexivity|reflexivity| |].
  { eapply carried_cons; [apply carries_bool|]. eapply carried_cons; [apply carries_f64, He|]. destruct e. apply carried_nil. }
  exists (JObject o). split; [exact D|]. unfold edge_attrs_from_json. cbn [j_at]. rewrite G. cbn [at_ rbind get_string].
  pose proof (by_name _ _ _ edge_name H ltac:(cbn; lia)) as K. destruct (create_by_name (reg_current (pg_edges p)) edge_name) as [[]|]; [rewrite R; reflexivity|].
  exfalso. apply (K tt). left.
Qed.
