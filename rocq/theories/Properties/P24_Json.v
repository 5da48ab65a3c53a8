(** C54 graphs round trip through JSON, C55 what JSON readers accept. *)
From Coq Require Import NArith ZArith Bool List Lia String.
From stdpp Require Import base list gmap.
From Verif.Model Require Import Types Mesh Attrs Node EdgeContainer SLayer DLayer Graph Binary Versioning AttrCodec Registry GraphCodec Json Rotation JsonCodec GraphJson.
From Verif.Spec Require Import BinarySpec AttrSpec RegistrySpec ProgramSpec AbstractGraph GraphHistory GraphObs GraphFileSpec JsonSpec.
From Verif.Proof Require Import GraphRep GraphObsP TransferP JsonNum JsonP JsonAttrP GraphJsonP.
From Verif.Properties Require Import P12_Files P13_Registry P14_GraphFiles ExGraph.
Local Open Scope N_scope.

(** C54: every graph that JSON can hold is written, and any program that has the attribute
    classes of its nodes reads the text as a graph with the same layers, nodes, timestamps,
    edges and (if requested) mesh, and with the attributes of [through_json]. *)
Theorem C54_graph_json_round_trip : forall fsub ks p h im,
  program_of ks p -> reachable h -> json_saveable h -> (forall x k t a, node_data h x = Some (k, t, a) -> kind_of a ∈ ks) ->
  exists text g', write_graph_json (mkEnv (h_version header_current) fsub) h im = Ok text /\ read_graph_json fsub p text = Ok g' /\
    reachable g' /\ loaded_from_json h g' /\ g_mesh g' = if im then mesh_through <$> g_mesh h else None.
Proof.
  intros fsub ks p h im Hp Hh HS HK. destruct (graph_json_ok fsub ks p h im Hp Hh HS HK) as (t & g' & W & _ & R & Hr & Hi & HN & HE & HM).
  exists t, g'. split; [exact W|]. split; [exact R|]. split; [exact Hr|]. split; [|exact HM].
  split; [exact Hi|]. split; [apply same_layers; assumption|]. split; [exact HN|exact HE].
Qed.
Print Assumptions C54_graph_json_round_trip.
(** The attributes come back unchanged, except for the members no format holds (C39), if all
    coefficients are finite and the boxes are valid with a rotation that survives. *)
Lemma coeff64_exact v : is_finite 11 52 v -> coeff64 v = v.
Proof. intros H. unfold coeff64. rewrite decide_True by exact H. reflexivity. Qed.
Lemma coeff32_exact v : is_finite 8 23 v -> coeff32 v = v.
Proof. intros H. unfold coeff32. rewrite decide_True by exact H. reflexivity. Qed.
Lemma vec_exact f e m v : (forall x, is_finite e m x -> f x = x) -> vec_finite e m v -> vec_of f v = v.
Proof. intros Hf (H1 & H2 & H3). destruct v. unfold vec_of. cbn in *. rewrite !Hf by assumption. reflexivity. Qed.
Lemma matrix_exact f e m x : (forall x, is_finite e m x -> f x = x) -> Forall (is_finite e m) (mx_data x) -> matrix_of f x = x.
Proof.
  intros Hf H. destruct x as [r c d]. unfold matrix_of. cbn in *. f_equal. induction H as [|v d Hv _ IH]; [reflexivity|]. cbn. rewrite Hf, IH by assumption. reflexivity.
Qed.
Lemma list_exact {A} (f : A -> A) (P : A -> Prop) l : (forall x, P x -> f x = x) -> Forall P l -> map f l = l.
Proof. intros Hf H. induction H as [|v d Hv _ IH]; [reflexivity|]. cbn. rewrite Hf, IH by assumption. reflexivity. Qed.
Lemma base_unchanged b : base_exact b -> base_through b = b.
Proof. intros H. destruct b. unfold base_through. cbn in *. rewrite (vec_exact coeff64 11 52) by (apply coeff64_exact || exact H). reflexivity. Qed.
Lemma box_unchanged b : box_exact b -> bbox_through b = b.
Proof.
  intros [->|(Hv & Hd & Hc & Hr)].
  - unfold bbox_through. rewrite decide_False; [reflexivity|]. unfold box_valid. cbn. lia.
  - unfold bbox_through. rewrite decide_True by exact Hv. rewrite Hr. destruct b. cbn in *. rewrite !(vec_exact coeff32 8 23) by (apply coeff32_exact || assumption). reflexivity.
Qed.
Lemma sem_unchanged s : sem_exact s -> sem_through s = s.
Proof.
  intros (H1 & H2 & H3). destruct s. unfold sem_through. cbn in *. rewrite base_unchanged, box_unchanged by assumption. rewrite (matrix_exact coeff64 11 52) by (apply coeff64_exact || assumption). reflexivity.
Qed.
Lemma points_unchanged l : Forall (vec_finite 8 23) l -> map (vec_of coeff32) l = l.
Proof. apply list_exact. intros v. apply vec_exact, coeff32_exact. Qed.
Theorem C54_mesh_exact : forall m, mesh_exact m -> mesh_through m = m.
Proof. intros m H. destruct m. unfold mesh_through, mesh_exact in *. cbn in *. rewrite points_unchanged by exact H. reflexivity. Qed.
Print Assumptions C54_mesh_exact.
Theorem C54_attributes_exact : forall a, json_exact a -> through_json a = kept a.
Proof.
  intros a H. destruct a as [b|s|o|r|p|d|g|k]; cbn [json_exact through_json kept] in *.
  - rewrite base_unchanged by exact H. reflexivity.
  - rewrite sem_unchanged by exact H. reflexivity.
  - rewrite sem_unchanged by exact H. destruct o. reflexivity.
  - rewrite sem_unchanged by exact H. destruct r. reflexivity.
  - destruct H as (H1 & H2). rewrite sem_unchanged by exact H1. rewrite (vec_exact coeff64 11 52) by (apply coeff64_exact || exact H2). destruct p. reflexivity.
  - destruct H as (H1 & H2 & H3 & H4 & H5). rewrite sem_unchanged by exact H1. rewrite (vec_exact coeff64 11 52) by (apply coeff64_exact || exact H3).
    rewrite !(matrix_exact coeff64 11 52) by (apply coeff64_exact || assumption). rewrite (list_exact _ _ _ (fun v => vec_exact coeff64 11 52 v coeff64_exact) H2). reflexivity.
  - destruct H as (H1 & H2). rewrite base_unchanged by exact H1. rewrite (matrix_exact coeff32 8 23) by (apply coeff32_exact || assumption). destruct g. reflexivity.
  - destruct H as (H1 & H2 & H3 & H4). rewrite sem_unchanged by exact H1. rewrite C54_mesh_exact by exact H2. rewrite points_unchanged by exact H3.
    rewrite (list_exact _ _ _ points_unchanged H4). reflexivity.
Qed.
Print Assumptions C54_attributes_exact.
(** Mesh::serializeToJson and deserializeFromJson *)
Theorem C54_mesh_json_round_trip : forall m, json_mesh m -> exists text, mesh_to_text m = Ok text /\ mesh_from_text text = Ok (mesh_through m).
Proof. intros m H. destruct (mesh_text m H) as (t & W & _ & R). exists t. split; assumption. Qed.
Print Assumptions C54_mesh_json_round_trip.
(** node attributes and edge attributes by themselves *)
Theorem C54_attributes_json_round_trip : forall fsub ks p a, program_of ks p -> json_ok a -> kind_of a ∈ ks ->
  let env := mkEnv (h_version header_current) fsub in
  exists text, dump (attrs_to_json env a) = Ok text /\ attrs_from_json env (reg_current (pg_nodes p)) text = Ok (Some (through_json a)).
Proof.
  intros fsub ks p a Hp Ha Hk env. destruct (attrs_text env ks p a eq_refl Hp Ha) as (t & D & R). exists t. split; [exact D|]. rewrite R, bool_decide_true by exact Hk. reflexivity.
Qed.
Print Assumptions C54_attributes_json_round_trip.
Theorem C54_edge_json_round_trip : forall ks p e, program_of ks p -> json_edge e ->
  exists text, dump (edge_attrs_to_json e) = Ok text /\ edge_attrs_from_json (reg_current (pg_edges p)) text = Ok (Some e).
Proof. exact edge_text. Qed.
Print Assumptions C54_edge_json_round_trip.

(* ------------------------------------------------------------------ *)
(** ** C55: what readers accept *)
(** the object of a class has exactly the members of [json_names] *)
Lemma names_written {S} (fs : list (JField S)) s name : NoDup (str "type" :: map jf_name fs) ->
  map fst (write_jfields fs s [(str "type", JString name)]) = str "type" :: map jf_name fs.
Proof. intros H. rewrite write_jfields_new by exact H. cbn [app map fst]. unfold members_of. rewrite map_map. reflexivity. Qed.
Theorem C55_members_written : forall fsub a, exists o, attrs_to_json (mkEnv (h_version header_current) fsub) a = JObject o /\
  map fst o = str "type" :: map str (json_names (kind_of a)) /\ obj_get o (str "type") = Some (JString (kind_name (kind_of a))).
Proof.
  intros fsub a. unfold attrs_to_json. eexists. split; [reflexivity|]. split.
  - destruct a; rewrite names_written by (apply (bool_decide_unpack _); vm_compute; exact I); vm_compute; reflexivity.
  - assert (G : forall S (fs : list (JField S)) s name, bool_decide (NoDup (str "type" :: map jf_name fs)) = true -> obj_get (write_jfields fs s [(str "type", JString name)]) (str "type") = Some (JString name)).
    { intros S fs s name H. apply bool_decide_eq_true in H. rewrite write_jfields_new by exact H. reflexivity. }
    destruct a; rewrite G by (vm_compute; reflexivity); reflexivity.
Qed.
Print Assumptions C55_members_written.

(** any other members of an object are ignored: what is read depends on the members of the
    class only *)
Lemma read_depends {S} (fs : list (JField S)) o o' : (forall f, f ∈ fs -> obj_get o (jf_name f) = obj_get o' (jf_name f)) ->
  forall s, read_jfields fs (JObject o) s = read_jfields fs (JObject o') s.
Proof.
  induction fs as [|f fs IH]; intros H s; [reflexivity|]. cbn [read_jfields]. assert (E : read_jfield (JObject o) f s = read_jfield (JObject o') f s).
  { unfold read_jfield. cbn [j_contains j_at]. rewrite (H f) by left. reflexivity. }
  rewrite E. destruct (read_jfield (JObject o') f s); cbn [rbind]; [|reflexivity..]. apply IH. intros g Hg. apply H. right. exact Hg.
Qed.
Definition covered {S} (fs : list (JField S)) (k : Kind) : bool := forallb (fun f => bool_decide (jf_name f ∈ map str (json_names k))) fs.
Lemma covered_names {S} (fs : list (JField S)) k o o' : covered fs k = true -> (forall x, x ∈ json_names k -> obj_get o (str x) = obj_get o' (str x)) ->
  forall f, f ∈ fs -> obj_get o (jf_name f) = obj_get o' (jf_name f).
Proof.
  intros H Ho f Hf. unfold covered in H. rewrite forallb_forall in H. apply elem_of_list_In in Hf. specialize (H f Hf). apply bool_decide_eq_true in H.
  apply elem_of_list_In, in_map_iff in H as (x & <- & Hx). apply Ho, elem_of_list_In, Hx.
Qed.
Lemma kind_reads env k o o' : (forall x, x ∈ json_names k -> obj_get o (str x) = obj_get o' (str x)) -> kind_from_json env k (JObject o) = kind_from_json env k (JObject o').
Proof.
  intros H. assert (C : forall S (fs : list (JField S)) s, covered fs k = true -> read_jfields fs (JObject o) s = read_jfields fs (JObject o') s).
  { intros S fs s Hc. apply read_depends. eapply covered_names; eassumption. }
  destruct k; cbn [kind_from_json]; (rewrite C; [reflexivity|]);
    unfold khronos_jfields, agent_jfields, place2d_jfields, place_jfields, room_jfields, obj_jfields, sem_jfields, base_jfields;
    destruct (version_ltb (ev_version env) (mkV 1 0 4)); vm_compute; reflexivity.
Qed.
Theorem C55_other_members_ignored : forall env f k name o o',
  obj_get o (str "type") = Some (JString name) -> obj_get o' (str "type") = Some (JString name) -> create_by_name f name = Some k ->
  (forall x, x ∈ json_names k -> obj_get o (str x) = obj_get o' (str x)) ->
  attrs_from_json env f (JObject o) = attrs_from_json env f (JObject o').
Proof.
  intros env f k name o o' H1 H2 Hk Ho. unfold attrs_from_json. cbn [j_at]. rewrite H1, H2. cbn [at_ rbind get_string]. rewrite Hk, (kind_reads env k o o' Ho). reflexivity.
Qed.
Print Assumptions C55_other_members_ignored.
(** an object without any of them is a default constructed object of its class *)
Definition default_of (k : Kind) : NodeAttrs :=
  match k with
  | KNode => Attrs.ANode base_default | KSem => ASem sem_default | KObj => AObj obj_default | KRoom => ARoom room_default
  | KPlace => APlace place_default | KPlace2d => APlace2d place2d_default | KAgent => AAgent agent_default | KKhronos => AKhronos khronos_default
  end.
Theorem C55_missing_members_default : forall env f k name o,
  obj_get o (str "type") = Some (JString name) -> create_by_name f name = Some k ->
  (forall x, x ∈ json_names k -> obj_get o (str x) = None) -> attrs_from_json env f (JObject o) = Ok (Some (default_of k)).
Proof.
  intros env f k name o H1 Hk Ho.
  assert (N0 : forall x, x ∈ json_names k -> obj_get [(str "type", JString name)] (str x) = None).
  { intros x Hx. apply obj_get_none. cbn [map fst]. intros Hin. apply elem_of_list_singleton in Hin.
    assert (G : forallb (fun x => negb (bool_decide (str x = str "type"))) (json_names k) = true) by (destruct k; vm_compute; reflexivity).
    rewrite forallb_forall in G. apply elem_of_list_In in Hx. specialize (G x Hx). rewrite Hin in G. vm_compute in G. discriminate. }
  rewrite (C55_other_members_ignored env f k name o [(str "type", JString name)] H1 eq_refl Hk) by (intros x Hx; rewrite Ho, N0 by exact Hx; reflexivity).
  unfold attrs_from_json. cbn [j_at obj_get]. rewrite bool_decide_true by reflexivity. cbn [at_ rbind get_string]. rewrite Hk.
  assert (G : forall S (fs : list (JField S)) s, covered fs k = true -> read_jfields fs (JObject [(str "type", JString name)]) s = Ok s).
  { intros S fs. induction fs as [|g fs IH]; intros s Hc; [reflexivity|]. cbn [covered forallb] in Hc. apply andb_true_iff in Hc as [Hg Hc]. cbn [read_jfields]. unfold read_jfield at 1. cbn [j_contains].
    apply bool_decide_eq_true, elem_of_list_In, in_map_iff in Hg as (x & <- & Hx). rewrite N0 by (apply elem_of_list_In, Hx). cbn [rbind]. apply IH, Hc. }
  destruct k; cbn [kind_from_json]; (rewrite G; [reflexivity|]);
    unfold khronos_jfields, agent_jfields, place2d_jfields, place_jfields, room_jfields, obj_jfields, sem_jfields, base_jfields;
    destruct (version_ltb (ev_version env) (mkV 1 0 4)); vm_compute; reflexivity.
Qed.
Print Assumptions C55_missing_members_default.
(** an object without a type throws *)
Theorem C55_no_type_throws : forall env f o, obj_get o (str "type") = None -> attrs_from_json env f (JObject o) = Throw.
Proof. intros env f o H. unfold attrs_from_json. cbn [j_at]. rewrite H. reflexivity. Qed.
Print Assumptions C55_no_type_throws.
(** a node of a class the reader does not have makes reading throw *)
Theorem C55_unknown_class_throws : forall fsub ks p h im x k t a,
  program_of ks p -> reachable h -> json_saveable h -> node_data h x = Some (k, t, a) -> kind_of a ∉ ks ->
  exists text, write_graph_json (mkEnv (h_version header_current) fsub) h im = Ok text /\ read_graph_json fsub p text = Throw.
Proof. exact graph_json_unknown. Qed.
Print Assumptions C55_unknown_class_throws.
(** a number that must be finite is written as null, which no reader accepts *)
Theorem C55_infinite_weight_throws : forall ks p e, program_of ks p -> fits 64 (ea_weight e) -> ~ is_finite 11 52 (ea_weight e) ->
  exists text, dump (edge_attrs_to_json e) = Ok text /\ edge_attrs_from_json (reg_current (pg_edges p)) text = Throw.
Proof.
  intros ks p [w v] [_ (info & H & _)] _ Hf. cbn [ea_weight] in Hf. apply finite_iff_not in Hf.
  exists (JObject [(str "type", JString edge_name); (str "weighted", JBool w); (str "weight", JNull)]). split.
  - change (edge_attrs_to_json (mkEA w v)) with (JObject [(str "type", JString edge_name); (str "weighted", JBool w); (str "weight", JFloat v)]).
    apply dumps_object. unfold dumps. repeat (apply List.Forall2_cons; [cbn [fst snd dump]; rewrite ?Hf; split; [reflexivity|split; reflexivity]|]). apply List.Forall2_nil.
  - unfold edge_attrs_from_json. cbn [j_at]. replace (obj_get _ _) with (Some (JString edge_name)) by reflexivity. cbn [at_ rbind get_string].
    pose proof (by_name _ _ _ edge_name H ltac:(cbn; lia)) as K. destruct (create_by_name (reg_current (pg_edges p)) edge_name) as [[]|]; [reflexivity|].
    exfalso. apply (K tt). left.
Qed.
Print Assumptions C55_infinite_weight_throws.

(* ------------------------------------------------------------------ *)
(** ** The conditions are met, and they are needed *)
Definition nodes_of (h : Graph) : list (N * option (LayerKey * option Z * NodeAttrs)) := map (fun xk => (fst xk, node_data h (fst xk))) (map_to_list (g_lookup h)).
Definition f64_b (v : N) : bool := (v <? 2 ^ 64) && fl_finite 11 52 v.
Definition f32_b (v : N) : bool := (v <? 2 ^ 32) && fl_finite 8 23 v.
Definition vec_b (bits : N) (v : Vec3) : bool := (v_x v <? 2 ^ bits) && (v_y v <? 2 ^ bits) && (v_z v <? 2 ^ bits).
Definition base_jb (b : BaseAttrs) : bool := vec_b 64 (a_pos b) && (a_time b <? 2 ^ 64).
Definition quat32_b (q : Quat) : bool := f32_b (q_w q) && f32_b (q_x q) && f32_b (q_y q) && f32_b (q_z q).
Definition quat64_b (q : Quat) : bool := f64_b (q_w q) && f64_b (q_x q) && f64_b (q_y q) && f64_b (q_z q).
Definition box_jb (b : BoundingBox) : bool := vec_b 32 (bb_dim b) && vec_b 32 (bb_center b) && quat32_b (quatf_of_rot (bb_rot b)).
Definition sem_jb (s : SemAttrs) : bool :=
  base_jb (s_base s) && utf8 (s_name s) && ((c_r (s_color s) <? 256) && (c_g (s_color s) <? 256) && (c_b (s_color s) <? 256) && (c_a (s_color s) <? 256)) &&
  box_jb (s_bbox s) && (s_label s <? 2 ^ 32) &&
  (let m := s_feature s in bool_decide (len (mx_data m) = mx_rows m * mx_cols m) && (mx_rows m <? 2 ^ 31) && (mx_cols m <? 2 ^ 31) && (mx_rows m * mx_cols m <? 2 ^ 31) && forallb (fun v => v <? 2 ^ 64) (mx_data m)).
Definition json_b (a : NodeAttrs) : bool :=
  match a with
  | Attrs.ANode b => base_jb b
  | ASem s => sem_jb s
  | AObj o => sem_jb (o_sem o) && forallb (fun v => v <? 2 ^ 64) (o_mesh_conn o) && quat64_b (o_rot o)
  | _ => false
  end.
Lemma f64_b_ok v : f64_b v = true -> finite64 v.
Proof. intros H. apply andb_true_iff in H as [H1 H2]. split; [apply N.ltb_lt, H1|apply finite_iff, H2]. Qed.
Lemma f32_b_ok v : f32_b v = true -> finite32 v.
Proof. intros H. apply andb_true_iff in H as [H1 H2]. split; [apply N.ltb_lt, H1|apply finite_iff, H2]. Qed.
Lemma vec_b_ok bits v : vec_b bits v = true -> vec_ok bits v.
Proof. unfold vec_b. rewrite !andb_true_iff, !N.ltb_lt. intros [[? ?] ?]. repeat split; assumption. Qed.
Lemma base_jb_ok b : base_jb b = true -> base_ok b.
Proof. intros H. apply andb_true_iff in H as [H1 H2]. split; [apply vec_b_ok, H1|apply N.ltb_lt, H2]. Qed.
Lemma forall_b l bits : forallb (fun v => v <? 2 ^ bits) l = true -> Forall (fits bits) l.
Proof. rewrite forallb_forall. intros H. apply List.Forall_forall. intros v Hv. apply N.ltb_lt, H, Hv. Qed.
Lemma sem_jb_ok s : sem_jb s = true -> json_sem s.
Proof.
  unfold sem_jb. rewrite !andb_true_iff. intros [[[[[H1 H2] [[[C1 C2] C3] C4]] H4] H5] [[[[M1 M2] M3] M4] M5]].
  split; [apply base_jb_ok, H1|]. split; [apply accepted_is_utf8, H2|]. split; [repeat split; apply N.ltb_lt; assumption|]. split.
  { unfold box_jb, quat32_b in H4. rewrite !andb_true_iff in H4. destruct H4 as [[D C] [[[Q1 Q2] Q3] Q4]]. split; [apply vec_b_ok, D|]. split; [apply vec_b_ok, C|]. intros _. repeat split; apply f32_b_ok; assumption. }
  split; [apply N.ltb_lt, H5|]. split; [apply bool_decide_eq_true in M1; exact M1|]. split; [apply N.ltb_lt, M2|]. split; [apply N.ltb_lt, M3|]. split; [apply N.ltb_lt, M4|].
  split; [intros r Hr; discriminate|]. split; [intros r Hr; discriminate|]. apply forall_b, M5.
Qed.
Lemma json_b_ok a : json_b a = true -> json_ok a.
Proof.
  destruct a; try discriminate; cbn [json_b json_ok].
  - apply base_jb_ok.
  - apply sem_jb_ok.
  - rewrite !andb_true_iff. intros [[H1 H2] H3]. split; [apply sem_jb_ok, H1|]. split; [apply forall_b, H2|]. unfold quat64_b in H3. rewrite !andb_true_iff in H3. destruct H3 as [[[? ?] ?] ?]. repeat split; apply f64_b_ok; assumption.
Qed.
Definition json_saveable_b (h : Graph) : bool :=
  forallb (fun l => l <? 2 ^ 64) (g_layer_ids h) &&
  forallb (fun xd => match snd xd with
    | Some (k, t, a) => (fst xd <? 2 ^ 64) && (lk_layer k <? 2 ^ 64) && json_b a &&
        match t with Some t => (- 2 ^ 63 <=? t)%Z && (t <? 2 ^ 63)%Z && lk_dynamic k | None => true end
    | None => true end) (nodes_of h) &&
  forallb (fun e => f64_b (ea_weight (e_info e))) (all_edges h).
Lemma nodes_of_in h x d : node_data h x = Some d -> In (x, Some d) (nodes_of h).
Proof.
  intros E. destruct (looked_up _ _ _ E) as [k Hk]. unfold nodes_of. apply in_map_iff. exists (x, k). cbn [fst]. rewrite E. split; [reflexivity|exact Hk].
Qed.
Lemma json_saveable_b_ok h : reachable h -> (forall m, g_mesh h = Some m -> json_mesh m) -> json_saveable_b h = true -> json_saveable h.
Proof.
  intros Hr Hm H. unfold json_saveable_b in H. rewrite !andb_true_iff, !forallb_forall in H. destruct H as [[H1 H2] H3].
  destruct (reachable_RepL h Hr) as [ah [HR _]].
  assert (Hn : forall x k t a, node_data h x = Some (k, t, a) -> x < 2 ^ 64 /\ lk_layer k < 2 ^ 64 /\ json_ok a /\ match t with Some t => (- 2 ^ 63 <= t < 2 ^ 63)%Z /\ lk_dynamic k = true | None => True end).
  { intros x k t a Hx. specialize (H2 _ (nodes_of_in _ _ _ Hx)). cbn [fst snd] in H2. rewrite !andb_true_iff, !N.ltb_lt in H2. destruct H2 as [[[A1 A2] A3] A4].
    split; [exact A1|]. split; [exact A2|]. split; [apply json_b_ok, A3|]. destruct t as [t|]; [|exact I]. rewrite !andb_true_iff, Z.leb_le, Z.ltb_lt in A4. tauto. }
  constructor.
  - apply List.Forall_forall. intros l Hl. apply N.ltb_lt, H1, Hl.
  - intros x k t a Hx. destruct (Hn _ _ _ _ Hx) as (A1 & A2 & A3 & A4). split; [exact A1|]. split; [exact A2|]. split; [|exact A3]. intros t' ->. apply A4.
  - intros u v e E. apply f64_b_ok, H3. apply elem_of_list_In, (all_edges_in h ah HR). rewrite (obs_edge h ah HR) in E.
    destruct (rp_norm _ _ HR _ _ E) as [Hk _]. rewrite <- Hk. exact E.
  - exact Hm.
  - intros x k t a Hx Hd. destruct (Hn _ _ _ _ Hx) as (_ & _ & _ & A4). destruct t; [|reflexivity]. destruct A4. congruence.
Qed.

(** The sample graph with a chair (a rotated box, UTF-8 name, an infinite coordinate), a mesh, a
    removed agent pose and an agent of a layer that has no static counterpart. *)
Definition chair_box : BoundingBox := mkBBox 3 (mkVec3 float_one 0 float_one) (mkVec3 0 0 float_one) (mkMatrix 3 3 [0; float_one; 0; 0; 0; float_one; float_one; 0; 0]).
Definition inf64 : N := 0x7FF0000000000000.
Definition chair (name : list N) (pos : Vec3) (box : BoundingBox) : NodeAttrs :=
  AObj (mkObj (mkSem (mkBase pos 9 true false) name (mkColor 1 2 3 4) box 5 (mkMatrix 1 2 [double_one; inf64])) [7; 8] true quat_identity).
Definition silla : list N := str "silla pequ" ++ [0xC3; 0xB1] ++ str "a".
Definition ex_json : Graph := build (ex_ops ++ [GSetMesh (Some ex_mesh); GEmplace OBJECTS 40 (chair silla (mkVec3 inf64 0 double_one) chair_box); GInsertEdge 40 10 (Some (mkEA true double_one));
  GRemoveNode (agent 0); GEmplaceDyn 7 (98 * 2 ^ 24) 1 (base_at 0 0 0) true]).
Lemma ex_json_reachable : reachable ex_json. Proof. apply run_b_start. vm_compute. reflexivity. Qed.
Lemma ex_json_mesh : g_mesh ex_json = Some ex_mesh. Proof. vm_compute. reflexivity. Qed.
Lemma ex_mesh_json : json_mesh ex_mesh.
Proof.
  assert (Hf : forall bits v, (v <? 2 ^ bits) = true -> fits bits v) by (intros; apply N.ltb_lt; assumption).
  repeat first [ apply Hf; vm_compute; reflexivity | split | constructor | reflexivity ].
Qed.
Example C54_ex : reachable ex_json /\ json_saveable ex_json /\ saveable_b ex_json = false /\ g_has_node ex_json (agent 0) = false /\
  g_has_node ex_json 40 = true /\ g_num_nodes ex_json false = 9%nat /\
  through_json (chair silla (mkVec3 inf64 0 double_one) chair_box) <> chair silla (mkVec3 inf64 0 double_one) chair_box /\
  rotation_through_quaternion (bb_rot chair_box) = bb_rot chair_box.
Proof.
  split; [exact ex_json_reachable|]. split.
  { apply json_saveable_b_ok; [exact ex_json_reachable|rewrite ex_json_mesh; intros m [= <-]; exact ex_mesh_json|vm_compute; reflexivity]. }
  split; [vm_compute; reflexivity|]. split; [vm_compute; reflexivity|]. split; [vm_compute; reflexivity|]. split; [vm_compute; reflexivity|]. split; [|vm_compute; reflexivity].
  vm_compute. discriminate.
Qed.
Definition sub0 (x y : N) : N := 0.
Definition text_of (h : Graph) : result json := write_graph_json (mkEnv (h_version header_current) sub0) h true.
Definition json_reload (h : Graph) : result Graph := let! t := text_of h in read_graph_json sub0 lib t.
Example C54_ex_run : (match json_reload ex_json with Ok g => bool_decide (g_num_nodes g false = 9%nat) && bool_decide (g_num_edges g = g_num_edges ex_json) && negb (g_has_node g (agent 0)) | _ => false end) = true.
Proof. vm_compute. reflexivity. Qed.
(** A static node with a timestamp comes back as a dynamic node. *)
Theorem C54_static_timestamp_refuted : reachable stamped /\ layer_of stamped 10 = Some (key_static PLACES) /\
  exists g, json_reload stamped = Ok g /\ layer_of g 10 = Some (key_dynamic PLACES 0).
Proof.
  split; [apply run_b_start; vm_compute; reflexivity|]. split; [vm_compute; reflexivity|].
  assert (K : (match json_reload stamped with Ok g => bool_decide (layer_of g 10 = Some (key_dynamic PLACES 0)) | _ => false end) = true) by (vm_compute; reflexivity).
  destruct (json_reload stamped) as [g| |]; [|discriminate..]. exists g. split; [reflexivity|]. apply bool_decide_eq_true in K. exact K.
Qed.
Print Assumptions C54_static_timestamp_refuted.
(** An edge whose weight is not a number is written, but the text cannot be read. *)
Definition nan_weight : Graph := build [GEmplace PLACES 10 (base_at 0 0 0); GEmplace PLACES 11 (base_at 0 0 0); GInsertEdge 10 11 (Some (mkEA true quiet_nan64))].
Theorem C54_nan_weight_refuted : reachable nan_weight /\ (exists t, text_of nan_weight = Ok t) /\ json_reload nan_weight = Throw.
Proof.
  split; [apply run_b_start; vm_compute; reflexivity|]. split; [|vm_compute; reflexivity].
  assert (K : (match text_of nan_weight with Ok _ => true | _ => false end) = true) by (vm_compute; reflexivity).
  destruct (text_of nan_weight) as [t| |]; [|discriminate..]. exists t. reflexivity.
Qed.
Print Assumptions C54_nan_weight_refuted.
(** A name that is not UTF-8 makes writing throw. *)
Definition latin1 : Graph := build [GEmplace OBJECTS 40 (chair [0x73; 0xED] (mkVec3 0 0 0) chair_box)].
Theorem C54_latin1_name_refuted : reachable latin1 /\ text_of latin1 = Throw.
Proof. split; [apply run_b_start; vm_compute; reflexivity|]. vm_compute. reflexivity. Qed.
Print Assumptions C54_latin1_name_refuted.
(** The centre and dimensions of a box of type INVALID are lost, and an infinite coordinate is
    NaN afterwards. *)
Definition odd_box : Graph := build [GEmplace OBJECTS 40 (chair silla (mkVec3 inf64 0 0) (mkBBox 0 (mkVec3 float_one 0 0) (mkVec3 0 0 0) no_rotation))].
Theorem C54_invalid_box_refuted : reachable odd_box /\
  exists g, json_reload odd_box = Ok g /\ node_data g 40 = Some (key_static OBJECTS, None,
    AObj (mkObj (mkSem (mkBase (mkVec3 quiet_nan64 0 0) 9 true false) silla (mkColor 1 2 3 4) default_box 5 (mkMatrix 1 2 [double_one; quiet_nan64])) [7; 8] true quat_identity)).
Proof.
  split; [apply run_b_start; vm_compute; reflexivity|].
  assert (K : (match json_reload odd_box with Ok g => node_data g 40 | _ => None end) = Some (key_static OBJECTS, None,
    AObj (mkObj (mkSem (mkBase (mkVec3 quiet_nan64 0 0) 9 true false) silla (mkColor 1 2 3 4) default_box 5 (mkMatrix 1 2 [double_one; quiet_nan64])) [7; 8] true quat_identity))) by (vm_compute; reflexivity).
  destruct (json_reload odd_box) as [g| |]; [|discriminate..]. exists g. split; [reflexivity|exact K].
Qed.
Print Assumptions C54_invalid_box_refuted.
(** Unlike binary files (C40), JSON files of another project or a later version are read. *)
Definition other_header (j : json) : json :=
  match j with JObject o => JObject (obj_set o header_field (jc_to jc_header (mkHeader (str "other") (mkV 9 9 9)))) | _ => j end.
Theorem C55_no_compatibility_check_refuted : check_compatibility (mkHeader (str "other") (mkV 9 9 9)) header_current = Throw /\
  exists t g, text_of ex_json = Ok t /\ read_graph_json sub0 lib (other_header t) = Ok g /\ g_num_nodes g false = 9%nat.
Proof.
  split; [vm_compute; reflexivity|].
  assert (K : (match text_of ex_json with Ok t => match read_graph_json sub0 lib (other_header t) with Ok g => bool_decide (g_num_nodes g false = 9%nat) | _ => false end | _ => false end) = true) by (vm_compute; reflexivity).
  destruct (text_of ex_json) as [t| |]; [|discriminate..]. destruct (read_graph_json sub0 lib (other_header t)) as [g| |] eqn:E; [|discriminate..].
  exists t, g. split; [reflexivity|]. split; [exact E|]. apply bool_decide_eq_true in K. exact K.
Qed.
Print Assumptions C55_no_compatibility_check_refuted.
Example C55_ex : exists o, attrs_to_json ex_env (base_at 1 2 3) = JObject o /\
  attrs_from_json ex_env (reg_current (pg_nodes lib)) (JObject (o ++ [(str "comment", JString (str "x"))])) = attrs_from_json ex_env (reg_current (pg_nodes lib)) (JObject o) /\
  attrs_from_json ex_env (reg_current (pg_nodes lib)) (JObject [(str "type", JString (kind_name KRoom))]) = Ok (Some (ARoom room_default)) /\
  attrs_from_json ex_env (reg_current (pg_nodes (program_with [KNode]))) (JObject [(str "type", JString (kind_name KRoom))]) = Ok None.
Proof. eexists. split; [reflexivity|]. repeat split; vm_compute; reflexivity. Qed.
