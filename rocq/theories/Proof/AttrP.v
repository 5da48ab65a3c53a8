(** Attributes, edges and meshes through the binary format. *)
From Coq Require Import NArith ZArith Bool List Lia.
From stdpp Require Import base list gmap.
From Verif.Model Require Import Types Mesh Attrs Binary Versioning AttrCodec.
From Verif.Spec Require Import BinarySpec AttrSpec.
From Verif.Proof Require Import BinaryP SaveLoad.
Local Open Scope N_scope.

Lemma sl_u8 : saves_and_loads c_u8 (fits 8) any. Proof. apply (sl_uint T_UINT8 1). reflexivity. Qed.
Lemma sl_u32 : saves_and_loads c_u32 (fits 32) any. Proof. apply (sl_uint T_UINT32 4). reflexivity. Qed.
Lemma sl_u64 : saves_and_loads c_u64 (fits 64) any. Proof. apply (sl_uint T_UINT64 8). reflexivity. Qed.
Lemma sl_f32 : saves_and_loads c_f32 (fits 32) any. Proof. apply (sl_uint T_FLOAT32 4). reflexivity. Qed.
Lemma sl_f64 : saves_and_loads c_f64 (fits 64) any. Proof. apply (sl_uint T_FLOAT64 8). reflexivity. Qed.
Lemma sl_i32 : saves_and_loads c_i32 (fits_signed 32) any. Proof. apply (sl_int T_INT32 4); [reflexivity|lia]. Qed.
Lemma sl_i64 : saves_and_loads c_i64 (fits_signed 64) any. Proof. apply (sl_int T_INT64 8); [reflexivity|lia]. Qed.

Lemma any3 {A} (a b c : A) : any a /\ any b /\ any c. Proof. repeat split. Qed.
Lemma sl_vec3f : saves_and_loads c_vec3f (vec_ok 32) any.
Proof. eapply sl_weaken; [| |apply (sl_vec3 c_f32 _ _ sl_f32)]; [intros a H; exact H|intros; repeat split]. Qed.
Lemma sl_vec3d : saves_and_loads c_vec3d (vec_ok 64) any.
Proof. eapply sl_weaken; [| |apply (sl_vec3 c_f64 _ _ sl_f64)]; [intros a H; exact H|intros; repeat split]. Qed.
Lemma sl_quatd : saves_and_loads c_quatd quat_ok any.
Proof. eapply sl_weaken; [| |apply (sl_quat c_f64 _ _ sl_f64)]; [intros a H; exact H|intros; repeat split]. Qed.
Lemma sl_mat fr fc bits c : saves_and_loads c (fits bits) any -> saves_and_loads (codec_matrix fr fc c) (matrix_ok fr fc bits) any.
Proof. intros H. eapply sl_weaken; [| |apply (sl_matrix fr fc c _ _ H I)]; intros a Ha; exact Ha. Qed.
Lemma Forall_any {A} (l : list A) : Forall any l.
Proof. induction l; constructor; [exact I|assumption]. Qed.
Lemma sl_vec_any {A} d (c : Codec A) P : saves_and_loads c P any -> saves_and_loads (codec_vector d c) (list_ok P) any.
Proof.
  intros H. eapply sl_weaken; [| |apply (sl_vector d c _ _ H I)]; [intros a Ha; exact Ha|intros a _; apply Forall_any].
Qed.
Lemma sl_list_any {A} d (c : Codec A) P : saves_and_loads c P any -> saves_and_loads (codec_list d c) (list_ok P) any.
Proof. intros H. eapply sl_weaken; [| |apply (sl_list d c _ _ H I)]; intros a Ha; exact Ha. Qed.

(** one field after the other *)
Ltac field L := split; [eexists _, _; split; [exact L|split; [|exact I]]|].

Lemma sl_color : saves_and_loads c_color color_ok any.
Proof.
  apply sl_codec_fields; [|exists color_default; exact I].
  intros [r g b a] [] (Hr & Hg & Hb & Ha) _. split; [|reflexivity]. unfold color_ok in *; cbn in Hr, Hg, Hb, Ha.
  do 4 (field sl_u8; [assumption|]). exact I.
Qed.

Lemma sl_bbox env : version_ltb (ev_version env) (mkV 1 0 3) = false -> saves_and_loads (c_bbox env) bbox_ok any.
Proof.
  intros Hv.
  destruct sl_i32 as [W1 R1], sl_vec3f as [W2 R2], (sl_mat (Some 3) (Some 3) 32 c_f32 sl_f32) as [W3 R3].
  assert (HW : forall b, bbox_ok b -> exists h t d c r, fixed_array 4 = Ok h /\ cd_write c_i32 (bb_type b) = Ok t /\
    cd_write c_vec3f (bb_dim b) = Ok d /\ cd_write c_vec3f (bb_center b) = Ok c /\ cd_write c_matrix3f (bb_rot b) = Ok r).
  { intros b (Ht & Hd & Hc & Hr). destruct (W1 _ Ht) as [t Et], (W2 _ Hd) as [d Ed], (W2 _ Hc) as [c Ec], (W3 _ Hr) as [r Er].
    eexists _, t, d, c, r. split; [apply fixed_array_le; reflexivity|]. auto. }
  split.
  - intros b Hb. destruct (HW b Hb) as (h & t & d & c & r & E1 & E2 & E3 & E4 & E5).
    cbn [cd_write c_bbox seq_writes]. rewrite E1, E2, E3, E4, E5. eexists; reflexivity.
  - intros b old bs Hb _ H. destruct (HW b Hb) as (h & t & d & c & r & E1 & E2 & E3 & E4 & E5).
    destruct Hb as (Ht & Hd & Hc & Hr).
    cbn [cd_write c_bbox seq_writes] in H. rewrite E1, E2, E3, E4, E5 in H. injection H as <-.
    destruct (R1 _ 0%Z _ Ht I E2) as [B1 X1]. destruct (R2 _ (bb_dim old) _ Hd I E3) as [B2 X2].
    destruct (R2 _ (bb_center old) _ Hc I E4) as [B3 X3]. destruct (R3 _ (bb_rot old) _ Hr I E5) as [B4 X4].
    split.
    + pose proof (fixed_array_bytes _ _ E1). repeat apply Forall_app_2; try assumption. constructor.
    + cbn [cd_read c_bbox]. rewrite Hv. destruct b.
      eapply reads_bind; [apply (reads_check_length 4), E1|]. eapply reads_bind; [exact X1|].
      eapply reads_bind; [exact X2|]. eapply reads_bind; [exact X3|]. eapply reads_bind; [exact X4|]. apply reads_ret.
Qed.

Lemma not_nil_u32 : not_nil c_u32.
Proof. intros a bs H. unfold c_u32 in H. cbn [cd_write codec_uint] in H. injection H as <-. eexists _, _. split; [reflexivity|discriminate]. Qed.
Definition nvi_fresh (i : NearestVertexInfo) : Prop :=
  length (nv_block i) = 3%nat /\ length (nv_voxel i) = 3%nat /\ nv_label i = None.
Lemma sl_nvi : saves_and_loads c_nvi nvi_ok nvi_fresh.
Proof.
  destruct sl_u64 as [W3 R3], (sl_option 0 c_u32 _ _ sl_u32 I not_nil_u32) as [W4 R4].
  assert (HW : forall i, nvi_ok i -> exists h g p v w l, fixed_array 4 = Ok h /\ fixed_array 3 = Ok g /\
     write_each c_i32 (nv_block i) = Ok p /\ write_each c_f64 (nv_voxel i) = Ok v /\
     cd_write c_u64 (nv_vertex i) = Ok w /\ cd_write (codec_option 0 c_u32) (nv_label i) = Ok l).
  { intros i ([_ H1] & [_ H2] & H3 & H4).
    destruct (writes_each c_i32 _ _ (proj1 sl_i32) H1) as [p Ep], (writes_each c_f64 _ _ (proj1 sl_f64) H2) as [v Ev],
      (W3 _ H3) as [w Ew], (W4 _ H4) as [l El].
    eexists _, _, p, v, w, l. split; [apply fixed_array_le; reflexivity|]. split; [apply fixed_array_le; reflexivity|]. auto. }
  split.
  - intros i Hi. destruct (HW i Hi) as (h & g & p & v & w & l & E1 & E2 & E3 & E4 & E5 & E6).
    cbn [cd_write c_nvi seq_writes]. change (cd_write (codec_option 0 c_u32) (nv_label i)) with (cd_write (codec_option 0 c_u32) (nv_label i)) in E6.
    rewrite E1, E2, E3, E4, E5. cbn [cd_write codec_option] in E6 |- *. rewrite E6. eexists; reflexivity.
  - intros i old bs Hi (F1 & F2 & F3) H. destruct (HW i Hi) as (h & g & p & v & w & l & E1 & E2 & E3 & E4 & E5 & E6).
    destruct Hi as ([L1 H1] & [L2 H2] & H3 & H4).
    assert (bs = h ++ g ++ p ++ g ++ v ++ w ++ l ++ []) as ->.
    { cbn [cd_write c_nvi seq_writes] in H. rewrite E1, E2, E3, E4, E5 in H. cbn [cd_write codec_option] in E6, H. rewrite E6 in H.
      cbn [rbind] in H. injection H as <-. reflexivity. }
    destruct (rt_each c_i32 _ _ (proj2 sl_i32) (nv_block i) (nv_block old) p H1 (Forall_any _) (eq_trans F1 (eq_sym L1)) E3) as [B1 X1].
    destruct (rt_each c_f64 _ _ (proj2 sl_f64) (nv_voxel i) (nv_voxel old) v H2 (Forall_any _) (eq_trans F2 (eq_sym L2)) E4) as [B2 X2].
    destruct (R3 _ (nv_vertex old) _ H3 I E5) as [B3 X3]. destruct (R4 _ (nv_label old) _ H4 F3 E6) as [B4 X4].
    split.
    + pose proof (fixed_array_bytes _ _ E1). pose proof (fixed_array_bytes _ _ E2). repeat apply Forall_app_2; try assumption. constructor.
    + cbn [cd_read c_nvi]. destruct i.
      eapply reads_bind; [apply (reads_check_length 4), E1|]. eapply reads_bind; [apply (reads_check_length 3), E2|].
      eapply reads_bind; [exact X1|]. eapply reads_bind; [apply (reads_check_length 3), E2|].
      eapply reads_bind; [exact X2|]. eapply reads_bind; [exact X3|]. eapply reads_bind; [exact X4|]. apply reads_ret.
Qed.
Lemma sl_nvis : saves_and_loads c_nvis (list_ok nvi_ok) (Forall nvi_fresh).
Proof. apply (sl_vector nvi_default c_nvi _ _ sl_nvi). repeat split. Qed.

Lemma sl_face : saves_and_loads c_face face_ok any.
Proof.
  assert (H3 : N.of_nat 3 < 2 ^ 32) by reflexivity.
  destruct (sl_array 3 c_u64 _ _ H3 sl_u64) as [W R].
  assert (HL : forall f, face_ok f -> length (face_list f) = 3%nat /\ Forall (fits 64) (face_list f)).
  { intros f (H0 & H1 & H2). split; [reflexivity|]. repeat constructor; assumption. }
  split; [intros f Hf; apply W, HL, Hf|].
  intros f old bs Hf _ H. destruct (R (face_list f) (face_list old) bs) as [B X].
  - apply HL, Hf.
  - split; [reflexivity|]. apply Forall_any.
  - exact H.
  - split; [exact B|]. cbn [cd_read c_face]. destruct f.
    rewrite <- (app_nil_r bs). eapply reads_bind; [exact X|]. apply reads_ret.
Qed.

Lemma sl_mesh : saves_and_loads c_mesh mesh_fits any.
Proof.
  destruct sl_bool as [Wb Rb].
  destruct (sl_vec_any vec3_zero c_vec3f _ sl_vec3f) as [W1 R1]. destruct (sl_vec_any color_default c_color _ sl_color) as [W2 R2].
  destruct (sl_vec_any 0 c_u64 _ sl_u64) as [W3 R3]. destruct (sl_vec_any 0 c_u32 _ sl_u32) as [W4 R4].
  destruct (sl_vec_any (mkFace 0 0 0) c_face _ sl_face) as [W6 R6].
  fold c_points in *. fold c_colors in *. fold c_u64s in *. fold c_u32s in *. fold c_faces in *.
  assert (HW : forall m, mesh_fits m -> exists b1 b2 b3 b4 b5 b6 b7 b8 b9 b10,
     cd_write c_bool (m_has_colors m) = Ok b1 /\ cd_write c_bool (m_has_stamps m) = Ok b2 /\
     cd_write c_bool (m_has_labels m) = Ok b3 /\ cd_write c_bool (m_has_first m) = Ok b4 /\
     cd_write c_points (m_points m) = Ok b5 /\ cd_write c_colors (m_colors m) = Ok b6 /\
     cd_write c_u64s (m_stamps m) = Ok b7 /\ cd_write c_u32s (m_labels m) = Ok b8 /\
     cd_write c_u64s (m_first m) = Ok b9 /\ cd_write c_faces (m_faces m) = Ok b10).
  { intros m (H1 & H2 & H3 & H4 & H5 & H6).
    destruct (W1 _ H1) as [x5 E5], (W2 _ H2) as [x6 E6], (W3 _ H3) as [x7 E7], (W4 _ H4) as [x8 E8], (W3 _ H5) as [x9 E9], (W6 _ H6) as [x10 E10].
    eexists _, _, _, _, x5, x6, x7, x8, x9, x10. do 4 (split; [reflexivity|]). auto 10. }
  split.
  - intros m Hm. destruct (HW m Hm) as (b1&b2&b3&b4&b5&b6&b7&b8&b9&b10&E1&E2&E3&E4&E5&E6&E7&E8&E9&E10).
    eexists. change (cd_write c_mesh m) with (seq_writes [cd_write c_bool (m_has_colors m); cd_write c_bool (m_has_stamps m);
                        cd_write c_bool (m_has_labels m); cd_write c_bool (m_has_first m);
                        cd_write c_points (m_points m); cd_write c_colors (m_colors m);
                        cd_write c_u64s (m_stamps m); cd_write c_u32s (m_labels m);
                        cd_write c_u64s (m_first m); cd_write c_faces (m_faces m)]).
    rewrite E1, E2, E3, E4, E5, E6, E7, E8, E9, E10. reflexivity.
  - intros m old bs Hm _ H. destruct (HW m Hm) as (b1&b2&b3&b4&b5&b6&b7&b8&b9&b10&E1&E2&E3&E4&E5&E6&E7&E8&E9&E10).
    change (cd_write c_mesh m) with (seq_writes [cd_write c_bool (m_has_colors m); cd_write c_bool (m_has_stamps m);
                        cd_write c_bool (m_has_labels m); cd_write c_bool (m_has_first m);
                        cd_write c_points (m_points m); cd_write c_colors (m_colors m);
                        cd_write c_u64s (m_stamps m); cd_write c_u32s (m_labels m);
                        cd_write c_u64s (m_first m); cd_write c_faces (m_faces m)]) in H.
    rewrite E1, E2, E3, E4, E5, E6, E7, E8, E9, E10 in H. cbn [seq_writes rbind] in H. injection H as <-.
    destruct Hm as (H1 & H2 & H3 & H4 & H5 & H6).
    destruct (Rb _ false _ I I E1) as [B1 X1]. destruct (Rb _ false _ I I E2) as [B2 X2].
    destruct (Rb _ false _ I I E3) as [B3 X3]. destruct (Rb _ false _ I I E4) as [B4 X4].
    destruct (R1 _ [] _ H1 I E5) as [B5 X5]. destruct (R2 _ [] _ H2 I E6) as [B6 X6].
    destruct (R3 _ [] _ H3 I E7) as [B7 X7]. destruct (R4 _ [] _ H4 I E8) as [B8 X8].
    destruct (R3 _ [] _ H5 I E9) as [B9 X9]. destruct (R6 _ [] _ H6 I E10) as [B10 X10].
    split; [repeat apply Forall_app_2; try assumption; constructor|].
    cbn [cd_read c_mesh]. destruct m.
    eapply reads_bind; [exact X1|]. eapply reads_bind; [exact X2|]. eapply reads_bind; [exact X3|]. eapply reads_bind; [exact X4|].
    eapply reads_bind; [exact X5|]. eapply reads_bind; [exact X6|]. eapply reads_bind; [exact X7|]. eapply reads_bind; [exact X8|].
    eapply reads_bind; [exact X9|]. eapply reads_bind; [exact X10|]. apply reads_ret.
Qed.

Lemma map_to_list_lists {K V} `{Countable K} : lists_map (fun m : gmap K V => map_to_list m).
Proof. intros m. split; [apply (NoDup_fst_map_to_list m)|]. intros k v. apply elem_of_map_to_list. Qed.
Lemma sl_text_map {V} dv (cv : Codec V) (P : V -> Prop) : saves_and_loads cv P any ->
  saves_and_loads (codec_map map_to_list [] dv c_string cv) (map_ok P) any.
Proof.
  intros H. eapply sl_weaken; [| |apply (sl_map map_to_list [] dv c_string cv _ _ _ _ sl_string H I I map_to_list_lists)];
    intros a Ha; exact Ha.
Qed.

(* ---------------------------------------------------------------- *)
(** ** Classes *)
Section Classes.
  Context (env : Env) (Hv : version_ltb (ev_version env) (mkV 1 0 4) = false).

  Lemma newer_102 : version_leb (ev_version env) (mkV 1 0 2) = false.
  Proof using Hv.
    unfold version_leb. apply negb_false_iff. revert Hv. unfold version_ltb. cbn [v_major v_minor v_patch].
    destruct (ev_version env) as [a b c]. cbn [v_major v_minor v_patch].
    destruct (N.ltb_spec a 1), (N.eqb_spec a 1), (N.ltb_spec b 0), (N.eqb_spec b 0), (N.ltb_spec c 4), (N.ltb_spec 1 a), (N.eqb_spec 1 a), (N.ltb_spec 0 b), (N.eqb_spec 0 b), (N.ltb_spec 2 c); try reflexivity; try discriminate; try lia.
  Qed.
  Lemma newer_103 : version_ltb (ev_version env) (mkV 1 0 3) = false.
  Proof using Hv.
    revert Hv. unfold version_ltb. cbn [v_major v_minor v_patch].
    destruct (ev_version env) as [a b c]. cbn [v_major v_minor v_patch].
    destruct (N.ltb_spec a 1), (N.eqb_spec a 1), (N.ltb_spec b 0), (N.eqb_spec b 0), (N.ltb_spec c 4), (N.ltb_spec c 3); try reflexivity; try discriminate; try lia.
  Qed.

  Lemma fit_base b o : base_ok b -> fields_fit (base_fields env) b o /\ copy_fields (base_fields env) b o = b.
  Proof using Hv.
    intros (H1 & H2). unfold base_fields. rewrite Hv. split; [|destruct b, o; reflexivity].
    cbn [app]. field sl_vec3d; [assumption|]. field sl_u64; [assumption|]. field sl_bool; [exact I|]. field sl_bool; [exact I|]. exact I.
  Qed.
  Lemma fit_sem s o : sem_ok s -> fields_fit (sem_fields env) s o /\ copy_fields (sem_fields env) s o = s.
  Proof using Hv.
    intros (Hb & Hn & Hc & Hbb & Hl & Hf). destruct (fit_base (s_base s) (s_base o) Hb) as [F1 C1].
    unfold sem_fields. rewrite newer_102. rewrite fields_fit_app, copy_fields_app, copy_lift; [|reflexivity..|intros []; reflexivity].
    rewrite C1. split; [|destruct s, o; reflexivity]. split.
    - apply fit_lift; [reflexivity..|]. exact F1.
    - field sl_string; [assumption|]. field sl_color; [assumption|]. field (sl_bbox env newer_103); [assumption|].
      field sl_u32; [assumption|]. field (sl_mat None None 64 c_f64 sl_f64); [assumption|]. exact I.
  Qed.
  Lemma fit_obj s o : obj_ok s -> fields_fit (obj_fields env) s o /\ copy_fields (obj_fields env) s o = s.
  Proof using Hv.
    intros (Hb & Hn & Hc). destruct (fit_sem (o_sem s) (o_sem o) Hb) as [F1 C1].
    unfold obj_fields. rewrite fields_fit_app, copy_fields_app, copy_lift; [|reflexivity..|intros []; reflexivity].
    rewrite C1. split; [|destruct s, o; reflexivity]. split.
    - apply fit_lift; [reflexivity..|]. exact F1.
    - field (sl_list_any 0 c_u64 _ sl_u64); [assumption|]. field sl_bool; [exact I|]. field sl_quatd; [assumption|]. exact I.
  Qed.
  Lemma fit_room s o : room_ok s -> fields_fit (room_fields env) s o /\ copy_fields (room_fields env) s o = s.
  Proof using Hv.
    intros (Hb & Hn). destruct (fit_sem (r_sem s) (r_sem o) Hb) as [F1 C1].
    unfold room_fields. rewrite fields_fit_app, copy_fields_app, copy_lift; [|reflexivity..|intros []; reflexivity].
    rewrite C1. split; [|destruct s, o; reflexivity]. split.
    - apply fit_lift; [reflexivity..|]. exact F1.
    - field (sl_text_map 0 c_f64 _ sl_f64); [assumption|]. exact I.
  Qed.
  Ltac field_to L F := split; [eexists _, _; split; [exact L|split; [|exact F]]|].
  Lemma fit_place s o : place_ok s -> Forall nvi_fresh (p_voxblox o) ->
    fields_fit (place_fields env) s o /\ copy_fields (place_fields env) s o = s.
  Proof using Hv.
    intros (H1 & H2 & H3 & H4 & H5 & H6 & H7 & H8 & H9 & H10) HF. destruct (fit_sem (p_sem s) (p_sem o) H1) as [F1 C1].
    unfold place_fields. rewrite fields_fit_app, copy_fields_app, copy_lift; [|reflexivity..|intros []; reflexivity].
    rewrite C1. split; [|destruct s, o; reflexivity]. split.
    - apply fit_lift; [reflexivity..|]. exact F1.
    - field sl_f64; [assumption|]. field sl_u32; [assumption|]. field_to sl_nvis HF; [assumption|].
      field (sl_vec_any 0 c_u64 _ sl_u64); [assumption|]. field (sl_vec_any 0 c_u8 _ sl_u8); [assumption|].
      field (sl_vec_any 0 c_u64 _ sl_u64); [assumption|]. field sl_bool; [exact I|]. field sl_bool; [exact I|].
      field sl_vec3d; [assumption|]. field sl_quatd; [assumption|]. field sl_bool; [exact I|]. field sl_u64; [assumption|]. exact I.
  Qed.
  Lemma fit_place2d s : place2d_ok s ->
    fields_fit (place2d_fields env) s place2d_default /\ APlace2d (copy_fields (place2d_fields env) s place2d_default) = kept (APlace2d s).
  Proof using Hv.
    intros (H1 & H2 & H3 & H4 & H5 & H6 & H7 & H8 & H9 & H10). destruct (fit_sem (d_sem s) sem_default H1) as [F1 C1].
    unfold place2d_fields. rewrite fields_fit_app, copy_fields_app, copy_lift; [|reflexivity..|intros []; reflexivity].
    change (d_sem place2d_default) with sem_default. rewrite C1.
    split; [|destruct s; reflexivity]. split.
    - apply fit_lift; [reflexivity..|]. exact F1.
    - field (sl_vec_any vec3_zero c_vec3d _ sl_vec3d); [assumption|]. field sl_vec3d; [assumption|].
      field (sl_mat (Some 2) (Some 2) 64 c_f64 sl_f64); [assumption|]. field (sl_mat (Some 2) (Some 2) 64 c_f64 sl_f64); [assumption|].
      field (sl_vec_any 0 c_u64 _ sl_u64); [assumption|].
      assert (HF : Forall nvi_fresh []) by constructor. field_to sl_nvis HF; [assumption|].
      field (sl_vec_any 0 c_u64 _ sl_u64); [assumption|]. field (sl_vec_any 0 c_u8 _ sl_u8); [assumption|].
      field (sl_vec_any 0 c_u64 _ sl_u64); [assumption|]. field sl_bool; [exact I|]. field sl_bool; [exact I|]. exact I.
  Qed.
  Lemma fit_agent s o : agent_ok s -> fields_fit (agent_fields env) s o /\ copy_fields (agent_fields env) s o = s.
  Proof using Hv.
    intros (H1 & H2 & H3 & H4 & H5). destruct (fit_base (g_base s) (g_base o) H1) as [F1 C1].
    unfold agent_fields. rewrite fields_fit_app, copy_fields_app, copy_lift; [|reflexivity..|intros []; reflexivity].
    rewrite C1. split; [|destruct s, o; reflexivity]. split.
    - apply fit_lift; [reflexivity..|]. exact F1.
    - field sl_quatd; [assumption|]. field sl_u64; [assumption|]. field (sl_mat None (Some 1) 32 c_u32 sl_u32); [assumption|].
      field (sl_mat None (Some 1) 32 c_f32 sl_f32); [assumption|]. exact I.
  Qed.
  Lemma fit_khronos s : khronos_ok s ->
    fields_fit (khronos_fields env) s khronos_default /\ AKhronos (copy_fields (khronos_fields env) s khronos_default) = kept (AKhronos s).
  Proof using Hv.
    intros ((H1 & _) & H2 & H3 & H4 & H5 & H6 & H7 & H8). destruct (fit_sem (o_sem (k_obj s)) sem_default H1) as [F1 C1].
    unfold khronos_fields. rewrite fields_fit_app, copy_fields_app, copy_lift; [|reflexivity..|intros [[] ? ? ? ? ? ? ?]; reflexivity].
    change (o_sem (k_obj khronos_default)) with sem_default. rewrite C1.
    split; [|destruct s as [[] ? ? ? ? ? ? ?]; reflexivity]. split.
    - apply fit_lift; [reflexivity..|]. exact F1.
    - field (sl_vec_any 0 c_u64 _ sl_u64); [assumption|]. field (sl_vec_any 0 c_u64 _ sl_u64); [assumption|].
      field sl_mesh; [assumption|]. field (sl_vec_any vec3_zero c_vec3f _ sl_vec3f); [assumption|].
      field (sl_vec_any 0 c_u64 _ sl_u64); [assumption|].
      field (sl_vec_any [] c_points _ (sl_vec_any vec3_zero c_vec3f _ sl_vec3f)); [assumption|].
      field (sl_text_map [] c_u64s _ (sl_vec_any 0 c_u64 _ sl_u64)); [assumption|]. exact I.
  Qed.
  Lemma reads_rmapr {A B} (f : A -> B) r bs a : reads_back r bs a -> reads_back (rmapr f r) bs (f a).
  Proof using. intros H. unfold rmapr. rewrite <- (app_nil_r bs). eapply reads_bind; [exact H|apply reads_ret]. Qed.

  Lemma save_attrs a : attrs_ok a -> exists bs, write_attr_fields env a = Ok bs /\ Forall is_byte bs /\
    reads_back (read_attr_fields env (kind_of a)) bs (kept a).
  Proof using Hv.
    assert (Hgen : forall T (f : T -> NodeAttrs) (fs : list (Field T)) x o y, fields_fit fs x o -> f (copy_fields fs x o) = y ->
      exists bs, write_fields fs x = Ok bs /\ Forall is_byte bs /\ reads_back (rmapr f (read_fields fs o)) bs y).
    { intros T f fs x o y Hf <-. destruct (sl_fields fs x o Hf) as (bs & H1 & H2 & H3). exists bs. split; [exact H1|]. split; [exact H2|].
      apply reads_rmapr, H3. }
    intros H. destruct a as [x|x|x|x|x|x|x|x]; cbn [attrs_ok kind_of kept write_attr_fields read_attr_fields] in *.
    - destruct (fit_base x base_default H) as [F C]. apply (Hgen _ ANode _ _ _ _ F). rewrite C. reflexivity.
    - destruct (fit_sem x sem_default H) as [F C]. apply (Hgen _ ASem _ _ _ _ F). rewrite C. reflexivity.
    - destruct (fit_obj x obj_default H) as [F C]. apply (Hgen _ AObj _ _ _ _ F). rewrite C. reflexivity.
    - destruct (fit_room x room_default H) as [F C]. apply (Hgen _ ARoom _ _ _ _ F). rewrite C. reflexivity.
    - destruct (fit_place x place_default H (List.Forall_nil _)) as [F C]. apply (Hgen _ APlace _ _ _ _ F). rewrite C. reflexivity.
    - destruct (fit_place2d x H) as [F C]. apply (Hgen _ APlace2d _ _ _ _ F). exact C.
    - destruct (fit_agent x agent_default H) as [F C]. apply (Hgen _ AAgent _ _ _ _ F). rewrite C. reflexivity.
    - destruct (fit_khronos x H) as [F C]. apply (Hgen _ AKhronos _ _ _ _ F). exact C.
  Qed.
End Classes.

Lemma sl_edge_fields : saves_and_loads (codec_fields edge_fields) edge_attrs_ok any.
Proof.
  apply sl_codec_fields; [|exists ea_default; exact I].
  intros [w v] [w' v'] H _. split; [|reflexivity]. field sl_bool; [exact I|]. field sl_f64; [exact H|]. exact I.
Qed.

(* ---------------------------------------------------------------- *)
(** ** operator== *)
Lemma land_ones v m : N.land v (2 ^ m - 1) = v mod 2 ^ m.
Proof. rewrite <- N.pred_sub, <- N.ones_equiv. apply N.land_ones. Qed.
Lemma f_nan_spec e m v : f_nan e m v = true <-> is_nan e m v.
Proof.
  unfold f_nan, is_nan, f_exponent, f_mantissa. rewrite !land_ones, N.shiftr_div_pow2.
  rewrite andb_true_iff, N.eqb_eq, negb_true_iff, N.eqb_neq. tauto.
Qed.
Lemma f_eqb_refl e m v : ~ is_nan e m v -> f_eqb e m v v = true.
Proof.
  intros H. unfold f_eqb. destruct (f_nan e m v) eqn:E; [apply f_nan_spec in E; contradiction|].
  rewrite N.eqb_refl. reflexivity.
Qed.
Lemma f_eqb_nan e m v : is_nan e m v -> f_eqb e m v v = false.
Proof. intros H. apply f_nan_spec in H. unfold f_eqb. rewrite H. reflexivity. Qed.
Lemma vec_refl (P : N -> Prop) eq v : (forall x, P x -> eq x x = true) -> vec_numbers P v -> vec3_eqb eq v v = true.
Proof. intros H (Hx & Hy & Hz). unfold vec3_eqb. rewrite !H by assumption. reflexivity. Qed.
Lemma all2_refl {A} (P : A -> Prop) eq l : (forall x, P x -> eq x x = true) -> Forall P l -> all2 eq l l = true.
Proof. intros H HP. induction HP as [|x l Hx HP IH]; [reflexivity|]. cbn [all2]. rewrite H, IH by assumption. reflexivity. Qed.
Lemma mat_refl (P : N -> Prop) eq m : (forall x, P x -> eq x x = true) -> Forall P (mx_data m) -> matrix_eqb eq m m = true.
Proof. intros H HP. unfold matrix_eqb. rewrite !N.eqb_refl, (all2_refl P) by assumption. reflexivity. Qed.
Lemma n64 x : number64 x -> f64_eqb x x = true. Proof. apply f_eqb_refl. Qed.
Lemma n32 x : number32 x -> f32_eqb x x = true. Proof. apply f_eqb_refl. Qed.
Lemma quat_refl q : quat_numbers q -> quat_eqb f64_eqb q q = true.
Proof. intros (H1 & H2 & H3 & H4). unfold quat_eqb. rewrite !n64 by assumption. reflexivity. Qed.
Lemma nan_or_eq_refl v : nan_or_eq v v = true.
Proof.
  unfold nan_or_eq. destruct (f64_nan v) eqn:E; [reflexivity|]. unfold f64_eqb. rewrite f_eqb_refl; [reflexivity|].
  intros H. apply f_nan_spec in H. unfold f64_nan in E. congruence.
Qed.
Lemma bd_refl {A} `{EqDecision A} (a : A) : bool_decide (a = a) = true.
Proof. apply bool_decide_eq_true. reflexivity. Qed.
Lemma beq_refl b : Bool.eqb b b = true. Proof. destruct b; reflexivity. Qed.
Ltac eqs := rewrite ?N.eqb_refl, ?bd_refl, ?beq_refl.
Lemma nvi_refl i : nvi_numbers i -> nvi_eqb i i = true.
Proof. intros H. unfold nvi_eqb. eqs. rewrite (all2_refl number64) by (exact n64 || exact H). reflexivity. Qed.
Lemma bbox_refl b : bbox_numbers b -> bbox_eqb b b = true.
Proof.
  intros (H1 & H2 & H3). unfold bbox_eqb. rewrite Z.eqb_refl. cbn [negb]. destruct (_ =? _)%Z; [reflexivity|].
  rewrite !(vec_refl number32) by (exact n32 || assumption). cbn [negb orb]. destruct (_ =? _)%Z; [reflexivity|].
  apply (mat_refl number32); [exact n32|exact H3].
Qed.
Lemma base_refl b : base_eqb b b = true.
Proof. unfold base_eqb, vec3_eqb. rewrite !nan_or_eq_refl. eqs. reflexivity. Qed.
Lemma sem_refl s : sem_numbers s -> sem_eqb s s = true.
Proof. intros (H1 & H2). unfold sem_eqb. rewrite base_refl, bbox_refl by exact H1. eqs. rewrite (mat_refl number64) by (exact n64 || exact H2). reflexivity. Qed.
Lemma mesh_refl m : Forall (vec_numbers number32) (m_points m) -> mesh_eqb m m = true.
Proof. intros H. unfold mesh_eqb. eqs. rewrite (all2_refl (vec_numbers number32)); [reflexivity| |exact H]. intros v Hv. apply (vec_refl number32); [exact n32|exact Hv]. Qed.
Lemma vecs_refl (l : list Vec3) : Forall (vec_numbers number32) l -> all2 (vec3_eqb f32_eqb) l l = true.
Proof. apply all2_refl. intros v Hv. apply (vec_refl number32); [exact n32|exact Hv]. Qed.

Lemma kept_equal a : numbers a -> no_object_members a -> attrs_eqb (kept a) a = true /\ attrs_eqb a (kept a) = true.
Proof.
  intros H Hk. destruct a as [x|x|x|x|x|x|x|x]; cbn [numbers kept attrs_eqb attrs_base] in *.
  - rewrite base_refl. auto.
  - rewrite sem_refl by exact H. auto.
  - destruct H as [H1 H2]. unfold obj_eqb. rewrite sem_refl by exact H1. eqs. rewrite quat_refl by exact H2. auto.
  - rewrite sem_refl by exact H. auto.
  - destruct H as (H1 & H2 & H3 & H4 & H5). unfold place_eqb. rewrite sem_refl, n64 by assumption. eqs.
    rewrite (all2_refl nvi_numbers) by (exact nvi_refl || exact H3).
    rewrite (vec_refl number64) by (exact n64 || exact H4). rewrite quat_refl by exact H5. auto.
  - destruct H as (H1 & H2 & H3 & H4 & H5 & H6). unfold place2d_eqb.
    cbn [d_sem d_boundary d_centroid d_compress d_expand d_pcl_boundary d_voxblox d_pcl d_labels d_deform d_cleanup_split d_active_mesh].
    rewrite sem_refl by exact H1. eqs. rewrite (all2_refl nvi_numbers nvi_eqb (d_voxblox x)) by (exact nvi_refl || exact H6).
    rewrite (vec_refl number64) by (exact n64 || exact H3). rewrite !(mat_refl number64) by (exact n64 || assumption).
    rewrite (all2_refl (vec_numbers number64) (vec3_eqb f64_eqb) (d_boundary x)); [auto| |exact H2].
    intros v Hv. apply (vec_refl number64); [exact n64|exact Hv].
  - destruct H as (H1 & H2). unfold agent_eqb. rewrite base_refl, quat_refl by exact H1. eqs.
    rewrite (mat_refl any N.eqb) by (intros; apply N.eqb_refl || apply Forall_any).
    rewrite (mat_refl number32) by (exact n32 || exact H2). auto.
  - destruct H as (H1 & H2 & H3 & H4 & H5). specialize (Hk x eq_refl).
    assert (E : kept (AKhronos x) = AKhronos x).
    { cbn [kept]. rewrite <- Hk. destruct x; reflexivity. }
    cbn [kept] in E. injection E as E. rewrite E. clear E.
    unfold khronos_eqb, obj_eqb. rewrite sem_refl by exact H1. eqs. rewrite quat_refl by exact H2. rewrite mesh_refl by exact H3.
    rewrite vecs_refl by exact H4. rewrite (all2_refl (Forall (vec_numbers number32))) by (exact vecs_refl || exact H5). auto.
Qed.
