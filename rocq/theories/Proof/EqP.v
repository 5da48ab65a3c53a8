(** operator== on attributes compares normal forms. *)
From Coq Require Import NArith ZArith Bool List Lia.
From stdpp Require Import base list gmap.
From Verif.Model Require Import Types Mesh Attrs AttrCodec.
From Verif.Spec Require Import BinarySpec AttrSpec EqSpec.
From Verif.Proof Require Import AttrP.
Local Open Scope N_scope.

Definition cmp {A} (eq : A -> A -> bool) (nf : A -> A) (ok : A -> Prop) : Prop :=
  forall a b, eq a b = true <-> ok (nf a) /\ nf a = nf b.

Lemma zero_spec e m v : f_zero e m v = true <-> v mod 2 ^ (e + m) = 0.
Proof.
  unfold f_zero, f_exponent, f_mantissa. rewrite !land_ones, N.shiftr_div_pow2, andb_true_iff, !N.eqb_eq.
  assert (H : 2 ^ m <> 0) by (apply N.pow_nonzero; lia). assert (H' : 2 ^ e <> 0) by (apply N.pow_nonzero; lia).
  rewrite N.pow_add_r, (N.mul_comm (2 ^ e)), N.mod_mul_r by assumption. split; [intros [-> ->]; lia|]. intros Hs.
  generalize dependent (v mod 2 ^ m). generalize (v / 2 ^ m mod 2 ^ e). intros x y Hs. destruct x; [lia|]. exfalso. nia.
Qed.
Lemma float_cmp bits e m : bits - 1 = e + m -> e <> 0 -> cmp (f_eqb e m) (plain_float bits) (fun v => ~ is_nan e m v).
Proof.
  intros Hb He a b.
  assert (Z : forall v, plain_float bits v = if f_zero e m v then 0 else v).
  { intros v. unfold plain_float. rewrite Hb. pose proof (zero_spec e m v) as H. destruct (N.eqb_spec (v mod 2 ^ (e + m)) 0) as [E|E], (f_zero e m v); auto;
      [apply H in E; discriminate|destruct E; apply H; reflexivity]. }
  assert (Z0 : f_zero e m 0 = true) by (apply zero_spec; apply N.mod_0_l, N.pow_nonzero; lia).
  assert (NZ : forall v, f_zero e m v = true -> f_nan e m v = false).
  { intros v. unfold f_zero, f_nan. rewrite andb_true_iff. intros [_ ->]. apply andb_false_r. }
  assert (NN : forall v, ~ is_nan e m (plain_float bits v) <-> f_nan e m v = false).
  { intros v. rewrite <- f_nan_spec, not_true_iff_false, Z. destruct (f_zero e m v) eqn:E; [|reflexivity]. rewrite (NZ 0 Z0), (NZ v E). reflexivity. }
  rewrite NN, !Z. unfold f_eqb. destruct (f_nan e m a) eqn:Ea; cbn [negb andb]; [split; [discriminate|intros [? _]; discriminate]|].
  destruct (f_zero e m a) eqn:Za, (f_zero e m b) eqn:Zb; cbn [andb].
  - rewrite (NZ b Zb), orb_true_r. cbn. tauto.
  - rewrite orb_false_r. destruct (N.eqb_spec a b) as [->|Hne]; [congruence|]. rewrite andb_false_r. split; [discriminate|]. intros [_ <-]. congruence.
  - rewrite orb_false_r. destruct (N.eqb_spec a b) as [->|Hne]; [congruence|]. rewrite andb_false_r. split; [discriminate|]. intros [_ ->]. congruence.
  - rewrite orb_false_r. destruct (N.eqb_spec a b) as [->|Hne]; [rewrite Ea; cbn; tauto|]. rewrite andb_false_r. split; [discriminate|]. intros [_ ->]. congruence.
Qed.
Lemma f64_cmp : cmp f64_eqb (plain_float 64) number64.
Proof. apply (float_cmp 64 11 52); [reflexivity|discriminate]. Qed.
Lemma f32_cmp : cmp f32_eqb (plain_float 32) number32.
Proof. apply (float_cmp 32 8 23); [reflexivity|discriminate]. Qed.
Lemma nan64_spec v : nan64 v = f64_nan v.
Proof.
  unfold nan64, f64_nan, f_nan, f_exponent, f_mantissa. rewrite !land_ones, N.shiftr_div_pow2. reflexivity.
Qed.
Lemma coord_cmp : cmp nan_or_eq plain_coordinate any.
Proof.
  intros a b. unfold nan_or_eq, plain_coordinate, any. rewrite !nan64_spec.
  assert (Q : forall v, f64_nan v = false -> quiet_nan <> plain_float 64 v).
  { intros v Hv E. unfold plain_float in E. destruct (_ =? 0); [discriminate|]. rewrite <- E in Hv. vm_compute in Hv. discriminate. }
  destruct (f64_nan a) eqn:Ea, (f64_nan b) eqn:Eb; cbn [andb orb].
  - tauto.
  - unfold f64_eqb, f_eqb. fold (f64_nan a). rewrite Ea. cbn. split; [discriminate|]. intros [_ E]. destruct (Q b Eb E).
  - unfold f64_eqb, f_eqb. fold (f64_nan b). rewrite Eb. cbn. rewrite andb_false_r. cbn. split; [discriminate|]. intros [_ E]. destruct (Q a Ea). congruence.
  - rewrite (f64_cmp a b). split; [tauto|]. intros [_ E]. split; [|exact E]. unfold number64. rewrite <- f_nan_spec. fold (f64_nan (plain_float 64 a)).
    unfold plain_float. destruct (_ =? 0); [vm_compute; discriminate|]. rewrite Ea. discriminate.
Qed.
Lemma vec_cmp eq nf ok : cmp eq nf ok -> cmp (vec3_eqb eq) (plain_vec nf) (vec_numbers ok).
Proof.
  intros H [ax ay az] [bx by_ bz]. unfold vec3_eqb, plain_vec, vec_numbers. cbn [v_x v_y v_z]. rewrite !andb_true_iff, !(H _ _).
  split; [intros [[[] []] []]; repeat split; congruence|]. intros [(? & ? & ?) [= ? ? ?]]. auto.
Qed.
Lemma list_cmp {A} (eq : A -> A -> bool) nf ok : cmp eq nf ok -> cmp (all2 eq) (map nf) (Forall ok).
Proof.
  intros H a. induction a as [|x a IH]; intros [|y b]; cbn [all2 map].
  - split; [intros _; split; [constructor|reflexivity]|reflexivity].
  - split; [discriminate|]. intros [_ E]. discriminate.
  - split; [discriminate|]. intros [_ E]. discriminate.
  - rewrite andb_true_iff, (H x y), (IH b). split.
    + intros [[H1 E1] [H2 E2]]. split; [constructor; assumption|congruence].
    + intros [H1 [= E1 E2]]. inversion H1; subst. auto.
Qed.
Lemma matrix_cmp eq nf ok : cmp eq nf ok -> cmp (matrix_eqb eq) (plain_matrix nf) (fun m => Forall ok (mx_data m)).
Proof.
  intros H [ar ac ad] [br bc bd]. unfold matrix_eqb, plain_matrix. cbn [mx_rows mx_cols mx_data].
  rewrite !andb_true_iff, !N.eqb_eq, (list_cmp eq nf ok H ad bd). split; [intros [[-> ->] [Hf Ef]]; split; [exact Hf|rewrite Ef; reflexivity]|]. intros [Hf E]. pose proof (f_equal mx_rows E) as E1. pose proof (f_equal mx_cols E) as E2. pose proof (f_equal mx_data E) as E3.
  cbn [mx_rows mx_cols mx_data] in *. auto.
Qed.
Lemma plain_matrix_id m : plain_matrix (fun x => x) m = m.
Proof. destruct m as [r c d]. unfold plain_matrix. cbn. rewrite map_id. reflexivity. Qed.
Lemma ids_cmp : cmp (matrix_eqb N.eqb) (fun m => m) any.
Proof.
  intros a b. assert (H : cmp N.eqb (fun x => x) any) by (intros x y; rewrite N.eqb_eq; unfold any; tauto).
  rewrite (matrix_cmp _ _ _ H a b), !plain_matrix_id. unfold any. split; [tauto|]. intros [_ ->]. split; [|reflexivity]. apply Forall_any.
Qed.
Lemma quat_cmp : cmp (quat_eqb f64_eqb) plain_quat quat_numbers.
Proof.
  intros [a0 a1 a2 a3] [b0 b1 b2 b3]. unfold quat_eqb, plain_quat, quat_numbers. cbn [q_w q_x q_y q_z]. rewrite !andb_true_iff, !(f64_cmp _ _).
  split; [intros [[[[] []] []] []]; repeat split; congruence|]. intros [(? & ? & ? & ?) [= ? ? ? ?]]. auto.
Qed.
Lemma nvi_cmp : cmp nvi_eqb plain_nvi nvi_numbers.
Proof.
  intros [ab av ax al] [bb bv bx bl]. unfold nvi_eqb, plain_nvi, nvi_numbers. cbn [nv_block nv_voxel nv_vertex nv_label].
  rewrite !andb_true_iff, !bool_decide_eq_true, N.eqb_eq, (list_cmp _ _ _ f64_cmp av bv).
  split; [intros [[[-> [H E]] ->] ->]; split; [exact H|rewrite E; reflexivity]|]. intros [H [= -> E -> ->]]. auto.
Qed.
Lemma bbox_cmp : cmp bbox_eqb plain_bbox bbox_numbers.
Proof.
  assert (N0 : vec_numbers number32 zero_vec).
  { assert (number32 0) by (unfold number32; rewrite <- f_nan_spec; vm_compute; discriminate). repeat split; assumption. }
  intros [at_ ad ac ar] [bt bd bc br]. unfold bbox_eqb, plain_bbox, bbox_numbers. cbn [bb_type bb_dim bb_center bb_rot].
  destruct (Z.eqb_spec at_ bt) as [<-|Hne]; cbn [negb].
  2:{ split; [discriminate|]. destruct (Z.eqb_spec at_ 0) as [->|Ha], (Z.eqb_spec bt 0) as [->|Hb]; intros [_ E]; congruence. }
  destruct (Z.eqb_spec at_ 0) as [->|Ha].
  { cbn [bb_dim bb_center bb_rot]. split; [intros _|reflexivity]. split; [|reflexivity]. split; [exact N0|]. split; [exact N0|]. constructor. }
  cbn [bb_type bb_dim bb_center bb_rot]. pose proof (vec_cmp _ _ _ f32_cmp ad bd) as Hd. pose proof (vec_cmp _ _ _ f32_cmp ac bc) as Hc.
  destruct (vec3_eqb f32_eqb ad bd) eqn:Ed; cbn [negb orb].
  2:{ split; [discriminate|]. intros [(H1 & _) E]. apply Hd. split; [exact H1|exact (f_equal bb_dim E)]. }
  destruct (vec3_eqb f32_eqb ac bc) eqn:Ec; cbn [negb].
  2:{ split; [discriminate|]. intros [(_ & H1 & _) E]. apply Hc. split; [exact H1|exact (f_equal bb_center E)]. }
  destruct (proj1 Hd eq_refl) as [H1 E1], (proj1 Hc eq_refl) as [H2 E2].
  destruct (Z.eqb_spec at_ 1) as [->|H1t].
  { split; [intros _|reflexivity]. split; [split; [exact H1|split; [exact H2|constructor]]|]. rewrite E1, E2. reflexivity. }
  rewrite (matrix_cmp _ _ _ f32_cmp ar br). split; [intros [H3 E3]; split; [auto|congruence]|]. intros [(_ & _ & H3) E3]. split; [exact H3|].
  assert (E4 := f_equal bb_rot E3). exact E4.
Qed.
Lemma mesh_cmp : cmp mesh_eqb plain_mesh (fun m => Forall (vec_numbers number32) (m_points m)).
Proof.
  intros [a0 a1 a2 a3 a4 a5 a6 a7 a8 a9] [b0 b1 b2 b3 b4 b5 b6 b7 b8 b9]. unfold mesh_eqb, plain_mesh.
  cbn [m_has_colors m_has_stamps m_has_labels m_has_first m_points m_colors m_stamps m_first m_labels m_faces].
  rewrite !andb_true_iff, !bool_decide_eq_true, !eqb_true_iff, (list_cmp _ _ _ (vec_cmp _ _ _ f32_cmp) a4 b4).
  split; [intros (((((((((-> & ->) & ->) & ->) & H & E) & ->) & ->) & ->) & ->) & ->); split; [exact H|rewrite E; reflexivity]|]. intros [H [= -> -> -> -> E -> -> -> -> ->]]. repeat match goal with |- _ /\ _ => split end; auto.
Qed.
Lemma base_cmp : cmp base_eqb plain_base any.
Proof.
  intros [ap at_ aa ar] [bp bt ba br]. unfold base_eqb, plain_base, any. cbn [a_pos a_time a_active a_predicted].
  rewrite !andb_true_iff, !eqb_true_iff, N.eqb_eq, (vec_cmp _ _ _ coord_cmp ap bp). unfold any, vec_numbers.
  split; [intros [[[[_ E] ->] ->] ->]; split; [exact I|rewrite E; reflexivity]|]. intros [_ E]. pose proof (f_equal a_pos E) as E1. pose proof (f_equal a_time E) as E2. pose proof (f_equal a_active E) as E3. pose proof (f_equal a_predicted E) as E4.
  cbn [a_pos a_time a_active a_predicted] in *. repeat match goal with |- _ /\ _ => split end; auto.
Qed.
Lemma sem_cmp : cmp sem_eqb plain_sem sem_numbers.
Proof.
  intros [a0 a1 a2 a3 a4 a5] [b0 b1 b2 b3 b4 b5]. unfold sem_eqb, plain_sem, sem_numbers. cbn [s_base s_name s_color s_bbox s_label s_feature].
  rewrite !andb_true_iff, !bool_decide_eq_true, N.eqb_eq, (base_cmp a0 b0), (bbox_cmp a3 b3), (matrix_cmp _ _ _ f64_cmp a5 b5).
  split.
  - intros [[[[[[_ E0] ->] ->] [H3 E3]] ->] [H5 E5]]. split; [auto|]. rewrite E0, E3, E5. reflexivity.
  - intros [[H3 H5] E]. pose proof (f_equal s_base E) as E0. pose proof (f_equal s_name E) as E1. pose proof (f_equal s_color E) as E2.
    pose proof (f_equal s_bbox E) as E3. pose proof (f_equal s_label E) as E4. pose proof (f_equal s_feature E) as E5.
    cbn [s_base s_name s_color s_bbox s_label s_feature] in *. unfold any. repeat match goal with |- _ /\ _ => split end; auto.
Qed.
Lemma obj_cmp : cmp obj_eqb plain_obj (fun o => sem_numbers (o_sem o) /\ quat_numbers (o_rot o)).
Proof.
  intros [a0 a1 a2 a3] [b0 b1 b2 b3]. unfold obj_eqb, plain_obj. cbn [o_sem o_mesh_conn o_registered o_rot].
  rewrite !andb_true_iff, !bool_decide_eq_true, eqb_true_iff, (sem_cmp a0 b0), (quat_cmp a3 b3).
  split.
  - intros [[[[H0 E0] ->] ->] [H3 E3]]. split; [auto|]. rewrite E0, E3. reflexivity.
  - intros [[H0 H3] E]. pose proof (f_equal o_sem E) as E0. pose proof (f_equal o_mesh_conn E) as E1. pose proof (f_equal o_registered E) as E2. pose proof (f_equal o_rot E) as E3.
    cbn [o_sem o_mesh_conn o_registered o_rot] in *. repeat match goal with |- _ /\ _ => split end; auto.
Qed.
Theorem attrs_cmp a b :
  attrs_eqb a b = true <-> exists c, seen_as (kind_of a) b = Some c /\ numbers (plain a) /\ plain a = plain c.
Proof.
  assert (S : forall (c : NodeAttrs) P, (exists d, Some c = Some d /\ P d) <-> P c).
  { intros c P. split; [intros (d & [= <-] & H); exact H|]. intros H. exists c. auto. }
  assert (F : forall P, (exists d : NodeAttrs, None = Some d /\ P d) <-> False) by (intros P; split; [intros (d & ? & _); discriminate|tauto]).
  assert (SE : forall x y, sem_eqb x y = true <-> sem_numbers (plain_sem x) /\ ASem (plain_sem x) = ASem (plain_sem y)).
  { intros x y. rewrite (sem_cmp x y). split; (intros [H E]; split; [exact H|congruence]). }
  assert (OE : forall x y, obj_eqb x y = true <-> (sem_numbers (o_sem (plain_obj x)) /\ quat_numbers (o_rot (plain_obj x))) /\ AObj (plain_obj x) = AObj (plain_obj y)).
  { intros x y. rewrite (obj_cmp x y). split; (intros [H E]; split; [exact H|congruence]). }
  destruct a as [x|x|x|x|x|x|x|x]; cbn [kind_of attrs_eqb].
  - cbn [seen_as]. rewrite S. cbn [plain numbers]. rewrite (base_cmp x (attrs_base b)). unfold any. split; intros [_ E]; split; auto; congruence.
  - destruct b as [y|y|y|y|y|y|y|y]; cbn [seen_as]; rewrite ?S, ?F; try (split; [discriminate|tauto]); cbn [plain numbers]; apply SE.
  - destruct b as [y|y|y|y|y|y|y|y]; cbn [seen_as]; rewrite ?S, ?F; try (split; [discriminate|tauto]); cbn [plain numbers]; apply OE.
  - destruct b as [y|y|y|y|y|y|y|y]; cbn [seen_as]; rewrite ?S, ?F; try (split; [discriminate|tauto]). cbn [plain numbers r_sem].
    rewrite (sem_cmp (r_sem x) (r_sem y)). split; (intros [H E]; split; [exact H|congruence]).
  - destruct b as [y|y|y|y|y|y|y|y]; cbn [seen_as]; rewrite ?S, ?F; try (split; [discriminate|tauto]). cbn [plain numbers].
    cbn [p_sem p_distance p_basis p_voxblox p_pcl p_labels p_deform p_real p_cleanup p_frontier p_scale p_orient p_nfv].
    unfold place_eqb. rewrite !andb_true_iff, !bool_decide_eq_true, !eqb_true_iff, !N.eqb_eq, (sem_cmp _ _), (f64_cmp _ _),
      (list_cmp _ _ _ nvi_cmp _ _), (vec_cmp _ _ _ f64_cmp _ _), (quat_cmp _ _).
    split.
    + intros H. repeat match goal with H : _ /\ _ |- _ => destruct H end. split; [auto 10|]. repeat match goal with E : ?l = ?r |- _ => rewrite E; clear E end. reflexivity.
    + intros [(H1 & H2 & H3 & H4 & H5) E]. pose proof (f_equal (fun v => match v with APlace w => p_sem w | _ => p_sem x end) E) as E_p_sem. pose proof (f_equal (fun v => match v with APlace w => p_distance w | _ => p_distance x end) E) as E_p_distance. pose proof (f_equal (fun v => match v with APlace w => p_basis w | _ => p_basis x end) E) as E_p_basis. pose proof (f_equal (fun v => match v with APlace w => p_voxblox w | _ => p_voxblox x end) E) as E_p_voxblox. pose proof (f_equal (fun v => match v with APlace w => p_pcl w | _ => p_pcl x end) E) as E_p_pcl. pose proof (f_equal (fun v => match v with APlace w => p_labels w | _ => p_labels x end) E) as E_p_labels. pose proof (f_equal (fun v => match v with APlace w => p_deform w | _ => p_deform x end) E) as E_p_deform. pose proof (f_equal (fun v => match v with APlace w => p_real w | _ => p_real x end) E) as E_p_real. pose proof (f_equal (fun v => match v with APlace w => p_cleanup w | _ => p_cleanup x end) E) as E_p_cleanup. pose proof (f_equal (fun v => match v with APlace w => p_frontier w | _ => p_frontier x end) E) as E_p_frontier. pose proof (f_equal (fun v => match v with APlace w => p_scale w | _ => p_scale x end) E) as E_p_scale. pose proof (f_equal (fun v => match v with APlace w => p_orient w | _ => p_orient x end) E) as E_p_orient. pose proof (f_equal (fun v => match v with APlace w => p_nfv w | _ => p_nfv x end) E) as E_p_nfv. clear E. cbv beta iota in *. cbn [p_sem p_distance p_basis p_voxblox p_pcl p_labels p_deform p_real p_cleanup p_frontier p_scale p_orient p_nfv] in *. repeat match goal with |- _ /\ _ => split end; auto.
  - destruct b as [y|y|y|y|y|y|y|y]; cbn [seen_as]; rewrite ?S, ?F; try (split; [discriminate|tauto]). cbn [plain numbers].
    cbn [d_sem d_boundary d_centroid d_compress d_expand d_pcl_boundary d_voxblox d_pcl d_min d_max d_labels d_deform d_finish_merge d_cleanup_split d_active_mesh].
    unfold place2d_eqb. rewrite !andb_true_iff, !bool_decide_eq_true, !eqb_true_iff, (sem_cmp _ _), (list_cmp _ _ _ (vec_cmp _ _ _ f64_cmp) _ _),
      (vec_cmp _ _ _ f64_cmp _ _), !(matrix_cmp _ _ _ f64_cmp _ _), (list_cmp _ _ _ nvi_cmp _ _).
    split.
    + intros H. repeat match goal with H : _ /\ _ |- _ => destruct H end. split; [auto 10|]. repeat match goal with E : ?l = ?r |- _ => rewrite E; clear E end. reflexivity.
    + intros [(H1 & H2 & H3 & H4 & H5 & H6) E]. pose proof (f_equal (fun v => match v with APlace2d w => d_sem w | _ => d_sem x end) E) as E_d_sem. pose proof (f_equal (fun v => match v with APlace2d w => d_boundary w | _ => d_boundary x end) E) as E_d_boundary. pose proof (f_equal (fun v => match v with APlace2d w => d_centroid w | _ => d_centroid x end) E) as E_d_centroid. pose proof (f_equal (fun v => match v with APlace2d w => d_compress w | _ => d_compress x end) E) as E_d_compress. pose proof (f_equal (fun v => match v with APlace2d w => d_expand w | _ => d_expand x end) E) as E_d_expand. pose proof (f_equal (fun v => match v with APlace2d w => d_pcl_boundary w | _ => d_pcl_boundary x end) E) as E_d_pcl_boundary. pose proof (f_equal (fun v => match v with APlace2d w => d_voxblox w | _ => d_voxblox x end) E) as E_d_voxblox. pose proof (f_equal (fun v => match v with APlace2d w => d_pcl w | _ => d_pcl x end) E) as E_d_pcl. pose proof (f_equal (fun v => match v with APlace2d w => d_labels w | _ => d_labels x end) E) as E_d_labels. pose proof (f_equal (fun v => match v with APlace2d w => d_deform w | _ => d_deform x end) E) as E_d_deform. pose proof (f_equal (fun v => match v with APlace2d w => d_cleanup_split w | _ => d_cleanup_split x end) E) as E_d_cleanup_split. pose proof (f_equal (fun v => match v with APlace2d w => d_active_mesh w | _ => d_active_mesh x end) E) as E_d_active_mesh. clear E. cbv beta iota in *. cbn [d_sem d_boundary d_centroid d_compress d_expand d_pcl_boundary d_voxblox d_pcl d_labels d_deform d_cleanup_split d_active_mesh] in *. repeat match goal with |- _ /\ _ => split end; auto.
  - destruct b as [y|y|y|y|y|y|y|y]; cbn [seen_as]; rewrite ?S, ?F; try (split; [discriminate|tauto]). cbn [plain numbers].
    cbn [g_base g_rot g_ext g_dbow_ids g_dbow_vals].
    unfold agent_eqb. rewrite !andb_true_iff, !N.eqb_eq, (base_cmp _ _), (quat_cmp _ _), (ids_cmp _ _), (matrix_cmp _ _ _ f32_cmp _ _). unfold any.
    split.
    + intros H. repeat match goal with H : _ /\ _ |- _ => destruct H end. split; [auto 10|]. repeat match goal with E : ?l = ?r |- _ => rewrite E; clear E end. reflexivity.
    + intros [(H1 & H2) E]. pose proof (f_equal (fun v => match v with AAgent w => g_base w | _ => g_base x end) E) as E_g_base. pose proof (f_equal (fun v => match v with AAgent w => g_rot w | _ => g_rot x end) E) as E_g_rot. pose proof (f_equal (fun v => match v with AAgent w => g_ext w | _ => g_ext x end) E) as E_g_ext. pose proof (f_equal (fun v => match v with AAgent w => g_dbow_ids w | _ => g_dbow_ids x end) E) as E_g_dbow_ids. pose proof (f_equal (fun v => match v with AAgent w => g_dbow_vals w | _ => g_dbow_vals x end) E) as E_g_dbow_vals. clear E. cbv beta iota in *. cbn [g_base g_rot g_ext g_dbow_ids g_dbow_vals] in *. repeat match goal with |- _ /\ _ => split end; auto.
  - destruct b as [y|y|y|y|y|y|y|y]; cbn [seen_as]; rewrite ?S, ?F; try (split; [discriminate|tauto]). cbn [plain numbers].
    cbn [k_obj k_first k_last k_mesh k_traj_t k_traj_p k_points k_details].
    unfold khronos_eqb. rewrite !andb_true_iff, !bool_decide_eq_true, (obj_cmp _ _), (mesh_cmp _ _), (list_cmp _ _ _ (vec_cmp _ _ _ f32_cmp) _ _),
      (list_cmp _ _ _ (list_cmp _ _ _ (vec_cmp _ _ _ f32_cmp)) _ _).
    split.
    + intros H. repeat match goal with H : _ /\ _ |- _ => destruct H end. split; [auto 10|]. repeat match goal with E : ?l = ?r |- _ => rewrite E; clear E end. reflexivity.
    + intros [(H1 & H2 & H3 & H4 & H5) E]. pose proof (f_equal (fun v => match v with AKhronos w => k_obj w | _ => k_obj x end) E) as E_k_obj. pose proof (f_equal (fun v => match v with AKhronos w => k_first w | _ => k_first x end) E) as E_k_first. pose proof (f_equal (fun v => match v with AKhronos w => k_last w | _ => k_last x end) E) as E_k_last. pose proof (f_equal (fun v => match v with AKhronos w => k_mesh w | _ => k_mesh x end) E) as E_k_mesh. pose proof (f_equal (fun v => match v with AKhronos w => k_traj_p w | _ => k_traj_p x end) E) as E_k_traj_p. pose proof (f_equal (fun v => match v with AKhronos w => k_points w | _ => k_points x end) E) as E_k_points. pose proof (f_equal (fun v => match v with AKhronos w => k_details w | _ => k_details x end) E) as E_k_details. clear E. cbv beta iota in *. cbn [k_obj k_first k_last k_mesh k_traj_p k_points k_details] in *. repeat match goal with |- _ /\ _ => split end; auto.
Qed.
