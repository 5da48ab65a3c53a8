(** C64: the matrices of a mesh.  C65: moving a mesh. *)
From Coq Require Import NArith ZArith QArith Bool List Lia.
From stdpp Require Import base list gmap.
From Verif.Model Require Import Types Node Mesh Json MeshMatrix BBox Numbers Rotation.
From Verif.Spec Require Import MeshSpec BoxSpec BinarySpec MeshMatrixSpec.
From Verif.Proof Require Import MeshP JsonNum BBoxP MeshMatrixP.
From Verif.Properties Require Import P10_Mesh.
Local Open Scope N_scope.

(** C64: one column per vertex: the position, and the colour divided by 255 (zero without colours). *)
Theorem C64_read_vertices : forall m, mesh_reachable m ->
  exists p, get_vertices m = Ok p /\ has_rows 6 p /\ N.of_nat (length (cs_cols p)) = mesh_num_vertices m /\
    forall i q, mesh_pos m (N.of_nat i) = Ok q -> exists r g b,
      cs_cols p !! i = Some [float_to_double (v_x q); float_to_double (v_y q); float_to_double (v_z q); r; g; b] /\
      match mesh_color m (N.of_nat i) with
      | Ok c => m_has_colors m = true /\ (r, g, b) = (channel_out (c_r c), channel_out (c_g c), channel_out (c_b c))
      | _ => m_has_colors m = false /\ (r, g, b) = (0, 0, 0)
      end.
Proof.
  intros m Hr. destruct (get_vertices_eq m) as (p & Hp & H6 & Hl & Hc). exists p. split; [exact Hp|]. split; [exact H6|].
  split; [unfold mesh_num_vertices; congruence|]. intros i q Hq. unfold mesh_pos in Hq. apply vat_Ok in Hq. rewrite Nat2N.id in Hq.
  specialize (Hc i q Hq). destruct (mesh_reachable_ok m Hr) as [H1 _ _ _]. unfold aligned in H1.
  unfold mesh_color. rewrite vat_eq, Nat2N.id. pose proof (lookup_lt_Some _ _ _ Hq) as Hi.
  destruct (m_colors m !! i) as [c|] eqn:E; unfold col_of in Hc; cbn [fst snd app] in Hc; (do 3 eexists; split; [exact Hc|]); split; try reflexivity.
  - destruct (m_has_colors m); [reflexivity|]. apply lookup_lt_Some in E. rewrite H1 in E. cbn in E. lia.
  - destruct (m_has_colors m); [|reflexivity]. apply lookup_ge_None in E. lia.
Qed.
Print Assumptions C64_read_vertices.

(** C64: the numbers.  A float survives the conversion to double and back; c / 255.0 is a
    nearest double: 2 |255 s - c 2^k| <= 255 for its significand s and scale 2^-k; and multiplying by 255 and
    truncating gives back c. *)
Theorem C64_numbers :
  (forall v, finite_float v -> double_to_float (float_to_double v) = v) /\
  (forall c, c < 256 -> channel_in (channel_out c) = Ok c /\
     exists s k, fl_finite 11 52 (channel_out c) = true /\ fl_sign 11 52 (channel_out c) = false /\
       Z.of_N (fl_sig 11 52 (channel_out c)) = s /\ fl_scale 11 52 (channel_out c) = (- k)%Z /\ (0 <= k)%Z /\
       (2 * Z.abs (255 * s - Z.of_N c * 2 ^ k) <= 255)%Z) /\
  (forall v b, channel_in v = Ok b -> b < 256).
Proof.
  split; [|split; [|exact channel_in_byte]].
  - intros v [H1 H2]. apply float_double_float; [exact H1|]. apply finite_iff. exact H2.
  - intros c Hc. split; [apply channel_back, Hc|].
    pose proof (byte_sweep (fun c => fl_finite 11 52 (channel_out c) && negb (fl_sign 11 52 (channel_out c)) &&
       (0 <=? - fl_scale 11 52 (channel_out c))%Z &&
       (2 * Z.abs (255 * Z.of_N (fl_sig 11 52 (channel_out c)) - Z.of_N c * 2 ^ (- fl_scale 11 52 (channel_out c))) <=? 255)%Z)) as H.
    specialize (H ltac:(vm_compute; reflexivity) c Hc). cbv beta in H. rewrite !andb_true_iff, negb_true_iff, !Z.leb_le in H.
    destruct H as [[[H1 H2] H3] H4]. exists (Z.of_N (fl_sig 11 52 (channel_out c))), (- fl_scale 11 52 (channel_out c))%Z.
    split; [exact H1|]. split; [exact H2|]. split; [reflexivity|]. split; [lia|]. split; [exact H3|exact H4].
Qed.
Print Assumptions C64_numbers.

(** C64: writing.  A matrix without six rows is refused.  Otherwise the mesh has exactly the
    columns as vertices, in order; the other stored numbers of the vertices are kept, those of new
    vertices are zero; the faces are untouched.  A colour outside of the range of a byte is
    undefined behaviour. *)
Theorem C64_write_vertices : forall m p, mesh_reachable m ->
  (cs_rows p <> 6 -> set_vertices m p = Throw) /\
  (has_rows 6 p ->
     (m_has_colors m = true -> forall c r, c ∈ cs_cols p -> (r = 3%nat \/ r = 4%nat \/ r = 5%nat) -> present (channel_in (nth r c 0))) ->
     exists m', set_vertices m p = Ok m' /\ same_config m m' /\ m_faces m' = m_faces m /\
       mesh_num_vertices m' = N.of_nat (length (cs_cols p)) /\
       forall i x y z r g b, cs_cols p !! i = Some [x; y; z; r; g; b] ->
         mesh_pos m' (N.of_nat i) = Ok (mkVec3 (double_to_float x) (double_to_float y) (double_to_float z)) /\
         (if m_has_colors m then exists cr cg cb, channel_in r = Ok cr /\ channel_in g = Ok cg /\ channel_in b = Ok cb /\
            mesh_color m' (N.of_nat i) = Ok (mkColor cr cg cb 255) else mesh_color m' (N.of_nat i) = Throw) /\
         mesh_stamp m' (N.of_nat i) = (if m_has_stamps m then kept_or_zero (mesh_stamp m (N.of_nat i)) else Throw) /\
         mesh_first m' (N.of_nat i) = (if m_has_first m then kept_or_zero (mesh_first m (N.of_nat i)) else Throw) /\
         mesh_label m' (N.of_nat i) = (if m_has_labels m then kept_or_zero (mesh_label m (N.of_nat i)) else Throw)) /\
  (has_rows 6 p -> m_has_colors m = true ->
     (exists c r, c ∈ cs_cols p /\ (r = 3%nat \/ r = 4%nat \/ r = 5%nat) /\ channel_in (nth r c 0) = UB) -> set_vertices m p = UB).
Proof.
  intros m p Hr. split; [|split].
  - intros H. unfold set_vertices. rewrite (proj2 (N.eqb_neq _ _) H). reflexivity.
  - intros [H6 HC] Hch. rewrite (set_vertices_eq p m H6 HC).
    assert (HF : m_has_colors m && negb (forallb chan_ok (cs_cols p)) = false).
    { destruct (m_has_colors m); [|reflexivity]. cbn. apply negb_false_iff, forallb_forall. intros c Hc. apply elem_of_list_In in Hc.
      unfold chan_ok. destruct (Hch eq_refl c 3%nat Hc) as [? ->]; [auto|]. destruct (Hch eq_refl c 4%nat Hc) as [? ->]; [auto|].
      destruct (Hch eq_refl c 5%nat Hc) as [? ->]; [auto|]. reflexivity. }
    rewrite HF. cbv zeta. eexists. split; [reflexivity|]. split; [repeat split|]. split; [reflexivity|].
    split; [unfold mesh_num_vertices; cbn [m_points]; rewrite map_length; reflexivity|].
    intros i x y z r g b Hi. unfold mesh_pos, mesh_color, mesh_stamp, mesh_first, mesh_label. cbn [m_points m_colors m_stamps m_first m_labels].
    destruct (mesh_reachable_ok m Hr) as [A1 A2 A3 A4]. unfold aligned in *.
    pose proof (lookup_lt_Some _ _ _ Hi) as Li.
    assert (KZ : forall l : list N, vat (vresize (length (cs_cols p)) 0 l) (N.of_nat i) = kept_or_zero (vat l (N.of_nat i))).
    { intros l. rewrite !vat_eq, !Nat2N.id. unfold vresize. destruct (l !! i) as [v|] eqn:E.
      - rewrite lookup_resize by (try lia; eapply lookup_lt_Some; exact E). rewrite E. reflexivity.
      - apply lookup_ge_None in E. rewrite lookup_resize_new by lia. reflexivity. }
    assert (NO : forall l : list N, l = [] -> vat l (N.of_nat i) = Throw).
    { intros l ->. rewrite vat_eq. reflexivity. }
    split; [apply vat_some; change (map pos_of (cs_cols p)) with (pos_of <$> cs_cols p); rewrite list_lookup_fmap, Hi; reflexivity|].
    split.
    + destruct (m_has_colors m).
      * assert (Hc : [x; y; z; r; g; b] ∈ cs_cols p) by (eapply elem_of_list_lookup_2; exact Hi).
        destruct (Hch eq_refl _ 3%nat Hc) as [cr Er]; [auto|]. destruct (Hch eq_refl _ 4%nat Hc) as [cg Eg]; [auto|].
        destruct (Hch eq_refl _ 5%nat Hc) as [cb Eb]; [auto|]. cbn [nth] in Er, Eg, Eb. exists cr, cg, cb.
        split; [exact Er|]. split; [exact Eg|]. split; [exact Eb|]. apply vat_some.
        change (map color_of (cs_cols p)) with (color_of <$> cs_cols p). rewrite list_lookup_fmap, Hi. cbn. unfold color_of, byte_in. cbn [nth].
        rewrite Er, Eg, Eb. reflexivity.
      * rewrite vat_eq. destruct (m_colors m) as [|? ?]; [rewrite lookup_nil; reflexivity|discriminate A1].
    + unfold mesh_resize_vertices. cbn [m_stamps m_first m_labels]. split; [|split].
      * destruct (m_has_stamps m); [apply KZ|]. apply NO. destruct (m_stamps m); [reflexivity|discriminate A2].
      * destruct (m_has_first m); [apply KZ|]. apply NO. destruct (m_first m); [reflexivity|discriminate].
      * destruct (m_has_labels m); [apply KZ|]. apply NO. destruct (m_labels m); [reflexivity|discriminate].
  - intros [H6 HC] Hh (c & r & Hc & Hrr & Hub). rewrite (set_vertices_eq p m H6 HC), Hh. cbn [andb].
    assert (HF : forallb chan_ok (cs_cols p) = false).
    { apply not_true_is_false. intros HT. pose proof (proj1 (forallb_forall _ _) HT c) as K.
      assert (Hc' : In c (cs_cols p)) by (apply elem_of_list_In; exact Hc). specialize (K Hc'). unfold chan_ok in K.
      destruct Hrr as [-> |[-> | ->]]; rewrite Hub in K; [discriminate| |];
      destruct (channel_in (nth 3 c 0)); try discriminate; destruct (channel_in (nth 4 c 0)); discriminate. }
    rewrite HF. reflexivity.
Qed.
Print Assumptions C64_write_vertices.

(** C64: writing back what was read: everything is as before, except that colours are opaque. *)
Theorem C64_round_trip : forall m p, mesh_reachable m -> plain_mesh m -> get_vertices m = Ok p ->
  exists m', set_vertices m p = Ok m' /\ same_config m m' /\ m_faces m' = m_faces m /\ mesh_num_vertices m' = mesh_num_vertices m /\
    forall i, mesh_pos m' i = mesh_pos m i /\ mesh_color m' i = rmap opaque (mesh_color m i) /\
      mesh_stamp m' i = mesh_stamp m i /\ mesh_first m' i = mesh_first m i /\ mesh_label m' i = mesh_label m i.
Proof.
  intros m p Hr [HB HP] Hg. destruct (C64_read_vertices m Hr) as (p' & Hg' & H6 & Hn & Hc). assert (p' = p) as -> by congruence. clear Hg'.
  assert (Hcol : forall i c, cs_cols p !! i = Some c -> exists q, mesh_pos m (N.of_nat i) = Ok q).
  { intros i c Hi. apply lookup_lt_Some in Hi. unfold mesh_num_vertices in Hn.
    destruct (m_points m !! i) as [q|] eqn:E; [exists q; apply vat_some, E|apply lookup_ge_None in E; lia]. }
  destruct (C64_write_vertices m p Hr) as (_ & HW & _). destruct HW as (m' & HS & HC & HF & HN & HV).
  { exact H6. }
  { intros Hh c r Hcc Hrr. apply elem_of_list_lookup in Hcc as [i Hi]. destruct (Hcol i c Hi) as [q Hq].
    destruct (Hc i q Hq) as (r' & g' & b' & Hi' & HH). destruct (mesh_color m (N.of_nat i)) as [cc| |] eqn:Ec; [|destruct HH; congruence|destruct HH; congruence].
    destruct HH as [_ [= -> -> ->]]. destruct (HB _ _ Ec) as (B1 & B2 & B3). rewrite Hi in Hi'. apply (inj Some) in Hi'. subst c.
    destruct Hrr as [-> |[-> | ->]]; cbn [nth]; eexists; apply channel_back; assumption. }
  exists m'. split; [exact HS|]. split; [exact HC|]. split; [exact HF|]. split; [congruence|].
  assert (Hin : forall i : nat, (i < length (m_points m))%nat -> mesh_pos m' (N.of_nat i) = mesh_pos m (N.of_nat i) /\ mesh_color m' (N.of_nat i) = rmap opaque (mesh_color m (N.of_nat i)) /\
      mesh_stamp m' (N.of_nat i) = mesh_stamp m (N.of_nat i) /\ mesh_first m' (N.of_nat i) = mesh_first m (N.of_nat i) /\ mesh_label m' (N.of_nat i) = mesh_label m (N.of_nat i)).
  { intros i Hi. destruct (m_points m !! i) as [q|] eqn:E; [|apply lookup_ge_None in E; lia].
    assert (Hq : mesh_pos m (N.of_nat i) = Ok q) by (apply vat_some, E). destruct (Hc i q Hq) as (r & g & b & Hi' & HH).
    destruct (HV i _ _ _ _ _ _ Hi') as (V1 & V2 & V3 & V4 & V5). destruct (HP _ _ Hq) as (P1 & P2 & P3).
    destruct C64_numbers as [FD _]. rewrite !FD in V1 by assumption. split; [rewrite V1, Hq; destruct q; reflexivity|].
    destruct (mesh_reachable_ok m Hr) as [A1 A2 A3 A4]. unfold aligned in *.
    assert (OLD : forall (hb : bool) (l : list N), length l = (if hb then length (m_points m) else 0)%nat ->
       (if hb then kept_or_zero (vat l (N.of_nat i)) else Throw) = vat l (N.of_nat i)).
    { intros hb l Hl. rewrite vat_eq, Nat2N.id. destruct hb.
      - destruct (l !! i) eqn:El; [reflexivity|]. apply lookup_ge_None in El. lia.
      - rewrite (proj2 (lookup_ge_None _ _)) by lia. reflexivity. }
    split; [|split; [|split]].
    - destruct (mesh_color m (N.of_nat i)) as [c| |] eqn:Ec; destruct HH as [Hh [= -> -> ->]]; rewrite Hh in V2; [|exact V2|].
      + destruct V2 as (cr & cg & cb & E1 & E2 & E3 & ->). destruct (HB _ _ Ec) as (B1 & B2 & B3).
        rewrite channel_back in E1, E2, E3 by assumption. unfold opaque. cbn [rmap]. congruence.
      + exfalso. unfold mesh_color in Ec. rewrite vat_eq in Ec. destruct (m_colors m !! _); discriminate.
    - rewrite V3. apply OLD, A2.
    - rewrite V4. apply OLD, A3.
    - rewrite V5. apply OLD, A4. }
  intros i. destruct (N.lt_ge_cases i (mesh_num_vertices m)) as [Hi|Hi].
  - unfold mesh_num_vertices in Hi. specialize (Hin (N.to_nat i)). rewrite N2Nat.id in Hin. apply Hin. lia.
  - assert (Hok' : mesh_ok m').
    { rewrite (set_vertices_eq p m) in HS; [|apply H6|apply H6]. destruct (_ && _); [discriminate|]. injection HS as <-.
      destruct (mesh_reachable_ok m Hr) as [A1 A2 A3 A4]. unfold aligned in *. split; unfold aligned; cbn; rewrite map_length; unfold vresize;
      destruct (m_has_colors m), (m_has_stamps m), (m_has_first m), (m_has_labels m); rewrite ?map_length, ?resize_length; try reflexivity; assumption. }
    destruct (mesh_reachable_ok m Hr) as [A1 A2 A3 A4]. destruct Hok' as [D1 D2 D3 D4]. unfold aligned in *.
    assert (OUT : forall A (l : list A), (length l <= N.to_nat (mesh_num_vertices m))%nat -> vat l i = Throw).
    { intros A l Hl. rewrite vat_eq. rewrite (proj2 (lookup_ge_None _ _)) by lia. reflexivity. }
    assert (Hn' : mesh_num_vertices m' = mesh_num_vertices m) by congruence. unfold mesh_num_vertices in *.
    unfold mesh_pos, mesh_color, mesh_stamp, mesh_first, mesh_label.
    assert (Hlen : length (m_points m') = length (m_points m)) by lia.
    rewrite !OUT; [repeat split; reflexivity|..]; rewrite ?D1, ?D2, ?D3, ?D4, ?A1, ?A2, ?A3, ?A4, ?Hlen, Nat2N.id;
    try (destruct (m_has_labels m')); try (destruct (m_has_labels m)); try (destruct (m_has_first m')); try (destruct (m_has_first m));
    try (destruct (m_has_stamps m')); try (destruct (m_has_stamps m)); try (destruct (m_has_colors m')); try (destruct (m_has_colors m)); lia.
Qed.
Print Assumptions C64_round_trip.

(** C64: faces.  A matrix without three rows is refused; otherwise its columns become the faces
    and nothing else changes. *)
Theorem C64_write_faces : forall m p,
  (cs_rows p <> 3 -> set_faces m p = Throw) /\
  (has_rows 3 p -> exists m', set_faces m p = Ok m' /\ same_config m m' /\ mesh_num_vertices m' = mesh_num_vertices m /\
     (forall i, vertex m' i = vertex m i) /\ mesh_num_faces m' = N.of_nat (length (cs_cols p)) /\
     forall i a b c, cs_cols p !! i = Some [a; b; c] -> mesh_face m' (N.of_nat i) = Ok (mkFace (to_size a) (to_size b) (to_size c))).
Proof.
  intros m p. split.
  - intros H. unfold set_faces. rewrite (proj2 (N.eqb_neq _ _) H). reflexivity.
  - intros [H3 HC]. rewrite (set_faces_eq p m H3 HC). eexists. split; [reflexivity|]. split; [repeat split|]. split; [reflexivity|]. split; [reflexivity|].
    split; [unfold mesh_num_faces, with_faces; cbn [m_faces]; rewrite map_length; reflexivity|].
    intros i a b c Hi. unfold mesh_face, with_faces. cbn [m_faces]. apply vat_some.
    change (map face_of (cs_cols p)) with (face_of <$> cs_cols p). rewrite list_lookup_fmap, Hi. reflexivity.
Qed.
Print Assumptions C64_write_faces.
(** Faces read from one mesh and written to another (or the same) are the same faces, if the
    indices are below 2^31. *)
Theorem C64_faces_round_trip : forall m m2, (forall f c, f ∈ m_faces m -> c ∈ corners f -> c < 2 ^ 31) ->
  exists p m', get_faces m = Ok p /\ has_rows 3 p /\ N.of_nat (length (cs_cols p)) = mesh_num_faces m /\
    (forall i f, mesh_face m (N.of_nat i) = Ok f -> cs_cols p !! i = Some (map Z.of_N (corners f))) /\
    set_faces m2 p = Ok m' /\ m_faces m' = m_faces m.
Proof.
  intros m m2 H. exists (mkColumns 3 (map fcol (m_faces m))). rewrite get_faces_eq.
  assert (H3 : forall c, c ∈ map fcol (m_faces m) -> length c = 3%nat).
  { intros c Hc. apply elem_of_list_In, in_map_iff in Hc as (f & <- & _). reflexivity. }
  assert (W : forall x, x < 2 ^ 31 -> wrap_signed 32 (Z.of_N x) = Z.of_N x).
  { intros x Hx. unfold wrap_signed. change (2 ^ (Z.of_N 32 - 1))%Z with 2147483648%Z. change (2 ^ Z.of_N 32)%Z with 4294967296%Z.
    change (2 ^ 31) with 2147483648 in Hx. rewrite Z.mod_small by lia. lia. }
  assert (K : forall f, f ∈ m_faces m -> f_0 f < 2 ^ 31 /\ f_1 f < 2 ^ 31 /\ f_2 f < 2 ^ 31).
  { intros f Hf. repeat split; apply (H f _ Hf); unfold corners; rewrite !elem_of_cons; auto. }
  eexists. split; [reflexivity|]. split; [split; [reflexivity|exact H3]|]. split; [cbn [cs_cols]; rewrite map_length; reflexivity|].
  split; [|split; [apply (set_faces_eq (mkColumns 3 (map fcol (m_faces m))) m2 eq_refl H3)|]].
  - intros i f Hf. unfold mesh_face in Hf. apply vat_Ok in Hf. rewrite Nat2N.id in Hf. cbn [cs_cols].
    change (map fcol (m_faces m)) with (fcol <$> m_faces m). rewrite list_lookup_fmap, Hf. cbn. unfold fcol.
    destruct (K f) as (K1 & K2 & K3); [eapply elem_of_list_lookup_2; exact Hf|]. rewrite !W by assumption. reflexivity.
  - cbn [m_faces with_faces cs_cols]. rewrite map_map. rewrite <- (map_id (m_faces m)) at 2. apply map_ext_in. intros f Hf.
    apply elem_of_list_In in Hf. destruct (K f Hf) as (K1 & K2 & K3). unfold face_of, fcol. cbn [nth]. rewrite !index_back by assumption. destruct f; reflexivity.
Qed.
Print Assumptions C64_faces_round_trip.
(** Larger indices wrap around. *)
Theorem C64_large_index_refuted : exists m p m', mesh_reachable m /\ m_faces m = [mkFace 0 1 (2 ^ 31)] /\
  get_faces m = Ok p /\ set_faces m p = Ok m' /\ m_faces m' = [mkFace 0 1 (2 ^ 64 - 2 ^ 31)].
Proof.
  exists (fold_left (fun m o => match mesh_step m o with Ok m' => m' | _ => m end) [MResizeFaces 1; MSetFace 0 (mkFace 0 1 (2 ^ 31))] (mesh_new true true true false)).
  do 2 eexists. split; [apply mesh_run_reachable; constructor|]. split; [vm_compute; reflexivity|]. split; [vm_compute; reflexivity|].
  split; [vm_compute; reflexivity|]. vm_compute. reflexivity.
Qed.
Print Assumptions C64_large_index_refuted.
(** The alpha value does not survive, and faces are not adapted when vertices go. *)
Theorem C64_alpha_refuted : exists p m', mesh_reachable ex_mesh /\ get_vertices ex_mesh = Ok p /\ set_vertices ex_mesh p = Ok m' /\
  mesh_color ex_mesh 3 = Ok (mkColor 1 2 3 4) /\ mesh_color m' 3 = Ok (mkColor 1 2 3 255).
Proof.
  do 2 eexists. split; [apply mesh_run_reachable; constructor|]. split; [vm_compute; reflexivity|]. split; [vm_compute; reflexivity|].
  split; vm_compute; reflexivity.
Qed.
Print Assumptions C64_alpha_refuted.
Theorem C64_dangling_faces_refuted : exists m', mesh_reachable ex_mesh /\ valid_faces ex_mesh /\
  set_vertices ex_mesh (mkColumns 6 [[0; 0; 0; 0; 0; 0]]) = Ok m' /\ ~ valid_faces m'.
Proof.
  eexists. split; [apply C43_case|]. split; [apply C43_case|]. split; [vm_compute; reflexivity|].
  intros H. specialize (H (mkFace 0 1 2) 2). unfold mesh_num_vertices in H. cbn in H.
  assert (2 < 1) as K; [|lia]. apply H; [left|]. unfold corners. rewrite !elem_of_cons. auto.
Qed.
Print Assumptions C64_dangling_faces_refuted.
Example C64_case : mesh_reachable ex_mesh /\ plain_mesh ex_mesh /\ (exists p, get_vertices ex_mesh = Ok p /\ length (cs_cols p) = 5%nat /\
    cs_cols p !! 3%nat = Some [float_to_double 7; float_to_double 8; float_to_double 9; channel_out 1; channel_out 2; channel_out 3]) /\
  (forall f c, f ∈ m_faces ex_mesh -> c ∈ corners f -> c < 2 ^ 31) /\
  channel_in (bits_of_double (Floats.SpecFloat.binary_normalize 53 1024 1 0 false)) = Ok 255 /\
  channel_in (bits_of_double (Floats.SpecFloat.binary_normalize 53 1024 1 (-1) false)) = Ok 127 /\
  channel_in (bits_of_double (Floats.SpecFloat.binary_normalize 53 1024 2 0 false)) = UB.
Proof.
  split; [apply C43_case|]. split; [|split; [|split; [|vm_compute; auto]]].
  - assert (B : forallb (fun c => (c_r c <? 256) && (c_g c <? 256) && (c_b c <? 256)) (m_colors ex_mesh) = true) by (vm_compute; reflexivity).
    assert (P : forallb (fun p => forallb (fun v => (v <? 2 ^ 32) && negb ((v / 2 ^ 23) mod 2 ^ 8 =? 255)) [v_x p; v_y p; v_z p]) (m_points ex_mesh) = true) by (vm_compute; reflexivity).
    split.
    + intros i c Hc. unfold mesh_color in Hc. apply vat_Ok, elem_of_list_lookup_2, elem_of_list_In in Hc.
      pose proof (proj1 (forallb_forall _ _) B c Hc) as K. cbv beta in K. rewrite !andb_true_iff, !N.ltb_lt in K. unfold is_byte_color. tauto.
    + intros i p Hc. unfold mesh_pos in Hc. apply vat_Ok, elem_of_list_lookup_2, elem_of_list_In in Hc.
      pose proof (proj1 (forallb_forall _ _) P p Hc) as K. cbv beta in K. cbn [forallb] in K. rewrite !andb_true_iff, !negb_true_iff, !N.ltb_lt, !N.eqb_neq in K.
      unfold finite_pos, finite_float. tauto.
  - eexists. split; [vm_compute; reflexivity|]. split; vm_compute; reflexivity.
  - intros f c Hf Hc. assert (c < mesh_num_vertices ex_mesh) as K by (eapply C43_case; eassumption).
    assert (mesh_num_vertices ex_mesh = 5) as E by (vm_compute; reflexivity). rewrite E in K. change (2 ^ 31) with 2147483648. lia.
Qed.

(* ------------------------------------------------------------------ *)
(** C65: Mesh::transform changes the positions and nothing else; every position becomes its
    image. *)
Theorem C65_only_positions : forall m r t, let m' := mesh_transform m r t in
  same_config m m' /\ mesh_num_vertices m' = mesh_num_vertices m /\ m_faces m' = m_faces m /\
  forall i, mesh_color m' i = mesh_color m i /\ mesh_stamp m' i = mesh_stamp m i /\ mesh_first m' i = mesh_first m i /\
    mesh_label m' i = mesh_label m i /\
    mesh_pos m' i = rmap (fun p => let q := transform_point binary32 r t (mkV3 (sf_of_bits (v_x p)) (sf_of_bits (v_y p)) (sf_of_bits (v_z p))) in
                                   mkVec3 (bits_of_sf (vx q)) (bits_of_sf (vy q)) (bits_of_sf (vz q))) (mesh_pos m i).
Proof.
  intros m r t m'. split; [repeat split|]. split; [unfold mesh_num_vertices, m', mesh_transform; cbn [m_points]; rewrite map_length; reflexivity|].
  split; [reflexivity|]. intros i. do 4 (split; [reflexivity|]). unfold mesh_pos, m', mesh_transform. cbn [m_points]. rewrite !vat_eq.
  change (map ?f (m_points m)) with (f <$> m_points m). rewrite list_lookup_fmap. destruct (m_points m !! _); reflexivity.
Qed.
Print Assumptions C65_only_positions.
(** In exact arithmetic: the image is the turned and shifted point, distances are kept, and the
    inverse motion (transposed matrix, translation -(R^T t)) undoes it. *)
Theorem C65_rigid : forall sq (r : M3 Q) (t p q : V3 Q), rotation r ->
  let f := transform_point (exact sq) r t in
  let back := transform_point (exact sq) (transposed r) (negated (rotate (transposed r) t)) in
  same_point (f p) (moved r t p) /\ (dist2 (f p) (f q) == dist2 p q)%Q /\ same_point (back (f p)) p /\ same_point (f (back p)) p.
Proof.
  intros sq [[a b c] [d e g] [h i j]] [t1 t2 t3] [p1 p2 p3] [q1 q2 q3] [HR HC].
  destruct HR as (R1 & R2 & R3 & R4 & R5 & R6). destruct HC as (C1 & C2 & C3 & C4 & C5 & C6).
  unfold orthonormal, column, dot in *. cbn [vx vy vz mx my mz] in *. cbv zeta.
  unfold transform_point, v_add, m_apply, v_dot, moved, shift, rotate, dist2, same_point, transposed, negated, column, dot.
  cbn [vx vy vz mx my mz exact a_add a_mul].
  split; [repeat split; ring|]. split; [|split].
  - set (x := (p1 - q1)%Q). set (y := (p2 - q2)%Q). set (z := (p3 - q3)%Q).
    transitivity (x * x * (a * a + d * d + h * h) + y * y * (b * b + e * e + i * i) + z * z * (c * c + g * g + j * j)
       + 2 * x * y * (a * b + d * e + h * i) + 2 * x * z * (a * c + d * g + h * j) + 2 * y * z * (b * c + e * g + i * j))%Q;
      [unfold x, y, z; ring|]. rewrite C1, C2, C3, C4, C5, C6. unfold x, y, z. ring.
  - repeat split.
    + transitivity (p1 * (a * a + d * d + h * h) + p2 * (a * b + d * e + h * i) + p3 * (a * c + d * g + h * j))%Q; [ring|]. rewrite C1, C4, C5. ring.
    + transitivity (p1 * (a * b + d * e + h * i) + p2 * (b * b + e * e + i * i) + p3 * (b * c + e * g + i * j))%Q; [ring|]. rewrite C2, C4, C6. ring.
    + transitivity (p1 * (a * c + d * g + h * j) + p2 * (b * c + e * g + i * j) + p3 * (c * c + g * g + j * j))%Q; [ring|]. rewrite C3, C5, C6. ring.
  - repeat split.
    + transitivity ((p1 - t1) * (a * a + b * b + c * c) + (p2 - t2) * (a * d + b * e + c * g) + (p3 - t3) * (a * h + b * i + c * j) + t1)%Q; [ring|]. rewrite R1, R4, R5. ring.
    + transitivity ((p1 - t1) * (a * d + b * e + c * g) + (p2 - t2) * (d * d + e * e + g * g) + (p3 - t3) * (d * h + e * i + g * j) + t2)%Q; [ring|]. rewrite R2, R4, R6. ring.
    + transitivity ((p1 - t1) * (a * h + b * i + c * j) + (p2 - t2) * (d * h + e * i + g * j) + (p3 - t3) * (h * h + i * i + j * j) + t3)%Q; [ring|]. rewrite R3, R5, R6. ring.
Qed.
Print Assumptions C65_rigid.
(** In single precision the inverse motion need not lead back: 1 + 2^25 - 2^25 is 0. *)
Definition unit_turn : M3 (num binary32) := m_id binary32.
Definition along_x (z : Z) : V3 (num binary32) := mkV3 (f32_of_Z z) (f32_of_Z 0) (f32_of_Z 0).
Definition at_one : Mesh :=
  fold_left (fun m o => match mesh_step m o with Ok m' => m' | _ => m end)
    [MResizeVertices 1; MSetPos 0 (mkVec3 1065353216 0 0)] (mesh_new true true true false).
Theorem C65_rounding_refuted : mesh_reachable at_one /\
  mesh_pos (mesh_transform (mesh_transform at_one unit_turn (along_x (2 ^ 25))) unit_turn (along_x (- 2 ^ 25))) 0 = Ok (mkVec3 0 0 0) /\
  mesh_pos (mesh_transform (mesh_transform at_one unit_turn (along_x (2 ^ 10))) unit_turn (along_x (- 2 ^ 10))) 0 = Ok (mkVec3 1065353216 0 0).
Proof. split; [apply mesh_run_reachable; constructor|]. split; vm_compute; reflexivity. Qed.
Print Assumptions C65_rounding_refuted.
Example C65_case :
  let r := (mkM3 (mkV3 (3#5) (-4#5) 0) (mkV3 (4#5) (3#5) 0) (mkV3 0 0 1))%Q in
  rotation r /\ same_point (transform_point (exact (fun x => x)) r (mkV3 1 2 3)%Q (mkV3 5 0 1)%Q) (mkV3 4 6 4)%Q.
Proof. cbv zeta. unfold rotation, orthonormal, same_point. repeat split. Qed.
