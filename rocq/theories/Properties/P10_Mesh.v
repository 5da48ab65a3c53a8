(** C43, C44: meshes. *)
From Coq Require Import NArith ZArith Bool List Lia Sorting.
From stdpp Require Import base list gmap fin_sets.
From Verif.Model Require Import Types Mesh.
From Verif.Spec Require Import MeshSpec.
From Verif.Proof Require Import ViewP MeshP.
Local Open Scope N_scope.

Definition keeps (kept : list N) (f : Face) : bool := forallb (fun c => bool_decide (c ∈ kept)) (corners f).

Lemma renumbered_valid kept fs fs' f' c : Forall2 (renumbered kept) fs fs' -> f' ∈ fs' -> c ∈ corners f' -> c < N.of_nat (length kept).
Proof.
  intros HF Hf Hc. apply elem_of_list_lookup in Hf as [i Hi]. destruct (Forall2_lookup_r _ _ _ _ _ HF Hi) as (f & _ & HR).
  apply elem_of_list_lookup in Hc as [j Hj]. destruct (Forall2_lookup_r _ _ _ _ _ HR Hj) as (o & _ & Ho).
  apply lookup_lt_Some in Ho. lia.
Qed.

(** C43: eraseVertices keeps exactly the vertices not named, in order and with all their
    per-vertex data, keeps exactly the faces all of whose corners survive, in order, renumbered
    to the same vertices, and every remaining face is valid. *)
Theorem C43_erase_vertices : forall m s, mesh_reachable m -> (size s <= length (m_points m))%nat ->
  exists m', mesh_erase_vertices m s = Ok m' /\ same_config m m' /\
    let kept := survivors s (mesh_num_vertices m) in
    mesh_num_vertices m' = N.of_nat (length kept) /\
    (forall j i, kept !! j = Some i -> vertex m' (N.of_nat j) = vertex m i) /\
    Forall2 (renumbered kept) (List.filter (keeps kept) (m_faces m)) (m_faces m') /\
    valid_faces m'.
Proof.
  intros m s Hr Hs. pose proof (erase_vertices_ok m s (mesh_reachable_ok m Hr)) as H.
  replace (length (m_points m) <? size s)%nat with false in H by (symmetry; apply Nat.ltb_ge; exact Hs).
  destruct H as (m' & E & _ & Hc & Hl & Hv & Hf). exists m'. split; [exact E|]. split; [exact Hc|].
  cbn zeta. rewrite surv_survivors. unfold mesh_num_vertices. rewrite Nat2N.id, Hl. split; [reflexivity|]. split; [exact Hv|].
  split; [exact Hf|]. intros f c H1 H2. unfold mesh_num_vertices. rewrite Hl. exact (renumbered_valid _ _ _ f c Hf H1 H2).
Qed.
Print Assumptions C43_erase_vertices.
(** Naming more indices than there are vertices: the reserve() of a negative size throws and
    nothing is changed. *)
Theorem C43_too_many_indices_throw : forall m s,
  (length (m_points m) < size s)%nat -> mesh_erase_vertices m s = Throw.
Proof. intros m s H. unfold mesh_erase_vertices. rewrite (proj2 (Nat.ltb_lt _ _) H). reflexivity. Qed.
Print Assumptions C43_too_many_indices_throw.

(** C43: eraseFaces without vertex update removes exactly the named faces and nothing else;
    with it, exactly the vertices no remaining face uses disappear. *)
Theorem C43_erase_faces : forall m s, mesh_reachable m -> (size s <= length (m_faces m))%nat ->
  (exists m', mesh_erase_faces m s false = Ok m' /\ same_config m m' /\ mesh_num_vertices m' = mesh_num_vertices m /\
     (forall i, vertex m' i = vertex m i) /\ m_faces m' = remaining_faces s m) /\
  (valid_faces m -> exists m' kept, mesh_erase_faces m s true = Ok m' /\ same_config m m' /\
     (forall i, i ∈ kept <-> exists f, f ∈ remaining_faces s m /\ i ∈ corners f) /\
     StronglySorted N.lt kept /\
     mesh_num_vertices m' = N.of_nat (length kept) /\
     (forall j i, kept !! j = Some i -> vertex m' (N.of_nat j) = vertex m i) /\
     Forall2 (renumbered kept) (remaining_faces s m) (m_faces m') /\ valid_faces m').
Proof.
  intros m s Hr Hs. pose proof (mesh_reachable_ok m Hr) as Hok. rewrite !erase_faces_eq.
  rewrite (proj2 (Nat.ltb_ge _ _) Hs). cbn zeta. split.
  - eexists. split; [reflexivity|]. split; [repeat split|]. split; [reflexivity|]. split; reflexivity.
  - intros HV. set (fs := remaining_faces s m).
    assert (forall f, f ∈ fs -> f ∈ m_faces m) as Hsub.
    { intros f Hf. apply elem_of_list_omap in Hf as (i & _ & Hi). apply elem_of_list_lookup_2 in Hi. exact Hi. }
    pose proof (erase_vertices_ok (with_faces m fs) (unused m fs) (with_faces_ok m fs Hok)) as H. cbn [m_points with_faces] in H.
    rewrite unused_size in H. destruct H as (m' & E & _ & Hc & Hl & Hv & Hf). cbn [m_faces with_faces] in Hf.
    set (kept := surv (unused m fs) 0 (length (m_points m))) in *.
    assert (forall i, i ∈ kept <-> exists f, f ∈ fs /\ i ∈ corners f) as Hk.
    { intros i. unfold kept. rewrite elem_surv, elem_unused. split.
      - intros [H1 H2]. destruct (decide (Exists (fun f => i ∈ corners f) fs)) as [K|K].
        + apply list.Exists_exists in K. exact K.
        + exfalso. apply H2. split; [lia|]. intros (f & H3 & H4). apply K, list.Exists_exists. eauto.
      - intros (f & H1 & H2). pose proof (HV f i (Hsub f H1) H2) as H3. unfold mesh_num_vertices in H3. split; [lia|]. intros [_ K]. apply K. eauto. }
    exists m', kept. split; [exact E|]. split; [exact Hc|]. split; [exact Hk|]. split.
    + unfold kept, surv. apply ViewP.filter_sorted. generalize (length (m_points m)) as n.
      intros n. assert (forall a, StronglySorted N.lt (map (fun x => 0 + N.of_nat x) (seq a n))) as H; [|apply H]. clear.
      induction n as [|n IH]; intros a; cbn [seq map]; constructor; [apply IH|]. apply List.Forall_forall. intros x Hx.
      apply in_map_iff in Hx as (y & <- & Hy). apply in_seq in Hy. lia.
    + unfold mesh_num_vertices. rewrite Hl. split; [reflexivity|]. split; [exact Hv|].
      assert (List.filter (survive kept) fs = fs) as Hall.
      { assert (forall f, f ∈ fs -> survive kept f = true) as K.
        { intros f Hf'. unfold survive. apply forallb_forall. intros c Hc'. apply bool_decide_eq_true, Hk. exists f. split; [exact Hf'|]. apply elem_of_list_In, Hc'. }
        clear -K. clearbody kept. clearbody fs. induction fs as [|f fs IH]; [reflexivity|]. cbn [List.filter]. rewrite K by (apply elem_of_cons; auto). f_equal. apply IH.
        intros g Hg. apply K, elem_of_cons. auto. }
      rewrite Hall in Hf. split; [exact Hf|]. intros f c H1 H2. unfold mesh_num_vertices. rewrite Hl. exact (renumbered_valid _ _ _ f c Hf H1 H2).
Qed.
Print Assumptions C43_erase_faces.

(** A non-trivial case: a strip of three faces over five coloured vertices. *)
Definition ex_mesh_ops : list mop :=
  [ MResizeVertices 5; MResizeFaces 3; MSetFace 0 (mkFace 0 1 2); MSetFace 1 (mkFace 1 2 3); MSetFace 2 (mkFace 2 3 4);
    MSetPos 3 (mkVec3 7 8 9); MSetColor 3 (mkColor 1 2 3 4); MSetLabel 4 42; MSetStamp 2 77 ].
Definition ex_mesh : Mesh :=
  fold_left (fun m o => match mesh_step m o with Ok m' => m' | _ => m end) ex_mesh_ops (mesh_new true true true false).
Lemma mesh_run_reachable os : forall m, mesh_reachable m ->
  mesh_reachable (fold_left (fun m o => match mesh_step m o with Ok m' => m' | _ => m end) os m).
Proof.
  induction os as [|o os IH]; intros m Hm; [exact Hm|]. cbn [fold_left]. apply IH. destruct (mesh_step m o) eqn:E; try exact Hm.
  econstructor; eassumption.
Qed.
Theorem C43_case : mesh_reachable ex_mesh /\ valid_faces ex_mesh /\ (size ({[1%N]} : gset N) <= length (m_points ex_mesh))%nat /\
  rmap m_faces (mesh_erase_vertices ex_mesh {[1]}) = Ok [mkFace 1 2 3] /\
  rmap m_faces (mesh_erase_faces ex_mesh {[0; 1]} true) = Ok [mkFace 0 1 2] /\
  rmap m_labels (mesh_erase_faces ex_mesh {[0; 1]} true) = Ok [0; 0; 42] /\
  rmap m_stamps (mesh_erase_faces ex_mesh {[0; 1]} true) = Ok [77; 0; 0].
Proof.
  split; [apply mesh_run_reachable; constructor|]. split.
  - intros f c Hf Hc. apply elem_of_list_In in Hf. apply elem_of_list_In in Hc.
    assert (forallb (fun f => forallb (fun c => c <? mesh_num_vertices ex_mesh) (corners f)) (m_faces ex_mesh) = true) as H by (vm_compute; reflexivity).
    rewrite forallb_forall in H. specialize (H f Hf). rewrite forallb_forall in H. specialize (H c Hc). apply N.ltb_lt, H.
  - split; [vm_compute; lia|]. split; [|split; [|split]]; vm_compute; reflexivity.
Qed.

(** C44: in every mesh built through the interface each enabled per-vertex array has one entry
    per vertex and the disabled ones are empty: an accessor succeeds exactly on the vertices of
    the mesh for an enabled array, and never for a disabled one. *)
Definition present {A} (r : result A) : Prop := exists x, r = Ok x.
Theorem C44_accessors_match_configuration : forall m, mesh_reachable m -> forall i,
  (present (mesh_pos m i) <-> i < mesh_num_vertices m) /\
  (present (mesh_color m i) <-> m_has_colors m = true /\ i < mesh_num_vertices m) /\
  (present (mesh_stamp m i) <-> m_has_stamps m = true /\ i < mesh_num_vertices m) /\
  (present (mesh_first m i) <-> m_has_first m = true /\ i < mesh_num_vertices m) /\
  (present (mesh_label m i) <-> m_has_labels m = true /\ i < mesh_num_vertices m) /\
  (present (mesh_face m i) <-> i < mesh_num_faces m) /\
  mesh_pos m i <> UB /\ mesh_color m i <> UB /\ mesh_stamp m i <> UB /\ mesh_first m i <> UB /\ mesh_label m i <> UB /\ mesh_face m i <> UB.
Proof.
  intros m Hr i. destruct (mesh_reachable_ok m Hr) as [H1 H2 H3 H4]. unfold aligned in *.
  assert (forall A (l : list A), present (vat l i) <-> i < N.of_nat (length l)) as P.
  { intros A l. unfold present. rewrite vat_eq. destruct (l !! N.to_nat i) eqn:E.
    - apply lookup_lt_Some in E. split; [lia|eauto].
    - apply lookup_ge_None_1 in E. split; [intros [x K]; discriminate|lia]. }
  assert (forall A (l : list A), vat l i <> UB) as U by (intros A l; rewrite vat_eq; destruct (l !! N.to_nat i); discriminate).
  unfold mesh_pos, mesh_color, mesh_stamp, mesh_first, mesh_label, mesh_face, mesh_num_vertices, mesh_num_faces.
  rewrite !P, H1, H2, H3, H4. destruct (m_has_colors m), (m_has_stamps m), (m_has_first m), (m_has_labels m).
  all: split; [reflexivity|]; split; [split; [intros; split; [reflexivity|lia]|lia] || (split; [lia|intros [? _]; discriminate])|].
  all: split; [split; [intros; split; [reflexivity|lia]|lia] || (split; [lia|intros [? _]; discriminate])|].
  all: split; [split; [intros; split; [reflexivity|lia]|lia] || (split; [lia|intros [? _]; discriminate])|].
  all: split; [split; [intros; split; [reflexivity|lia]|lia] || (split; [lia|intros [? _]; discriminate])|].
  all: split; [reflexivity|]; split; [apply U|]; split; [apply U|]; split; [apply U|]; split; [apply U|]; split; apply U.
Qed.
Print Assumptions C44_accessors_match_configuration.

(** C44: a write through a setter is what the getter then returns; every other vertex, every
    other attribute and all faces are unchanged.  An index out of range throws (and the mesh
    stays as it was, see [mesh_step]). *)
Definition others_kept (m m' : Mesh) (i : N) : Prop :=
  same_config m m' /\ mesh_num_vertices m' = mesh_num_vertices m /\ mesh_num_faces m' = mesh_num_faces m /\
  forall j, j <> i -> vertex m' j = vertex m j /\ mesh_face m' j = mesh_face m j.
Theorem C44_write_then_read : forall m i,
  (forall p m', mesh_set_pos m i p = Ok m' -> others_kept m m' i /\
     vertex m' i = (Ok p, mesh_color m i, mesh_stamp m i, mesh_first m i, mesh_label m i) /\ mesh_face m' i = mesh_face m i) /\
  (forall c m', mesh_set_color m i c = Ok m' -> others_kept m m' i /\
     vertex m' i = (mesh_pos m i, Ok c, mesh_stamp m i, mesh_first m i, mesh_label m i) /\ mesh_face m' i = mesh_face m i) /\
  (forall t m', mesh_set_stamp m i t = Ok m' -> others_kept m m' i /\
     vertex m' i = (mesh_pos m i, mesh_color m i, Ok t, mesh_first m i, mesh_label m i) /\ mesh_face m' i = mesh_face m i) /\
  (forall t m', mesh_set_first m i t = Ok m' -> others_kept m m' i /\
     vertex m' i = (mesh_pos m i, mesh_color m i, mesh_stamp m i, Ok t, mesh_label m i) /\ mesh_face m' i = mesh_face m i) /\
  (forall t m', mesh_set_label m i t = Ok m' -> others_kept m m' i /\
     vertex m' i = (mesh_pos m i, mesh_color m i, mesh_stamp m i, mesh_first m i, Ok t) /\ mesh_face m' i = mesh_face m i) /\
  (forall f m', mesh_set_face m i f = Ok m' -> others_kept m m' i /\ vertex m' i = vertex m i /\ mesh_face m' i = Ok f).
Proof.
  intros m i. unfold others_kept, same_config, vertex, mesh_pos, mesh_color, mesh_stamp, mesh_first, mesh_label, mesh_face, mesh_num_vertices, mesh_num_faces.
  unfold mesh_set_pos, mesh_set_color, mesh_set_stamp, mesh_set_first, mesh_set_label, mesh_set_face.
  repeat match goal with |- _ /\ _ => split end.
  all: intros a m'; destruct (vset _ _ _) as [l| |] eqn:E; [|discriminate|discriminate]; intros [= <-].
  all: pose proof (vset_len _ _ _ _ E) as Hl; destruct (vset_get _ _ _ _ E) as [Hg Ho]; cbn [m_points m_colors m_stamps m_first m_labels m_faces m_has_colors m_has_stamps m_has_labels m_has_first].
  all: rewrite ?Hl, ?Hg; repeat split; intros; rewrite ?Ho by assumption; reflexivity.
Qed.
Print Assumptions C44_write_then_read.
Theorem C44_out_of_range_throws : forall m i,
  (mesh_num_vertices m <= i -> mesh_pos m i = Throw /\ forall p, mesh_set_pos m i p = Throw) /\
  (N.of_nat (length (m_colors m)) <= i -> mesh_color m i = Throw /\ forall c, mesh_set_color m i c = Throw) /\
  (N.of_nat (length (m_stamps m)) <= i -> mesh_stamp m i = Throw /\ forall c, mesh_set_stamp m i c = Throw) /\
  (N.of_nat (length (m_first m)) <= i -> mesh_first m i = Throw /\ forall c, mesh_set_first m i c = Throw) /\
  (N.of_nat (length (m_labels m)) <= i -> mesh_label m i = Throw /\ forall c, mesh_set_label m i c = Throw) /\
  (mesh_num_faces m <= i -> mesh_face m i = Throw /\ forall f, mesh_set_face m i f = Throw).
Proof.
  intros m i. unfold mesh_num_vertices, mesh_num_faces, mesh_pos, mesh_color, mesh_stamp, mesh_first, mesh_label, mesh_face,
    mesh_set_pos, mesh_set_color, mesh_set_stamp, mesh_set_first, mesh_set_label, mesh_set_face, vat, vset.
  repeat match goal with |- _ /\ _ => split end; intros H; rewrite (proj2 (N.ltb_ge _ _) H); auto.
Qed.
Print Assumptions C44_out_of_range_throws.
(** C44: resizing keeps the surviving vertices and faces; new entries are default. *)
Theorem C44_resize : forall m n, mesh_reachable m ->
  let m' := mesh_resize_vertices n m in
  mesh_reachable m' /\ mesh_num_vertices m' = N.of_nat n /\ same_config m m' /\ m_faces m' = m_faces m /\
  forall i, i < mesh_num_vertices m -> i < N.of_nat n -> vertex m' i = vertex m i.
Proof.
  intros m n Hr. cbn zeta. split; [eapply mr_step with (o := MResizeVertices n); [exact Hr|reflexivity]|].
  split; [unfold mesh_num_vertices, mesh_resize_vertices, vresize; cbn; rewrite resize_length; reflexivity|].
  split; [repeat split|]. split; [reflexivity|]. intros i Hi Hn. destruct (mesh_reachable_ok m Hr) as [H1 H2 H3 H4]. unfold aligned, mesh_num_vertices in *.
  assert (forall A (l : list A) d, length l = length (m_points m) -> vat (vresize n d l) i = vat l i) as R.
  { intros A l d Hl. rewrite !vat_eq. unfold vresize. rewrite lookup_resize by lia. reflexivity. }
  unfold vertex, mesh_pos, mesh_color, mesh_stamp, mesh_first, mesh_label, mesh_resize_vertices. cbn [m_points m_colors m_stamps m_first m_labels].
  rewrite R by reflexivity. destruct (m_has_colors m), (m_has_stamps m), (m_has_first m), (m_has_labels m); rewrite ?R by assumption; reflexivity.
Qed.
Print Assumptions C44_resize.
Theorem C44_case : mesh_reachable ex_mesh /\ vertex ex_mesh 3 = (Ok (mkVec3 7 8 9), Ok (mkColor 1 2 3 4), Ok 0, Throw, Ok 0) /\
  mesh_pos ex_mesh 5 = Throw.
Proof. split; [apply mesh_run_reachable; constructor|]. vm_compute. auto. Qed.

(** C44: clear() leaves an empty mesh with the same configuration; empty() means no vertex and no face. *)
Theorem C44_clear : forall m, mesh_reachable m ->
  mesh_reachable (mesh_clear m) /\ same_config m (mesh_clear m) /\ mesh_num_vertices (mesh_clear m) = 0 /\ mesh_num_faces (mesh_clear m) = 0 /\
  mesh_empty (mesh_clear m) = true /\ (forall i, mesh_pos (mesh_clear m) i = Throw /\ mesh_face (mesh_clear m) i = Throw) /\
  (mesh_empty m = true <-> mesh_num_vertices m = 0 /\ mesh_num_faces m = 0).
Proof.
  intros m Hr. split; [exact (mr_step m MClear _ Hr eq_refl)|]. split; [repeat split|]. split; [reflexivity|]. split; [reflexivity|]. split; [reflexivity|].
  split; [intros i; unfold mesh_pos, mesh_face, vat; cbn [mesh_clear m_points m_faces length N.of_nat]; rewrite (proj2 (N.ltb_ge i 0)) by lia; split; reflexivity|]. unfold mesh_empty, mesh_num_vertices, mesh_num_faces.
  destruct (m_points m), (m_faces m); cbn; split; try discriminate; try (intros [? ?]; lia); auto.
Qed.
Print Assumptions C44_clear.
