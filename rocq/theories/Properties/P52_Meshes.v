(** C81: copies and moves of meshes. *)
From Coq Require Import NArith Bool List Lia.
From stdpp Require Import base list gmap fin_sets.
From Verif.Model Require Import Types Mesh Meshes.
From Verif.Model Require AttrCodec.
From Verif.Spec Require Import MeshSpec MeshesSpec.
From Verif.Spec Require AttrSpec.
From Verif.Proof Require Import ViewP MeshP.
From Verif.Proof Require AttrP.
From Verif.Properties Require Import P10_Mesh.
Local Open Scope N_scope.

Lemma mesh_copy_id m : mesh_copy m = m.
Proof. destruct m; reflexivity. Qed.
Lemma mesh_assign_id a b : mesh_assign a b = b.
Proof. destruct b; reflexivity. Qed.
Lemma moved_from_new m : mesh_moved_from m = mesh_new (m_has_colors m) (m_has_stamps m) (m_has_labels m) (m_has_first m).
Proof. reflexivity. Qed.
Lemma moved_from_emptied m : emptied (mesh_moved_from m) m.
Proof. repeat split. Qed.

Lemma step_frame h o h' x : heap_step h o = Ok h' -> x ∉ writes o -> h' !! x = h !! x.
Proof.
  destruct o as [z hc ht hl hf|z y|z y|z y|z y|z f]; cbn [heap_step writes]; intros H Hx;
    repeat (match type of H with context [match ?d with _ => _ end] => destruct d eqn:?; try discriminate end);
    rewrite ?not_elem_of_cons in Hx.
  - injection H as <-. rewrite lookup_insert_ne; [reflexivity|]. intros ->. tauto.
  - injection H as <-. rewrite lookup_insert_ne; [reflexivity|]. intros ->. tauto.
  - injection H as <-. rewrite !lookup_insert_ne; [reflexivity| |]; intros ->; tauto.
  - injection H as <-. rewrite lookup_insert_ne; [reflexivity|]. intros ->. tauto.
  - injection H as <-. rewrite !lookup_insert_ne; [reflexivity| |]; intros ->; tauto.
  - destruct (f m); cbn in H; try discriminate. injection H as <-. rewrite lookup_insert_ne; [reflexivity|]. intros ->. tauto.
Qed.
Lemma run_frame os : forall h h' x, heap_run h os = Ok h' -> (forall o, o ∈ os -> x ∉ writes o) -> h' !! x = h !! x.
Proof.
  induction os as [|o os IH]; intros h h' x H Hx; cbn [heap_run] in H; [congruence|].
  destruct (heap_step h o) as [h1| |] eqn:E; [| |discriminate].
  - rewrite (IH _ _ _ H); [|intros; apply Hx, elem_of_cons; auto]. apply (step_frame _ _ _ _ E), Hx, elem_of_cons; auto.
  - apply (IH _ _ _ H). intros; apply Hx, elem_of_cons; auto.
Qed.

Lemma step_reachable h o h' : interface o -> heap_step h o = Ok h' ->
  map_Forall (fun _ m => mesh_reachable m) h -> map_Forall (fun _ m => mesh_reachable m) h'.
Proof.
  intros Hi H Hh. destruct o as [z hc ht hl hf|z y|z y|z y|z y|z f]; cbn [heap_step interface] in *;
    repeat (match type of H with context [match ?d with _ => _ end] => destruct d eqn:?; try discriminate end).
  - injection H as <-. apply map_Forall_insert_2; [constructor|exact Hh].
  - injection H as <-. rewrite mesh_copy_id. apply map_Forall_insert_2; [eapply Hh; eassumption|exact Hh].
  - injection H as <-. rewrite mesh_copy_id. apply map_Forall_insert_2; [eapply Hh; eassumption|].
    apply map_Forall_insert_2; [rewrite moved_from_new; constructor|exact Hh].
  - injection H as <-. rewrite mesh_assign_id. apply map_Forall_insert_2; [eapply Hh; eassumption|exact Hh].
  - injection H as <-. rewrite mesh_assign_id. apply map_Forall_insert_2; [rewrite moved_from_new; constructor|].
    apply map_Forall_insert_2; [eapply Hh; eassumption|exact Hh].
  - destruct Hi as [op Hop]. rewrite Hop in H. destruct (mesh_step m op) eqn:E; cbn in H; try discriminate. injection H as <-.
    apply map_Forall_insert_2; [|exact Hh]. eapply mr_step; [|exact E]. eapply Hh; eassumption.
Qed.
Lemma run_reachable os : forall h h', (forall o, o ∈ os -> interface o) -> heap_run h os = Ok h' ->
  map_Forall (fun _ m => mesh_reachable m) h -> map_Forall (fun _ m => mesh_reachable m) h'.
Proof.
  induction os as [|o os IH]; intros h h' Hi H Hh; cbn [heap_run] in H; [injection H as <-; exact Hh|].
  destruct (heap_step h o) as [h1| |] eqn:E; [| |discriminate].
  - apply (IH h1); [intros; apply Hi, elem_of_cons; auto|exact H|].
    apply (step_reachable h o); [apply Hi, elem_of_cons; auto|exact E|exact Hh].
  - apply (IH h); [intros; apply Hi, elem_of_cons; auto|exact H|exact Hh].
Qed.

(** C81: whatever a program does with its meshes, every one of them (also one that was copied,
    assigned or moved from) is a mesh C43 and C44 speak of. *)
Theorem C81_every_object : forall os h x m, (forall o, o ∈ os -> interface o) -> heap_run ∅ os = Ok h -> h !! x = Some m ->
  mesh_reachable m.
Proof.
  intros os h x m Hi H Hx. refine (run_reachable os ∅ h Hi H _ x m Hx). apply map_Forall_empty.
Qed.
Print Assumptions C81_every_object.

(** C81: a program changes no object it neither assigns to, calls nor moves from, and makes
    none disappear. *)
Theorem C81_others : forall os h h' x, heap_run h os = Ok h' -> (forall o, o ∈ os -> x ∉ writes o) -> h' !! x = h !! x.
Proof. intros os h h' x. apply run_frame. Qed.
Print Assumptions C81_others.
Theorem C81_objects_stay : forall os h h' x, heap_run h os = Ok h' -> is_Some (h !! x) -> is_Some (h' !! x).
Proof.
  induction os as [|o os IH]; intros h h' x H Hx; cbn [heap_run] in H; [injection H as <-; exact Hx|].
  destruct (heap_step h o) as [h1| |] eqn:E; [| |discriminate]; [apply (IH h1); [exact H|]|apply (IH h); [exact H|exact Hx]].
  clear IH H. destruct o as [z hc ht hl hf|z y|z y|z y|z y|z f]; cbn [heap_step] in E;
    repeat (match type of E with context [match ?d with _ => _ end] => destruct d eqn:?; try discriminate end);
    try (destruct (f m); cbn in E; try discriminate); injection E as <-;
    repeat (rewrite lookup_insert_is_Some'; right); exact Hx.
Qed.
Print Assumptions C81_objects_stay.

(** C81: after a copy (clone, copy construction) or an assignment the left side has the value
    of the right side, configuration included, whatever it was before; nothing else changed.
    An assignment of an object to itself changes nothing. *)
Theorem C81_copy : forall h x y b, h !! y = Some b ->
  (h !! x = None -> exists h', heap_step h (HClone x y) = Ok h' /\ h' !! x = Some b /\ forall z, z <> x -> h' !! z = h !! z) /\
  (is_Some (h !! x) -> exists h', heap_step h (HAssign x y) = Ok h' /\ h' !! x = Some b /\ forall z, z <> x -> h' !! z = h !! z) /\
  heap_step h (HAssign y y) = Ok h.
Proof.
  intros h x y b Hy. split; [|split].
  - intros Hx. cbn [heap_step]. rewrite Hx, Hy. eexists. split; [reflexivity|]. rewrite mesh_copy_id, lookup_insert.
    split; [reflexivity|]. intros z Hz. apply lookup_insert_ne. congruence.
  - intros [a Hx]. cbn [heap_step]. rewrite Hx, Hy. eexists. split; [reflexivity|]. rewrite mesh_assign_id, lookup_insert.
    split; [reflexivity|]. intros z Hz. apply lookup_insert_ne. congruence.
  - cbn [heap_step]. rewrite Hy, mesh_assign_id, insert_id by exact Hy. reflexivity.
Qed.
Print Assumptions C81_copy.

(** C81: a copy and its original are independent: whatever is done later with the one (calls,
    assignments, moves), the other keeps the value of the moment of the copy. *)
Theorem C81_independent : forall os h h' x y b (mk : N -> N -> hop), mk = HClone \/ mk = HAssign -> h !! y = Some b ->
  heap_run h (mk x y :: os) = Ok h' ->
  ((forall o, o ∈ os -> x ∉ writes o) -> h' !! x = Some b) /\ ((forall o, o ∈ os -> y ∉ writes o) -> h' !! y = Some b).
Proof.
  intros os h h' x y b mk Hmk Hy H. cbn [heap_run] in H.
  assert (exists h1, heap_step h (mk x y) = Ok h1 /\ h1 !! x = Some b /\ h1 !! y = Some b) as (h1 & E & Hx1 & Hy1).
  { destruct Hmk as [-> | ->]; destruct (heap_step h _) as [h1| |] eqn:E; try discriminate H.
    - exists h1. cbn [heap_step] in E. destruct (h !! x) eqn:Ex; [discriminate|]. rewrite Hy in E. injection E as <-. rewrite mesh_copy_id, lookup_insert.
      split; [reflexivity|]. split; [reflexivity|]. destruct (decide (x = y)) as [->|N]; [apply lookup_insert|rewrite lookup_insert_ne by exact N; exact Hy].
    - cbn [heap_step] in E. destruct (h !! x); rewrite ?Hy in E; discriminate.
    - exists h1. cbn [heap_step] in E. destruct (h !! x) eqn:Ex; [|discriminate]. rewrite Hy in E. injection E as <-. rewrite mesh_assign_id, lookup_insert.
      split; [reflexivity|]. split; [reflexivity|]. destruct (decide (x = y)) as [->|N]; [apply lookup_insert|rewrite lookup_insert_ne by exact N; exact Hy].
    - cbn [heap_step] in E. destruct (h !! x); rewrite ?Hy in E; discriminate. }
  rewrite E in H. split; intros Ho; rewrite (run_frame _ _ _ _ H Ho); assumption.
Qed.
Print Assumptions C81_independent.

Lemma f32_self v : AttrCodec.f32_eqb v v = true <-> AttrSpec.number32 v.
Proof.
  unfold AttrSpec.number32, AttrCodec.f32_eqb, AttrCodec.f_eqb. rewrite <- AttrP.f_nan_spec, N.eqb_refl. destruct (AttrCodec.f_nan 8 23 v); cbn; split; congruence.
Qed.
Lemma points_self l : AttrCodec.all2 (AttrCodec.vec3_eqb AttrCodec.f32_eqb) l l = true <-> Forall (AttrSpec.vec_numbers AttrSpec.number32) l.
Proof.
  induction l as [|v l IH]; cbn [AttrCodec.all2]; [split; [constructor|reflexivity]|].
  rewrite Forall_cons, andb_true_iff, IH. unfold AttrCodec.vec3_eqb, AttrSpec.vec_numbers. rewrite !andb_true_iff, !f32_self. tauto.
Qed.
Lemma mesh_self m : AttrCodec.mesh_eqb m m = true <-> Forall (AttrSpec.vec_numbers AttrSpec.number32) (m_points m).
Proof.
  unfold AttrCodec.mesh_eqb. rewrite !andb_true_iff, !bool_decide_eq_true, !eqb_true_iff, points_self. tauto.
Qed.
(** C81: until one of the two is written to, operator== holds between a copy and its original
    exactly if no coordinate of a vertex is a NaN. *)
Theorem C81_copies_compare_equal : forall os h h' x y b (mk : N -> N -> hop), mk = HClone \/ mk = HAssign -> h !! y = Some b ->
  heap_run h (mk x y :: os) = Ok h' -> (forall o, o ∈ os -> x ∉ writes o /\ y ∉ writes o) ->
  exists m m', h' !! x = Some m /\ h' !! y = Some m' /\
    (AttrCodec.mesh_eqb m m' = true <-> Forall (AttrSpec.vec_numbers AttrSpec.number32) (m_points b)).
Proof.
  intros os h h' x y b mk Hmk Hy H Ho. destruct (C81_independent os h h' x y b mk Hmk Hy H) as [H1 H2].
  exists b, b. split; [apply H1; intros o Hin; apply Ho, Hin|]. split; [apply H2; intros o Hin; apply Ho, Hin|].
  apply mesh_self.
Qed.
Print Assumptions C81_copies_compare_equal.

(** C81: a move gives the left side the value of the right side, and leaves the right side as an
    empty mesh with its configuration, ready for use. *)
Theorem C81_move : forall h x y b, x <> y -> h !! y = Some b ->
  (h !! x = None -> exists h' m, heap_step h (HConsume x y) = Ok h' /\ h' !! x = Some b /\ h' !! y = Some m /\ emptied m b /\
                      forall z, z <> x -> z <> y -> h' !! z = h !! z) /\
  (is_Some (h !! x) -> exists h' m, heap_step h (HMove x y) = Ok h' /\ h' !! x = Some b /\ h' !! y = Some m /\ emptied m b /\
                      forall z, z <> x -> z <> y -> h' !! z = h !! z).
Proof.
  intros h x y b N Hy. split.
  - intros Hx. cbn [heap_step]. rewrite Hx, Hy. eexists _, _. split; [reflexivity|]. rewrite mesh_copy_id, lookup_insert.
    split; [reflexivity|]. rewrite lookup_insert_ne, lookup_insert by exact N. split; [reflexivity|]. split; [apply moved_from_emptied|].
    intros z H1 H2. rewrite !lookup_insert_ne by congruence. reflexivity.
  - intros [a Hx]. cbn [heap_step]. rewrite Hx, Hy. eexists _, _. split; [reflexivity|]. rewrite mesh_assign_id.
    rewrite lookup_insert_ne, lookup_insert by congruence. split; [reflexivity|]. rewrite lookup_insert. split; [reflexivity|]. split; [apply moved_from_emptied|].
    intros z H1 H2. rewrite !lookup_insert_ne by congruence. reflexivity.
Qed.
Print Assumptions C81_move.

(** C81: std::swap (a third object that takes the first, and two move assignments) exchanges
    two meshes, configurations included. *)
Theorem C81_swap : forall h t x y a b, t <> x -> t <> y -> x <> y -> h !! t = None -> h !! x = Some a -> h !! y = Some b ->
  exists h', heap_run h [HConsume t x; HMove x y; HMove y t] = Ok h' /\ h' !! x = Some b /\ h' !! y = Some a /\
    forall z, z <> t -> z <> x -> z <> y -> h' !! z = h !! z.
Proof.
  intros h t x y a b Htx Hty Hxy Ht Hx Hy. cbn [heap_run heap_step]. rewrite Ht, Hx.
  set (h1 := <[t:=mesh_copy a]> (<[x:=mesh_moved_from a]> h)).
  assert (h1 !! x = Some (mesh_moved_from a)) as E1 by (unfold h1; rewrite lookup_insert_ne by congruence; apply lookup_insert).
  assert (h1 !! y = Some b) as E2 by (unfold h1; rewrite !lookup_insert_ne by congruence; exact Hy).
  assert (h1 !! t = Some a) as E3 by (unfold h1; rewrite mesh_copy_id; apply lookup_insert).
  rewrite E1, E2. set (h2 := <[y:=mesh_moved_from b]> (<[x:=mesh_assign (mesh_moved_from a) b]> h1)).
  assert (h2 !! y = Some (mesh_moved_from b)) as F1 by (unfold h2; apply lookup_insert).
  assert (h2 !! t = Some a) as F2 by (unfold h2; rewrite !lookup_insert_ne by congruence; exact E3).
  assert (h2 !! x = Some b) as F3 by (unfold h2; rewrite mesh_assign_id, lookup_insert_ne by congruence; apply lookup_insert).
  rewrite F1, F2. eexists. split; [reflexivity|]. rewrite mesh_assign_id. split; [rewrite !lookup_insert_ne by congruence; exact F3|].
  split; [rewrite lookup_insert_ne by congruence; apply lookup_insert|].
  intros z H1 H2 H3. rewrite !lookup_insert_ne by congruence. unfold h2. rewrite !lookup_insert_ne by congruence. unfold h1. rewrite !lookup_insert_ne by congruence. reflexivity.
Qed.
Print Assumptions C81_swap.

(** C81: only an assignment to an object changes which per-vertex arrays it has. *)
Lemma mesh_step_config m op m' : mesh_step m op = Ok m' -> same_config m m'.
Proof.
  destruct op; cbn [mesh_step].
  1-3: intros [= <-]; repeat split.
  1-6: unfold mesh_set_pos, mesh_set_color, mesh_set_stamp, mesh_set_first, mesh_set_label, mesh_set_face;
    destruct (vset _ _ _); cbn; intros [= <-]; repeat split.
  all: assert (forall m s m', mesh_erase_vertices m s = Ok m' -> same_config m m') as K.
  1,3: clear; intros m s m'; unfold mesh_erase_vertices; destruct (_ <? _)%nat; [discriminate|];
    repeat (match goal with |- context [rbind ?r _] => destruct r; cbn [rbind]; try discriminate end); intros [= <-]; repeat split.
  - apply K.
  - unfold mesh_erase_faces. destruct (_ <? _)%nat; [discriminate|]. destruct (copy_kept _ _ _ (m_faces m)); cbn [rbind]; try discriminate.
    destruct (negb _); [intros [= <-]; repeat split|]. intros H. apply K in H. exact H.
Qed.
Theorem C81_configuration : forall h o h' x m, interface o -> heap_step h o = Ok h' -> h !! x = Some m -> ~ reassigns o x ->
  exists m', h' !! x = Some m' /\ same_config m m'.
Proof.
  intros h o h' x m Hi H Hx Hr. destruct (decide (x ∈ writes o)) as [Hw|Hw].
  2: { exists m. rewrite (step_frame _ _ _ _ H Hw). split; [exact Hx|repeat split]. }
  destruct o as [z hc ht hl hf|z y|z y|z y|z y|z f]; cbn [heap_step interface writes reassigns] in *;
    rewrite ?elem_of_cons in Hw; (destruct Hw as [->|Hw]; [|try (apply elem_of_nil in Hw; contradiction)]).
  - rewrite Hx in H. discriminate.
  - rewrite Hx in H. discriminate.
  - rewrite Hx in H. discriminate.
  - destruct Hw as [->|Hw]; [|apply elem_of_nil in Hw; contradiction]. rewrite Hx in H. destruct (h !! z) eqn:Ez; [discriminate|]. injection H as <-.
    exists (mesh_moved_from m). rewrite lookup_insert_ne by congruence. rewrite lookup_insert. split; [reflexivity|repeat split].
  - exfalso. apply Hr. reflexivity.
  - exfalso. apply Hr. reflexivity.
  - destruct Hw as [->|Hw]; [|apply elem_of_nil in Hw; contradiction]. rewrite Hx in H. destruct (h !! z) eqn:Ez; [|discriminate]. injection H as <-.
    exists (mesh_moved_from m). rewrite lookup_insert. split; [reflexivity|repeat split].
  - rewrite Hx in H. destruct Hi as [op Hop]. rewrite Hop in H. destruct (mesh_step m op) as [m'| |] eqn:E; cbn in H; try discriminate. injection H as <-.
    exists m'. rewrite lookup_insert. split; [reflexivity|]. apply (mesh_step_config _ _ _ E).
Qed.
Print Assumptions C81_configuration.

(** Deviation: has_colors and the other flags are const members, but an assignment changes
    them: an object without colours has them afterwards. *)
Theorem C81_const_flags_refuted : exists h h' x y m m',
  heap_run ∅ [HNew 0 false false false false; HNew 1 true false false false] = Ok h /\
  heap_step h (HAssign x y) = Ok h' /\ h !! x = Some m /\ h' !! x = Some m' /\ m_has_colors m = false /\ m_has_colors m' = true.
Proof.
  eexists _, _, 0, 1, _, _. split; [vm_compute; reflexivity|]. split; [vm_compute; reflexivity|].
  split; [vm_compute; reflexivity|]. split; [vm_compute; reflexivity|]. split; reflexivity.
Qed.
Print Assumptions C81_const_flags_refuted.

(** Deviation: moving an object to itself loses its vertices and faces, for every mesh. *)
Theorem C81_self_move_refuted : forall h x m, h !! x = Some m ->
  exists h' m', heap_step h (HMove x x) = Ok h' /\ h' !! x = Some m' /\ emptied m' m.
Proof.
  intros h x m Hx. cbn [heap_step]. rewrite Hx. eexists _, _. split; [reflexivity|]. rewrite lookup_insert. split; [reflexivity|]. apply moved_from_emptied.
Qed.
Print Assumptions C81_self_move_refuted.

(** A case: a copy of a mesh loses a vertex, the original is moved on; then the two are swapped. *)
Definition call (x : N) (o : mop) : hop := HCall x (fun m => mesh_step m o).
Definition ex_program : list hop :=
  HNew 0 true false true false :: map (call 0) [MResizeVertices 3; MResizeFaces 1; MSetFace 0 (mkFace 0 1 2); MSetColor 1 (mkColor 1 2 3 4); MSetStamp 0 5]
  ++ [HClone 1 0; call 1 (MEraseVertices {[1]}); HNew 2 false false false false; HMove 2 0; call 0 (MResizeVertices 1);
      HConsume 3 1; HMove 1 2; HMove 2 3].
Theorem C81_case : (forall o, o ∈ ex_program -> interface o) /\
  exists h, heap_run ∅ ex_program = Ok h /\
    option_map mesh_num_vertices (h !! 0) = Some 1 /\
    option_map (fun m => (mesh_num_vertices m, m_faces m, mesh_color m 1, mesh_label m 2)) (h !! 1) = Some (3, [mkFace 0 1 2], Ok (mkColor 1 2 3 4), Ok 0) /\
    option_map (fun m => (mesh_num_vertices m, m_faces m, mesh_color m 1)) (h !! 2) = Some (2, [], Ok color_default).
Proof.
  split.
  - apply list.Forall_forall. unfold ex_program, call. cbn [map app].
    repeat (apply list.Forall_cons; split; [first [exact I | unfold interface; eexists; intros; reflexivity]|]). apply list.Forall_nil. exact I.
  - eexists. split; [vm_compute; reflexivity|]. split; [vm_compute; reflexivity|]. split; vm_compute; reflexivity.
Qed.
Print Assumptions C81_case.
