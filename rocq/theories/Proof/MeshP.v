(** Mesh invariants and erasure. *)
From Coq Require Import NArith ZArith Bool List Lia.
From stdpp Require Import base list gmap fin_sets.
From Verif.Model Require Import Types Mesh.
From Verif.Spec Require Import MeshSpec.
Local Open Scope N_scope.

(** All per-vertex arrays that are enabled have one entry per vertex; the others are empty. *)
Definition aligned {A} (b : bool) (n : nat) (l : list A) : Prop := length l = if b then n else O.
Record mesh_ok (m : Mesh) : Prop := {
  mo_colors : aligned (m_has_colors m) (length (m_points m)) (m_colors m);
  mo_stamps : aligned (m_has_stamps m) (length (m_points m)) (m_stamps m);
  mo_first : aligned (m_has_first m) (length (m_points m)) (m_first m);
  mo_labels : aligned (m_has_labels m) (length (m_points m)) (m_labels m) }.

Lemma vset_len {A} (l : list A) i a l' : vset l i a = Ok l' -> length l' = length l.
Proof. unfold vset. destruct (_ <? _); [|discriminate]. intros [= <-]. apply insert_length. Qed.
Lemma vat_Ok {A} (l : list A) i x : vat l i = Ok x <-> l !! N.to_nat i = Some x.
Proof.
  unfold vat. destruct (i <? N.of_nat (length l)) eqn:E.
  - destruct (l !! N.to_nat i); cbn; split; congruence.
  - apply N.ltb_ge in E. rewrite lookup_ge_None_2 by lia. split; discriminate.
Qed.
Lemma vat_eq {A} (l : list A) i : vat l i = match l !! N.to_nat i with Some x => Ok x | None => Throw end.
Proof.
  unfold vat. destruct (i <? N.of_nat (length l)) eqn:E.
  - apply N.ltb_lt in E. destruct (l !! N.to_nat i) eqn:El; [reflexivity|]. apply lookup_ge_None_1 in El. lia.
  - apply N.ltb_ge in E. rewrite lookup_ge_None_2 by lia. reflexivity.
Qed.
Lemma vset_get {A} (l : list A) i a l' : vset l i a = Ok l' ->
  vat l' i = Ok a /\ forall j, j <> i -> vat l' j = vat l j.
Proof.
  unfold vset. destruct (i <? N.of_nat (length l)) eqn:E; [|discriminate]. intros [= <-]. apply N.ltb_lt in E. split.
  - apply vat_Ok. apply list_lookup_insert. lia.
  - intros j Hj. rewrite !vat_eq. rewrite list_lookup_insert_ne by lia. reflexivity.
Qed.

Definition surv (s : gset N) (i : N) (n : nat) : list N :=
  List.filter (fun i => negb (bool_decide (i ∈ s))) (map (fun k => i + N.of_nat k) (seq 0 n)).
Lemma surv_survivors s n : survivors s n = surv s 0 (N.to_nat n).
Proof. unfold survivors, surv. f_equal. Qed.
Lemma surv_S s i n : surv s i (S n) = (if bool_decide (i ∈ s) then [] else [i]) ++ surv s (i + 1) n.
Proof.
  unfold surv. cbn [seq map List.filter]. replace (i + N.of_nat 0) with i by lia.
  assert (map (fun k => i + N.of_nat k) (seq 1 n) = map (fun k => i + 1 + N.of_nat k) (seq 0 n)) as ->.
  { rewrite <- seq_shift, map_map. apply map_ext. intros k. lia. }
  destruct (bool_decide (i ∈ s)); reflexivity.
Qed.
Lemma elem_surv s i n x : x ∈ surv s i n <-> i <= x < i + N.of_nat n /\ x ∉ s.
Proof.
  unfold surv. rewrite elem_of_list_In, List.filter_In, in_map_iff, negb_true_iff, bool_decide_eq_false. split.
  - intros [(k & <- & Hk) Hs]. apply in_seq in Hk. split; [lia|exact Hs].
  - intros [H Hs]. split; [|exact Hs]. exists (N.to_nat (x - i)). split; [lia|]. apply in_seq. lia.
Qed.
Lemma surv_nodup s i n : NoDup (surv s i n).
Proof.
  unfold surv. rewrite NoDup_ListNoDup. apply List.NoDup_filter. apply NoDup_ListNoDup. apply NoDup_fmap_2_strong; [|apply NoDup_seq].
  intros x y _ _. lia.
Qed.

Lemma copy_kept_ok {A} s : forall n i (a : list A), length a = n ->
  exists l, copy_kept s i n a = Ok l /\ length l = length (surv s i n) /\
    forall j x, surv s i n !! j = Some x -> l !! j = a !! N.to_nat (x - i).
Proof.
  induction n as [|n IH]; intros i a Hl; cbn [copy_kept].
  - exists []. split; [reflexivity|]. split; [reflexivity|]. intros j x H. discriminate H.
  - destruct a as [|y a]; [discriminate|]. cbn [length] in Hl. destruct (IH (i + 1) a ltac:(lia)) as (l & -> & Hll & HL).
    assert (forall j x, surv s (i + 1) n !! j = Some x -> a !! N.to_nat (x - (i + 1)) = (y :: a) !! N.to_nat (x - i)) as Hsh.
    { intros j x Hx. apply elem_of_list_lookup_2, elem_surv in Hx. replace (N.to_nat (x - i)) with (S (N.to_nat (x - (i + 1)))) by lia. reflexivity. }
    rewrite surv_S. destruct (bool_decide (i ∈ s)) eqn:E; cbn [app].
    + exists l. split; [reflexivity|]. split; [exact Hll|]. intros j x Hx. rewrite (HL j x Hx). apply (Hsh j x Hx).
    + exists (y :: l). split; [reflexivity|]. split; [cbn; lia|]. intros [|j] x Hx.
      * injection Hx as ->. replace (N.to_nat (x - x)) with O by lia. reflexivity.
      * cbn in Hx. change ((y :: l) !! S j) with (l !! j). rewrite (HL j x Hx). apply (Hsh j x Hx).
Qed.

Lemma old_to_new_ok s : forall n i k acc,
  (forall x, x ∉ surv s i n -> old_to_new s i k n acc !! x = acc !! x) /\
  (forall j x, surv s i n !! j = Some x -> old_to_new s i k n acc !! x = Some (k + N.of_nat j)).
Proof.
  induction n as [|n IH]; intros i k acc; cbn [old_to_new].
  - split; [reflexivity|]. intros j x H. discriminate H.
  - rewrite surv_S. destruct (bool_decide (i ∈ s)) eqn:E; cbn [app]; [apply IH|].
    destruct (IH (i + 1) (k + 1) (<[i := k]> acc)) as [H1 H2]. split.
    + intros x Hx. rewrite elem_of_cons in Hx. rewrite H1 by tauto. apply lookup_insert_ne. intros ->. tauto.
    + intros [|j] x Hx.
      * injection Hx as <-. rewrite H1; [rewrite lookup_insert; f_equal; lia|]. intros K. apply elem_surv in K. lia.
      * cbn in Hx. rewrite (H2 j x Hx). f_equal. lia.
Qed.
Lemma old_to_new_total s n x y : old_to_new s 0 0 n ∅ !! x = Some y <-> surv s 0 n !! N.to_nat y = Some x.
Proof.
  destruct (old_to_new_ok s n 0 0 ∅) as [H1 H2]. destruct (decide (x ∈ surv s 0 n)) as [Hx|Hx].
  - apply elem_of_list_lookup in Hx as [j Hj]. rewrite (H2 j x Hj). split.
    + intros [= <-]. replace (N.to_nat (0 + N.of_nat j)) with j by lia. exact Hj.
    + intros K. pose proof (NoDup_lookup _ _ _ _ (surv_nodup s 0 n) Hj K) as ->. f_equal. lia.
  - rewrite (H1 x Hx), lookup_empty. split; [discriminate|]. intros K. apply elem_of_list_lookup_2 in K. contradiction.
Qed.

Definition survive (kept : list N) (f : Face) : bool := forallb (fun c => bool_decide (c ∈ kept)) (corners f).
Lemma remap_face_ok s n f : match remap_face (old_to_new s 0 0 n ∅) f with
  | Some f' => survive (surv s 0 n) f = true /\ renumbered (surv s 0 n) f f'
  | None => survive (surv s 0 n) f = false end.
Proof.
  assert (forall x, old_to_new s 0 0 n ∅ !! x = None <-> x ∉ surv s 0 n) as HN.
  { intros x. split.
    - intros H K. apply elem_of_list_lookup in K as [j Hj]. destruct (old_to_new_ok s n 0 0 ∅) as [_ H2]. rewrite (H2 j x Hj) in H. discriminate.
    - intros H. destruct (old_to_new_ok s n 0 0 ∅) as [H1 _]. rewrite (H1 x H). apply lookup_empty. }
  assert (forall x y, old_to_new s 0 0 n ∅ !! x = Some y -> x ∈ surv s 0 n) as HS.
  { intros x y H. apply old_to_new_total in H. apply elem_of_list_lookup_2 in H. exact H. }
  unfold remap_face, survive, renumbered, corners. cbn [forallb].
  destruct (old_to_new s 0 0 n ∅ !! f_0 f) as [a|] eqn:E0; [|apply HN in E0; rewrite bool_decide_false by exact E0; reflexivity].
  destruct (old_to_new s 0 0 n ∅ !! f_1 f) as [b|] eqn:E1; [|apply HN in E1; rewrite (bool_decide_false (f_1 f ∈ _)) by exact E1; rewrite andb_false_r; reflexivity].
  destruct (old_to_new s 0 0 n ∅ !! f_2 f) as [c|] eqn:E2; [|apply HN in E2; rewrite (bool_decide_false (f_2 f ∈ _)) by exact E2; rewrite !andb_false_r; reflexivity].
  split.
  - rewrite !bool_decide_true by eauto. reflexivity.
  - cbn [f_0 f_1 f_2]. apply old_to_new_total in E0, E1, E2. repeat constructor; assumption.
Qed.
Lemma omap_faces_ok s n fs : Forall2 (renumbered (surv s 0 n)) (List.filter (survive (surv s 0 n)) fs) (omap_faces (old_to_new s 0 0 n ∅) fs).
Proof.
  induction fs as [|f fs IH]; cbn [List.filter omap_faces]; [constructor|]. pose proof (remap_face_ok s n f) as H.
  destruct (remap_face (old_to_new s 0 0 n ∅) f) as [f'|].
  - destruct H as [H1 H2]. rewrite H1. constructor; assumption.
  - rewrite H. exact IH.
Qed.

Lemma copy_enabled {A} s (b : bool) n (a : list A) : aligned b n a ->
  exists l, (if b then copy_kept s 0 n a else Ok []) = Ok l /\ aligned b (length (surv s 0 n)) l /\
    forall j x, surv s 0 n !! j = Some x -> l !! j = a !! N.to_nat x.
Proof.
  unfold aligned. destruct b.
  - intros H. destruct (copy_kept_ok s n 0 a H) as (l & E & Hl & HL). exists l. split; [exact E|]. split; [exact Hl|].
    intros j x Hx. rewrite (HL j x Hx). f_equal. lia.
  - intros H. apply nil_length_inv in H. subst a. exists []. split; [reflexivity|]. split; [reflexivity|]. reflexivity.
Qed.

Lemma vat_of_lookup {A} (l l' : list A) i j : l' !! j = l !! N.to_nat i -> vat l' (N.of_nat j) = vat l i.
Proof. intros H. rewrite !vat_eq. replace (N.to_nat (N.of_nat j)) with j by lia. rewrite H. reflexivity. Qed.

Theorem erase_vertices_ok m s : mesh_ok m ->
  if (length (m_points m) <? size s)%nat then mesh_erase_vertices m s = Throw
  else exists m', mesh_erase_vertices m s = Ok m' /\ mesh_ok m' /\ same_config m m' /\
    length (m_points m') = length (surv s 0 (length (m_points m))) /\
    (forall j i, surv s 0 (length (m_points m)) !! j = Some i -> vertex m' (N.of_nat j) = vertex m i) /\
    Forall2 (renumbered (surv s 0 (length (m_points m)))) (List.filter (survive (surv s 0 (length (m_points m)))) (m_faces m)) (m_faces m').
Proof.
  intros Hm. unfold mesh_erase_vertices. destruct (length (m_points m) <? size s)%nat eqn:E; [reflexivity|].
  set (n := length (m_points m)) in *.
  destruct (copy_enabled s true n (m_points m) eq_refl) as (pts & Ep & Hp & HP). rewrite Ep. cbn [rbind].
  destruct (copy_enabled s _ n _ (mo_colors _ Hm)) as (cols & -> & Hc & HC). cbn [rbind].
  destruct (copy_enabled s _ n _ (mo_stamps _ Hm)) as (sts & -> & Ht & HT). cbn [rbind].
  destruct (copy_enabled s _ n _ (mo_labels _ Hm)) as (lbs & -> & Hl & HL). cbn [rbind].
  destruct (copy_enabled s _ n _ (mo_first _ Hm)) as (fst_ & -> & Hf & HF). cbn [rbind].
  eexists. split; [reflexivity|]. unfold aligned in Hp. split.
  { split; cbn; rewrite Hp; assumption. }
  split; [repeat split|]. split; [exact Hp|]. split.
  - intros j i Hj. unfold vertex, mesh_pos, mesh_color, mesh_stamp, mesh_first, mesh_label. cbn [m_points m_colors m_stamps m_first m_labels].
    rewrite (vat_of_lookup (m_points m) pts i j), (vat_of_lookup (m_colors m) cols i j), (vat_of_lookup (m_stamps m) sts i j),
      (vat_of_lookup (m_first m) fst_ i j), (vat_of_lookup (m_labels m) lbs i j); auto.
  - cbn [m_faces]. apply omap_faces_ok.
Qed.

Lemma survive_true s n f : survive (surv s 0 n) f = true <-> forall c, c ∈ corners f -> c < N.of_nat n /\ c ∉ s.
Proof.
  unfold survive. rewrite forallb_forall. split.
  - intros H c Hc. specialize (H c ltac:(apply elem_of_list_In, Hc)). apply bool_decide_eq_true, elem_surv in H. split; [lia|tauto].
  - intros H c Hc. apply bool_decide_eq_true, elem_surv. destruct (H c ltac:(apply elem_of_list_In, Hc)). split; [lia|assumption].
Qed.

Lemma copied_is_omap {A} s n (a l : list A) : length a = n -> length l = length (surv s 0 n) ->
  (forall j x, surv s 0 n !! j = Some x -> l !! j = a !! N.to_nat x) ->
  l = omap (fun i => a !! N.to_nat i) (surv s 0 n).
Proof.
  intros Ha. assert (forall x, x ∈ surv s 0 n -> is_Some (a !! N.to_nat x)) as Hin.
  { intros x Hx. apply elem_surv in Hx. apply lookup_lt_is_Some. lia. }
  revert l Hin. induction (surv s 0 n) as [|x xs IH]; intros l Hin Hl HL.
  - apply nil_length_inv in Hl. exact Hl.
  - destruct l as [|y l]; [discriminate|]. pose proof (HL O x eq_refl) as H0. cbn in H0.
    cbn. destruct (a !! N.to_nat x) eqn:E; [|discriminate]. injection H0 as ->. f_equal.
    apply IH; [intros z Hz; apply Hin, elem_of_cons; auto|cbn in Hl; lia|]. intros j z Hj. apply (HL (S j) z Hj).
Qed.

Lemma remaining_eq s m : remaining_faces s m = omap (fun i => m_faces m !! N.to_nat i) (surv s 0 (length (m_faces m))).
Proof. unfold remaining_faces. rewrite surv_survivors. unfold mesh_num_faces. rewrite Nat2N.id. reflexivity. Qed.

Definition with_faces (m : Mesh) (fs : list Face) : Mesh :=
  mkMesh (m_has_colors m) (m_has_stamps m) (m_has_labels m) (m_has_first m)
    (m_points m) (m_colors m) (m_stamps m) (m_first m) (m_labels m) fs.
Definition unused (m : Mesh) (fs : list Face) : gset N :=
  list_to_set (map N.of_nat (seq 0 (length (m_points m)))) ∖ face_vertices fs.
Lemma erase_faces_eq m s u :
  mesh_erase_faces m s u = if (length (m_faces m) <? size s)%nat then Throw
    else let m' := with_faces m (remaining_faces s m) in
         if u then mesh_erase_vertices m' (unused m (remaining_faces s m)) else Ok m'.
Proof.
  unfold mesh_erase_faces. destruct (length (m_faces m) <? size s)%nat; [reflexivity|].
  destruct (copy_kept_ok s (length (m_faces m)) 0 (m_faces m) eq_refl) as (l & -> & Hl & HL). cbn [rbind].
  assert (l = remaining_faces s m) as ->.
  { rewrite remaining_eq. apply copied_is_omap; [reflexivity|exact Hl|]. intros j x Hx. rewrite (HL j x Hx). f_equal. lia. }
  destruct u; reflexivity.
Qed.
Lemma elem_face_vertices fs x : x ∈ face_vertices fs <-> exists f, f ∈ fs /\ x ∈ corners f.
Proof.
  unfold face_vertices. rewrite elem_of_list_to_set, elem_of_list_In, in_concat. split.
  - intros (c & Hc & Hx). apply in_map_iff in Hc as (f & <- & Hf). exists f. rewrite !elem_of_list_In. split; [exact Hf|exact Hx].
  - intros (f & Hf & Hx). exists (corners f). apply elem_of_list_In in Hf, Hx. split; [|exact Hx]. apply in_map_iff. exists f. auto.
Qed.
Lemma elem_unused m fs x : x ∈ unused m fs <-> x < N.of_nat (length (m_points m)) /\ ~ exists f, f ∈ fs /\ x ∈ corners f.
Proof.
  unfold unused. rewrite elem_of_difference, elem_face_vertices, elem_of_list_to_set, elem_of_list_In, in_map_iff. split.
  - intros [(k & <- & Hk) H]. apply in_seq in Hk. split; [lia|exact H].
  - intros [H1 H2]. split; [|exact H2]. exists (N.to_nat x). split; [lia|]. apply in_seq. lia.
Qed.
Lemma unused_size m fs : (length (m_points m) <? size (unused m fs))%nat = false.
Proof.
  apply Nat.ltb_ge. transitivity (size (list_to_set (C := gset N) (map N.of_nat (seq 0 (length (m_points m)))))).
  - apply subseteq_size. unfold unused. set_solver.
  - rewrite size_list_to_set; [rewrite map_length, seq_length; lia|]. apply NoDup_fmap_2; [intros x y; lia|apply NoDup_seq].
Qed.

Lemma with_faces_ok m fs : mesh_ok m -> mesh_ok (with_faces m fs).
Proof. intros [H1 H2 H3 H4]. split; assumption. Qed.

Theorem mesh_reachable_ok m : mesh_reachable m -> mesh_ok m.
Proof.
  induction 1 as [hc ht hl hf|m o m' _ Hm Hs].
  - split; unfold aligned; cbn; destruct hc, ht, hl, hf; reflexivity.
  - pose proof Hm as Hok. destruct Hm as [H1 H2 H3 H4]. destruct o; cbn in Hs.
    + injection Hs as <-. unfold mesh_resize_vertices, vresize. unfold aligned in *. split; unfold aligned; cbn; rewrite resize_length.
      all: first [destruct (m_has_colors m)|idtac]; try exact H1; try apply resize_length.
      all: first [destruct (m_has_stamps m)|idtac]; try exact H2; try apply resize_length.
      all: first [destruct (m_has_first m)|idtac]; try exact H3; try apply resize_length.
      all: first [destruct (m_has_labels m)|idtac]; try exact H4; try apply resize_length.
    + injection Hs as <-. split; assumption.
    + injection Hs as <-. unfold mesh_clear. split; unfold aligned; cbn; destruct (m_has_colors m), (m_has_stamps m), (m_has_first m), (m_has_labels m); reflexivity.
    + unfold mesh_set_pos in Hs. destruct (vset _ _ _) as [l| |] eqn:E; [|discriminate|discriminate]. injection Hs as <-. apply vset_len in E.
      split; cbn; rewrite E; assumption.
    + unfold mesh_set_color in Hs. destruct (vset _ _ _) as [l| |] eqn:E; [|discriminate|discriminate]. injection Hs as <-. apply vset_len in E.
      split; unfold aligned in *; cbn; rewrite ?E; assumption.
    + unfold mesh_set_stamp in Hs. destruct (vset _ _ _) as [l| |] eqn:E; [|discriminate|discriminate]. injection Hs as <-. apply vset_len in E.
      split; unfold aligned in *; cbn; rewrite ?E; assumption.
    + unfold mesh_set_first in Hs. destruct (vset _ _ _) as [l| |] eqn:E; [|discriminate|discriminate]. injection Hs as <-. apply vset_len in E.
      split; unfold aligned in *; cbn; rewrite ?E; assumption.
    + unfold mesh_set_label in Hs. destruct (vset _ _ _) as [l| |] eqn:E; [|discriminate|discriminate]. injection Hs as <-. apply vset_len in E.
      split; unfold aligned in *; cbn; rewrite ?E; assumption.
    + unfold mesh_set_face in Hs. destruct (vset _ _ _) as [l| |] eqn:E; [|discriminate|discriminate]. injection Hs as <-. split; assumption.
    + pose proof (erase_vertices_ok m s Hok) as H. destruct (length (m_points m) <? size s)%nat; [congruence|].
      destruct H as (m1 & E & Hm1 & _). congruence.
    + rewrite erase_faces_eq in Hs. destruct (length (m_faces m) <? size s)%nat; [discriminate|]. cbn in Hs.
      pose proof (with_faces_ok m (remaining_faces s m) Hok) as Hok'. destruct update_vertices; [|injection Hs as <-; exact Hok'].
      pose proof (erase_vertices_ok _ (unused m (remaining_faces s m)) Hok') as H. cbn [m_points with_faces] in H. rewrite unused_size in H.
      destruct H as (m1 & E & Hm1 & _). congruence.
Qed.
