(** Connected components of a layer and cost-limited searches. *)
From Coq Require Import NArith Bool List Lia.
From stdpp Require Import base list gmap relations.
From Verif.Model Require Import Types Attrs Node EdgeContainer SLayer Search.
From Verif.Spec Require Import EdgeLog LayerLog Search.
From Verif.Proof Require Import Keys EdgeLogP SLayerP SLayerMerge LayerLogP LayerLogP2 SearchP.
Local Open Scope N_scope.
#[local] Arguments edge_key : simpl never.

Lemma CInv_nil D R bad : CInv D R bad ∅ [].
Proof.
  split; cbn; try (intros *; rewrite ?elem_of_nil; tauto).
  - constructor.
  - intros y Hy. set_solver.
Qed.

Lemma search_unseen_from l valid n (V : gset N) : slayer_ok l -> is_Some (sl_nodes l !! n) -> n ∉ V ->
  exists O V', finishes (fun fuel => search_loop (expand_unseen l valid) fuel [n] ({[n]} ∪ V) []) (O, V') /\ NoDup O /\
      (forall y, y ∈ O <-> rtc (fun a b => (linked l a b /\ valid b = true) /\ b ∉ V) n y) /\
      (forall y, y ∈ O -> y ∈ V') /\ V ⊆ V' /\ (forall y, y ∈ V' -> y ∈ O \/ False \/ y ∈ V).
Proof.
  intros W Hn HV.
  destruct (search_result (expand_unseen l valid) (dom (sl_nodes l)) _ (fun _ => False) V [n]
              (expand_unseen_ok l _ V W)) with (S := {[n]} ∪ V) as (O & S' & HF & HO & HR & H1 & H2 & H3).
  - intros x y (_ & _ & ?). split; [tauto|assumption].
  - apply NoDup_singleton.
  - intros r Hr. apply elem_of_list_singleton in Hr. subst r. apply elem_of_dom, Hn.
  - intros y. set_solver.
  - exists O, S'. split; [exact HF|]. split; [exact HO|]. split; [|split; [intros; apply H1; assumption|auto]].
    intros y. rewrite HR. split.
    + intros (r & Hr & Hp). apply elem_of_list_singleton in Hr. subst r. revert Hp. apply rtc_subrel. intros a b; tauto.
    + intros Hp. exists n. split; [apply elem_of_list_singleton; reflexivity|]. revert Hp. apply rtc_subrel. intros a b; tauto.
Qed.

Lemma search_valid_from l nv ev n (V : gset N) : slayer_ok l -> is_Some (sl_nodes l !! n) -> n ∉ V ->
  exists O V', finishes (fun fuel => bfs_valid l nv ev fuel [n] ({[n]} ∪ V)) (O, V') /\ NoDup O /\
      (forall y, y ∈ O <-> rtc (fun a b => linked_ok l nv ev a b /\ b ∉ V) n y) /\
      (forall y, y ∈ O -> y ∈ V') /\ V ⊆ V' /\ (forall y, y ∈ V' -> y ∈ O \/ ~ passes l nv y \/ y ∈ V).
Proof.
  intros W Hn HV.
  destruct (search_result (expand_valid l nv ev) (dom (sl_nodes l)) _ (fun y => ~ passes l nv y) V [n]
              (expand_valid_ok l nv ev V W)) with (S := {[n]} ∪ V) as (O & S' & HF & HO & HR & H1 & H2 & H3).
  - intros x y ([Hp _] & ?). split; [intros K; apply K, Hp|assumption].
  - apply NoDup_singleton.
  - intros r Hr. apply elem_of_list_singleton in Hr. subst r. apply elem_of_dom, Hn.
  - intros y. set_solver.
  - exists O, S'. split; [exact HF|]. split; [exact HO|]. split; [|split; [intros; apply H1; assumption|auto]].
    intros y. rewrite HR. split.
    + intros (r & Hr & Hp). apply elem_of_list_singleton in Hr. subst r. exact Hp.
    + intros Hp. exists n. split; [apply elem_of_list_singleton; reflexivity|]. exact Hp.
Qed.

(** Search with validity functions from one root (the root itself is not filtered). *)
Theorem bfs_valid_ok l nv ev root : slayer_ok l -> sl_has_node l root = true ->
  exists O, finishes (fun fuel => visits (bfs_valid l nv ev fuel [root] {[root]})) O /\ NoDup O /\
    (forall y, y ∈ O <-> path (linked_ok l nv ev) root y).
Proof.
  intros W Hr. destruct (search_valid_from l nv ev root ∅ W) as (O & V' & HF & HO & HR & _).
  { apply sl_has_node_true, Hr. }
  { set_solver. }
  exists O. split; [|split; [exact HO|]].
  - apply finishes_visits with (s := V'). replace ({[root]} : gset N) with ({[root]} ∪ ∅ : gset N) by set_solver. exact HF.
  - intros y. rewrite HR. apply rtc_iff. intros a b. split; [tauto|]. intros ?. split; [assumption|set_solver].
Qed.

Theorem components_roots_ok l roots (only : bool) : slayer_ok l ->
  let R := if only then linked_in l roots else linked l in
  exists cs, finishes (components_roots l roots only) cs /\ NoDup (concat cs) /\ (forall c, c ∈ cs -> c <> []) /\
    (forall y, y ∈ concat cs <-> exists r, r ∈ roots /\ sl_has_node l r = true /\ path R r y) /\
    (forall x y, (exists c, c ∈ cs /\ x ∈ c /\ y ∈ c) <-> x ∈ concat cs /\ path R x y).
Proof.
  intros W R. set (valid := fun y : N => if only then bool_decide (y ∈ roots) else true).
  assert (forall a b, R a b <-> linked l a b /\ valid b = true) as HRv.
  { intros a b. subst R valid. cbn. destruct only; [|tauto]. unfold linked_in. rewrite bool_decide_eq_true. tauto. }
  set (D := fun x : N => is_Some (sl_nodes l !! x) /\ (only = true -> x ∈ roots)).
  destruct (components_ok (fun fuel f s => if only then bfs_within l roots fuel f s else bfs_seen l fuel f s)
     (fun n => negb (sl_has_node l n)) D R (fun _ => False)) with (starts := roots) (V := ∅ : gset N) (cs := @nil (list N))
     as (cs & V' & HF & HI & _ & H1 & H2).
  - intros x y _ Hxy. apply HRv in Hxy as [Hl Hv]. split; [apply (linked_nodes l x y W Hl)|].
    intros ->. subst valid. cbn in Hv. apply bool_decide_eq_true in Hv. exact Hv.
  - intros x y [Hx Hr] Hxy. apply HRv in Hxy as [Hl Hv]. apply HRv. split; [apply linked_sym, Hl|].
    subst valid. cbn. destruct only; [|reflexivity]. apply bool_decide_eq_true, Hr. reflexivity.
  - intros x _ [].
  - intros n V [Hn _] HV. destruct (search_unseen_from l valid n V W Hn HV) as (O & V1 & HF & HO & HR & H1 & H2 & H3).
    exists O, V1. split; [|split; [exact HO|split; [|auto]]].
    + destruct HF as [k HF]. exists k. intros fuel L. rewrite <- (HF fuel L). unfold bfs_within, bfs_seen. destruct only; reflexivity.
    + intros y. rewrite HR. apply rtc_iff. intros a b. rewrite HRv. tauto.
  - intros n Hn Hs. apply negb_false_iff, sl_has_node_true in Hs. split; [exact Hs|]. intros _. exact Hn.
  - apply CInv_nil.
  - exists cs. split; [exact HF|]. split; [exact (ci_nodup _ _ _ _ _ HI)|].
    split; [intros c Hc; exact (proj1 (ci_conn _ _ _ _ _ HI c Hc))|]. split; [|exact (ci_together _ _ _ _ _ HI)].
    intros y. split.
    + intros Hy. destruct (H2 y Hy) as [K|(n & Hn & Hs & Hp)]; [apply elem_of_nil in K; contradiction|].
      apply negb_false_iff in Hs. exists n. auto.
    + intros (r & Hr & Hs & Hp). assert (r ∈ concat cs) as K by (apply H1; [exact Hr|apply negb_false_iff, Hs]).
      clear -HI K Hp. induction Hp as [|a b c Hab _ IH]; [exact K|]. exact (IH (ci_closed _ _ _ _ _ HI a b K Hab)).
Qed.

Theorem components_valid_ok l nv ev : slayer_ok l ->
  exists cs, finishes (components_valid l nv ev) cs /\ NoDup (concat cs) /\ (forall c, c ∈ cs -> c <> []) /\
    (forall y, y ∈ concat cs <-> passes l nv y) /\
    (forall x y, (exists c, c ∈ cs /\ x ∈ c /\ y ∈ c) <-> passes l nv x /\ path (linked_ok l nv ev) x y).
Proof.
  intros W. set (sk := fun n => match sl_nodes l !! n with Some nd => negb (nv nd) | None => true end).
  assert (forall n, sk n = false <-> passes l nv n) as Hsk.
  { intros n. subst sk. cbn. unfold passes, sl_find_node. destruct (sl_nodes l !! n) as [nd|].
    - rewrite negb_false_iff. split; [eauto|]. intros (nd' & [= <-] & H). exact H.
    - split; [discriminate|]. intros (? & ? & _). discriminate. }
  destruct (components_ok (bfs_valid l nv ev) sk (passes l nv) (linked_ok l nv ev) (fun y => ~ passes l nv y))
     with (starts := map fst (map_to_list (sl_nodes l))) (V := ∅ : gset N) (cs := @nil (list N))
     as (cs & V' & HF & HI & _ & H1 & H2).
  - intros x y _ [Hp _]. exact Hp.
  - intros x y Hx [_ (e & He & Hv)]. split; [exact Hx|]. exists e. split; [|exact Hv].
    unfold sl_find_edge, ec_find in He |- *. cbn in He |- *. rewrite edge_key_comm. exact He.
  - intros x Hx K. exact (K Hx).
  - intros n V Hn HV. destruct Hn as (nd & Hn & _). unfold sl_find_node in Hn.
    apply (search_valid_from l nv ev n V W); [eauto|exact HV].
  - intros n _. apply Hsk.
  - apply CInv_nil.
  - assert (forall y, y ∈ concat cs <-> passes l nv y) as HC.
    { intros y. split; [intros Hy; apply (ci_seen _ _ _ _ _ HI y Hy)|]. intros Hy. apply H1; [|apply Hsk, Hy].
      destruct Hy as (nd & Hn & _). unfold sl_find_node in Hn. apply elem_of_list_fmap. exists (y, nd).
      split; [reflexivity|apply elem_of_map_to_list, Hn]. }
    exists cs. split; [exact HF|]. split; [exact (ci_nodup _ _ _ _ _ HI)|].
    split; [intros c Hc; exact (proj1 (ci_conn _ _ _ _ _ HI c Hc))|]. split; [exact HC|].
    intros x y. rewrite <- HC. exact (ci_together _ _ _ _ _ HI x y).
Qed.
