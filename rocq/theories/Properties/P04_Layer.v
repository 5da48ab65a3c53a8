(** C08-C12: stand-alone static layers, for every sequence of calls. *)
From Coq Require Import NArith ZArith Bool List Lia.
From stdpp Require Import base list gmap fin_maps.
From Verif.Model Require Import Types Mesh Attrs Node EdgeContainer SLayer.
From Verif.Spec Require Import EdgeLog LayerLog.
From Verif.Proof Require Import Keys EdgeLogP SLayerP SLayerMerge LayerLogP LayerLogP2.
Local Open Scope N_scope.

#[local] Arguments edge_key : simpl never.

(** C08-C12: every answer of every call is the one of the specification machine [ll_run]. *)
Theorem C08_C12_layer_refines_log : forall (lid : LayerId) (os : list lop),
  Forall2 lout_agree (fst (sl_run (sl_new lid) os)) (fst (ll_run lid ll_init os)).
Proof. exact layer_history. Qed.
Print Assumptions C08_C12_layer_refines_log.

Lemma reach_LR lid l : layer_reachable lid l -> exists c, LR lid l c.
Proof. intros [os ->]. exists (snd (ll_run lid ll_init os)). apply LR_run, LR_init. Qed.

Lemma sl_run_snoc os o : forall l, snd (sl_run l (os ++ [o])) = snd (sl_step (snd (sl_run l os)) o).
Proof.
  induction os as [|x xs IH]; intros l; cbn [app sl_run].
  - cbn [snd]. destruct (sl_step l o); reflexivity.
  - destruct (sl_step l x) as [y l1]. specialize (IH l1). destruct (sl_run l1 (xs ++ [o])), (sl_run l1 xs). exact IH.
Qed.

(** C08: no call ever dereferences a missing node, and none throws except getPosition of an
    absent node. *)
Theorem C08_layer_calls_are_safe : forall lid l o, layer_reachable lid l ->
  fst (sl_step l o) <> LMUB /\
  (fst (sl_step l o) = LMThrow -> exists n, o = LPosition n /\ sl_has_node l n = false).
Proof.
  intros lid l o Hr. destruct (reach_LR _ _ Hr) as [c HR]. destruct (LR_step lid l c HR o) as [Ho _].
  split; [intros E; rewrite E in Ho; destruct (fst (ll_step lid c o)); exact Ho|].
  intros E. rewrite E in Ho. destruct (fst (ll_step lid c o)) eqn:F; try contradiction.
  destruct o; cbn in F; repeat match type of F with context [match ?x with _ => _ end] => destruct x eqn:? end; try discriminate F.
  exists n. split; [reflexivity|]. rewrite (LR_has_b _ _ _ HR). unfold ll_has. apply bool_decide_eq_false.
  rewrite not_elem_of_dom. assumption.
Qed.
Print Assumptions C08_layer_calls_are_safe.

(** C08: siblings, edges and nodes agree. *)
Theorem C08_layer_adjacency : forall lid l, layer_reachable lid l ->
  (forall u v nu, sl_find_node l u = Some nu -> (v ∈ n_sib nu <-> sl_has_edge l u v = true)) /\
  (forall u v, sl_has_edge l u v = sl_has_edge l v u) /\
  (forall u v, sl_has_edge l u v = true -> u <> v /\ sl_has_node l u = true /\ sl_has_node l v = true).
Proof.
  intros lid l Hr. destruct (reach_LR _ _ Hr) as [c HR]. split; [|split].
  - intros u v nu Hu. rewrite (LR_sib _ _ _ HR _ _ Hu), elem_nbrs by (eapply LR_em; exact HR).
    unfold sl_has_edge. rewrite ec_contains_true, (LR_edges _ _ _ HR). reflexivity.
  - intros u v. unfold sl_has_edge, ec_contains. rewrite (edge_key_comm u v). reflexivity.
  - intros u v. unfold sl_has_edge. rewrite ec_contains_true, !sl_has_node_true. apply sl_edge_key, HR.
Qed.
Print Assumptions C08_layer_adjacency.

(** C09: presence and status. *)
Theorem C09_status_tracks_presence : forall lid l n, layer_reachable lid l ->
  (sl_has_node l n = true <-> sl_check_node l n = NNew \/ sl_check_node l n = NVisible).
Proof.
  intros lid l n Hr. destruct (reach_LR _ _ Hr) as [c HR].
  rewrite sl_has_node_true, (slw_status _ (lr_wf _ _ _ HR)). unfold sl_check_node, n_live.
  destruct (sl_status l !! n) as [s|].
  - split; [intros (s' & [= <-] & H); exact H|eauto].
  - split; [intros (s' & ? & _); discriminate|intros [?|?]; discriminate].
Qed.
Print Assumptions C09_status_tracks_presence.

(** C09: the reports list exactly the nodes with the matching status, each once.  (Which
    histories lead to which status is settled by C08_C12_layer_refines_log.) *)
Theorem C09_reports_match_status : forall lid l b, layer_reachable lid l ->
  NoDup (fst (sl_get_new_nodes l b)) /\ NoDup (fst (sl_get_removed_nodes l b)) /\
  (forall n, n ∈ fst (sl_get_new_nodes l b) <-> sl_check_node l n = NNew) /\
  (forall n, n ∈ fst (sl_get_removed_nodes l b) <-> sl_check_node l n = NDeleted \/ sl_check_node l n = NMerged).
Proof.
  intros lid l b _. cbn. split; [apply NoDup_keys_with|]. split; [apply NoDup_keys_with|].
  unfold sl_check_node. split; intros n; rewrite elem_of_keys_with; destruct (sl_status l !! n) as [s|]; split.
  - intros (s' & [= <-] & H). destruct s; try discriminate; reflexivity.
  - intros ->. eauto.
  - intros (? & ? & _). discriminate.
  - discriminate.
  - intros (s' & [= <-] & H). destruct s; try discriminate; auto.
  - intros [->| ->]; eauto.
  - intros (? & ? & _). discriminate.
  - intros [?|?]; discriminate.
Qed.
Print Assumptions C09_reports_match_status.

(** C09: clearing.  After a clearing getNewNodes the next one is empty and nothing else about
    the statuses changes; after a clearing getRemovedNodes exactly the merged nodes remain. *)
Theorem C09_clearing_reports : forall lid l b n, layer_reachable lid l ->
  fst (sl_get_new_nodes (snd (sl_get_new_nodes l true)) b) = [] /\
  sl_check_node (snd (sl_get_new_nodes l true)) n =
    (match sl_check_node l n with NNew => NVisible | s => s end) /\
  (n ∈ fst (sl_get_removed_nodes (snd (sl_get_removed_nodes l true)) b) <-> sl_check_node l n = NMerged) /\
  sl_check_node (snd (sl_get_removed_nodes l true)) n =
    (match sl_check_node l n with NDeleted => NNonexistent | s => s end).
Proof.
  intros lid l b n _. split; [|split; [|split]].
  - cbn. apply keys_with_nil. intros k s. rewrite lookup_fmap, fmap_Some. intros (s0 & _ & ->). destruct s0; reflexivity.
  - unfold sl_check_node. cbn. rewrite lookup_fmap. destruct (sl_status l !! n) as [s|]; [destruct s|]; reflexivity.
  - cbn. rewrite elem_of_keys_with. unfold sl_check_node. setoid_rewrite map_filter_lookup_Some. cbn.
    destruct (sl_status l !! n) as [s|]; split.
    + intros (s' & [[= <-] Hd] & Hr). destruct s; try discriminate. reflexivity.
    + intros ->. eauto.
    + intros (s' & [? _] & _). discriminate.
    + discriminate.
  - unfold sl_check_node. cbn. destruct (filter _ (sl_status l) !! n) as [s|] eqn:E.
    + apply map_filter_lookup_Some in E as [-> Hd]. destruct s; try discriminate; reflexivity.
    + apply map_filter_lookup_None in E as [->|E]; [reflexivity|].
      destruct (sl_status l !! n) as [s|]; [|reflexivity]. specialize (E _ eq_refl). destruct s; cbn in E; congruence.
Qed.
Print Assumptions C09_clearing_reports.

(** C10: a duplicate insertNode changes nothing at all. *)
Theorem C10_insert_node_duplicate : forall lid l nd, layer_reachable lid l ->
  sl_has_node l (n_id nd) = true -> sl_insert_node l (Some nd) = (false, l).
Proof. intros lid l nd _ H. unfold sl_insert_node. rewrite H. destruct (negb _); reflexivity. Qed.
Print Assumptions C10_insert_node_duplicate.

(** C10: a duplicate emplaceNode returns false, keeps nodes and edges, but marks the node NEW. *)
Theorem C10_emplace_node_duplicate : forall lid l n a, layer_reachable lid l -> sl_has_node l n = true ->
  let r := sl_emplace_node l n a in
  fst r = false /\ sl_nodes (snd r) = sl_nodes l /\ sl_edges (snd r) = sl_edges l /\ sl_id (snd r) = sl_id l /\
  (forall m, sl_check_node (snd r) m = if bool_decide (m = n) then NNew else sl_check_node l m).
Proof.
  intros lid l n a _ H. unfold sl_emplace_node. apply sl_has_node_true in H as [nd Hn]. rewrite Hn. cbn.
  split; [reflexivity|]. split; [reflexivity|]. split; [reflexivity|]. split; [reflexivity|].
  intros m. unfold sl_check_node. cbn. destruct (decide (m = n)) as [->|Hne].
  - rewrite lookup_insert, bool_decide_eq_true_2 by reflexivity. reflexivity.
  - rewrite lookup_insert_ne, bool_decide_eq_false_2 by congruence. reflexivity.
Qed.
Print Assumptions C10_emplace_node_duplicate.

(** C10 refuted for emplaceNode: a node already reported as new is reported again. *)
Theorem C10_emplace_duplicate_is_silent_refuted :
  exists lid l n a, layer_reachable lid l /\ sl_has_node l n = true /\
    sl_check_node (snd (sl_emplace_node l n a)) n <> sl_check_node l n /\
    fst (sl_get_new_nodes l false) = [] /\ fst (sl_get_new_nodes (snd (sl_emplace_node l n a)) false) = [n].
Proof.
  exists 3, (snd (sl_run (sl_new 3) [LEmplace 7 (base_at 1 2 3); LNewNodes true])), 7, (base_at 1 2 3).
  split; [eexists; reflexivity|]. vm_compute. repeat split; discriminate.
Qed.
Print Assumptions C10_emplace_duplicate_is_silent_refuted.

(** C11 *)
Theorem C11_remove_absent_node : forall lid l n, layer_reachable lid l -> sl_has_node l n = false ->
  sl_remove_node l n = Ok (false, l).
Proof. intros lid l n _ H. apply sl_remove_node_noop, sl_has_node_false, H. Qed.
Print Assumptions C11_remove_absent_node.

Theorem C11_remove_node : forall lid l n, layer_reachable lid l -> sl_has_node l n = true ->
  exists l', sl_remove_node l n = Ok (true, l') /\ layer_reachable lid l' /\
    (* the node is gone *)
    sl_find_node l' n = None /\ sl_check_node l' n = NDeleted /\
    (* exactly its edges are gone, and they are the ones reported as removed *)
    (forall u v, ec_find (sl_edges l') u v = if bool_decide (u = n \/ v = n) then None else ec_find (sl_edges l) u v) /\
    (forall k, k ∈ fst (sl_get_removed_edges l' false) <->
       k ∈ fst (sl_get_removed_edges l false) \/ exists v, sl_has_edge l n v = true /\ k = edge_key n v) /\
    (* every other node is unchanged except for the sibling link *)
    (forall m, m <> n -> sl_check_node l' m = sl_check_node l m /\
       sl_find_node l' m = (fun nd => mkNode (n_id nd) (n_layer nd) (n_time nd) (n_attrs nd) (n_par nd) (n_sib nd ∖ {[n]}) (n_chd nd))
                           <$> sl_find_node l m).
Proof.
  intros lid l n Hr Hn. destruct (reach_LR _ _ Hr) as [c HR]. pose proof Hn as Hn'. apply sl_has_node_true in Hn as [nd Hn].
  destruct (LR_remove_node lid l c HR n nd Hn) as (l' & Hok & HR'). exists l'. split; [exact Hok|].
  split. { destruct Hr as [os ->]. exists (os ++ [LRemoveNode n]).
    rewrite sl_run_snoc. cbn [sl_step]. rewrite Hok. reflexivity. }
  destruct (sl_remove_node_ok l n nd (lr_wf _ _ _ HR) Hn) as (l2 & Hok2 & Hwf2 & Hid & Hnodes & Hedges & Hst).
  assert (l2 = l') by congruence. subst l2.
  assert (Hlk : forall x, sl_nodes l' !! x = if decide (x = n) then None else del_sib n <$> sl_nodes l !! x).
  { intros x. rewrite Hnodes. unfold forget. destruct (decide (x = n)) as [->|Hne]; [apply lookup_delete|].
    rewrite lookup_delete_ne by congruence. apply lookup_fmap. }
  unfold sl_find_node, sl_check_node. split; [rewrite Hlk; apply decide_True; reflexivity|].
  split; [rewrite Hst, lookup_insert; reflexivity|]. split.
  { intros u v. unfold ec_find. rewrite Hedges, lookup_drop_edges.
    destruct (decide (touches n (edge_key u v))) as [Ht|Ht]; rewrite touches_edge_key in Ht.
    - rewrite bool_decide_eq_true_2 by (destruct Ht; auto). reflexivity.
    - rewrite bool_decide_eq_false_2 by (intros [?|?]; apply Ht; auto). reflexivity. }
  split.
  { intros k. pose proof (lr_log _ _ _ HR) as L. pose proof (lr_log _ _ _ HR') as L'.
    assert (Hrem : forall e g, el_rep e g -> (k ∈ fst (ec_get_removed e false) <-> k ∈ el_gone g)).
    { intros e g Hg. destruct (el_step_ok e g (CGetRemoved false) Hg) as [[_ Ho] _]. apply Ho. }
    cbn [sl_get_removed_edges]. unfold sl_get_removed_edges.
    transitivity (k ∈ el_gone (el_drop n (ll_log c))); [exact (Hrem _ _ L')|].
    transitivity (k ∈ el_gone (ll_log c) \/ exists v, sl_has_edge l n v = true /\ k = edge_key n v);
      [|rewrite <- (Hrem _ _ L); reflexivity].
    cbn. rewrite elem_of_union, elem_at_node. unfold sl_has_edge. setoid_rewrite ec_contains_true. rewrite (LR_edges _ _ _ HR).
    split; (intros [?|H]; [auto|right]).
    - destruct H as [H1 H2]. destruct (em_touch _ n k (LR_em _ _ _ HR) H1 H2) as (v & -> & _). eauto.
    - destruct H as (v & Hv & ->). split; [assumption|]. apply touches_edge_key. auto. }
  intros m Hm. split; [rewrite Hst, lookup_insert_ne by congruence; reflexivity|].
  rewrite Hlk, decide_False by assumption. reflexivity.
Qed.
Print Assumptions C11_remove_node.

(** C12 *)
Theorem C12_merge_nodes_refused : forall lid l a b, layer_reachable lid l ->
  sl_has_node l a = false \/ sl_has_node l b = false \/ a = b -> sl_merge_nodes l a b = Ok (false, l).
Proof. intros lid l a b _ H. apply sl_merge_nodes_noop. rewrite !sl_has_node_false in H. exact H. Qed.
Print Assumptions C12_merge_nodes_refused.

Theorem C12_merge_nodes : forall lid l a b, layer_reachable lid l ->
  sl_has_node l a = true -> sl_has_node l b = true -> a <> b ->
  exists l', sl_merge_nodes l a b = Ok (true, l') /\ layer_reachable lid l' /\
    (* [a] is gone *)
    sl_find_node l' a = None /\ sl_check_node l' a = NMerged /\ (forall v, sl_has_edge l' a v = false) /\
    (* an edge between two other nodes is unchanged *)
    (forall u v, u <> a -> v <> a -> u <> b -> v <> b -> ec_find (sl_edges l') u v = ec_find (sl_edges l) u v) /\
    (* [b] keeps its edges, and gets those of [a] that it lacks, with their attributes *)
    (forall v, v <> a -> v <> b -> ec_find (sl_edges l') b v =
       match ec_find (sl_edges l) b v with
       | Some e => Some e
       | None => (fun e => mkEdge b v (e_info e)) <$> ec_find (sl_edges l) a v end) /\
    (* every other node keeps its data and status; its siblings follow the edges *)
    (forall m, m <> a -> sl_check_node l' m = sl_check_node l m /\ sl_has_node l' m = sl_has_node l m) /\
    (forall m nd nd', sl_find_node l m = Some nd -> sl_find_node l' m = Some nd' ->
       n_attrs nd' = n_attrs nd /\ n_time nd' = n_time nd /\
       (forall v, v ∈ n_sib nd' <-> sl_has_edge l' m v = true)).
Proof.
  intros lid l a b Hr Ha Hb Hab. destruct (reach_LR _ _ Hr) as [c HR].
  apply sl_has_node_true in Ha as [na Ha]. apply sl_has_node_true in Hb.
  destruct (LR_merge_nodes lid l c HR a b na Hab Ha Hb) as (l' & Hok & HR'). exists l'. split; [exact Hok|].
  split. { destruct Hr as [os ->]. exists (os ++ [LMerge a b]).
    rewrite sl_run_snoc. cbn [sl_step]. rewrite Hok. reflexivity. }
  pose proof (lr_wf _ _ _ HR) as Hwf. pose proof (sl_em_wf _ Hwf) as Hem.
  destruct (sl_merge_nodes_ok l a b na Hwf Hab Ha Hb) as (l2 & Hok2 & Hwf2 & Hid & Hst & Hedges & Hnone & Hdom & Hnd).
  assert (l2 = l') by congruence. subst l2.
  assert (Hself : forall u, ec_edges (sl_edges l) !! edge_key u u = None) by (intros u; apply em_wf_self; assumption).
  unfold sl_find_node, sl_check_node, sl_has_edge, ec_find. setoid_rewrite ec_contains_true. setoid_rewrite ec_contains_false.
  setoid_rewrite Hedges. split; [exact Hnone|]. split; [rewrite Hst, lookup_insert; reflexivity|].
  split. { intros v. apply lookup_merge_edges_touch; auto. apply touches_edge_key. auto. }
  split. { intros u v H1 H2 H3 H4. apply lookup_merge_edges_other; rewrite touches_edge_key; intros [?|?]; congruence. }
  split. { intros v H1 H2. destruct (ec_edges (sl_edges l) !! edge_key b v) as [e|] eqn:E.
    - apply lookup_merge_edges_keep; [|assumption]. rewrite touches_edge_key. intros [?|?]; congruence.
    - apply lookup_merge_edges_new; auto. }
  split. { intros m Hm. split; [rewrite Hst, lookup_insert_ne by congruence; reflexivity|].
    unfold sl_has_node. apply bool_decide_ext, Hdom, Hm. }
  intros m nd nd' H1 H2. destruct (decide (m = a)) as [->|Hm]; [congruence|].
  destruct (Hnd _ _ Hm H1) as (nd2 & H3 & (_ & _ & E1 & E2 & _) & _). assert (nd2 = nd') by congruence. subst nd2.
  split; [congruence|]. split; [congruence|]. intros v.
  rewrite (LR_sib _ _ _ HR' _ _ H2), elem_nbrs by (eapply LR_em; exact HR'). rewrite <- (LR_edges _ _ _ HR'), Hedges. reflexivity.
Qed.
Print Assumptions C12_merge_nodes.

(** A history on which all hypotheses hold: two triangles sharing an edge, merge, removal, reports. *)
Example C08_C12_case :
  let os := [LEmplace 1 (base_at 1 2 3); LEmplace 2 (base_at 1 2 3); LInsertNode (Some (3, 5, Some 9%Z, (base_at 1 2 3)));
             LEmplace 4 (base_at 1 2 3); LInsertEdge 1 2 None; LInsertEdge 2 3 (Some (mkEA true 7)); LInsertEdge 3 1 None;
             LInsertEdge 1 1 None; LInsertEdge 3 4 None; LNewEdges true; LMerge 3 2; LRemovedNodes true; LRemovedNodes true;
             LHasEdge 4 2; LHasEdge 2 3; LRemoveNode 1; LCheckNode 1; LNumEdges; LNewNodes false; LPosition 77] in
  fst (sl_run (sl_new 5) os) =
  [LMBool true; LMBool true; LMBool true; LMBool true; LMBool true; LMBool true; LMBool true; LMBool false; LMBool true;
   LMEdges [(1, 3); (3, 4); (1, 2); (2, 3)]; LMBool true; LMNodes [3]; LMNodes [3]; LMBool true; LMBool false; LMBool true;
   LMStatus NDeleted; LMSize 1; LMNodes [2; 4]; LMThrow].
Proof. vm_compute. reflexivity. Qed.
