(** C28-C31: graph searches and connected components. *)
From Coq Require Import NArith ZArith Bool List Lia.
From stdpp Require Import base list gmap fin_maps relations.
From Verif.Model Require Import Types Mesh Attrs Node EdgeContainer SLayer DLayer Graph Search.
From Verif.Spec Require Import EdgeLog LayerLog AbstractGraph GraphHistory GraphObs Search.
From Verif.Proof Require Import Keys SLayerP LayerLogP2 GraphRep GraphSim GraphObsP SearchP SearchP2 SearchP3 SearchP4.
From Verif.Properties Require Import ExGraph P04_Layer.
Local Open Scope N_scope.
#[local] Arguments edge_key : simpl never.

Lemma api_ok l : api_layer l -> self_contained l -> slayer_ok l.
Proof.
  intros H Hc. assert (sl_wf l) as Hw.
  { destruct H as [[lid H]|(g & lid & Hr & Hl)].
    - destruct (reach_LR _ _ H) as [c HR]. apply HR.
    - destruct (reachable_RepL g Hr) as [a [HR _]]. apply (rp_part _ _ HR (key_static lid) l); [intros _; reflexivity|exact Hl]. }
  split; [exact Hw|]. intros u nu v Hu Hv. apply sl_has_node_true. exact (Hc u v nu Hu Hv).
Qed.

(** A layer built on its own has all its siblings. *)
Theorem C28_isolated_layers_are_self_contained : forall lid l, layer_reachable lid l -> self_contained l.
Proof.
  intros lid l H. destruct (reach_LR _ _ H) as [c HR]. intros u v nd Hu Hv. apply sl_has_node_true.
  exact (lr_closed _ _ _ HR u nd v Hu Hv).
Qed.
Print Assumptions C28_isolated_layers_are_self_contained.

(** C28: from a set of roots all in the layer, the search ends, calls the visitor once on each
    node joined to a root by a path, and on no other node.  If a root is missing, the visitor
    is never called. *)
Theorem C28_search_visits_exactly_the_reachable_nodes : forall l, api_layer l -> self_contained l ->
  (forall roots, NoDup roots -> (forall r, r ∈ roots -> sl_has_node l r = true) ->
     exists vs, finishes (bfs_roots l roots) vs /\ NoDup vs /\
       forall y, y ∈ vs <-> exists r, r ∈ roots /\ path (linked l) r y) /\
  (forall root, exists vs, finishes (bfs_root l root) vs /\ NoDup vs /\
       forall y, y ∈ vs <-> sl_has_node l root = true /\ path (linked l) root y) /\
  (forall roots fuel, (exists r, r ∈ roots /\ sl_has_node l r = false) -> bfs_roots l roots fuel = Some (Ok [])).
Proof.
  intros l Hl Hc. pose proof (api_ok l Hl Hc) as W. split; [|split].
  - intros roots HN HD. exact (bfs_roots_ok l roots W HN HD).
  - intros root. destruct (sl_has_node l root) eqn:E.
    + destruct (bfs_roots_ok l [root] W) as (vs & HF & HN & HV).
      * apply NoDup_singleton.
      * intros r Hr. apply elem_of_list_singleton in Hr. subst r. exact E.
      * exists vs. split; [|split; [exact HN|]].
        -- destruct HF as [k HF]. exists k. intros fuel L. rewrite bfs_root_roots. exact (HF fuel L).
        -- intros y. rewrite HV. split.
           ++ intros (r & Hr & Hp). apply elem_of_list_singleton in Hr. subst r. auto.
           ++ intros [_ Hp]. exists root. split; [apply elem_of_list_singleton; reflexivity|exact Hp].
    + exists []. split; [exists 0%nat; intros fuel _; unfold bfs_root; rewrite E; reflexivity|]. split; [constructor|].
      intros y. rewrite elem_of_nil. split; [contradiction|]. intros [? _]. discriminate.
  - intros roots fuel (r & Hr & E). unfold bfs_roots. replace (forallb (sl_has_node l) roots) with false; [reflexivity|].
    symmetry. apply not_true_iff_false. intros K. rewrite forallb_forall in K. rewrite (K r) in E by (apply elem_of_list_In, Hr). discriminate.
Qed.
Print Assumptions C28_search_visits_exactly_the_reachable_nodes.

(** C28, filtered search: only through nodes and edges that pass the filters. *)
Theorem C28_filtered_search : forall l node_valid edge_valid root, api_layer l -> self_contained l ->
  sl_has_node l root = true ->
  exists vs, finishes (fun fuel => visits (bfs_valid l node_valid edge_valid fuel [root] {[root]})) vs /\ NoDup vs /\
    forall y, y ∈ vs <-> path (linked_ok l node_valid edge_valid) root y.
Proof. intros l nv ev root Hl Hc Hr. exact (bfs_valid_ok l nv ev root (api_ok l Hl Hc) Hr). Qed.
Print Assumptions C28_filtered_search.

(** C28, limited search: each node within [limit] hops once. *)
Theorem C28_limited_search : forall l roots limit, api_layer l -> self_contained l ->
  NoDup roots -> (forall r, r ∈ roots -> sl_has_node l r = true) ->
  exists vs, finishes (bfs_roots_limit l roots limit) vs /\ NoDup vs /\
    forall y, y ∈ vs <-> exists r, r ∈ roots /\ path_le (linked l) limit r y.
Proof. intros l roots limit Hl Hc HN HD. exact (bfs_roots_limit_ok l roots limit (api_ok l Hl Hc) HN HD). Qed.
Print Assumptions C28_limited_search.

(** C29: getNeighborhood. *)
Theorem C29_neighborhood_is_the_ball : forall l, api_layer l -> self_contained l ->
  (forall n k, exists s, finishes (sl_neighborhood l n k) s /\
     forall y, y ∈ s <-> sl_has_node l n = true /\ path_le (linked l) k n y) /\
  (forall ns k, NoDup ns -> exists s, finishes (sl_neighborhood_of l ns k) s /\
     forall y, y ∈ s <-> (forall n, n ∈ ns -> sl_has_node l n = true) /\
                         exists n, n ∈ ns /\ path_le (linked l) k n y).
Proof.
  intros l Hl Hc. pose proof (api_ok l Hl Hc) as W.
  assert (forall ns k, NoDup ns -> exists s, finishes (sl_neighborhood_of l ns k) s /\
     forall y, y ∈ s <-> (forall n, n ∈ ns -> sl_has_node l n = true) /\
                         exists n, n ∈ ns /\ path_le (linked l) k n y) as HM.
  { intros ns k HN. destruct (forallb (sl_has_node l) ns) eqn:E.
    - rewrite forallb_forall in E. assert (forall n, n ∈ ns -> sl_has_node l n = true) as HD by (intros n Hn; apply E, elem_of_list_In, Hn).
      destruct (bfs_roots_limit_ok l ns k W HN HD) as (O & HF & _ & HO). exists (list_to_set O).
      split; [exact (finishes_as_set _ _ HF)|]. intros y. rewrite elem_of_list_to_set, HO. tauto.
    - exists ∅. split.
      + exists 0%nat. intros fuel _. unfold sl_neighborhood_of, bfs_roots_limit. rewrite E. reflexivity.
      + intros y. split; [set_solver|]. intros [HD _]. exfalso. apply not_true_iff_false in E. apply E, forallb_forall.
        intros n Hn. apply HD, elem_of_list_In, Hn. }
  split; [|exact HM]. intros n k. destruct (HM [n] k (NoDup_singleton _)) as (s & [f HF] & Hs). exists s. split.
  - exists f. intros fuel L. unfold sl_neighborhood. rewrite bfs_root_limit_roots. exact (HF fuel L).
  - intros y. rewrite Hs. split.
    + intros (HD & m & Hm & Hp). apply elem_of_list_singleton in Hm. subst m. split; [apply HD, elem_of_list_singleton; reflexivity|exact Hp].
    + intros (HD & Hp). split; [intros m Hm; apply elem_of_list_singleton in Hm; subst m; exact HD|].
      exists n. split; [apply elem_of_list_singleton; reflexivity|exact Hp].
Qed.
Print Assumptions C29_neighborhood_is_the_ball.

(** C30: components from given root nodes ([only]: paths restricted to the root nodes). *)
Theorem C30_components_of_roots : forall l roots (only : bool), api_layer l -> self_contained l ->
  let R := if only then linked_in l roots else linked l in
  exists cs, finishes (components_roots l roots only) cs /\ NoDup (concat cs) /\ (forall c, c ∈ cs -> c <> []) /\
    (forall y, y ∈ concat cs <-> exists r, r ∈ roots /\ sl_has_node l r = true /\ path R r y) /\
    (forall x y, together cs x y <-> x ∈ concat cs /\ path R x y).
Proof. intros l roots only Hl Hc. exact (components_roots_ok l roots only (api_ok l Hl Hc)). Qed.
Print Assumptions C30_components_of_roots.

(** C30: components of the whole layer under node and edge filters: they are disjoint, cover
    exactly the nodes that pass, and join two nodes iff a path connects them. *)
Theorem C30_components_partition_the_nodes : forall l node_valid edge_valid, api_layer l -> self_contained l ->
  exists cs, finishes (components_valid l node_valid edge_valid) cs /\ NoDup (concat cs) /\ (forall c, c ∈ cs -> c <> []) /\
    (forall y, y ∈ concat cs <-> passes l node_valid y) /\
    (forall x y, together cs x y <-> passes l node_valid x /\ path (linked_ok l node_valid edge_valid) x y).
Proof. intros l nv ev Hl Hc. exact (components_valid_ok l nv ev (api_ok l Hl Hc)). Qed.
Print Assumptions C30_components_partition_the_nodes.

(** C31: merging loses and invents nothing, and keeps every given set together; the results
    are disjoint if sharing a node is transitive on the given sets. *)
Theorem C31_merging : forall cs,
  (forall y, in_some (merged_components cs) y <-> in_some cs y) /\
  (forall c, c ∈ cs -> exists d, d ∈ merged_components cs /\ c ⊆ d) /\
  (sharing_transitive cs -> forall i j a b,
     merged_components cs !! i = Some a -> merged_components cs !! j = Some b -> i <> j -> a ∩ b = ∅).
Proof.
  intros cs. destruct (merged_n_ok (length cs) cs (le_n _)) as [H1 H2]. split; [exact H1|]. split; [exact H2|].
  intros T. apply (merged_n_disjoint cs (length cs)); [|auto|lia].
  intros a b c Ha Hb Hc. rewrite !overlap_iff. apply T; assumption.
Qed.
Print Assumptions C31_merging.

(** C31: the depth-limited overload covers exactly the nodes within [depth] of a root. *)
Theorem C31_depth_limited_components_cover_the_balls : forall l depth roots, api_layer l -> self_contained l ->
  exists cs, finishes (components_depth l depth roots) cs /\
    forall y, in_some cs y <-> exists r, r ∈ roots /\ sl_has_node l r = true /\ path_le (linked l) depth r y.
Proof.
  intros l depth roots Hl Hc. pose proof (api_ok l Hl Hc) as W.
  destruct (depth_loop_ok l depth roots W (fun _ => False) ∅ ∅ []) as (cs & [k HF] & _ & HC).
  - apply KInv_iff with (P := fun _ => False); [set_solver|apply KInv_empty].
  - intros c K. apply elem_of_nil in K. contradiction.
  - exists (merged_components cs). split.
    + exists k. intros fuel L. unfold components_depth. rewrite (HF fuel L). reflexivity.
    + intros y. unfold merged_components. rewrite (proj1 (merged_n_ok (length cs) cs (le_n _)) y). rewrite (HC y).
      split; [|auto]. intros [(c & K & _)|[K|K]]; [apply elem_of_nil in K; contradiction|set_solver|exact K].
Qed.
Print Assumptions C31_depth_limited_components_cover_the_balls.

(** ** Cases *)
Definition a0 : NodeAttrs := base_at 0 0 0.
(** A path 1-2-3-4, an isolated pair 8-9, a lone node 7. *)
Definition ex_path : SLayer := snd (sl_run (sl_new 3)
  [LEmplace 1 a0; LEmplace 2 a0; LEmplace 3 a0; LEmplace 4 a0; LEmplace 7 a0; LEmplace 8 a0; LEmplace 9 a0;
   LInsertEdge 1 2 None; LInsertEdge 2 3 None; LInsertEdge 3 4 None; LInsertEdge 8 9 None]).
Theorem C28_case : api_layer ex_path /\ self_contained ex_path /\
  bfs_root ex_path 2 10 = Some (Ok [2; 1; 3; 4]) /\
  sl_neighborhood ex_path 1 2 10 = Some (Ok {[1; 2; 3]}) /\
  option_map (fun r => match r with Ok cs => map (@length N) cs | _ => [] end)
    (components_roots ex_path [4; 9; 1; 7] false 10) = Some [4; 2; 1]%nat.
Proof.
  assert (layer_reachable 3 ex_path) as H by (eexists; reflexivity).
  split; [left; eauto|]. split; [exact (C28_isolated_layers_are_self_contained _ _ H)|].
  split; [vm_compute; reflexivity|]. split; [|vm_compute; reflexivity].
  replace (sl_neighborhood ex_path 1 2 10) with (Some (Ok (list_to_set (C := gset N) [1; 2; 3]))) by (vm_compute; reflexivity).
  do 2 f_equal. set_solver.
Qed.
Theorem C31_case : sharing_transitive [ {[1; 2]}; {[3; 4]}; {[2; 1]} ] /\
  merged_components [ {[1; 2]}; {[3; 4]}; {[2; 1]} ] = [ {[1; 2]} ∪ {[2; 1]}; {[3; 4]} ].
Proof.
  split; [|vm_compute; reflexivity].
  intros a b c Ha Hb Hc (y & Hy & Hy') (z & Hz & Hz').
  repeat (setoid_rewrite elem_of_cons in Ha). repeat (setoid_rewrite elem_of_cons in Hb). repeat (setoid_rewrite elem_of_cons in Hc).
  rewrite elem_of_nil in Ha, Hb, Hc.
  destruct Ha as [->|[->|[->|[]]]], Hb as [->|[->|[->|[]]]], Hc as [->|[->|[->|[]]]];
    rewrite ?elem_of_union, ?elem_of_singleton in *; unfold shares;
    try (exists 1; set_solver); try (exists 3; set_solver); exfalso; lia.
Qed.

(** C31 as a user would expect it is false: merging {1}, {2,3}, {1,2} in a single
    left-to-right pass yields {1,2} and {2,3}, which share 2. *)
Theorem C31_merged_components_disjoint_refuted : exists cs,
  merged_components cs = [ {[1]} ∪ {[1; 2]}; {[2; 3]} ].
Proof. exists [ {[1]}; {[2; 3]}; {[1; 2]} ]. vm_compute. reflexivity. Qed.

(** C28 needs [self_contained]: in a graph, an edge between an object and an agent (both have
    LayerId 2) makes a search over the object layer throw. *)
Definition cross_ops : list gop :=
  [GEmplace OBJECTS 10 a0; GEmplaceDyn AGENTS pfx_a 100%Z a0 true; GInsertEdge 10 (agent 0) None].
Definition cross_graph : Graph := match run_b ex_start cross_ops with Some g => g | None => ex_start end.
Theorem C28_cross_partition_search_refuted : exists g l, reachable g /\ g_layers g !! OBJECTS = Some l /\
  sl_has_node l 10 = true /\ bfs_root l 10 5 = Some Throw.
Proof.
  exists cross_graph. assert (is_Some (g_layers cross_graph !! OBJECTS)) as [l Hl].
  { apply (bool_decide_eq_true_1 (is_Some _)). vm_compute. reflexivity. }
  exists l. split; [apply run_b_start; vm_compute; reflexivity|]. split; [exact Hl|].
  assert (match g_layers cross_graph !! OBJECTS with
          | Some l => (sl_has_node l 10, bfs_root l 10 5) | None => (false, None) end = (true, Some Throw)) as K
    by (vm_compute; reflexivity).
  rewrite Hl in K. injection K as K1 K2. auto.
Qed.
