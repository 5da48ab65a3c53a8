(** C03, C16-C24, C51: the scene graph after any history of allowed calls.
    [reachable], [allowed] and the observations (layer_of, node_data, adjacent, edge_at, ...)
    are defined in Spec/GraphObs.v from the public queries only. *)
From Coq Require Import NArith ZArith Bool List Lia.
From stdpp Require Import base list gmap fin_maps.
From Verif.Model Require Import Types Mesh Attrs Node EdgeContainer SLayer DLayer Graph.
From Verif.Spec Require Import AbstractGraph GraphHistory GraphObs.
From Verif.Proof Require Import GraphProps GraphProps2 GraphProps3 GraphCounts.
From Verif.Properties Require Import ExGraph.
Local Open Scope N_scope.

(** For the examples: the first listed parent, and a check that it is the only one. *)
Definition par_of (g : Graph) (x : N) : option N :=
  match node_at g x with Some n => match elements (n_par n) with [p] => Some p | _ => None end | None => None end.
Lemma parents_checked g : reachable g ->
  forallb (fun x => match node_at g (fst x) with Some n => Nat.leb (length (elements (n_par n))) 1 | None => true end) (map_to_list (g_lookup g)) = true ->
  forall x p, is_parent_of g p x -> p = default 0 (par_of g x).
Proof.
  intros Hr Hb x p (Ha & kp & kx & Hp & Hx & Hlt). rewrite forallb_forall in Hb. specialize (Hb _ (layer_of_elem _ _ _ Hx)). cbn [fst] in Hb.
  destruct (edge_ends g p x Hr Ha) as (_ & Hkp & Hkx).
  assert (Hn : forall y, g_has_node g y = true -> exists n, node_at g y = Some n).
  { intros y Hy. apply (node_storage g y Hr) in Hy as [n Hn]. exists n. unfold g_get_node in Hn. unfold node_at.
    destruct (g_find_node g y) as [[m|]| |]; cbn in Hn; congruence. }
  destruct (Hn p Hkp) as [np Hnp]. destruct (Hn x Hkx) as [nx Hnx]. rewrite Hnx in Hb.
  pose proof (proj1 (proj2 (links_mirror g p x np nx kp kx Hr Hnp Hnx Hp Hx))) as Hm.
  assert (Hin : p ∈ elements (n_par nx)) by (apply elem_of_elements, Hm; auto).
  unfold par_of. rewrite Hnx. apply Nat.leb_le in Hb. destruct (elements (n_par nx)) as [|q [|]]; cbn in Hb; [inversion Hin| |lia].
  apply elem_of_list_singleton in Hin. exact Hin.
Qed.

(** C03: edge queries do not depend on the order of the ends, and the record found has
    exactly those two (distinct) ends. *)
Theorem C03_edges_undirected : forall g u v, reachable g ->
  g_has_edge g u v = g_has_edge g v u /\ edge_at g u v = edge_at g v u /\
  (adjacent g u v <-> is_Some (edge_at g u v)) /\
  (forall e, edge_at g u v = Some e -> u <> v /\ same_pair (e_src e) (e_tgt e) u v).
Proof. exact edges_symmetric. Qed.
Print Assumptions C03_edges_undirected.
Example C03_case : adjacent ex_graph 11 20 /\ adjacent ex_graph 20 11 /\ edge_at ex_graph 11 20 = Some (mkEdge 20 11 ea_default) /\
  ~ adjacent ex_graph 10 12.
Proof. vm_compute. repeat split; discriminate. Qed.

(** C16: a known node is found, with its own id and the id of its layer; the layer reported by
    getLayerForNode is the only layer that stores it. *)
Theorem C16_node_stored_once : forall g x, reachable g ->
  (g_has_node g x = true <-> exists n, g_get_node g x = Ok n) /\
  (forall n, g_get_node g x = Ok n -> n_id n = x /\ exists k, layer_of g x = Some k /\ n_layer n = lk_layer k) /\
  (forall k, stored_in g k x <-> layer_of g x = Some k).
Proof. exact node_storage. Qed.
Print Assumptions C16_node_stored_once.

(** C16: emplaceNode adds exactly one node, with the given attributes. *)
Theorem C16_emplace_node : forall g l id at_, reachable g ->
  let '(b, g') := g_emplace_node g l id at_ in
  reachable g' /\ same_edges g g' /\
  (b = true <-> g_has_node g id = false /\ g_has_layer g l = true) /\
  (b = false -> same_nodes g g') /\ (b = true -> node_added g g' id (key_static l, None, at_)).
Proof. exact emplace_effect. Qed.
Print Assumptions C16_emplace_node.

(** C16: setNodeAttributes changes the attributes of exactly that node. *)
Theorem C16_set_attributes : forall g id at_, reachable g ->
  exists b g', g_set_node_attributes g id at_ = Ok (b, g') /\ reachable g' /\ same_edges g g' /\ b = g_has_node g id /\
  (forall x, node_data g' x = if decide (x = id)
     then (fun d : LayerKey * option Z * NodeAttrs => (fst d, at_)) <$> node_data g x else node_data g x).
Proof. exact set_attrs_effect. Qed.
Print Assumptions C16_set_attributes.
Example C16_case : node_data ex_graph (agent 1) = Some (key_dynamic AGENTS pfx_a, Some 2%Z, base_at 0 0 2) /\
  node_data ex_graph 20 = Some (key_static ROOMS, None, base_at 0 1 0) /\ node_data ex_graph 99 = None.
Proof. vm_compute. auto. Qed.

(** C17: child, parent and sibling sets are exactly the edges, split by layer. *)
Theorem C17_links_mirror_edges : forall g u v nu nv ku kv, reachable g -> node_at g u = Some nu -> node_at g v = Some nv ->
  layer_of g u = Some ku -> layer_of g v = Some kv ->
  (v ∈ n_chd nu <-> adjacent g u v /\ lk_layer kv < lk_layer ku) /\
  (u ∈ n_par nv <-> adjacent g u v /\ lk_layer kv < lk_layer ku) /\
  (v ∈ n_sib nu <-> adjacent g u v /\ lk_layer kv = lk_layer ku).
Proof. exact links_mirror. Qed.
Print Assumptions C17_links_mirror_edges.
Theorem C17_links_and_edges_end_in_nodes : forall g u v, reachable g ->
  (adjacent g u v -> u <> v /\ g_has_node g u = true /\ g_has_node g v = true) /\
  (forall nu, node_at g u = Some nu -> v ∈ n_chd nu \/ v ∈ n_par nu \/ v ∈ n_sib nu -> g_has_node g v = true).
Proof. intros g u v Hr. exact (conj (edge_ends g u v Hr) (fun nu Hn => links_known g u nu v Hr Hn)). Qed.
Print Assumptions C17_links_and_edges_end_in_nodes.
Example C17_case :
  (fun n => (elements (n_par n), elements (n_sib n), elements (n_chd n))) <$> node_at ex_graph 10 = Some ([20], [11], [agent 1]) /\
  (fun n => elements (n_chd n)) <$> node_at ex_graph 20 = Some [11; 10].
Proof. vm_compute. auto. Qed.

(** C18 (and C14 at graph level): removeNode. *)
Theorem C18_remove_node : forall g n, reachable g -> allowed g (GRemoveNode n) ->
  exists b g', g_remove_node g n = Ok (b, g') /\ reachable g' /\ b = g_has_node g n /\
  (b = false -> same_nodes g g' /\ same_edges g g') /\
  (b = true ->
    g_has_node g' n = false /\
    (forall x, x <> n -> node_data g' x = node_data g x) /\
    (forall u v, u = n \/ v = n -> ~ adjacent g' u v /\ edge_at g' u v = None) /\
    (forall x nx, node_at g' x = Some nx -> n ∉ n_par nx /\ n ∉ n_sib nx /\ n ∉ n_chd nx) /\
    (forall u v, u <> n -> v <> n ->
       (edge_at g' u v = edge_at g u v /\
        ~ (edge_at g u v = None /\ exists p q, reconnects g n p q /\ same_pair u v p q)) \/
       (edge_at g u v = None /\ exists p q, reconnects g n p q /\ same_pair u v p q /\
          edge_at g' u v = Some (mkEdge p q ea_default)))).
Proof. exact remove_node_effect. Qed.
Print Assumptions C18_remove_node.
Example C18_case : allowed ex_graph (GRemoveNode (agent 1)) /\ g_has_node ex_graph (agent 1) = true /\
  reconnects ex_graph (agent 1) (agent 0) (agent 2) /\ allowed ex_graph (GRemoveNode 10).
Proof.
  split; [apply allowed_b_ok; vm_compute; reflexivity|]. split; [vm_compute; reflexivity|]. split; [|apply allowed_b_ok; vm_compute; reflexivity].
  exists (key_dynamic AGENTS pfx_a). vm_compute. repeat split.
Qed.

(** C19: insertEdge and removeEdge. *)
Theorem C19_insert_edge : forall g u v i, reachable g ->
  exists b g', g_insert_edge g u v i = Ok (b, g') /\ reachable g' /\ same_nodes g g' /\
  (b = true <-> u <> v /\ g_has_node g u = true /\ g_has_node g v = true /\ ~ adjacent g u v) /\
  (b = false -> same_edges g g') /\
  (b = true -> forall x y, edge_at g' x y =
     if decide (same_pair x y u v) then Some (mkEdge u v (default ea_default i)) else edge_at g x y).
Proof. exact insert_edge_effect. Qed.
Print Assumptions C19_insert_edge.
Theorem C19_remove_edge : forall g u v, reachable g ->
  exists b g', g_remove_edge g u v = Ok (b, g') /\ reachable g' /\ same_nodes g g' /\
  (b = true <-> adjacent g u v) /\
  (forall x y, edge_at g' x y = if decide (same_pair x y u v) then None else edge_at g x y).
Proof. exact remove_edge_effect. Qed.
Print Assumptions C19_remove_edge.
(** setEdgeAttributes changes the attributes of exactly that edge; it throws on unknown ends. *)
Theorem C19_set_edge_attributes : forall g u v i, reachable g ->
  (g_has_node g u = true -> g_has_node g v = true ->
   exists b g', g_set_edge_attributes g u v i = Ok (b, g') /\ reachable g' /\ same_nodes g g' /\ (b = true <-> adjacent g u v) /\
   forall x y, edge_at g' x y = if decide (same_pair x y u v)
     then (fun e => mkEdge (e_src e) (e_tgt e) i) <$> edge_at g x y else edge_at g x y) /\
  (g_has_node g u = false \/ g_has_node g v = false -> g_set_edge_attributes g u v i = Throw).
Proof. exact set_edge_attrs_effect. Qed.
Print Assumptions C19_set_edge_attributes.
Example C19_case : (fst <$> match g_insert_edge ex_graph 12 20 None with Ok x => Some x | _ => None end) = Some true /\
  (fst <$> match g_insert_edge ex_graph 11 10 None with Ok x => Some x | _ => None end) = Some false /\
  (fst <$> match g_remove_edge ex_graph 10 (agent 1) with Ok x => Some x | _ => None end) = Some true.
Proof. vm_compute. auto. Qed.

(** C20: insertParentEdge between nodes of layers with different LayerIds. *)
Theorem C20_insert_parent_edge : forall g u v i, reachable g -> allowed g (GInsertParentEdge u v i) ->
  exists b g', g_insert_parent_edge g u v i = Ok (b, g') /\ reachable g' /\ same_nodes g g' /\
  (b = true <-> g_has_node g u = true /\ g_has_node g v = true /\ ~ adjacent g u v) /\
  (b = false -> same_edges g g') /\
  (b = true -> edge_at g' u v = Some (mkEdge u v (default ea_default i)) /\
    forall c p kc kp, same_pair c p u v -> layer_of g c = Some kc -> layer_of g p = Some kp -> lk_layer kc < lk_layer kp ->
      (forall q, is_parent_of g' q c <-> q = p) /\
      (forall x y, ~ same_pair x y u v ->
         edge_at g' x y = edge_at g x y \/
         (edge_at g' x y = None /\ exists q, same_pair x y c q /\ is_parent_of g q c))).
Proof. exact insert_parent_edge_effect. Qed.
Print Assumptions C20_insert_parent_edge.
(** Place 12 has parent 21 and is given the new parent 20. *)
Example C20_case : allowed ex_graph (GInsertParentEdge 20 12 None) /\ is_parent_of ex_graph 21 12 /\ ~ adjacent ex_graph 20 12.
Proof.
  split; [apply allowed_b_ok; vm_compute; reflexivity|]. split; [|vm_compute; discriminate].
  split; [vm_compute; reflexivity|]. exists (key_static ROOMS), (key_static PLACES). vm_compute. auto.
Qed.

(** C21: mergeNodes of two static nodes. *)
Theorem C21_merge_nodes : forall g f t, reachable g -> allowed g (GMergeNodes f t) ->
  exists b g', g_merge_nodes g f t = Ok (b, g') /\ reachable g' /\
  (b = true <-> f <> t /\ exists k, layer_of g f = Some k /\ layer_of g t = Some k) /\
  (b = false -> same_nodes g g' /\ same_edges g g') /\
  (b = true ->
    g_has_node g' f = false /\
    (forall x, x <> f -> node_data g' x = node_data g x) /\
    (forall u v, u = f \/ v = f -> ~ adjacent g' u v /\ edge_at g' u v = None) /\
    (forall x nx, node_at g' x = Some nx -> f ∉ n_par nx /\ f ∉ n_sib nx /\ f ∉ n_chd nx) /\
    (forall v, v <> f -> v <> t -> edge_at g' t v =
        match edge_at g t v with Some e => Some e | None => (fun e => mkEdge t v (e_info e)) <$> edge_at g f v end) /\
    (forall u v, u <> f -> v <> f -> u <> t -> v <> t -> edge_at g' u v = edge_at g u v)).
Proof. exact merge_nodes_effect. Qed.
Print Assumptions C21_merge_nodes.
Example C21_case : allowed ex_graph (GMergeNodes 10 11) /\ layer_of ex_graph 10 = layer_of ex_graph 11.
Proof. split; [apply allowed_b_ok; vm_compute; reflexivity|vm_compute; reflexivity]. Qed.

(** C22: the single-parent discipline is preserved by every call that does not add an
    inter-layer edge by other means than insertParentEdge, and by merges of nodes that do not
    have two different parents. *)
Theorem C22_one_parent_preserved : forall g o b g', reachable g -> allowed g o -> keeps_one_parent g o -> one_parent g ->
  g_step g o = Ok (b, g') -> one_parent g'.
Proof. exact one_parent_step. Qed.
Print Assumptions C22_one_parent_preserved.
(** The example graph has the discipline, and merging 10 into 11 (both below 20) is covered. *)
Example C22_case : one_parent ex_graph /\ keeps_one_parent ex_graph (GMergeNodes 10 11).
Proof.
  assert (H : forall x p, is_parent_of ex_graph p x -> p = default 0 (par_of ex_graph x)).
  { intros x p. apply (parents_checked ex_graph ex_reachable). vm_compute. reflexivity. }
  split.
  - intros x p q Hp Hq. rewrite (H x p Hp), (H x q Hq). reflexivity.
  - intros p q Hp Hq. rewrite (H 10 p Hp), (H 11 q Hq). vm_compute. reflexivity.
Qed.

(** C23: the counts. *)
Theorem C23_num_nodes : forall g, reachable g ->
  exists ids, NoDup ids /\ (forall x, x ∈ ids <-> g_has_node g x = true) /\ length ids = g_num_nodes g false.
Proof. exact count_nodes. Qed.
Print Assumptions C23_num_nodes.
Theorem C23_num_edges : forall g, reachable g ->
  exists ps, NoDup ps /\ (forall u v, (u, v) ∈ ps <-> u < v /\ adjacent g u v) /\ length ps = g_num_edges g.
Proof. exact count_edges. Qed.
Print Assumptions C23_num_edges.
Theorem C23_num_layers : forall g, reachable g -> exists ls, NoDup ls /\
  (forall l, l ∈ ls <-> g_has_layer g l = true \/ exists p, g_has_dlayer g l p = true) /\ length ls = g_num_layers g.
Proof. exact count_layers. Qed.
Print Assumptions C23_num_layers.
Example C23_case : g_num_nodes ex_graph false = 8%nat /\ g_num_edges ex_graph = 8%nat /\ g_num_layers ex_graph = 4%nat.
Proof. exact ex_counts. Qed.

(** C24: an allowed call completes, or throws because findEdge/setEdgeAttributes was given an
    unknown node; it never runs into undefined behaviour. *)
Theorem C24_calls_are_safe : forall g o, reachable g -> allowed g o ->
  (exists b g', g_step g o = Ok (b, g') /\ reachable g') \/
  (g_step g o = Throw /\ exists u v, (g_has_node g u = false \/ g_has_node g v = false) /\
     (o = GFindEdge u v \/ exists i, o = GSetEdgeAttrs u v i)).
Proof. exact calls_safe. Qed.
Print Assumptions C24_calls_are_safe.
Example C24_case : Forall (fun o => allowed ex_graph o) [GRemoveNode 20; GMergeNodes 20 21; GFindEdge 1 2; GInsertEdge 3 4 None; GClear;
   GEmplaceDyn AGENTS pfx_a 9 (base_at 0 0 0) true; GEmplacePrev AGENTS (agent 7) 7 (base_at 0 0 0)].
Proof. apply allowed_all_ok. vm_compute. reflexivity. Qed.

(** C13 (graph level): appending to a dynamic layer. *)
Theorem C13_emplace_dynamic : forall g l p t at_ ae, reachable g -> allowed g (GEmplaceDyn l p t at_ ae) ->
  let k := num_slots g l p in
  let id := prefix_make_id p k in
  exists b g', g_emplace_dynamic g l p t at_ ae = Ok (b, g') /\ reachable g' /\
  (b = true <-> g_has_node g id = false /\ forall x at', node_data g x <> Some (key_dynamic l p, Some t, at')) /\
  (b = false -> same_nodes g g' /\ same_edges g g') /\
  (b = true ->
     node_added g g' id (key_dynamic l p, Some t, at_) /\ num_slots g' l p = k + 1 /\
     let prev := prefix_make_id p (k - 1) in
     let chained := ae = true /\ 0 < k /\ layer_of g prev = Some (key_dynamic l p) in
     (chained -> forall u v, edge_at g' u v = if decide (same_pair u v prev id) then Some (mkEdge prev id ea_default) else edge_at g u v) /\
     (~ chained -> same_edges g g')).
Proof. exact emplace_dyn_effect. Qed.
Print Assumptions C13_emplace_dynamic.
Example C13_case : allowed ex_graph (GEmplaceDyn AGENTS pfx_a 9 (base_at 0 0 0) true) /\ num_slots ex_graph AGENTS pfx_a = 3.
Proof. split; [apply allowed_b_ok; vm_compute; reflexivity|vm_compute; reflexivity]. Qed.

(** C51: every history of allowed calls on a fresh graph gives exactly the answers, and ends in
    exactly the nodes and edges, of the plain node-set/edge-set machine of
    Spec/AbstractGraph.v. *)
Theorem C51_history_refines_abstract_graph : forall ids g os, g_new ids = Ok g -> UNKNOWN_LAYER ∉ ids -> allowed_run g os ->
  exists g', g_run g os = Some (fst (a_run (a_init ids) os), g') /\ reachable g' /\
  let a' := snd (a_run (a_init ids) os) in
  (forall x, node_data g' x = (fun n => (an_key n, an_time n, an_attrs n)) <$> ag_nodes a' !! x) /\
  (forall u v, edge_at g' u v = ag_edges a' !! edge_key u v).
Proof. exact history_spec. Qed.
Print Assumptions C51_history_refines_abstract_graph.
