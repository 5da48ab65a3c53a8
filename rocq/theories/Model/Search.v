(** Model of the graph searches of include/spark_dsg/graph_utilities.h over a static layer
    (graph_traits<SceneGraphLayer>, scene_graph_layer.h:321-363) and of
    SceneGraphLayer::getNeighborhood (scene_graph_layer.cpp:339-355).

    A search returns the list of nodes the visitor is called on, in call order.  The while
    loop is driven by a fuel counter: [None] means the loop did not finish within the fuel.
    [Throw] models getNode/getEdge of a missing element (std::out_of_range).
    Simplifications: the order in which siblings are enumerated is that of [elements]
    (std::set: ascending); a std::unordered_set of roots is a list (its iteration order);
    getEdge also marks the edge as not stale (EdgeContainer::find), which is not
    represented here. *)
From Coq Require Import NArith ZArith Bool List.
From stdpp Require Import base list gmap fin_maps.
From Verif.Model Require Import Types Attrs Node EdgeContainer SLayer.
Local Open Scope N_scope.

(** scene_graph_layer.h:329-331: getNode throws when the node is missing *)
Definition neighbors (l : SLayer) (n : N) : result (list N) :=
  let! nd := at_ (sl_find_node l n) in Ok (elements (n_sib nd)).

(** A while loop with fuel: [None] when it runs out. *)
Definition fueled (A : Type) := option (result A).

(** The loop shared by the [seen]-based searches: [expand curr seen] is the body of the
    for loop over the neighbours; it returns the nodes pushed back and the new [seen]. *)
Section Loop.
  Context {S : Type} (expand : N -> S -> result (list N * S)).
  Fixpoint search_loop (fuel : nat) (frontier : list N) (seen : S) (visited : list N)
    : fueled (list N * S) :=
    match frontier with
    | [] => Some (Ok (visited, seen))
    | curr :: rest =>
      match fuel with
      | O => None
      | Datatypes.S f =>
        match expand curr seen with
        | Ok (pushed, seen') => search_loop f (rest ++ pushed) seen' (visited ++ [curr])
        | Throw => Some Throw
        | UB => Some UB
        end
      end
    end.
End Loop.

(** graph_utilities.h:62-70 (no filter: [valid] always true) and 86-98
    ([valid_nodes.count(neighbor)]): for loop over the neighbours *)
Definition push_unseen (valid : N -> bool) (st : list N * gset N) (m : N) : list N * gset N :=
  let '(pushed, seen) := st in
  if decide (m ∈ seen) then st
  else if negb (valid m) then st
  else (pushed ++ [m], {[m]} ∪ seen).
Definition expand_unseen (l : SLayer) (valid : N -> bool) (curr : N) (seen : gset N)
  : result (list N * gset N) :=
  let! ns := neighbors l curr in Ok (fold_left (push_unseen valid) ns ([], seen)).
(** graph_utilities.h:51-72 *)
Definition bfs_seen (l : SLayer) (fuel : nat) (frontier : list N) (seen : gset N) :=
  search_loop (expand_unseen l (fun _ => true)) fuel frontier seen [].
(** graph_utilities.h:74-100 *)
Definition bfs_within (l : SLayer) (valid_nodes : list N) (fuel : nat) (frontier : list N) (seen : gset N) :=
  search_loop (expand_unseen l (fun n => bool_decide (n ∈ valid_nodes))) fuel frontier seen [].

(** graph_utilities.h:337-356: for loop with validity functions; a node is marked seen as
    soon as it is found invalid, but not when the edge is invalid *)
Definition push_valid (l : SLayer) (node_valid : Node -> bool) (edge_valid : Edge -> bool) (curr : N)
    (st : list N * gset N) (m : N) : result (list N * gset N) :=
  let '(pushed, seen) := st in
  if decide (m ∈ seen) then Ok st
  else
    let! nd := at_ (sl_find_node l m) in
    if negb (node_valid nd) then Ok (pushed, {[m]} ∪ seen)
    else
      let! e := at_ (fst (sl_find_edge l curr m)) in
      if negb (edge_valid e) then Ok st else Ok (pushed ++ [m], {[m]} ∪ seen).
Definition expand_valid (l : SLayer) (node_valid : Node -> bool) (edge_valid : Edge -> bool)
    (curr : N) (seen : gset N) : result (list N * gset N) :=
  let! ns := neighbors l curr in rfold (push_valid l node_valid edge_valid curr) ns ([], seen).
(** graph_utilities.h:322-357 *)
Definition bfs_valid (l : SLayer) node_valid edge_valid (fuel : nat) (frontier : list N) (seen : gset N) :=
  search_loop (expand_valid l node_valid edge_valid) fuel frontier seen [].

(** graph_utilities.h:114-131: the cost-limited body.  [costs[x]] is present whenever it is
    read; a missing entry would read as 0. *)
Definition cost_of (costs : gmap N nat) (x : N) : nat := default 0%nat (costs !! x).
Definition push_cost (allow_equal : bool) (new_cost : nat) (st : list N * gmap N nat) (m : N)
  : list N * gmap N nat :=
  let '(pushed, costs) := st in
  let skip := match costs !! m with
              | None => false
              | Some c => if allow_equal then (c <? new_cost)%nat else (c <=? new_cost)%nat
              end in
  if skip then st else (pushed ++ [m], <[m := new_cost]> costs).
Definition expand_cost (l : SLayer) (allow_equal : bool) (limit : nat) (curr : N) (costs : gmap N nat)
  : result (list N * gmap N nat) :=
  if (limit <=? cost_of costs curr)%nat then Ok ([], costs)
  else
    let! ns := neighbors l curr in
    Ok (fold_left (push_cost allow_equal (cost_of costs curr + 1)) ns ([], costs)).
(** graph_utilities.h:102-133 *)
Definition bfs_cost (l : SLayer) (allow_equal : bool) (limit fuel : nat) (frontier : list N) (costs : gmap N nat) :=
  search_loop (expand_cost l allow_equal limit) fuel frontier costs [].

Definition visits {S} (r : fueled (list N * S)) : fueled (list N) :=
  match r with
  | None => None
  | Some (Ok x) => Some (Ok (fst x)) | Some Throw => Some Throw | Some UB => Some UB
  end.

(** graph_utilities.h:135-147 *)
Definition bfs_root (l : SLayer) (root : N) (fuel : nat) : fueled (list N) :=
  if negb (sl_has_node l root) then Some (Ok [])
  else visits (bfs_seen l fuel [root] {[root]}).
(** graph_utilities.h:149-163 *)
Definition bfs_root_limit (l : SLayer) (root : N) (limit fuel : nat) : fueled (list N) :=
  if negb (sl_has_node l root) then Some (Ok [])
  else visits (bfs_cost l false limit fuel [root] {[root := 0%nat]}).
(** graph_utilities.h:165-183: nothing is visited as soon as one root is missing *)
Definition bfs_roots (l : SLayer) (roots : list N) (fuel : nat) : fueled (list N) :=
  if negb (forallb (sl_has_node l) roots) then Some (Ok [])
  else visits (bfs_seen l fuel roots (list_to_set roots)).
(** graph_utilities.h:185-206 *)
Definition bfs_roots_limit (l : SLayer) (roots : list N) (limit fuel : nat) : fueled (list N) :=
  if negb (forallb (sl_has_node l) roots) then Some (Ok [])
  else visits (bfs_cost l false limit fuel roots
                 (fold_left (fun m r => <[r := 0%nat]> m) roots ∅)).

Definition as_set (r : fueled (list N)) : fueled (gset N) :=
  match r with
  | None => None
  | Some (Ok x) => Some (Ok (list_to_set x)) | Some Throw => Some Throw | Some UB => Some UB
  end.
(** scene_graph_layer.cpp:339-346 *)
Definition sl_neighborhood (l : SLayer) (node : N) (hops fuel : nat) : fueled (gset N) :=
  as_set (bfs_root_limit l node hops fuel).
(** scene_graph_layer.cpp:348-355 *)
Definition sl_neighborhood_of (l : SLayer) (nodes : list N) (hops fuel : nat) : fueled (gset N) :=
  as_set (bfs_roots_limit l nodes hops fuel).

(** The loops of the getConnectedComponents overloads over start nodes: [skip] is the
    contains/node_valid test. *)
Fixpoint components_loop (search : list N -> gset N -> fueled (list N * gset N)) (skip : N -> bool)
    (starts : list N) (visited : gset N) (acc : list (list N)) : fueled (list (list N)) :=
  match starts with
  | [] => Some (Ok acc)
  | n :: r =>
    if skip n then components_loop search skip r visited acc
    else if decide (n ∈ visited) then components_loop search skip r visited acc
    else
      match search [n] ({[n]} ∪ visited) with
      | Some (Ok (component, visited')) => components_loop search skip r visited' (acc ++ [component])
      | Some Throw => Some Throw | Some UB => Some UB | None => None
      end
  end.
(** graph_utilities.h:208-241 *)
Definition components_roots (l : SLayer) (roots : list N) (only_roots : bool) (fuel : nat) :=
  components_loop (fun f s => if only_roots then bfs_within l roots fuel f s else bfs_seen l fuel f s)
    (fun n => negb (sl_has_node l n)) roots ∅ [].
(** graph_utilities.h:359-392; the nodes are visited in map order *)
Definition components_valid (l : SLayer) (node_valid : Node -> bool) (edge_valid : Edge -> bool) (fuel : nat) :=
  components_loop (bfs_valid l node_valid edge_valid fuel)
    (fun n => match sl_nodes l !! n with Some nd => negb (node_valid nd) | None => true end)
    (map fst (map_to_list (sl_nodes l))) ∅ [].

(** graph_utilities.h:245-284.  [i]'s loop: absorb every later component that shares a node;
    the scan is a single left-to-right pass. *)
Fixpoint absorb (curr : gset N) (later : list (gset N)) : gset N * list (gset N) :=
  match later with
  | [] => (curr, [])
  | c :: r =>
    if decide (c ∩ curr ≠ ∅)
    then absorb (curr ∪ c) r
    else let '(curr', kept) := absorb curr r in (curr', c :: kept)
  end.
(** The outer loop skips the components already added; [n] bounds their number. *)
Fixpoint merged_components_n (n : nat) (cs : list (gset N)) : list (gset N) :=
  match n, cs with
  | O, _ | _, [] => []
  | S n', c :: r => let '(c', kept) := absorb c r in c' :: merged_components_n n' kept
  end.
Definition merged_components (cs : list (gset N)) : list (gset N) := merged_components_n (length cs) cs.

(** graph_utilities.h:286-320: [costs] and [component] are shared by consecutive roots until
    a root without a cost is met. *)
Fixpoint depth_loop (l : SLayer) (depth fuel : nat) (roots : list N) (costs : gmap N nat)
    (component : gset N) (acc : list (gset N)) : fueled (list (gset N)) :=
  match roots with
  | [] => Some (Ok (if decide (component = ∅) then acc else acc ++ [component]))
  | n :: r =>
    if negb (sl_has_node l n) then depth_loop l depth fuel r costs component acc
    else
      let flush := bool_decide (costs !! n = None) && negb (bool_decide (component = ∅)) in
      let acc' := if flush then acc ++ [component] else acc in
      let component' := if flush then ∅ else component in
      let costs' := if flush then ∅ else costs in
      match bfs_cost l true depth fuel [n] (<[n := 0%nat]> costs') with
      | Some (Ok (vs, costs'')) => depth_loop l depth fuel r costs'' (component' ∪ list_to_set vs) acc'
      | Some Throw => Some Throw | Some UB => Some UB | None => None
      end
  end.
Definition components_depth (l : SLayer) (depth : nat) (roots : list N) (fuel : nat) : fueled (list (gset N)) :=
  match depth_loop l depth fuel roots ∅ ∅ [] with
  | Some (Ok cs) => Some (Ok (merged_components cs))
  | Some Throw => Some Throw | Some UB => Some UB | None => None
  end.
