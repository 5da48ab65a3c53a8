(** Specification of the scene graph: a finite set of nodes, each with its partition, time
    and attributes, and a finite set of undirected edges.  Nothing else: no per-layer
    containers, no sibling/parent/child sets, no status maps. *)
From Coq Require Import NArith ZArith Bool List.
From stdpp Require Import base list gmap fin_maps.
From Verif.Model Require Import Types Mesh Attrs Node EdgeContainer.
Local Open Scope N_scope.

Record ANode := mkAN { an_key : LayerKey; an_time : option Z; an_attrs : NodeAttrs }.

(** [ag_layers]: the static layers.  [ag_dyn]: the dynamic layers (LayerId, prefix) with the
    index the next emplaced node gets and the number of slots.  Edges are indexed by the
    unordered pair [edge_key u v]. *)
Record AGraph := mkAG {
  ag_layers : gset LayerId;
  ag_dyn : gmap (N * N) (N * N);
  ag_nodes : gmap N ANode;
  ag_edges : gmap EdgeKey Edge }.

Definition a_key (a : AGraph) (x : N) : option LayerKey := an_key <$> ag_nodes a !! x.
Definition a_known (a : AGraph) (x : N) : Prop := is_Some (ag_nodes a !! x).
Definition a_linked (a : AGraph) (u v : N) : Prop := is_Some (ag_edges a !! edge_key u v).

(** How a node with partition [kv] is related to one with partition [k]. *)
Inductive Rel := RChild | RParent | RSib.
#[global] Instance Rel_eq_dec : EqDecision Rel. Proof. solve_decision. Defined.
Definition rel (k kv : LayerKey) : Rel :=
  if lk_layer kv <? lk_layer k then RChild else if lk_layer k <? lk_layer kv then RParent else RSib.
(** [v] is a child / parent / sibling of [x] (in the sense of layers) and linked to it. *)
Definition a_related (a : AGraph) (r : Rel) (x v : N) : Prop :=
  a_linked a x v /\ exists k kv, a_key a x = Some k /\ a_key a v = Some kv /\ rel k kv = r.

#[global] Instance a_known_dec a x : Decision (a_known a x). Proof. unfold a_known. apply _. Defined.
#[global] Instance a_linked_dec a u v : Decision (a_linked a u v). Proof. unfold a_linked. apply _. Defined.

Definition a_with_nodes (a : AGraph) n := mkAG (ag_layers a) (ag_dyn a) n (ag_edges a).
Definition a_with_edges (a : AGraph) e := mkAG (ag_layers a) (ag_dyn a) (ag_nodes a) e.
Definition a_with_dyn (a : AGraph) d := mkAG (ag_layers a) d (ag_nodes a) (ag_edges a).

(** The empty graph over some layers. *)
Definition a_init (layers : list LayerId) : AGraph := mkAG (list_to_set layers) ∅ ∅ ∅.

(** Edges *)
Definition a_add_edge (a : AGraph) (u v : N) (i : EdgeAttrs) : AGraph :=
  a_with_edges a (<[edge_key u v := mkEdge u v i]> (ag_edges a)).
Definition a_del_edge (a : AGraph) (u v : N) : AGraph :=
  a_with_edges a (delete (edge_key u v) (ag_edges a)).

Definition a_insert_edge (a : AGraph) (u v : N) (i : option EdgeAttrs) : bool * AGraph :=
  if decide (u <> v /\ a_known a u /\ a_known a v /\ ~ a_linked a u v)
  then (true, a_add_edge a u v (default ea_default i)) else (false, a).
Definition a_remove_edge (a : AGraph) (u v : N) : bool * AGraph :=
  if decide (a_linked a u v) then (true, a_del_edge a u v) else (false, a).

(** The edges without those touching [n] / without those between [c] and a higher layer. *)
Definition key_touches (n : N) (k : EdgeKey) : Prop := fst k = n \/ snd k = n.
#[global] Instance key_touches_dec n k : Decision (key_touches n k). Proof. unfold key_touches. apply _. Defined.
Definition edges_without (n : N) (m : gmap EdgeKey Edge) : gmap EdgeKey Edge :=
  filter (fun kv => ~ key_touches n (fst kv)) m.
Definition key_other (n : N) (k : EdgeKey) : N := if fst k =? n then snd k else fst k.
Definition is_parent_edge (a : AGraph) (c : N) (k : EdgeKey) : bool :=
  bool_decide (key_touches c k) &&
  match a_key a c, a_key a (key_other c k) with
  | Some kc, Some kp => match rel kc kp with RParent => true | _ => false end
  | _, _ => false
  end.
Definition edges_without_parents (a : AGraph) (c : N) : gmap EdgeKey Edge :=
  filter (fun kv => is_parent_edge a c (fst kv) = false) (ag_edges a).

(** insertParentEdge between different layers: the lower of the two is the child; its edges
    to higher layers are replaced by the new one. *)
Definition a_insert_parent_edge (a : AGraph) (u v : N) (i : option EdgeAttrs) : bool * AGraph :=
  match a_key a u, a_key a v with
  | Some ku, Some kv =>
    if decide (a_linked a u v) then (false, a)
    else
      let child := match rel ku kv with RChild => v | _ => u end in
      (true, a_add_edge (a_with_edges a (edges_without_parents a child)) u v (default ea_default i))
  | _, _ => (false, a)
  end.

(** Removing a node removes its edges.  In a dynamic layer, if the node is linked to both its
    predecessor and successor ids in its layer, those two become linked. *)
Definition chain_prev (id : N) : N := (id + (two64 - 1)) mod two64.
Definition chain_next (id : N) : N := (id + 1) mod two64.
Definition a_chain (a : AGraph) (n : N) : AGraph :=
  let p := chain_prev n in
  let q := chain_next n in
  match a_key a n with
  | Some k =>
    if decide (lk_dynamic k = true /\ a_key a p = Some k /\ a_key a q = Some k /\
               a_linked a n p /\ a_linked a n q)
    then snd (a_insert_edge a p q None) else a
  | None => a
  end.
Definition a_remove_node (a : AGraph) (n : N) : bool * AGraph :=
  if decide (a_known a n)
  then let a1 := a_chain a n in
       (true, mkAG (ag_layers a1) (ag_dyn a1) (delete n (ag_nodes a1)) (edges_without n (ag_edges a1)))
  else (false, a).

(** Merging: edges of [from] are redirected to [to] unless [to] already has that neighbour. *)
Definition edges_merged (from to : N) (m : gmap EdgeKey Edge) : gmap EdgeKey Edge :=
  edges_without from m ∪
  list_to_map (omap (fun kv : EdgeKey * Edge =>
      if decide (key_touches from (fst kv)) then
        let t := key_other from (fst kv) in
        if decide (t = to) then None else Some (edge_key to t, mkEdge to t (e_info (snd kv)))
      else None) (map_to_list m)).
Definition a_merge_nodes (a : AGraph) (from to : N) : bool * AGraph :=
  match a_key a from, a_key a to with
  | Some kf, Some kt =>
    if decide (from <> to /\ kf = kt)
    then (true, mkAG (ag_layers a) (ag_dyn a) (delete from (ag_nodes a)) (edges_merged from to (ag_edges a)))
    else (false, a)
  | _, _ => (false, a)
  end.

(** Nodes *)
Definition a_add_node (a : AGraph) (id : N) (n : ANode) : AGraph := a_with_nodes a (<[id := n]> (ag_nodes a)).
Definition a_emplace (a : AGraph) (l : LayerId) (id : N) (t : option Z) (at_ : NodeAttrs) : bool * AGraph :=
  if decide (a_known a id) then (false, a)
  else if decide (l ∈ ag_layers a) then (true, a_add_node a id (mkAN (key_static l) t at_))
  else (false, a).
Definition a_create_dyn (a : AGraph) (l : LayerId) (p : N) : bool * AGraph :=
  match ag_dyn a !! (l, p) with
  | Some _ => (false, a)
  | None => (true, a_with_dyn a (<[(l, p) := (0, 0)]> (ag_dyn a)))
  end.
(** A live node of a dynamic layer has this time. *)
Definition a_time_used (a : AGraph) (l : LayerId) (p : N) (t : Z) : Prop :=
  map_Exists (fun _ n => an_key n = key_dynamic l p /\ an_time n = Some t) (ag_nodes a).
#[global] Instance a_time_used_dec a l p t : Decision (a_time_used a l p t).
Proof. unfold a_time_used. apply _. Defined.

Definition a_emplace_dyn (a : AGraph) (l : LayerId) (p : N) (t : Z) (at_ : NodeAttrs) (add_edge : bool) : bool * AGraph :=
  let '(next, slots) := default (0, 0) (ag_dyn a !! (l, p)) in
  let id := prefix_make_id p next in
  if decide (a_known a id) then (false, a)
  else
    let a1 := snd (a_create_dyn a l p) in
    if decide (a_time_used a1 l p t) then (false, a1)
    else
      let a2 := a_with_dyn (a_add_node a1 id (mkAN (key_dynamic l p) (Some t) at_))
                           (<[(l, p) := (next + 1, slots + 1)]> (ag_dyn a1)) in
      let prev := prefix_make_id p (slots - 1) in
      (true, if decide (add_edge = true /\ 0 < slots /\ a_key a2 prev = Some (key_dynamic l p))
             then snd (a_insert_edge a2 prev id None) else a2).

Definition a_emplace_prev (a : AGraph) (l : LayerId) (id : N) (t : Z) (at_ : NodeAttrs) : bool * AGraph :=
  if decide (a_known a id) then (false, a)
  else
    let p := prefix_from_id id in
    let a1 := snd (a_create_dyn a l p) in
    let '(next, slots) := default (0, 0) (ag_dyn a1 !! (l, p)) in
    (true, a_with_dyn (a_add_node a1 id (mkAN (key_dynamic l p) (Some t) at_))
             (<[(l, p) := (next, N.max slots (prefix_index id + 1))]> (ag_dyn a1))).

Definition a_set_node_attrs (a : AGraph) (id : N) (at_ : NodeAttrs) : bool * AGraph :=
  match ag_nodes a !! id with
  | None => (false, a)
  | Some n => (true, a_add_node a id (mkAN (an_key n) (an_time n) at_))
  end.
Definition a_add_or_update_node (a : AGraph) (l : LayerId) (id : N) (at_ : NodeAttrs) (t : option Z) : bool * AGraph :=
  if decide (l ∈ ag_layers a) then
    if decide (a_known a id) then a_set_node_attrs a id at_
    else match t with Some t => a_emplace_prev a l id t at_ | None => a_emplace a l id None at_ end
  else (false, a).

(** Updating edge attributes: an unknown endpoint is an error. *)
Inductive AOut := ABool (b : bool) | AThrow.
Definition a_set_edge_attrs (a : AGraph) (u v : N) (i : EdgeAttrs) : AOut * AGraph :=
  if decide (a_known a u /\ a_known a v) then
    match ag_edges a !! edge_key u v with
    | None => (ABool false, a)
    | Some e => (ABool true, a_with_edges a (<[edge_key u v := mkEdge (e_src e) (e_tgt e) i]> (ag_edges a)))
    end
  else (AThrow, a).
Definition a_add_or_update_edge (a : AGraph) (u v : N) (i : EdgeAttrs) : AOut * AGraph :=
  if decide (a_linked a u v) then a_set_edge_attrs a u v i
  else let '(b, a') := a_insert_edge a u v (Some i) in (ABool b, a').

(** ** The modifying API calls. *)
Inductive gop :=
| GEmplace (l : LayerId) (id : N) (a : NodeAttrs)                 (* emplaceNode *)
| GInsertNode (l : LayerId) (id : N) (t : option Z) (a : NodeAttrs)  (* insertNode of a new node *)
| GEmplaceDyn (l : LayerId) (p : N) (t : Z) (a : NodeAttrs) (add_edge : bool) (* emplaceNode, dynamic *)
| GEmplacePrev (l : LayerId) (id : N) (t : Z) (a : NodeAttrs)     (* emplacePrevDynamicNode *)
| GCreateDyn (l : LayerId) (p : N)                                (* createDynamicLayer *)
| GAddOrUpdateNode (l : LayerId) (id : N) (a : NodeAttrs) (t : option Z)
| GSetNodeAttrs (id : N) (a : NodeAttrs)
| GInsertEdge (u v : N) (i : option EdgeAttrs)
| GInsertParentEdge (u v : N) (i : option EdgeAttrs)
| GAddOrUpdateEdge (u v : N) (i : EdgeAttrs)
| GSetEdgeAttrs (u v : N) (i : EdgeAttrs)
| GRemoveEdge (u v : N)
| GRemoveNode (n : N)
| GMergeNodes (from to : N)
| GFindEdge (u v : N)                  (* lookup with the stale-flag side effect *)
| GMarkStale                           (* markEdgesAsStale *)
| GNewNodes (clear : bool) | GRemovedNodes (clear : bool)
| GNewEdges (clear : bool) | GRemovedEdges (clear : bool)
| GSetMesh (m : option Mesh)
| GClear.

Definition ab (x : bool * AGraph) : AOut * AGraph := (ABool (fst x), snd x).

Definition a_step (a : AGraph) (o : gop) : AOut * AGraph :=
  match o with
  | GEmplace l id at_ => ab (a_emplace a l id None at_)
  | GInsertNode l id t at_ => ab (a_emplace a l id t at_)
  | GEmplaceDyn l p t at_ e => ab (a_emplace_dyn a l p t at_ e)
  | GEmplacePrev l id t at_ => ab (a_emplace_prev a l id t at_)
  | GCreateDyn l p => ab (a_create_dyn a l p)
  | GAddOrUpdateNode l id at_ t => ab (a_add_or_update_node a l id at_ t)
  | GSetNodeAttrs id at_ => ab (a_set_node_attrs a id at_)
  | GInsertEdge u v i => ab (a_insert_edge a u v i)
  | GInsertParentEdge u v i => ab (a_insert_parent_edge a u v i)
  | GAddOrUpdateEdge u v i => a_add_or_update_edge a u v i
  | GSetEdgeAttrs u v i => a_set_edge_attrs a u v i
  | GRemoveEdge u v => ab (a_remove_edge a u v)
  | GRemoveNode n => ab (a_remove_node a n)
  | GMergeNodes f t => ab (a_merge_nodes a f t)
  | GFindEdge u v => if decide (a_known a u /\ a_known a v) then (ABool (bool_decide (a_linked a u v)), a) else (AThrow, a)
  | GMarkStale | GNewNodes _ | GRemovedNodes _ | GNewEdges _ | GRemovedEdges _ | GSetMesh _ => (ABool true, a)
  | GClear => (ABool true, mkAG (ag_layers a) ∅ ∅ ∅)
  end.

(** ** The fragment of calls the refinement covers.
    Each restriction excludes a call that does misbehave (see the [_refuted] theorems), or
    arguments outside the value range of the C++ types. *)

(** No edge to another partition with the same LayerId (e.g. static OBJECTS / dynamic AGENTS). *)
Definition no_cross_sibling (a : AGraph) (n : N) : Prop :=
  forall v k kv, a_linked a n v -> a_key a n = Some k -> a_key a v = Some kv -> rel k kv = RSib -> kv = k.

Definition dyn_ok (l : LayerId) (p : N) : Prop := l <> UNKNOWN_LAYER /\ p < two32 /\ prefix_sub p = 0.

(** Arguments of emplacePrevDynamicNode: a 64-bit id whose prefix has sub-index 0, and a time
    not yet used in that layer. *)
Definition prev_ok (a : AGraph) (l : LayerId) (id : N) (t : Z) : Prop :=
  a_known a id \/ (id < two64 /\ dyn_ok l (prefix_from_id id) /\ ~ a_time_used a l (prefix_from_id id) t).

Definition clean (a : AGraph) (o : gop) : Prop :=
  match o with
  | GEmplaceDyn l p _ _ _ =>
      dyn_ok l p /\ match ag_dyn a !! (l, p) with
                    | None => True
                    | Some (next, slots) => next = slots /\ slots < two32 end
  | GEmplacePrev l id t _ => prev_ok a l id t
  | GAddOrUpdateNode l id _ (Some t) => prev_ok a l id t
  | GCreateDyn l p => dyn_ok l p
  | GInsertParentEdge u v _ =>
      forall ku kv, a_key a u = Some ku -> a_key a v = Some kv -> rel ku kv <> RSib
  | GRemoveNode n => no_cross_sibling a n
  | GMergeNodes f t =>
      no_cross_sibling a f /\
      (forall k, a_key a f = Some k -> a_key a t = Some k -> f <> t -> lk_dynamic k = false)
  | _ => True
  end.

(** Histories. *)
Fixpoint a_run (a : AGraph) (os : list gop) : list AOut * AGraph :=
  match os with
  | [] => ([], a)
  | o :: r => let '(b, a') := a_step a o in let '(bs, a'') := a_run a' r in (b :: bs, a'')
  end.
Fixpoint clean_run (a : AGraph) (os : list gop) : Prop :=
  match os with [] => True | o :: r => clean a o /\ clean_run (snd (a_step a o)) r end.
