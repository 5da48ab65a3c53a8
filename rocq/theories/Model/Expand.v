(** * Assigning places to rooms in Python: python/src/spark_dsg/mp3d.py

    A loop over a Python set or over the nodes of a layer runs in some order: the model allows
    every order.  heapq.heappop returns a least entry of the frontier: the model lets it return
    any entry, so that what is proved holds whatever the weights are (also for NaN).  The
    statistics printed with verbose=True are not modelled. *)
From Coq Require Import NArith Bool List.
From stdpp Require Import base list gmap.
From Verif.Model Require Import Types Attrs Node EdgeContainer SLayer DLayer Graph PyConvert.
Local Open Scope N_scope.
Local Open Scope list_scope.
Set Default Proof Using "Type".

(** for x in xs: body, for a sequence of items *)
Inductive py_each {A S} (body : S -> A -> result S -> Prop) : list A -> S -> result S -> Prop :=
| each_end s : py_each body [] s (Ok s)
| each_step x l s s1 r : body s x (Ok s1) -> py_each body l s1 r -> py_each body (x :: l) s r
| each_throw x l s : body s x Throw -> py_each body (x :: l) s Throw
| each_ub x l s : body s x UB -> py_each body (x :: l) s UB.
(** … for a collection whose order is not known *)
Definition py_over {A S} (body : S -> A -> result S -> Prop) (xs : list A) (s : S) (r : result S) : Prop :=
  exists l, l ≡ₚ xs /\ py_each body l s r.

(** An entry of the frontier: edge weight (stored negated), place, room; mp3d.py:316 *)
Definition Entry : Type := N * N * N.
Definition Front : Type := list Entry * Graph.

(** _expand_node, mp3d.py:307-316; node.siblings() is a copy of the std::set *)
Definition expand_one (node : Node) (parent : N) (s : Front) (sibling : N) (r : result Front) : Prop :=
  py_then (eq (g_get_node (snd s) sibling)) (fun sibling_node r =>
    if node_has_parent sibling_node then r = Ok s
    else py_then (eq (g_get_edge (snd s) (n_id node) sibling)) (fun eg r =>
      r = Ok ((ea_weight (e_info (fst eg)), sibling, parent) :: fst s, snd eg)) r) r.
Definition expand_node (node : Node) (parent : N) (s : Front) (r : result Front) : Prop :=
  py_over (expand_one node parent) (elements (n_sib node)) s r.

(** G.get_layer(l).nodes: the ids of the nodes of a layer (the nodes are read from the graph when
    the loop gets to them, since the iterator yields references) *)
Definition layer_nodes (g : Graph) (l : LayerId) : result (list N) :=
  let! s := at_ (g_layers g !! l) in Ok (fst <$> map_to_list (sl_nodes s)).

(** mp3d.py:349-356: the frontier from the places that have a room *)
Definition first_one (s : Front) (id : N) (r : result Front) : Prop :=
  py_then (eq (g_get_node (snd s) id)) (fun node r =>
    match node_get_parent node with
    | None => r = Ok s
    | Some parent => expand_node node parent s r
    end) r.

(** mp3d.py:358-368: one round of the flood fill, and the loop *)
Record Flood := mkFlood { fl_frontier : list Entry; fl_visited : gset N; fl_graph : Graph }.
Inductive flood_step : Flood -> result Flood -> Prop :=
| flood_skip f f' w x room vis g :
    f ≡ₚ (w, x, room) :: f' -> x ∈ vis -> flood_step (mkFlood f vis g) (Ok (mkFlood f' vis g))
| flood_assign f f' w x room vis g r :
    f ≡ₚ (w, x, room) :: f' -> x ∉ vis ->
    py_then (eq (g_insert_edge g x room None)) (fun bg =>
      py_then (eq (g_get_node (snd bg) x)) (fun node =>
        py_then (expand_node node room (f', snd bg)) (fun s r =>
          r = Ok (mkFlood (fst s) ({[x]} ∪ vis) (snd s))))) r ->
    flood_step (mkFlood f vis g) r.
Inductive flood_loop : Flood -> result Graph -> Prop :=
| loop_end vis g : flood_loop (mkFlood [] vis g) (Ok g)
| loop_step s s' r : flood_step s (Ok s') -> flood_loop s' r -> flood_loop s r
| loop_throw s : flood_step s Throw -> flood_loop s Throw
| loop_ub s : flood_step s UB -> flood_loop s UB.

(** _assign_room_edges, mp3d.py:127-138; lines 134-135: the set of the rooms of the siblings *)
Definition neighbor_rooms (g : Graph) (place : Node) (curr_room : N) : result (gset N) :=
  rfold (fun acc i =>
    let! n := g_get_node g i in
    Ok (match node_get_parent n with
        | Some p => if p =? curr_room then acc else {[p]} ∪ acc
        | None => acc
        end)) (elements (n_sib place)) ∅.
Definition join_room (curr_room : N) (g : Graph) (neighbor : N) (r : result Graph) : Prop :=
  py_then (eq (g_insert_edge g curr_room neighbor None)) (fun bg r => r = Ok (snd bg)) r.
Definition room_edges_of (g : Graph) (id : N) (r : result Graph) : Prop :=
  py_then (eq (g_get_node g id)) (fun place r =>
    match node_get_parent place with
    | None => r = Ok g
    | Some curr_room =>
        py_then (eq (neighbor_rooms g place curr_room)) (fun ns r =>
          py_over (join_room curr_room) (elements ns) g r) r
    end) r.
Definition assign_room_edges (g : Graph) : result Graph -> Prop :=
  py_then (eq (layer_nodes g PLACES)) (fun ids => py_over room_edges_of ids g).

(** expand_rooms, mp3d.py:330-383; line 370 looks the layer of the rooms up *)
Definition expand_start (g : Graph) : result Front -> Prop :=
  py_then (eq (g_clone g)) (fun c =>
    py_then (eq (layer_nodes c PLACES)) (fun ids => py_over first_one ids ([], c))).
Definition expand_rooms (g : Graph) : result Graph -> Prop :=
  py_then (expand_start g) (fun s =>
    py_then (flood_loop (mkFlood (fst s) ∅ (snd s))) (fun c =>
      py_then (eq (layer_nodes c ROOMS)) (fun _ => assign_room_edges c))).
