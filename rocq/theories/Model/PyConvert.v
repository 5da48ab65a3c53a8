(** * Conversions of a graph in Python: python/src/spark_dsg/networkx.py and torch_conversion.py

    The loops of these functions run over the iterators of Model/Iterators.v; a loop is the
    relation [py_for] between the state before it and how it ends, [Throw] being a Python
    exception. *)
From Coq Require Import NArith Bool List String.
From stdpp Require Import base list gmap strings.
From Verif.Model Require Import Types Attrs Node EdgeContainer SLayer DLayer Graph Views Iterators.
Local Open Scope N_scope.
Local Open Scope list_scope.
Set Default Proof Using "Type".

(** for x in it: body *)
Inductive py_for {I A S} (c : IterClass I A) (body : S -> A -> result S -> Prop) : PyState I -> S -> result S -> Prop :=
| for_end st s st' : py_next c st = Ok (None, st') -> py_for c body st s (Ok s)
| for_iter_throw st s : py_next c st = Throw -> py_for c body st s Throw
| for_iter_ub st s : py_next c st = UB -> py_for c body st s UB
| for_step st s x st' s1 r : py_next c st = Ok (Some x, st') -> body s x (Ok s1) -> py_for c body st' s1 r -> py_for c body st s r
| for_throw st s x st' : py_next c st = Ok (Some x, st') -> body s x Throw -> py_for c body st s Throw
| for_ub st s x st' : py_next c st = Ok (Some x, st') -> body s x UB -> py_for c body st s UB.
(** one statement after another *)
Definition py_then {S T} (P : result S -> Prop) (Q : S -> result T -> Prop) (r : result T) : Prop :=
  (exists s, P (Ok s) /\ Q s r) \/ (P Throw /\ r = Throw) \/ (P UB /\ r = UB).

(** ** networkx.Graph (an external library, modelled from its documentation): a dict of attributes
    for each node and for each pair of neighbours, the same for both directions *)
Notation dict := (gmap string).
(** dict.update *)
Definition dict_update {V} (d new : dict V) : dict V := new ∪ d.
Record NxGraph (V : Type) := mkNx { nx_node : gmap N (dict V); nx_adj : gmap (N * N) (dict V) }.
Arguments mkNx {V}. Arguments nx_node {V}. Arguments nx_adj {V}.
Definition nx_empty {V} : NxGraph V := mkNx ∅ ∅.
(** Graph.add_node(n, **attr) *)
Definition nx_add_node {V} (G : NxGraph V) (n : N) (attr : dict V) : NxGraph V :=
  mkNx (<[n := dict_update (default ∅ (nx_node G !! n)) attr]> (nx_node G)) (nx_adj G).
(** Graph.add_edge(u, v, **attr) adds missing end points without attributes *)
Definition nx_touch {V} (G : NxGraph V) (n : N) : gmap N (dict V) :=
  match nx_node G !! n with Some _ => nx_node G | None => <[n := ∅]> (nx_node G) end.
Definition nx_add_edge {V} (G : NxGraph V) (u v : N) (attr : dict V) : NxGraph V :=
  let G1 := mkNx (nx_touch G u) (nx_adj G) in
  let G2 := mkNx (nx_touch G1 v) (nx_adj G) in
  let d := dict_update (default ∅ (nx_adj G !! (u, v))) attr in
  mkNx (nx_node G2) (<[(v, u) := d]> (<[(u, v) := d]> (nx_adj G))).

Section networkx.
(** _convert_attr, networkx.py:50-52: what the attribute objects expose, as two functions *)
Context {V : Type} (conv_node : NodeAttrs -> dict V) (conv_edge : EdgeAttrs -> dict V).

(** networkx.py:56-57, for the nodes of a static and of a dynamic layer (None has no .id) *)
Definition nx_put_node (G : NxGraph V) (n : Node) (r : result (NxGraph V)) : Prop :=
  r = Ok (nx_add_node G (n_id n) (conv_node (n_attrs n))).
Definition nx_put_dnode (G : NxGraph V) (o : option Node) (r : result (NxGraph V)) : Prop :=
  match o with Some n => nx_put_node G n r | None => r = Throw end.
(** networkx.py:59-60, 73-74, 82-83 *)
Definition nx_put_edge (G : NxGraph V) (e : Edge) (r : result (NxGraph V)) : Prop :=
  r = Ok (nx_add_edge G (e_src e) (e_tgt e) (conv_edge (e_info e))).

(** _fill_from_layer, networkx.py:55-60 *)
Definition nx_fill (G : NxGraph V) (L : SLayer) : result (NxGraph V) -> Prop :=
  py_then (py_for NodeIter nx_put_node (py_iter (node_iter L)) G)
    (py_for EdgeIter nx_put_edge (py_iter (edge_iter (sl_edges L)))).
(** the same on a DynamicLayerView; [past] as in Model/Iterators.v *)
Definition nx_fill_dynamic (past : result bool) (G : NxGraph V) (d : DLayer) : result (NxGraph V) -> Prop :=
  py_then (py_then (eq (dnode_iter past d)) (fun it => py_for (DynamicNodeIter past) nx_put_dnode (py_iter it) G))
    (py_for EdgeIter nx_put_edge (py_iter (edge_iter (dl_edges d)))).

(** graph_to_networkx, networkx.py:63-85 *)
Definition graph_to_networkx (past : result bool) (g : Graph) (include_dynamic : bool) : result (NxGraph V) -> Prop :=
  py_then (py_for LayerIter nx_fill (py_iter (layer_iter g)) nx_empty) (fun G1 =>
  py_then (py_for EdgeIter nx_put_edge (py_iter (edge_iter (g_inter g))) G1) (fun G2 =>
  if include_dynamic
  then py_then (py_for DynamicLayerIter (nx_fill_dynamic past) (py_iter (di_begin g)) G2)
         (py_for EdgeIter nx_put_edge (py_iter (edge_iter (g_dinter g))))
  else eq (Ok G2))).
(** layer_to_networkx, networkx.py:88-96 *)
Definition layer_to_networkx (L : SLayer) : result (NxGraph V) -> Prop := nx_fill nx_empty L.
End networkx.
