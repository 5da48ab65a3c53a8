(** What a Python loop [for x in it] sees. *)
From Coq Require Import NArith Bool List.
From stdpp Require Import base list gmap.
From Verif.Model Require Import Types Node EdgeContainer Graph Iterators.
From Verif.Spec Require Import GraphObs.
Local Open Scope N_scope.

(** __next__ gives the items of [l], then raises StopIteration. *)
Inductive yields {I A} (c : IterClass I A) : PyState I -> list A -> PyState I -> Prop :=
| yields_stop s s' : py_next c s = Ok (None, s') -> yields c s [] s'
| yields_item s x s' l s'' : py_next c s = Ok (Some x, s') -> yields c s' l s'' -> yields c s (x :: l) s''.
(** The loop sees [l] and ends; calling __next__ once more raises StopIteration again. *)
Definition visits {I A} (c : IterClass I A) (it : I) (l : list A) : Prop :=
  exists s, yields c (py_iter it) l s /\ py_next c s = Ok (None, s).
(** The loop sees [l] and then has undefined behaviour. *)
Inductive breaks {I A} (c : IterClass I A) : PyState I -> list A -> Prop :=
| breaks_now s : py_next c s = UB -> breaks c s []
| breaks_item s x s' l : py_next c s = Ok (Some x, s') -> breaks c s' l -> breaks c s (x :: l).

(** [l] lists each edge satisfying [P] once (an edge is what findEdge returns for its two nodes). *)
Definition lists_edges (g : Graph) (P : option LayerKey -> option LayerKey -> Prop) (l : list Edge) : Prop :=
  (forall i j e f, l !! i = Some e -> l !! j = Some f -> same_pair (e_src e) (e_tgt e) (e_src f) (e_tgt f) -> i = j) /\
  (forall e, e ∈ l <-> edge_at g (e_src e) (e_tgt e) = Some e /\ P (layer_of g (e_src e)) (layer_of g (e_tgt e))).
(** Earlier edges have the smaller pair of ids: first by the smaller id, then by the larger. *)
Definition by_ids (l : list Edge) : Prop :=
  forall i j e f, (i < j)%nat -> l !! i = Some e -> l !! j = Some f ->
    N.min (e_src e) (e_tgt e) < N.min (e_src f) (e_tgt f) \/
    (N.min (e_src e) (e_tgt e) = N.min (e_src f) (e_tgt f) /\ N.max (e_src e) (e_tgt e) < N.max (e_src f) (e_tgt f)).
(** [l] lists each node whose partition satisfies [P] once. *)
Definition lists_nodes (g : Graph) (P : LayerKey -> Prop) (l : list Node) : Prop :=
  NoDup (map n_id l) /\
  (forall n, n ∈ l <-> node_at g (n_id n) = Some n /\ exists k, layer_of g (n_id n) = Some k /\ P k).
Definition on_static (k : option LayerKey) : Prop := exists l, k = Some (key_static l).
