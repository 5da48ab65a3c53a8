(** Models of the iterators behind the Python bindings
    (python/bindings/scene_graph_iterators.h) and of the loop a Python caller runs over them.
    A C++ iterator is the suffix of its container it has not passed yet; [[]] is end().
    Reading through end() or incrementing it is undefined behaviour. *)
From Coq Require Import NArith Bool List.
From stdpp Require Import base list gmap fin_maps sorting.
From Verif.Model Require Import Types Attrs Node EdgeContainer SLayer DLayer Graph Views.
Local Open Scope N_scope.
Local Open Scope list_scope.

(** ** py::make_iterator(first, sentinel) of pybind11 (an external library, modelled from its
    documented behaviour): the first __next__ does not advance; __next__ raises StopIteration
    when the iterator equals the sentinel, and goes on doing so. *)
Record IterClass (I A : Type) := mkIter { ic_next : I -> result I; ic_done : I -> bool; ic_get : I -> result A }.
Arguments mkIter {I A}. Arguments ic_next {I A}. Arguments ic_done {I A}. Arguments ic_get {I A}.
(** the C++ iterator and the flag [first_or_done] *)
Definition PyState (I : Type) : Type := I * bool.
Definition py_iter {I} (it : I) : PyState I := (it, true).
(** [None] is StopIteration *)
Definition py_next {I A} (c : IterClass I A) (s : PyState I) : result (option A * PyState I) :=
  let! it := (if snd s then Ok (fst s) else ic_next c (fst s)) in
  if ic_done c it then Ok (None, (it, true)) else let! x := ic_get c it in Ok (Some x, (it, false)).

(** iterators of the standard containers *)
Definition list_next {X} (it : list X) : result (list X) := match it with [] => UB | _ :: r => Ok r end.
Definition list_get {X} (it : list X) : result X := match it with [] => UB | x :: _ => Ok x end.
Definition at_end {X} (it : list X) : bool := match it with [] => true | _ => false end.

(** std::map<EdgeKey, Edge>: ascending in the first, then the second node *)
Definition edge_key_le {A} (a b : EdgeKey * A) : Prop :=
  fst (fst a) < fst (fst b) \/ (fst (fst a) = fst (fst b) /\ snd (fst a) <= snd (fst b)).
#[global] Instance edge_key_le_dec {A} (a b : EdgeKey * A) : Decision (edge_key_le a b).
Proof. unfold edge_key_le. apply _. Defined.
Definition ascending_edges (m : gmap EdgeKey Edge) : list (EdgeKey * Edge) := merge_sort edge_key_le (map_to_list m).

(** ** NodeIter, python/bindings/scene_graph_iterators.h:42-59 (the numbers below are lines of this file) *)
Definition node_iter (L : SLayer) : list (N * Node) := ascending (sl_nodes L).
Definition NodeIter : IterClass (list (N * Node)) Node :=
  mkIter list_next at_end (fun it => let! x := list_get it in Ok (snd x)).
(** ** EdgeIter, 87-104 *)
Definition edge_iter (c : EC) : list (EdgeKey * Edge) := ascending_edges (ec_edges c).
Definition EdgeIter : IterClass (list (EdgeKey * Edge)) Edge :=
  mkIter list_next at_end (fun it => let! x := list_get it in Ok (snd x)).
(** ** LayerIter, 273-290 *)
Definition layer_iter (g : Graph) : list (LayerId * SLayer) := ascending (g_layers g).
Definition LayerIter : IterClass (list (LayerId * SLayer)) SLayer :=
  mkIter list_next at_end (fun it => let! x := list_get it in Ok (snd x)).

(** ** DynamicNodeIter, 61-85.  Both loops test [*curr_iter_ == nullptr] before
    [curr_iter_ != end_iter_], so they read through end(); [past] says what that read gives
    ([UB], or whether the memory behind the last slot reads as a null pointer). *)
Definition null_here (past : result bool) (it : list (option Node)) : result bool :=
  match it with [] => past | o :: _ => Ok (match o with None => true | Some _ => false end) end.
Fixpoint skip_null (past : result bool) (it : list (option Node)) : result (list (option Node)) :=
  let! b := null_here past it in
  if b then match it with [] => Ok [] | _ :: r => skip_null past r end else Ok it.
Definition dnode_iter (past : result bool) (d : DLayer) : result (list (option Node)) := skip_null past (dl_nodes d).
(** operator* returns the raw pointer *)
Definition DynamicNodeIter (past : result bool) : IterClass (list (option Node)) (option Node) :=
  mkIter (fun it => let! r := list_next it in skip_null past r) at_end list_get.

(** ** GlobalNodeIter, 106-161 *)
Record GNIter := mkGN { gn_valid : bool; gn_nodes : list (N * Node); gn_layers : list (LayerId * SLayer) }.
(** setNodeIter, 115-133: the loop over the layers after the first *)
Fixpoint gn_set (ls : list (LayerId * SLayer)) : GNIter :=
  match ls with
  | [] => mkGN false [] []
  | x :: r => let ns := ascending (sl_nodes (snd x)) in if at_end ns then gn_set r else mkGN true ns ls
  end.
Definition gn_begin (g : Graph) : GNIter := gn_set (ascending (g_layers g)).
(** operator++, 137-145 *)
Definition gn_next (it : GNIter) : result GNIter :=
  let! ns := list_next (gn_nodes it) in
  if at_end ns then let! ls := list_next (gn_layers it) in Ok (gn_set ls) else Ok (mkGN (gn_valid it) ns (gn_layers it)).
(** operator==, 147-153 *)
Definition gn_done (it : GNIter) : bool :=
  if negb (gn_valid it) then true else at_end (gn_nodes it) && at_end (gn_layers it).
Definition GlobalNodeIter : IterClass GNIter Node :=
  mkIter gn_next gn_done (fun it => let! x := list_get (gn_nodes it) in Ok (snd x)).

(** ** GlobalEdgeIter, 163-235 *)
Record GEIter := mkGE { ge_started : bool; ge_edges : list (EdgeKey * Edge); ge_layers : list (LayerId * SLayer); ge_inter : list (EdgeKey * Edge) }.
(** setEdgeIter, 183-202 (called with started_interlayer_ false only) *)
Fixpoint ge_set (ls : list (LayerId * SLayer)) (inter : list (EdgeKey * Edge)) : GEIter :=
  match ls with
  | [] => mkGE true [] [] inter
  | x :: r => let es := ascending_edges (ec_edges (sl_edges (snd x))) in if at_end es then ge_set r inter else mkGE false es ls inter
  end.
Definition ge_begin (g : Graph) : GEIter := ge_set (ascending (g_layers g)) (ascending_edges (ec_edges (g_inter g))).
(** operator++, 204-217 *)
Definition ge_next (it : GEIter) : result GEIter :=
  if ge_started it then let! r := list_next (ge_inter it) in Ok (mkGE true (ge_edges it) (ge_layers it) r)
  else
    let! es := list_next (ge_edges it) in
    if at_end es then let! ls := list_next (ge_layers it) in Ok (ge_set ls (ge_inter it))
    else Ok (mkGE false es (ge_layers it) (ge_inter it)).
(** operator==, 219-225 *)
Definition ge_done (it : GEIter) : bool := if negb (ge_started it) then false else at_end (ge_inter it).
(** operator*, 175-181 *)
Definition GlobalEdgeIter : IterClass GEIter Edge :=
  mkIter ge_next ge_done (fun it => let! x := list_get (if ge_started it then ge_inter it else ge_edges it) in Ok (snd x)).

(** ** DynamicLayerIter, 313-371 *)
Record DLIter := mkDLI { di_valid : bool; di_inner : list (N * DLayer); di_outer : list (LayerId * gmap N DLayer) }.
(** setSubIter, 322-341 *)
Fixpoint di_set (ls : list (LayerId * gmap N DLayer)) : DLIter :=
  match ls with
  | [] => mkDLI false [] []
  | x :: r => let ds := ascending (snd x) in if at_end ds then di_set r else mkDLI true ds ls
  end.
Definition di_begin (g : Graph) : DLIter := di_set (ascending (g_dlayers g)).
Definition di_next (it : DLIter) : result DLIter :=
  let! ds := list_next (di_inner it) in
  if at_end ds then let! ls := list_next (di_outer it) in Ok (di_set ls) else Ok (mkDLI (di_valid it) ds (di_outer it)).
Definition di_done (it : DLIter) : bool :=
  if negb (di_valid it) then true else at_end (di_inner it) && at_end (di_outer it).
Definition DynamicLayerIter : IterClass DLIter DLayer :=
  mkIter di_next di_done (fun it => let! x := list_get (di_inner it) in Ok (snd x)).
