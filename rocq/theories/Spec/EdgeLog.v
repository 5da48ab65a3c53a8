(** Specification of the edge container: a finite map of edges, the set of pairs inserted
    since the last clearing report ([fresh]) and the set of pairs removed and not yet
    re-inserted or cleared ([gone]). *)
From Coq Require Import NArith Bool List.
From stdpp Require Import base list gmap fin_maps.
From Verif.Model Require Import Types Attrs EdgeContainer.
Local Open Scope N_scope.

Record ELog := mkEL { el_edges : gmap EdgeKey Edge; el_fresh : gset EdgeKey; el_gone : gset EdgeKey }.
Definition el_init : ELog := mkEL ∅ ∅ ∅.

(** The calls of EdgeContainer. *)
Inductive ecop :=
| CInsert (s t : N) (i : option EdgeAttrs)
| CRemove (s t : N)
| CRewire (s t ns nt : N)
| CFind (s t : N)
| CContains (s t : N)
| CSize
| CStatus (s t : N)
| CSetInfo (s t : N) (a : EdgeAttrs)   (* find(s,t)->info = a *)
| CGetNew (clear : bool)
| CGetRemoved (clear : bool)
| CSetStale
| CReset.

Inductive ecout :=
| OUnit | OThrow | OEdge (e : option Edge) | OBool (b : bool) | OSize (n : nat) | OStatus (st : EdgeStatus) | OKeys (ks : gset EdgeKey).

Definition el_insert (c : ELog) (s t : N) (i : EdgeAttrs) : ELog :=
  let k := edge_key s t in
  mkEL (match el_edges c !! k with Some _ => el_edges c | None => <[k := mkEdge s t i]> (el_edges c) end)
       ({[k]} ∪ el_fresh c) (el_gone c ∖ {[k]}).
Definition el_remove (c : ELog) (k : EdgeKey) : ELog :=
  mkEL (delete k (el_edges c)) (el_fresh c ∖ {[k]}) ({[k]} ∪ el_gone c).

(** getStatus: NEW or VISIBLE for an edge, DELETED for a removed one. *)
Definition el_status (c : ELog) (k : EdgeKey) : EdgeStatus :=
  if decide (k ∈ el_gone c) then EDeleted
  else if decide (is_Some (el_edges c !! k)) then (if decide (k ∈ el_fresh c) then ENew else EVisible)
  else ENonexistent.

Definition el_step (c : ELog) (o : ecop) : ecout * ELog :=
  match o with
  | CInsert s t i => (OUnit, el_insert c s t (default ea_default i))
  | CRemove s t =>
      let k := edge_key s t in
      if decide (is_Some (el_edges c !! k) \/ k ∈ el_gone c) then (OUnit, el_remove c k) else (OThrow, c)
  | CRewire s t ns nt =>
      (OUnit, match el_edges c !! edge_key s t with
              | None => c
              | Some e => el_insert (el_remove c (edge_key s t)) ns nt (e_info e) end)
  | CFind s t => (OEdge (el_edges c !! edge_key s t), c)
  | CContains s t => (OBool (bool_decide (is_Some (el_edges c !! edge_key s t))), c)
  | CSize => (OSize (size (el_edges c)), c)
  | CStatus s t => (OStatus (el_status c (edge_key s t)), c)
  | CSetInfo s t a => (OUnit, mkEL (alter (fun e => mkEdge (e_src e) (e_tgt e) a) (edge_key s t) (el_edges c)) (el_fresh c) (el_gone c))
  | CGetNew clear => (OKeys (el_fresh c), if clear then mkEL (el_edges c) ∅ (el_gone c) else c)
  | CGetRemoved clear => (OKeys (el_gone c), if clear then mkEL (el_edges c) (el_fresh c) ∅ else c)
  | CSetStale => (OUnit, c)
  | CReset => (OUnit, el_init)
  end.

Fixpoint el_run (c : ELog) (os : list ecop) : list ecout * ELog :=
  match os with
  | [] => ([], c)
  | o :: r => let '(x, c') := el_step c o in let '(xs, c'') := el_run c' r in (x :: xs, c'')
  end.

(** The modelled container driven by the same calls.  A report is a list; [MKeys].
    A throwing call ([at] on a missing status, before any modification) changes nothing. *)
Inductive ecmout :=
| MUnit | MThrow | MUB | MEdge (e : option Edge) | MBool (b : bool) | MSize (n : nat) | MStatus (st : EdgeStatus) | MKeys (ks : list EdgeKey).

Definition ec_step (c : EC) (o : ecop) : ecmout * EC :=
  let of_result (r : result EC) := match r with Ok c' => (MUnit, c') | Throw => (MThrow, c) | UB => (MUB, c) end in
  match o with
  | CInsert s t i => (MUnit, ec_insert c s t i)
  | CRemove s t => of_result (ec_remove c s t)
  | CRewire s t ns nt => of_result (ec_rewire c s t ns nt)
  | CFind s t => (MEdge (ec_find c s t), ec_touch c s t)
  | CContains s t => (MBool (ec_contains c s t), c)
  | CSize => (MSize (ec_size c), c)
  | CStatus s t => (MStatus (ec_get_status c s t), c)
  | CSetInfo s t a => (MUnit, ec_set_info (ec_touch c s t) s t a)
  | CGetNew clear => let '(l, c') := ec_get_new c clear in (MKeys l, c')
  | CGetRemoved clear => let '(l, c') := ec_get_removed c clear in (MKeys l, c')
  | CSetStale => (MUnit, ec_set_stale c)
  | CReset => (MUnit, ec_reset c)
  end.
Fixpoint ec_run (c : EC) (os : list ecop) : list ecmout * EC :=
  match os with
  | [] => ([], c)
  | o :: r => let '(x, c') := ec_step c o in let '(xs, c'') := ec_run c' r in (x :: xs, c'')
  end.

(** Same answer; a report lists each element of the set exactly once. *)
Definition out_agree (m : ecmout) (s : ecout) : Prop :=
  match m, s with
  | MUnit, OUnit | MThrow, OThrow => True
  | MEdge e, OEdge e' => e = e'
  | MBool b, OBool b' => b = b'
  | MSize n, OSize n' => n = n'
  | MStatus n, OStatus n' => n = n'
  | MKeys l, OKeys ks => NoDup l /\ forall k, k ∈ l <-> k ∈ ks
  | _, _ => False
  end.
