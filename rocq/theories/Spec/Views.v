(** Reading of the matrix, view and ancestor theorems (C32-C34). *)
From Coq Require Import NArith ZArith Bool List.
From stdpp Require Import base list gmap fin_maps relations.
From Verif.Model Require Import Types Attrs Node EdgeContainer SLayer DLayer Graph Search Views.
From Verif.Spec Require Import GraphObs Search.
Local Open Scope N_scope.

(** A usable node ordering: every indexed id is a node of the layer, and the indices are
    0 .. size-1, no two ids sharing one.  The caller supplies the ordering and the code does not
    check it (the TODO at adjacency_matrix.cpp:42). *)
Definition valid_ordering (l : SLayer) (ord : gmap N N) : Prop :=
  (forall x i, ord !! x = Some i -> is_Some (sl_nodes l !! x) /\ i < N.of_nat (size ord)) /\
  (forall x y i, ord !! x = Some i -> ord !! y = Some i -> x = y).

(** Sum of a matrix row. *)
Definition row_sum {W} (zero : W) (add : W -> W -> W) (m : Mat W) (i : N) : W :=
  foldr (fun j acc => add (mat_get zero m i (N.of_nat j)) acc) zero (seq 0 (mt_size m)).
(** Exact arithmetic on weights: an abelian group. *)
Definition abelian_group {W} (zero : W) (add : W -> W -> W) (opp : W -> W) : Prop :=
  (forall x y z, add x (add y z) = add (add x y) z) /\ (forall x y, add x y = add y x) /\
  (forall x, add zero x = x) /\ (forall x, add (opp x) x = zero).

(** [d] is below [p]: a chain of one or more parent links leads from [d] up to [p]. *)
Definition below (g : Graph) (p d : N) : Prop := tc (is_parent_of g) p d.
