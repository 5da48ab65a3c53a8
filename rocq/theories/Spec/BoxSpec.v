(** * What bounding boxes mean: sets of points of space

    Exact rational coordinates.  Nothing here refers to the operations of the
    model, only to its data types (points, matrices, boxes). *)
From Coq Require Import List QArith Qabs.
From Verif.Model Require Import Numbers BBox.
Import ListNotations.
Local Open Scope Q_scope.
Set Default Proof Using "Type".

Section spec.
Context (sq : Q -> Q).
Notation E := (exact sq).

Definition point := V3 Q.
Definition box := Box (exact sq).
Definition dims (b : box) : V3 Q := b_dim E b.
Definition middle (b : box) : V3 Q := b_center E b.
Definition turn (b : box) : M3 Q := b_rot E b.

(** The same place. *)
Definition same_point (p q : V3 Q) : Prop :=
  vx p == vx q /\ vy p == vy q /\ vz p == vz q.

(** Rotating a vector: the rows of the matrix times the vector. *)
Definition dot (u v : V3 Q) : Q := vx u * vx v + vy u * vy v + vz u * vz v.
Definition rotate (m : M3 Q) (v : V3 Q) : V3 Q :=
  mkV3 (dot (mx m) v) (dot (my m) v) (dot (mz m) v).
Definition shift (v c : V3 Q) : V3 Q := mkV3 (vx v + vx c) (vy v + vy c) (vz v + vz c).

(** A matrix whose rows are orthonormal, and whose columns are. *)
Definition column (m : M3 Q) (f : V3 Q -> Q) : V3 Q := mkV3 (f (mx m)) (f (my m)) (f (mz m)).
Definition orthonormal (u v w : V3 Q) : Prop :=
  dot u u == 1 /\ dot v v == 1 /\ dot w w == 1 /\
  dot u v == 0 /\ dot u w == 0 /\ dot v w == 0.
Definition rotation (m : M3 Q) : Prop :=
  orthonormal (mx m) (my m) (mz m) /\
  orthonormal (column m vx) (column m vy) (column m vz).

(** A box is usable if it has a type, positive dimensions, and (unless it is
    axis aligned) an orthonormal rotation matrix. *)
Definition positive (d : V3 Q) : Prop := 0 < vx d /\ 0 < vy d /\ 0 < vz d.
Definition proper (b : box) : Prop :=
  b_type E b <> INVALID /\ positive (dims b) /\
  (b_type E b = AABB \/ rotation (turn b)).
Definition aligned (b : box) : Prop := b_type E b = AABB /\ positive (dims b).

(** The points of a box: the centre plus a (rotated) offset of at most half the
    dimensions.  [inner] are the points of its interior. *)
Definition offset (b : box) (q : V3 Q) : V3 Q :=
  match b_type E b with
  | AABB | INVALID => q
  | _ => rotate (turn b) q
  end.
Definition inside (b : box) (p : V3 Q) : Prop :=
  exists q : V3 Q,
    Qabs (vx q) <= vx (dims b) / 2 /\ Qabs (vy q) <= vy (dims b) / 2 /\
    Qabs (vz q) <= vz (dims b) / 2 /\ same_point p (shift (offset b q) (middle b)).
Definition inner (b : box) (p : V3 Q) : Prop :=
  exists q : V3 Q,
    Qabs (vx q) < vx (dims b) / 2 /\ Qabs (vy q) < vy (dims b) / 2 /\
    Qabs (vz q) < vz (dims b) / 2 /\ same_point p (shift (offset b q) (middle b)).

(** Set inclusion, and the smallest axis-aligned box containing a set. *)
Definition covers (b : box) (S : V3 Q -> Prop) : Prop := forall p, S p -> inside b p.
Definition smallest_aligned (b : box) (S : V3 Q -> Prop) : Prop :=
  aligned b /\ covers b S /\
  (forall x, aligned x -> covers x S -> covers x (inside b)).
Definition either (a b : box) : V3 Q -> Prop := fun p => inside a p \/ inside b p.
Definition both (a b : box) : V3 Q -> Prop := fun p => inside a p /\ inside b p.
Definition same_set (a b : box) : Prop := forall p, inside a p <-> inside b p.

(** The volume of a box is the product of its dimensions. *)
Definition size (b : box) : Q := vx (dims b) * vy (dims b) * vz (dims b).

End spec.
