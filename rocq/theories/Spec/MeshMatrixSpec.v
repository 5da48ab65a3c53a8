(** Reading of the theorems on whole-mesh operations (C64, C65). *)
From Coq Require Import NArith ZArith QArith Bool List.
From stdpp Require Import base list gmap.
From Verif.Model Require Import Types Mesh Json MeshMatrix BBox.
From Verif.Spec Require Import MeshSpec BoxSpec.
Local Open Scope N_scope.

(** A matrix with [n] rows. *)
Definition has_rows {T} (n : nat) (p : Columns T) : Prop :=
  cs_rows p = N.of_nat n /\ forall c, c ∈ cs_cols p -> length c = n.
(** The value of a stored number at a vertex after resizing: kept, or zero for a new vertex. *)
Definition kept_or_zero (old : result N) : result N := match old with Ok v => Ok v | _ => Ok 0 end.
(** A colour seen as three numbers between 0 and 1 and back: the alpha value is lost. *)
Definition opaque (c : Color) : Color := mkColor (c_r c) (c_g c) (c_b c) 255.
Definition is_byte_color (c : Color) : Prop := c_r c < 256 /\ c_g c < 256 /\ c_b c < 256.
(** Positions with finite coordinates, as bit patterns of floats. *)
Definition finite_float (v : N) : Prop := v < 2 ^ 32 /\ (v / 2 ^ 23) mod 2 ^ 8 <> 255.
Definition finite_pos (p : Vec3) : Prop := finite_float (v_x p) /\ finite_float (v_y p) /\ finite_float (v_z p).
(** What a mesh of the interface holds: uint8_t channels, 32-bit positions. *)
Definition plain_mesh (m : Mesh) : Prop :=
  (forall i c, mesh_color m i = Ok c -> is_byte_color c) /\ (forall i p, mesh_pos m i = Ok p -> finite_pos p).

(** Squared distance. *)
Definition dist2 (p q : V3 Q) : Q :=
  ((vx p - vx q) * (vx p - vx q) + (vy p - vy q) * (vy p - vy q) + (vz p - vz q) * (vz p - vz q))%Q.
(** A rigid motion: turn, then shift. *)
Definition moved (r : M3 Q) (t p : V3 Q) : V3 Q := shift (rotate r p) t.
Definition transposed (r : M3 Q) : M3 Q := mkM3 (column r vx) (column r vy) (column r vz).
Definition negated (v : V3 Q) : V3 Q := mkV3 (- vx v)%Q (- vy v)%Q (- vz v)%Q.
