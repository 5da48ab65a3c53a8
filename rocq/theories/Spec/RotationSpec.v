(** Rotation matrices over the real numbers: R R^T = 1 and det R = 1. *)
From Coq Require Import Reals.
From Verif.Model Require Import Numbers BBox.
Local Open Scope R_scope.

(** exact real arithmetic; C++ computes with floats (Model/Numbers.v) *)
Definition reals : Arith :=
  {| num := R; a_of_Z := IZR; a_add := Rplus; a_sub := Rminus; a_mul := Rmult; a_div := Rdiv; a_opp := Ropp; a_abs := Rabs; a_sqrt := sqrt;
     a_lt := fun x y => if Rlt_dec x y then true else false;
     a_le := fun x y => if Rle_dec x y then true else false;
     a_eq := fun x y => if Req_EM_T x y then true else false |}.
Definition dot (a b : V3 R) : R := vx a * vx b + vy a * vy b + vz a * vz b.
Definition det (m : M3 R) : R :=
  vx (mx m) * (vy (my m) * vz (mz m) - vz (my m) * vy (mz m)) - vy (mx m) * (vx (my m) * vz (mz m) - vz (my m) * vx (mz m)) +
  vz (mx m) * (vx (my m) * vy (mz m) - vy (my m) * vx (mz m)).
(** the rows are unit vectors, orthogonal to each other, in right-handed order *)
Definition is_rotation (m : M3 R) : Prop :=
  dot (mx m) (mx m) = 1 /\ dot (my m) (my m) = 1 /\ dot (mz m) (mz m) = 1 /\
  dot (mx m) (my m) = 0 /\ dot (mx m) (mz m) = 0 /\ dot (my m) (mz m) = 0 /\ det m = 1.
