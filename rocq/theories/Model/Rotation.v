(** Eigen's conversions between 3x3 rotation matrices and quaternions, used for bounding
    boxes in JSON (src/serialization/json_conversions.cpp:50-55, 78-80).  Eigen is a
    dependency and not in /repo; modelled is Eigen 3.3/3.4, Eigen/src/Geometry/Quaternion.h
    (quaternionbase_assign_impl<Other,3,3> and QuaternionBase::toRotationMatrix), over an
    arithmetic [A]. *)
From Coq Require Import ZArith NArith List.
From Coq Require Import Floats.SpecFloat.
From stdpp Require Import base list.
From Verif.Model Require Import Numbers BBox Attrs Json.

(** coefficients w x y z *)
Record Q4 (T : Type) := mkQ4 { qw : T; qx : T; qy : T; qz : T }.
Arguments mkQ4 {T}. Arguments qw {T}. Arguments qx {T}. Arguments qy {T}. Arguments qz {T}.

Section rotation.
Context (A : Arith).
Local Notation "x + y" := (a_add A x y).
Local Notation "x - y" := (a_sub A x y).
Local Notation "x * y" := (a_mul A x y).
Local Notation "x / y" := (a_div A x y).
Local Notation "x <? y" := (a_lt A x y).
Local Notation one := (a_of_Z A 1).
Local Notation two := (a_of_Z A 2).
Local Notation half := (one / two).       (* Scalar(0.5), exact in binary *)

(** Shoemake's algorithm.  The branches for i = 0, 1, 2 are written out. *)
Definition quat_of_rot (m : M3 A) : Q4 A :=
  let '(m00, m01, m02) := (vx (mx m), vy (mx m), vz (mx m)) in
  let '(m10, m11, m12) := (vx (my m), vy (my m), vz (my m)) in
  let '(m20, m21, m22) := (vx (mz m), vy (mz m), vz (mz m)) in
  let t := m00 + (m11 + m22) in
  if a_of_Z A 0 <? t then
    let t := a_sqrt A (t + one) in
    let s := half / t in
    mkQ4 (half * t) ((m21 - m12) * s) ((m02 - m20) * s) ((m10 - m01) * s)
  else if (if m00 <? m11 then m11 else m00) <? m22 then      (* i = 2, j = 0, k = 1 *)
    let t := a_sqrt A (m22 - m00 - m11 + one) in
    let s := half / t in
    mkQ4 ((m10 - m01) * s) ((m02 + m20) * s) ((m12 + m21) * s) (half * t)
  else if m00 <? m11 then                                    (* i = 1, j = 2, k = 0 *)
    let t := a_sqrt A (m11 - m22 - m00 + one) in
    let s := half / t in
    mkQ4 ((m02 - m20) * s) ((m01 + m10) * s) (half * t) ((m21 + m12) * s)
  else                                                       (* i = 0, j = 1, k = 2 *)
    let t := a_sqrt A (m00 - m11 - m22 + one) in
    let s := half / t in
    mkQ4 ((m21 - m12) * s) (half * t) ((m10 + m01) * s) ((m20 + m02) * s).

Definition rot_of_quat (q : Q4 A) : M3 A :=
  let '(w, x, y, z) := (qw q, qx q, qy q, qz q) in
  let tx := two * x in let ty := two * y in let tz := two * z in
  let twx := tx * w in let twy := ty * w in let twz := tz * w in
  let txx := tx * x in let txy := ty * x in let txz := tz * x in
  let tyy := ty * y in let tyz := tz * y in let tzz := tz * z in
  mkM3 (mkV3 (one - (tyy + tzz)) (txy - twz) (txz + twy))
       (mkV3 (txy + twz) (one - (txx + tzz)) (tyz - twx))
       (mkV3 (txz - twy) (tyz + twx) (one - (txx + tyy))).
End rotation.

(** ** The same on the bit patterns of floats *)
Definition sf_of_bits (v : N) : spec_float :=
  if fl_finite 8 23 v then
    match fl_sig 8 23 v with
    | N0 => S754_zero (fl_sign 8 23 v)
    | Npos p => S754_finite (fl_sign 8 23 v) p (fl_scale 8 23 v)
    end
  else if N.eqb (fl_man 23 v) 0 then S754_infinity (fl_sign 8 23 v) else S754_nan.
Definition bits_of_sf (x : spec_float) : N :=
  match x with
  | S754_zero s => fl_pack 8 23 s 0
  | S754_infinity s => fl_inf 8 23 s
  | S754_nan => fl_quiet_nan 8 23
  | S754_finite s p e => fl_round 8 23 s (Npos p) e
  end.
Definition m3_of_bits (m : Matrix) : M3 spec_float :=
  let at_i i := sf_of_bits (nth i (mx_data m) 0%N) in
  mkM3 (mkV3 (at_i 0) (at_i 1) (at_i 2)) (mkV3 (at_i 3) (at_i 4) (at_i 5)) (mkV3 (at_i 6) (at_i 7) (at_i 8)).
Definition bits_of_m3 (m : M3 spec_float) : Matrix :=
  mkMatrix 3 3 (map bits_of_sf
    [vx (mx m); vy (mx m); vz (mx m); vx (my m); vy (my m); vz (my m); vx (mz m); vy (mz m); vz (mz m)]).
(** Eigen::Quaternionf(Eigen::Matrix3f) and toRotationMatrix *)
Definition quatf_of_rot (m : Matrix) : Quat :=
  let q := quat_of_rot binary32 (m3_of_bits m) in
  mkQuat (bits_of_sf (qw q)) (bits_of_sf (qx q)) (bits_of_sf (qy q)) (bits_of_sf (qz q)).
Definition rot_of_quatf (q : Quat) : Matrix :=
  bits_of_m3 (rot_of_quat binary32
    (mkQ4 (sf_of_bits (q_w q)) (sf_of_bits (q_x q)) (sf_of_bits (q_y q)) (sf_of_bits (q_z q)))).
