(** The numbers that bit patterns stand for (IEEE 754, [e] exponent bits, [m] mantissa bits:
    float is 8 23, double is 11 52), and what "the nearest number of a format" is. *)
From Coq Require Import NArith ZArith Reals Bool.
From Flocq Require Import Core.Raux Core.Defs Core.Zaux.
From Verif.Model Require Import Types Json.
From Verif.Spec Require Import BinarySpec JsonSpec.
Local Open Scope N_scope.

Definition negative (e m v : N) : bool := (v / 2 ^ (e + m)) mod 2 =? 1.
(** exponent of the smallest positive number; 2 to the power of this is too large *)
Definition low_exp (e m : N) : Z := (2 - 2 ^ (Z.of_N e - 1) - Z.of_N m)%Z.
Definition high_exp (e : N) : Z := (2 ^ (Z.of_N e - 1))%Z.
Definition magnitude (e m v : N) : R :=
  let x := (v / 2 ^ m) mod 2 ^ e in
  let f := v mod 2 ^ m in
  (if (x =? 0)%N then IZR (Z.of_N f) * bpow radix2 (low_exp e m)
   else IZR (Z.of_N (2 ^ m + f)) * bpow radix2 (low_exp e m + Z.of_N x - 1))%R.
Definition number_of (e m v : N) : R := if negative e m v then (- magnitude e m v)%R else magnitude e m v.
Definition infinity (e m : N) (s : bool) : N := (if s then 2 ^ (e + m) else 0) + (2 ^ e - 1) * 2 ^ m.
(** half way between the largest finite number and the power of two above it *)
Definition overflow_from (e m : N) : R := ((2 - bpow radix2 (- Z.of_N m - 1)) * bpow radix2 (high_exp e - 1))%R.

(** [r] is the number of the format nearest to [x]; of two equally near ones the even; infinity
    from [overflow_from] on *)
Definition nearest (e m : N) (x : R) (r : N) : Prop :=
  r < 2 ^ (1 + e + m) /\
  ((Rabs x < overflow_from e m)%R ->
     is_finite e m r /\
     forall w, w < 2 ^ (1 + e + m) -> is_finite e m w ->
       (Rabs (number_of e m r - x) <= Rabs (number_of e m w - x))%R /\
       (Rabs (number_of e m r - x) = Rabs (number_of e m w - x) -> number_of e m w <> number_of e m r -> N.even r = true)%R) /\
  ((overflow_from e m <= Rabs x)%R -> r = infinity e m (if Rlt_dec x 0 then true else false)).

(** a JSON number and its value *)
Inductive json_number : json -> R -> Prop :=
| number_int z : json_number (JInt z) (IZR z)
| number_float v : finite64 v -> json_number (JFloat v) (number_of 11 52 v).
