(** * The two arithmetics in which geometry and colours are modelled

    The C++ code computes with [float] (IEEE-754 binary32).  The model is
    written once, over a record of arithmetic operations, and is used with

    - [exact]: exact rational arithmetic.  Every finite [float] is a rational,
      so this is the code's computation without rounding, overflow and NaN;
    - [binary32]: the standard library's executable specification of IEEE-754
      (Coq.Floats.SpecFloat) with 24 bits of precision and maximal exponent 128,
      rounding to nearest even: the operations of [float] as specified by the
      standard, with every intermediate result rounded to [float] (no fused
      multiply-add, no extended intermediate precision). *)
From Coq Require Import ZArith NArith QArith Qabs.
From Coq Require Import Floats.SpecFloat.
Set Default Proof Using "Type".

Record Arith := mkArith {
  num :> Type;
  a_of_Z : Z -> num;            (* an integer constant or a converted integer *)
  a_add : num -> num -> num;
  a_sub : num -> num -> num;
  a_mul : num -> num -> num;
  a_div : num -> num -> num;
  a_opp : num -> num;
  a_abs : num -> num;
  a_sqrt : num -> num;
  a_lt : num -> num -> bool;    (* < ; false if one side is NaN *)
  a_le : num -> num -> bool;    (* <= *)
  a_eq : num -> num -> bool     (* == *)
}.

(** Exact arithmetic.  Square roots of rationals need not be rational; the
    square root used is a parameter. *)
Definition exact (sq : Q -> Q) : Arith :=
  {| num := Q; a_of_Z := inject_Z;
     a_add := Qplus; a_sub := Qminus; a_mul := Qmult; a_div := Qdiv;
     a_opp := Qopp; a_abs := Qabs; a_sqrt := sq;
     a_lt := fun x y => negb (Qle_bool y x);
     a_le := Qle_bool; a_eq := Qeq_bool |}.

(** A square root that is exact on squares of rationals: the integer square
    roots of numerator and denominator of the reduced fraction. *)
Definition q_sqrt (x : Q) : Q :=
  let r := Qred x in Qmake (Z.sqrt (Qnum r)) (Z.to_pos (Z.sqrt (Zpos (Qden r)))).

(** binary32: 24 bits of precision, emax = 128. *)
Definition f32_of_Z (z : Z) : spec_float := binary_normalize 24 128 z 0 false.
Definition binary32 : Arith :=
  {| num := spec_float; a_of_Z := f32_of_Z;
     a_add := SFadd 24 128; a_sub := SFsub 24 128; a_mul := SFmul 24 128;
     a_div := SFdiv 24 128; a_opp := SFopp; a_abs := SFabs;
     a_sqrt := SFsqrt 24 128;
     a_lt := SFltb; a_le := SFleb; a_eq := SFeqb |}.

(** The conversion static_cast<uint8_t>(x) / static_cast<size_t>(x): truncation
    toward zero.  Out of range (or NaN) is undefined behaviour in C++: [None]
    for NaN, infinities and values whose integral part is negative; the caller
    checks the upper bound. *)
Definition f32_trunc (x : spec_float) : option N :=
  match x with
  | S754_zero _ => Some 0%N
  | S754_finite s m e =>
      let a := match e with
               | Z0 => Npos m
               | Zpos p => (Npos m * 2 ^ Npos p)%N
               | Zneg p => (Npos m / 2 ^ Npos p)%N
               end in
      if s then (if N.eqb a 0 then Some 0%N else None) else Some a
  | _ => None
  end.

(** std::min, std::max (and Eigen's cwiseMin / cwiseMax, numext::mini / maxi):
    [min a b = b < a ? b : a], [max a b = a < b ? b : a]; std::clamp v lo hi
    is [v < lo ? lo : hi < v ? hi : v]. *)
Section minmax.
  Context (A : Arith).
  Definition a_min (x y : A) : A := if a_lt A y x then y else x.
  Definition a_max (x y : A) : A := if a_lt A x y then y else x.
  Definition a_clamp (x lo hi : A) : A :=
    if a_lt A x lo then lo else if a_lt A hi x then hi else x.
End minmax.
