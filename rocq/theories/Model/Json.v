(** JSON values and the nlohmann::json operations the library uses.
    The library is a dependency and not in /repo; what is modelled is its documented
    behaviour.  A JSON text is represented by the tree that parsing it yields, so that
    [parse] is the identity; texts that are not JSON (parse throws) are not represented.
    Floating point numbers are IEEE bit patterns, strings are byte lists.  An integer is any
    Z; nlohmann holds -2^63 ... 2^64-1. *)
From Coq Require Import NArith ZArith Bool List.
From stdpp Require Import base list gmap.
From Verif.Model Require Import Types.
Local Open Scope N_scope.

Inductive json :=
| JNull
| JBool (b : bool)
| JInt (z : Z)                              (* number_integer, number_unsigned *)
| JFloat (bits : N)                         (* number_float: double *)
| JString (s : list N)
| JArray (l : list json)
| JObject (o : list (list N * json)).       (* std::map, unique keys *)

(* ------------------------------------------------------------------ *)
(** ** IEEE conversions: [e] exponent bits, [m] mantissa bits (float 8 23, double 11 52) *)
Definition fl_sign (e m v : N) : bool := N.testbit v (e + m).
Definition fl_exp (e m v : N) : N := (v / 2 ^ m) mod 2 ^ e.
Definition fl_man (m v : N) : N := v mod 2 ^ m.
Definition fl_finite (e m v : N) : bool := negb (fl_exp e m v =? 2 ^ e - 1).
Definition fl_min (e m : N) : Z := (2 - Z.of_N (2 ^ (e - 1)) - Z.of_N m)%Z.   (* exponent of the smallest positive value *)
(** a finite value is +-[fl_sig] * 2^[fl_scale] *)
Definition fl_sig (e m v : N) : N := if fl_exp e m v =? 0 then fl_man m v else 2 ^ m + fl_man m v.
Definition fl_scale (e m v : N) : Z := (fl_min e m + Z.of_N (N.max 1 (fl_exp e m v)) - 1)%Z.
Definition fl_pack (e m : N) (s : bool) (v : N) : N := (if s then 2 ^ (e + m) else 0) + v.
Definition fl_inf (e m : N) (s : bool) : N := fl_pack e m s ((2 ^ e - 1) * 2 ^ m).
Definition fl_quiet_nan (e m : N) : N := (2 ^ e - 1) * 2 ^ m + 2 ^ (m - 1).
(** sig / 2^sh rounded to nearest, ties to even *)
Definition round_shift (sig sh : N) : N :=
  let q := sig / 2 ^ sh in
  let r := sig mod 2 ^ sh in
  match 2 * r ?= 2 ^ sh with Lt => q | Gt => q + 1 | Eq => if N.even q then q else q + 1 end.
(** +-sig * 2^ex rounded to the format *)
Definition fl_round (e m : N) (s : bool) (sig : N) (ex : Z) : N :=
  if sig =? 0 then fl_pack e m s 0
  else
    let q := Z.max (ex + Z.of_N (N.log2 sig) - Z.of_N m) (fl_min e m) in
    let r := if (q <=? ex)%Z then sig * 2 ^ Z.to_N (ex - q) else round_shift sig (Z.to_N (q - ex)) in
    let bits := Z.to_N (q - fl_min e m) * 2 ^ m + r in
    if bits <? (2 ^ e - 1) * 2 ^ m then fl_pack e m s bits else fl_inf e m s.
Definition fl_convert (e m e' m' v : N) : N :=
  if fl_finite e m v then fl_round e' m' (fl_sign e m v) (fl_sig e m v) (fl_scale e m v)
  else if fl_man m v =? 0 then fl_inf e' m' (fl_sign e m v) else fl_quiet_nan e' m'.
Definition float_to_double (v : N) : N := fl_convert 8 23 11 52 v.
Definition double_to_float (v : N) : N := fl_convert 11 52 8 23 v.
Definition int_to_double (z : Z) : N := fl_round 11 52 (z <? 0)%Z (Z.to_N (Z.abs z)) 0.
Definition int_to_float (z : Z) : N := fl_round 8 23 (z <? 0)%Z (Z.to_N (Z.abs z)) 0.
(** truncation of a finite double *)
Definition double_trunc (v : N) : Z :=
  let a := (if fl_scale 11 52 v <? 0 then Z.of_N (fl_sig 11 52 v) / 2 ^ (- fl_scale 11 52 v)
            else Z.of_N (fl_sig 11 52 v) * 2 ^ fl_scale 11 52 v)%Z in
  if fl_sign 11 52 v then (- a)%Z else a.

(* ------------------------------------------------------------------ *)
(** ** dump: a string that is not UTF-8 throws, infinities and NaN are written as null *)
Definition within (a b x : N) : bool := (a <=? x) && (x <=? b).
Definition cont (x : N) : bool := within 128 191 x.
Fixpoint utf8 (s : list N) : bool :=
  match s with
  | [] => true
  | a :: r =>
    if a <? 128 then utf8 r
    else if within 194 223 a then match r with b :: r => cont b && utf8 r | _ => false end
    else if within 224 239 a then
      match r with
      | b :: c :: r => within (if a =? 224 then 160 else 128) (if a =? 237 then 159 else 191) b && cont c && utf8 r
      | _ => false
      end
    else if within 240 244 a then
      match r with
      | b :: c :: d :: r => within (if a =? 240 then 144 else 128) (if a =? 244 then 143 else 191) b && cont c && cont d && utf8 r
      | _ => false
      end
    else false
  end.
Fixpoint dump (j : json) : result json :=
  match j with
  | JFloat v => Ok (if fl_finite 11 52 v then JFloat v else JNull)
  | JString s => if utf8 s then Ok j else Throw
  | JArray l =>
    rmap JArray ((fix go l := match l with [] => Ok [] | x :: r => let! y := dump x in let! s := go r in Ok (y :: s) end) l)
  | JObject o =>
    rmap JObject ((fix go o := match o with
                               | [] => Ok []
                               | (k, x) :: r => if utf8 k then let! y := dump x in let! s := go r in Ok ((k, y) :: s) else Throw
                               end) o)
  | _ => Ok j
  end.

(* ------------------------------------------------------------------ *)
(** ** Access; a wrong type or a missing key throws *)
Fixpoint obj_get (o : list (list N * json)) (k : list N) : option json :=
  match o with [] => None | (k', v) :: r => if bool_decide (k' = k) then Some v else obj_get r k end.
(** operator[] and assignment *)
Fixpoint obj_set (o : list (list N * json)) (k : list N) (v : json) : list (list N * json) :=
  match o with
  | [] => [(k, v)]
  | (k', v') :: r => if bool_decide (k' = k) then (k, v) :: r else (k', v') :: obj_set r k v
  end.
Definition j_object (l : list (list N * json)) : json := JObject (fold_left (fun o x => obj_set o (fst x) (snd x)) l []).
(** at(key); contains *)
Definition j_at (j : json) (k : list N) : result json := match j with JObject o => at_ (obj_get o k) | _ => Throw end.
Definition j_contains (j : json) (k : list N) : bool :=
  match j with JObject o => match obj_get o k with Some _ => true | None => false end | _ => false end.
(** at(index) *)
Definition j_nth (j : json) (i : nat) : result json := match j with JArray l => at_ (l !! i) | _ => Throw end.
Definition j_size (j : json) : N :=
  match j with JNull => 0 | JArray l => N.of_nat (length l) | JObject o => N.of_nat (length o) | _ => 1 end.
(** iteration: the values of an object, the value itself for a number, string or boolean *)
Definition j_items (j : json) : list json :=
  match j with JNull => [] | JArray l => l | JObject o => map snd o | _ => [j] end.

(** get<T>.  Booleans convert to arithmetic types other than uint64_t, int64_t and double; a
    float out of the range of the integer type is undefined behaviour. *)
Definition get_bool (j : json) : result bool := match j with JBool b => Ok b | _ => Throw end.
Definition get_string (j : json) : result (list N) := match j with JString s => Ok s | _ => Throw end.
Definition get_unsigned (bits : N) (j : json) : result N :=
  match j with
  | JInt z => Ok (Z.to_N (z mod 2 ^ Z.of_N bits))
  | JFloat v => let z := double_trunc v in if ((0 <=? z) && (z <? 2 ^ Z.of_N bits))%Z then Ok (Z.to_N z) else UB
  | JBool b => if bits =? 64 then Throw else Ok (if b then 1 else 0)
  | _ => Throw
  end.
(** two's complement reinterpretation *)
Definition wrap_signed (bits : N) (z : Z) : Z :=
  let half := (2 ^ (Z.of_N bits - 1))%Z in ((z + half) mod 2 ^ Z.of_N bits - half)%Z.
Definition get_int32 (j : json) : result Z :=
  match j with
  | JInt z => Ok (wrap_signed 32 z)
  | JFloat v => let z := double_trunc v in if ((- 2 ^ 31 <=? z) && (z <? 2 ^ 31))%Z then Ok z else UB
  | JBool b => Ok (if b then 1 else 0)%Z
  | _ => Throw
  end.
Definition get_double (j : json) : result N :=
  match j with JInt z => Ok (int_to_double z) | JFloat v => Ok v | _ => Throw end.
Definition get_float (j : json) : result N :=
  match j with
  | JInt z => Ok (int_to_float z)
  | JFloat v => Ok (double_to_float v)
  | JBool b => Ok (if b then int_to_float 1 else 0)
  | _ => Throw
  end.
Fixpoint map_result {A B} (f : A -> result B) (l : list A) : result (list B) :=
  match l with [] => Ok [] | x :: r => let! y := f x in let! s := map_result f r in Ok (y :: s) end.
(** std::vector, std::list *)
Definition get_list {A} (f : json -> result A) (j : json) : result (list A) :=
  match j with JArray l => map_result f l | _ => Throw end.
(** std::map<std::string, V> *)
Definition get_map {V} (f : json -> result V) (j : json) : result (gmap (list N) V) :=
  match j with
  | JObject o => let! l := map_result (fun x => let! v := f (snd x) in Ok (fst x, v)) o in Ok (list_to_map l)
  | _ => Throw
  end.
