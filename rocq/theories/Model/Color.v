(** * Colours: src/color.cpp, include/spark_dsg/color.h

    Floating point is binary32 (Model/Numbers.v); conversions of a float to an
    integer type that cannot hold its integral part are undefined behaviour. *)
From Coq Require Import NArith ZArith List.
From Coq Require QArith Qround.
From Coq Require Import Floats.SpecFloat.
From Verif.Model Require Import Types Mesh Numbers.
Import ListNotations.
Local Open Scope N_scope.
Set Default Proof Using "Type".

(** Color::operator==, color.cpp:12-14. *)
Definition color_eq (x y : Color) : bool :=
  (c_r x =? c_r y) && (c_g x =? c_g y) && (c_b x =? c_b y) && (c_a x =? c_a y).

(** Color::operator<, color.cpp:16-27; operator> (color.h:59) swaps the sides. *)
Definition color_lt (x y : Color) : bool :=
  if negb (c_r x =? c_r y) then c_r x <? c_r y else
  if negb (c_g x =? c_g y) then c_g x <? c_g y else
  if negb (c_b x =? c_b y) then c_b x <? c_b y else
  c_a x <? c_a y.

(** Color::Hash, color.h:81-85: the sum is computed in int (32 bits; with
    a >= 128 the shift leaves the positive range, which since C++20 wraps) and
    converted to uint32_t. *)
Definition color_hash (x : Color) : N :=
  (c_r x + N.shiftl (c_g x) 8 + N.shiftl (c_b x) 16 + N.shiftl (c_a x) 24) mod 2 ^ 32.

Notation f32 := (num binary32).
Definition fz (n : N) : f32 := a_of_Z binary32 (Z.of_N n).   (* integer to float *)
Notation "x +f y" := (a_add binary32 x y) (at level 50, left associativity).
Notation "x -f y" := (a_sub binary32 x y) (at level 50, left associativity).
Notation "x *f y" := (a_mul binary32 x y) (at level 40, left associativity).
Definition unit_clamp (x : f32) : f32 := a_clamp binary32 x (fz 0) (fz 1).

(** static_cast<uint8_t>(x). *)
Definition to_u8 (x : f32) : result N :=
  match f32_trunc x with
  | Some n => if n <? 256 then Ok n else UB
  | None => UB
  end.

(** Color::blend, color.cpp:31-37, by component, after the clamp. *)
Definition blend_component (x y : N) (w : f32) : result N :=
  to_u8 (fz x *f (fz 1 -f w) +f fz y *f w).
Definition color_blend (x y : Color) (weight : f32) : result Color :=
  let w := unit_clamp weight in
  let! r := blend_component (c_r x) (c_r y) w in
  let! g := blend_component (c_g x) (c_g y) w in
  let! b := blend_component (c_b x) (c_b y) w in
  let! a := blend_component (c_a x) (c_a y) w in
  Ok (mkColor r g b a).

(** Color::gray, color.cpp:82-87. *)
Definition color_gray (value : f32) : result Color :=
  let v := unit_clamp value in
  let! x := to_u8 (v *f fz 255) in
  Ok (mkColor x x x 255).

(** Color::quality, color.cpp:89-100. *)
Definition color_quality (value : f32) : result Color :=
  let v := unit_clamp value in
  let half := a_div binary32 (fz 1) (fz 2) in
  if a_lt binary32 half v then
    let! r := to_u8 ((fz 1 -f v) *f fz 2 *f fz 255) in
    Ok (mkColor r 255 0 255)
  else
    let! g := to_u8 (v *f fz 2 *f fz 255) in
    Ok (mkColor 255 g 0 255).

(** Color::spectrum, color.cpp:102-114; static_cast<size_t> of a value of 2^64
    or more is undefined. *)
Definition to_size (x : f32) : result N :=
  match f32_trunc x with
  | Some n => if n <? 2 ^ 64 then Ok n else UB
  | None => UB
  end.
Definition color_spectrum (value : f32) (colors : list Color) : result Color :=
  match colors with
  | [] => Ok (mkColor 0 0 0 255)
  | _ =>
      let v := unit_clamp value in
      let steps := N.of_nat (length colors) - 1 in
      let! index := to_size (v *f fz steps) in
      if steps <=? index then vat colors steps else
      let weight := v *f fz steps -f fz index in
      let! x := vat colors index in
      let! y := vat colors (index + 1) in
      color_blend x y weight
  end.

(** Color::ironbow, color.cpp:116, with ironbow_colors_, :145-146. *)
Definition ironbow_colors : list Color :=
  [mkColor 0 0 0 255; mkColor 145 20 145 255; mkColor 255 138 0 255;
   mkColor 255 230 40 255; mkColor 255 255 255 255].
Definition color_ironbow (value : f32) : result Color := color_spectrum value ironbow_colors.

(** fmod(x, 2) for 0 <= x <= 6, where it is one of the exact differences
    x, x - 2, x - 4, x - 6. *)
Definition fmod2 (x : f32) : f32 :=
  if a_lt binary32 x (fz 2) then x else
  if a_lt binary32 x (fz 4) then x -f fz 2 else
  if a_lt binary32 x (fz 6) then x -f fz 4 else x -f fz 6.

(** rgbFromChromaHue, color.cpp:41-56. *)
Definition rgb_from_chroma_hue (chroma hue : f32) : f32 * f32 * f32 :=
  let h := hue *f fz 6 in
  let x := chroma *f (fz 1 -f a_abs binary32 (fmod2 h -f fz 1)) in
  if a_lt binary32 h (fz 1) then (chroma, x, fz 0) else
  if a_lt binary32 h (fz 2) then (x, chroma, fz 0) else
  if a_lt binary32 h (fz 3) then (fz 0, chroma, x) else
  if a_lt binary32 h (fz 4) then (fz 0, x, chroma) else
  if a_lt binary32 h (fz 5) then (x, fz 0, chroma) else (chroma, fz 0, x).

Definition rgb_shift (rgb : f32 * f32 * f32) (m : f32) : result Color :=
  let '(r1, g1, b1) := rgb in
  let! r := to_u8 ((r1 +f m) *f fz 255) in
  let! g := to_u8 ((g1 +f m) *f fz 255) in
  let! b := to_u8 ((b1 +f m) *f fz 255) in
  Ok (mkColor r g b 255).

(** Color::fromHSV, color.cpp:58-68. *)
Definition color_hsv (hue saturation value : f32) : result Color :=
  let h := unit_clamp hue in
  let s := unit_clamp saturation in
  let v := unit_clamp value in
  let chroma := v *f s in
  rgb_shift (rgb_from_chroma_hue chroma h) (v -f chroma).

(** Color::fromHLS, color.cpp:70-80. *)
Definition color_hls (hue luminance saturation : f32) : result Color :=
  let h := unit_clamp hue in
  let l := unit_clamp luminance in
  let s := unit_clamp saturation in
  let chroma := (fz 1 -f a_abs binary32 (fz 2 *f l -f fz 1)) *f s in
  rgb_shift (rgb_from_chroma_hue chroma h) (l -f a_div binary32 chroma (fz 2)).

(** Color::rainbow, color.cpp:118-120. *)
Definition color_rainbow (value : f32) : result Color :=
  color_hls (unit_clamp value) (a_div binary32 (fz 1) (fz 2)) (fz 1).

(** exponentialOffsetId, color.cpp:122-139, over either arithmetic; [fmod1 x] is std::fmod(x, 1).
    Division by zero is undefined, size_t arithmetic wraps.  std::floor(std::log2(revolution)) is
    computed in double by the code; it is the integer logarithm for revolutions below 2^47 (the
    logarithm of 2^(e+1) - 1 is then further than a rounding error away from e + 1), and the
    theorems only speak about those. *)
Definition exponential_offset (A : Arith) (fmod1 : A -> A) (id n : N) : result A :=
  if n =? 0 then UB else
  let of_N x := a_of_Z A (Z.of_N x) in
  let revolution := id / n in
  let progress := fmod1 (a_div A (of_N id) (of_N n)) in
  let offset :=
    if n <? (id + 1) mod 2 ^ 64 then
      let episode_start := 2 ^ N.log2 revolution in
      let subdivision := revolution - episode_start in
      let step := a_div A (of_N 1) (of_N ((n * 2 * episode_start) mod 2 ^ 64)) in
      a_mul A (a_add A (a_mul A (of_N 2) (of_N subdivision)) (of_N 1)) step
    else of_N 0 in
  Ok (a_add A progress offset).
(** fmod(x, 1) of a number that is not negative: its fraction *)
Definition q_fmod1 (x : QArith_base.Q) : QArith_base.Q := QArith_base.Qminus x (QArith_base.inject_Z (Qround.Qfloor x)).
Definition f32_fmod1 (x : f32) : f32 :=
  match f32_trunc x with Some t => x -f fz t | None => x end.
(** Color::rainbowId, color.cpp:141-143 *)
Definition color_rainbow_id (id n : N) : result Color :=
  let! hue := exponential_offset binary32 f32_fmod1 id n in color_rainbow hue.
