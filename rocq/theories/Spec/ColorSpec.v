(** * What is said about colours *)
From Coq Require Import NArith ZArith Reals.
From Coq Require Import Floats.SpecFloat.
From Flocq Require Import Core.Core IEEE754.BinarySingleNaN.
From Verif.Model Require Import Types Mesh.
Set Default Proof Using "Type".

(** A float that is not NaN (infinities included). *)
Definition number (x : spec_float) : Prop := valid_binary 24 128 x = true /\ x <> S754_nan.

(** The real number in [0, 1] that a float stands for after clamping: 0 for a
    float at or below 0 (minus infinity included), 1 at or above 1, otherwise
    its own value. *)
Definition f_zero : spec_float := S754_zero false.
Definition f_one : spec_float := S754_finite false 8388608 (-23).
Definition unit_value (x : spec_float) : R :=
  if SFleb x f_zero then 0%R else if SFleb f_one x then 1%R else SF2R radix2 x.

(** Four components of 8 bits. *)
Definition is_color (c : Color) : Prop :=
  (c_r c < 256)%N /\ (c_g c < 256)%N /\ (c_b c < 256)%N /\ (c_a c < 256)%N.

(** [n] lies between [x] and [y], or is one below the smaller of them. *)
Definition between1 (x y n : N) : Prop := (n <= N.max x y)%N /\ (N.min x y <= n + 1)%N.
Definition between_colors (x y c : Color) : Prop :=
  between1 (c_r x) (c_r y) (c_r c) /\ between1 (c_g x) (c_g y) (c_g c) /\
  between1 (c_b x) (c_b y) (c_b c) /\ between1 (c_a x) (c_a y) (c_a c).

(** [n] is the truncated linear interpolation from [x] (w = 0) to [y] (w = 1),
    up to a rounding error below 1/1000. *)
Definition interpolates1 (w : R) (x y n : N) : Prop :=
  let e := (IZR (Z.of_N x) * (1 - w) + IZR (Z.of_N y) * w)%R in
  (e - 1 - / 1000 < IZR (Z.of_N n) <= e + / 1000)%R.
Definition interpolates (w : R) (x y c : Color) : Prop :=
  interpolates1 w (c_r x) (c_r y) (c_r c) /\ interpolates1 w (c_g x) (c_g y) (c_g c) /\
  interpolates1 w (c_b x) (c_b y) (c_b c) /\ interpolates1 w (c_a x) (c_a y) (c_a c).

(** The usual hue circle: red at 0, green at 1/3, blue at 2/3, red again at 1;
    every channel is linear on each sixth of it. *)
Definition clamp01 (x : R) : R := Rmax 0 (Rmin 1 x).
Definition hue_r (h : R) : R := clamp01 (Rabs (6 * h - 3) - 1).
Definition hue_g (h : R) : R := clamp01 (2 - Rabs (6 * h - 2)).
Definition hue_b (h : R) : R := clamp01 (2 - Rabs (6 * h - 4)).

(** [n] is [255 * e] truncated, up to a rounding error of 1/100. *)
Definition channel_of (e : R) (n : N) : Prop :=
  (255 * e - 1 - / 100 < IZR (Z.of_N n) <= 255 * e + / 100)%R.
(** [c] shows the colour of hue [h] scaled by [chroma] and lifted by [low]. *)
Definition shows_hue (h chroma low : R) (c : Color) : Prop :=
  channel_of (low + chroma * hue_r h) (c_r c) /\ channel_of (low + chroma * hue_g h) (c_g c) /\
  channel_of (low + chroma * hue_b h) (c_b c) /\ c_a c = 255%N.
