(** * C49: colours *)
From Coq Require Import Bool ZArith NArith Reals Lra Lia Floats.SpecFloat List.
From Flocq Require Import Core.Core.
From Verif.Model Require Import Types Mesh Numbers Color.
From Verif.Spec Require Import ColorSpec.
From Verif.Proof Require Import FloatP ColorP.
Import ListNotations.
Set Default Proof Using "Type".
Local Open Scope N_scope.

(** ** Order, equality and hash *)
Theorem C49_equal_iff_same_components x y :
  color_eq x y = true <-> x = y.
Proof.
  unfold color_eq. destruct x as [a b c d], y as [a' b' c' d']. cbn.
  rewrite !andb_true_iff, !N.eqb_eq. split; [intros [[[-> ->] ->] ->]; reflexivity|].
  intros E. injection E. auto.
Qed.

Lemma color_lt_spec x y : color_lt x y = true <->
  c_r x < c_r y \/ (c_r x = c_r y /\ (c_g x < c_g y \/ (c_g x = c_g y /\
  (c_b x < c_b y \/ (c_b x = c_b y /\ c_a x < c_a y))))).
Proof.
  unfold color_lt.
  destruct (N.eqb_spec (c_r x) (c_r y)), (N.eqb_spec (c_g x) (c_g y)), (N.eqb_spec (c_b x) (c_b y));
    cbn [negb]; rewrite N.ltb_lt; lia.
Qed.

Theorem C49_less_is_a_strict_total_order x y z :
  color_lt x x = false /\
  (color_lt x y = true -> color_lt y z = true -> color_lt x z = true) /\
  (color_lt x y = true -> color_lt y x = false) /\
  (color_eq x y = true <-> color_lt x y = false /\ color_lt y x = false).
Proof.
  assert (F : forall a b, color_lt a b = false <-> ~ color_lt a b = true)
    by (intros a b; destruct (color_lt a b); intuition congruence).
  rewrite !F, !color_lt_spec. unfold color_eq. rewrite !andb_true_iff, !N.eqb_eq.
  repeat split; lia.
Qed.

Theorem C49_hash_is_injective x y :
  is_color x -> is_color y -> color_hash x = color_hash y -> x = y.
Proof.
  unfold is_color, color_hash. rewrite !N.shiftl_mul_pow2.
  change (2 ^ 8) with 256. change (2 ^ 16) with 65536. change (2 ^ 24) with 16777216.
  change (2 ^ 32) with 4294967296.
  destruct x as [a b c d], y as [a' b' c' d']. cbn [c_r c_g c_b c_a]. intros X Y.
  rewrite !N.mod_small by lia. intros E.
  assert (a = a' /\ b = b' /\ c = c' /\ d = d') as (-> & -> & -> & ->) by lia. reflexivity.
Qed.

(** ** Blending *)
(** Any weight but NaN gives a colour, with each component between those of the
    two colours, or one below both, and within 1.001 of the linear interpolation. *)
Theorem C49_blend_stays_between x y w :
  is_color x -> is_color y -> number w ->
  exists c, color_blend x y w = Ok c /\ is_color c /\ between_colors x y c /\
    interpolates (unit_value w) x y c.
Proof.
  intros X Y W. destruct (blend_ok x y w X Y W) as (c & E & B & I).
  rewrite (unit_value_ok w W) in I. exists c. split; [exact E|]. split; [|split; assumption].
  destruct X, Y, B. unfold between1, is_color in *. lia.
Qed.
Theorem C49_blend_ends x y w :
  is_color x -> is_color y -> number w ->
  (SFleb w f_zero = true -> color_blend x y w = Ok x) /\
  (SFleb f_one w = true -> color_blend x y w = Ok y).
Proof.
  intros X Y W. split; intros H.
  - apply blend_at_0; auto using clamp_low.
  - apply blend_at_1; auto using clamp_high.
Qed.
(** "Components never leave [min, max]" is false: merging a colour with itself
    can darken it. *)
Theorem C49_blend_within_bounds_refuted :
  exists x w c, is_color x /\ number w /\ color_blend x x w = Ok c /\ c_r c < c_r x.
Proof.
  exists (mkColor 3 3 3 255), (a_div binary32 (fz 1) (fz 10)), (mkColor 2 2 2 255).
  split; [unfold is_color; cbn; lia|]. split; [split; [vm_compute; reflexivity|vm_compute; discriminate]|].
  split; [vm_compute; reflexivity|reflexivity].
Qed.
(** A NaN weight passes the clamp and its conversion to an integer is undefined. *)
Theorem C49_blend_nan_refuted :
  exists x y, is_color x /\ is_color y /\ color_blend x y S754_nan = UB.
Proof.
  exists (mkColor 0 0 0 255), (mkColor 255 255 255 255).
  repeat split; vm_compute; reflexivity.
Qed.

(** ** Colour maps *)
Theorem C49_gray w : number w ->
  exists n, color_gray w = Ok (mkColor n n n 255) /\ n < 256 /\
    (SFleb w f_zero = true -> n = 0) /\ (SFleb f_one w = true -> n = 255).
Proof. apply gray_ok. Qed.

Theorem C49_quality w : number w ->
  exists c, color_quality w = Ok c /\ is_color c /\ c_b c = 0 /\ c_a c = 255 /\
    (c_r c = 255 \/ c_g c = 255) /\
    (SFleb w f_zero = true -> c = mkColor 255 0 0 255) /\
    (SFleb f_one w = true -> c = mkColor 0 255 0 255).
Proof.
  intros W. destruct (quality_ok w W) as (c & E & K & B & A & H & H0 & H1). exists c.
  repeat split; try apply K; try assumption.
  - intros L. specialize (H0 L). destruct c; cbn in *. destruct H; [congruence|lia].
  - intros L. specialize (H1 L). destruct c; cbn in *. destruct H; [lia|congruence].
Qed.

(** Up to 2^24 colours (all indices are exact floats): the first at or below 0,
    the last at or above 1, otherwise between two successive ones. *)
Theorem C49_spectrum w cs : number w -> Forall is_color cs -> cs <> [] ->
  N.of_nat (length cs) <= 2 ^ 24 ->
  exists c, color_spectrum w cs = Ok c /\
    (exists i x y, nth_error cs i = Some x /\ (nth_error cs (S i) = Some y \/ y = x) /\
       between_colors x y c) /\
    (SFleb w f_zero = true -> nth_error cs 0 = Some c) /\
    (SFleb f_one w = true -> nth_error cs (length cs - 1) = Some c).
Proof. apply spectrum_ok. Qed.
Theorem C49_ironbow w : number w -> exists c, color_ironbow w = Ok c /\
    (SFleb w f_zero = true -> c = mkColor 0 0 0 255) /\
    (SFleb f_one w = true -> c = mkColor 255 255 255 255).
Proof.
  intros W. destruct (spectrum_ok w ironbow_colors W) as (c & E & _ & L & H).
  - unfold ironbow_colors. repeat constructor; cbn; lia.
  - discriminate.
  - vm_compute. discriminate.
  - exists c. split; [exact E|]. split; intros K.
    + specialize (L K). now injection L.
    + specialize (H K). now injection H.
Qed.

(** The conversions follow the usual hue circle, to within one step of 255. *)
Theorem C49_hsv h s v : number h -> number s -> number v ->
  exists c, color_hsv h s v = Ok c /\ is_color c /\
    let H := unit_value h in let S := unit_value s in let V := unit_value v in
    shows_hue H (V * S) (V - V * S) c.
Proof.
  intros H S V. destruct (hsv_ok h s v H S V) as (c & E & K & X).
  rewrite !unit_value_ok in X by assumption. eauto.
Qed.
Theorem C49_hls h l s : number h -> number l -> number s ->
  exists c, color_hls h l s = Ok c /\ is_color c /\
    let H := unit_value h in let L := unit_value l in let S := unit_value s in
    let chroma := ((1 - Rabs (2 * L - 1)) * S)%R in
    shows_hue H chroma (L - chroma / 2) c.
Proof.
  intros H L S. destruct (hls_ok h l s H L S) as (c & E & K & X).
  rewrite !unit_value_ok in X by assumption. eauto.
Qed.
Theorem C49_rainbow w : number w ->
  exists c, color_rainbow w = Ok c /\ is_color c /\ shows_hue (unit_value w) 1 0 c.
Proof.
  intros W. destruct (clamp_ok w W) as (F & R & _).
  destruct half_val as (FH & VH), fz1 as (F1 & V1), fz0 as (F0 & V0).
  assert (CL : forall x, fin x -> (0 <= val x <= 1)%R -> unit_clamp x = x).
  { intros x Fx Rx. destruct (clamp_ok x (fin_number x Fx)) as (_ & _ & K & _).
    apply K; apply nlt_ok; try assumption; rewrite ?V0, ?V1; lra. }
  destruct (hls_ok (unit_clamp w) (a_div binary32 (fz 1) (fz 2)) (fz 1)) as (c & E & K & X).
  1-3: apply fin_number; assumption.
  exists c. split; [exact E|]. split; [exact K|].
  rewrite (CL (unit_clamp w)), (CL (a_div binary32 (fz 1) (fz 2))), (CL (fz 1)) in X;
    try assumption; rewrite ?VH, ?V1; try lra. cbn zeta in X.
  rewrite VH, V1, (unit_value_ok w W) in X.
  replace (2 * / 2 - 1)%R with 0%R in X by lra. rewrite Rabs_R0 in X.
  replace ((1 - 0) * 1)%R with 1%R in X by lra. replace (/ 2 - 1 / 2)%R with 0%R in X by lra. exact X.
Qed.

(** ** A case that meets the hypotheses *)
Theorem C49_colours_example :
  let x := mkColor 10 200 30 255 in let y := mkColor 20 100 30 0 in
  let w := a_div binary32 (fz 1) (fz 2) in
  is_color x /\ is_color y /\ x <> y /\ number w /\
  color_blend x y w = Ok (mkColor 15 150 30 127) /\
  color_lt x y = true /\ color_hsv (a_div binary32 (fz 1) (fz 2)) w w = Ok (mkColor 63 127 127 255) /\
  color_rainbow (fz 0) = Ok (mkColor 255 0 0 255) /\
  color_ironbow w = Ok (mkColor 255 138 0 255) /\ color_quality w = Ok (mkColor 255 255 0 255).
Proof.
  cbn zeta. split; [unfold is_color; cbn; lia|]. split; [unfold is_color; cbn; lia|].
  split; [discriminate|]. split; [split; [vm_compute; reflexivity|vm_compute; discriminate]|].
  repeat split; vm_compute; reflexivity.
Qed.
