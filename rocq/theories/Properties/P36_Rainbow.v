(** * C67: the colours of ids *)
From Coq Require Import ZArith NArith Reals Lra Lia Floats.SpecFloat List Bool QArith Qreals.
From Flocq Require Import Core.Core IEEE754.BinarySingleNaN.
From Verif.Model Require Import Types Mesh Numbers Color.
From Verif.Spec Require Import ColorSpec.
From Verif.Proof Require Import FloatP ColorP RainbowP RainbowP2.
From Verif.Properties Require Import P16_Colors.
Import ListNotations.
Set Default Proof Using "Type".
Local Open Scope N_scope.

(** ** Without rounding: the hues never repeat and fill the circle evenly *)
Theorem C67_hue_on_the_circle sq id n : 0 < n -> id < 2 ^ 47 ->
  exists h : Q, exponential_offset (exact sq) q_fmod1 id n = Ok h /\ (0 <= h)%Q /\ (h < 1)%Q.
Proof.
  intros Hn Hid. destruct (hue_rep sq id n Hn Hid) as (h & E & _). exists h. split; [exact E|].
  exact (hue_range sq id n h Hn Hid E).
Qed.
Theorem C67_hues_never_repeat sq id id' n h h' : 0 < n -> id < 2 ^ 47 -> id' < 2 ^ 47 ->
  exponential_offset (exact sq) q_fmod1 id n = Ok h -> exponential_offset (exact sq) q_fmod1 id' n = Ok h' ->
  (h == h')%Q -> id = id'.
Proof. apply hues_differ. Qed.
(** the first [n * 2^e] ids have exactly the hues [j / (n * 2^e)]; the first [n] in their order *)
Theorem C67_even_spread sq n e : 0 < n -> n * 2 ^ e <= 2 ^ 47 ->
  let M := n * 2 ^ e in
  (forall id h, id < M -> exponential_offset (exact sq) q_fmod1 id n = Ok h ->
     exists j, j < M /\ (h == qz j / qz M)%Q) /\
  (forall j, j < M -> exists id h, id < M /\ exponential_offset (exact sq) q_fmod1 id n = Ok h /\ (h == qz j / qz M)%Q) /\
  (forall id h, id < n -> exponential_offset (exact sq) q_fmod1 id n = Ok h -> (h == qz id / qz n)%Q).
Proof.
  intros Hn HM M.
  assert (F : forall id h, id < M -> exponential_offset (exact sq) q_fmod1 id n = Ok h -> (h == qz (hslot id n e) / qz M)%Q).
  { intros id h L E. destruct (hue_rep sq id n Hn) as (h' & E' & Q); [unfold M in L; lia|]. rewrite E in E'. injection E' as <-.
    rewrite Q. now apply hslot_frac. }
  split; [|split].
  - intros id h L E. exists (hslot id n e). split; [now apply hslot_lt|now apply F].
  - intros j Lj. destruct (onto (fun x => hslot x n e) M) with (j := j) as (id & L & E).
    + intros x Lx. now apply hslot_lt.
    + intros x y Lx Ly. now apply hslot_inj.
    + exact Lj.
    + destruct (hue_rep sq id n Hn) as (h & Eh & _); [unfold M in L; lia|]. exists id, h.
      split; [exact L|]. split; [exact Eh|]. rewrite <- E. now apply F.
  - intros id h L E. assert (P := RainbowP.pow_pos e).
    destruct (hue_rep sq id n Hn) as (h' & E' & Q); [nia|]. rewrite E in E'. injection E' as <-. rewrite Q.
    unfold hnum, hexp. rewrite (N.div_small id n L), (N.mod_small id n L). cbn [N.eqb].
    change (2 ^ 0) with 1. rewrite N.mul_1_r, N.add_0_r. change (qz 1) with 1%Q. rewrite Qmult_1_r. reflexivity.
Qed.

(** ** The colours returned *)
(** every id gets a fully saturated colour of the hue circle *)
Theorem C67_every_id_has_a_colour id n : 0 < n -> n < 2 ^ 64 -> id < 2 ^ 47 ->
  exists c x, color_rainbow_id id n = Ok c /\ is_color c /\ (0 <= x <= 1)%R /\ shows_hue x 1 0 c.
Proof.
  intros Hn Hn' Hid. destruct (finite_hue id n Hn Hn' Hid) as (h & E & F).
  pose proof (fin_number h F) as Nh. destruct (C49_rainbow h Nh) as (c & Ec & K & X).
  exists c, (unit_value h). unfold color_rainbow_id. rewrite E. cbv iota beta. split; [exact Ec|]. split; [exact K|].
  split; [|exact X]. destruct (clamp_ok h Nh) as (_ & R & _). now rewrite (unit_value_ok h Nh) in R.
Qed.
(** For a power of two of ids per revolution (16 by default) single precision is exact: the
    first [2^e] revolutions show every hue [j / (n * 2^e)] exactly once. *)
Lemma rainbow_slot k e id : id < 2 ^ k * 2 ^ e -> k + e <= 23 ->
  exists h, exponential_offset binary32 f32_fmod1 id (2 ^ k) = Ok h /\ fin h /\
    val h = (rn (hslot id (2 ^ k) e) / rn (2 ^ k * 2 ^ e))%R.
Proof.
  intros L H. destruct (float_hue k id e L H) as (h & E & F & V). exists h. split; [exact E|]. split; [exact F|].
  rewrite V. unfold hslot. set (n := 2 ^ k) in *. assert (Hn : 0 < n) by apply RainbowP.pow_pos.
  pose proof (hexp_le id n e Hn L) as He. replace (2 ^ e) with (2 ^ hexp id n * 2 ^ (e - hexp id n)).
  - rewrite !rn_mul. pose proof (rn_pos _ Hn). pose proof (rn_pos _ (RainbowP.pow_pos (hexp id n))).
    pose proof (rn_pos _ (RainbowP.pow_pos (e - hexp id n))). field. lra.
  - rewrite <- N.pow_add_r. f_equal. lia.
Qed.
Theorem C67_colours_fill_the_circle k e : k + e <= 23 ->
  let n := 2 ^ k in let M := 2 ^ k * 2 ^ e in
  exists slot : N -> N,
    (forall id, id < M -> slot id < M) /\
    (forall id id', id < M -> id' < M -> slot id = slot id' -> id = id') /\
    (forall j, j < M -> exists id, id < M /\ slot id = j) /\
    (forall id, id < n -> slot id = id * 2 ^ e) /\
    (forall id, id < M -> exists c, color_rainbow_id id n = Ok c /\ is_color c /\
       shows_hue (IZR (Z.of_N (slot id)) / IZR (Z.of_N M)) 1 0 c).
Proof.
  intros H n M. assert (Hn : 0 < n) by apply RainbowP.pow_pos. exists (fun id => hslot id n e).
  assert (A : forall id, id < M -> hslot id n e < M) by (intros id L; now apply hslot_lt).
  assert (B : forall id id', id < M -> id' < M -> hslot id n e = hslot id' n e -> id = id') by (intros id id' L L'; now apply hslot_inj).
  split; [exact A|]. split; [exact B|]. split.
  { intros j Lj. apply (onto (fun x => hslot x n e) M A B j Lj). }
  split.
  { intros id L. unfold hslot, hnum, hexp. rewrite (N.div_small id n L), (N.mod_small id n L). cbn [N.eqb].
    change (2 ^ 0) with 1. rewrite N.mul_1_r, N.add_0_r, N.sub_0_r. reflexivity. }
  intros id L. destruct (rainbow_slot k e id L H) as (h & E & F & V).
  pose proof (fin_number h F) as Nh. destruct (C49_rainbow h Nh) as (c & Ec & K & X).
  exists c. unfold color_rainbow_id, n. rewrite E. cbv iota beta. split; [exact Ec|]. split; [exact K|].
  rewrite <- (unit_value_ok h Nh) in X. destruct (clamp_ok h Nh) as (_ & _ & CK & _).
  assert (PM : 0 < M) by (unfold M; apply N.mul_pos_pos; apply RainbowP.pow_pos). pose proof (rn_pos _ PM) as PR.
  assert (R0 : (0 <= rn (hslot id n e) / rn M <= 1)%R).
  { pose proof (rn_nonneg (hslot id n e)). assert (rn (hslot id n e) <= rn M)%R by (apply rn_le; specialize (A id L); lia).
    split; [apply Rmult_le_pos; [lra|]; left; apply Rinv_0_lt_compat; lra|].
    apply (Rmult_le_reg_r (rn M)); [lra|]. unfold Rdiv. rewrite Rmult_assoc, Rinv_l by lra. lra. }
  rewrite CK, V in X; [exact X| |].
  - apply nlt_ok; [exact F|apply fz0|]. destruct fz0 as (_ & ->). rewrite V. apply R0.
  - apply nlt_ok; [apply fz1|exact F|]. destruct fz1 as (_ & ->). rewrite V. apply R0.
Qed.

(** The colours of the first 512 ids differ, for every power of two of ids per revolution up to 512. *)
Definition slot_colour (j : N) : option Color :=
  match color_rainbow (a_div binary32 (fz j) (fz 512)) with Ok c => Some c | _ => None end.
Fixpoint fresh_colours (l seen : list Color) : bool :=
  match l with
  | [] => true
  | c :: r => negb (existsb (color_eq c) seen) && fresh_colours r (c :: seen)
  end.
Definition colour_list : list Color :=
  flat_map (fun j => match slot_colour (N.of_nat j) with Some c => [c] | None => [] end) (seq 0 512).
Lemma fresh_ok l : forall seen, fresh_colours l seen = true -> NoDup l /\ (forall c, In c l -> ~ In c seen).
Proof.
  induction l as [|c l IH]; intros seen H; [split; [constructor|now intros c []]|].
  cbn in H. apply andb_true_iff in H as (H1 & H2). destruct (IH _ H2) as (N1 & N2).
  apply negb_true_iff in H1.
  assert (Nc : ~ In c seen).
  { intros K. assert (existsb (color_eq c) seen = true) as W; [|congruence].
    apply existsb_exists. exists c. split; [exact K|]. unfold color_eq. now rewrite !N.eqb_refl. }
  split.
  - constructor; [|exact N1]. intros K. apply (N2 c K). now left.
  - intros d [<-|K] D; [now apply Nc|]. apply (N2 d K). now right.
Qed.
Lemma colours_fresh : fresh_colours colour_list [] = true /\ length colour_list = 512%nat.
Proof. vm_compute. split; reflexivity. Qed.
Lemma flat_some {A} (f : nat -> option A) l :
  length (flat_map (fun j => match f j with Some c => [c] | None => [] end) l) = length l ->
  forall i x, nth_error l i = Some x ->
  f x <> None /\ nth_error (flat_map (fun j => match f j with Some c => [c] | None => [] end) l) i = f x.
Proof.
  assert (Le : forall l, (length (flat_map (fun j => match f j with Some c => [c] | None => [] end) l) <= length l)%nat).
  { induction l0 as [|a l0 IH]; cbn; [lia|]. destruct (f a); cbn; lia. }
  induction l as [|a l IH]; intros H [|i] x E; cbn in *; try discriminate.
  - injection E as <-. specialize (Le l). destruct (f a); cbn in *; [split; congruence|lia].
  - specialize (Le l). destruct (f a); cbn in *; [|lia]. apply IH; [lia|exact E].
Qed.
Lemma slot_colour_inj i j : i < 512 -> j < 512 -> slot_colour i = slot_colour j -> i = j.
Proof.
  intros Hi Hj E. destruct colours_fresh as (F & L). apply fresh_ok in F as (ND & _).
  assert (S : forall x, x < 512 -> slot_colour x <> None /\ nth_error colour_list (N.to_nat x) = slot_colour x).
  { intros x Hx. unfold colour_list in *.
    destruct (flat_some (fun j => slot_colour (N.of_nat j)) (seq 0 512)) with (i := N.to_nat x) (x := N.to_nat x) as (A & B).
    - rewrite L. now rewrite seq_length.
    - rewrite nth_error_nth' with (d := 0%nat) by (rewrite seq_length; lia). f_equal. rewrite seq_nth by lia. lia.
    - cbv beta in A, B. rewrite N2Nat.id in A, B. split; [exact A|exact B]. }
  destruct (S i Hi) as (Ni & Ei), (S j Hj) as (Nj & Ej). rewrite E, <- Ej in Ei.
  apply (proj1 (NoDup_nth_error colour_list) ND) in Ei; [lia|]. rewrite L. lia.
Qed.
Lemma float_unique x y : fin x -> fin y -> val x = val y -> val x <> 0%R -> x = y.
Proof.
  intros Fx Fy E N0. destruct (fin_bin x Fx) as (a & <- & A), (fin_bin y Fy) as (b & <- & B).
  rewrite !val_B2SF in *. f_equal.
  assert (St : forall f : binary_float 24 128, is_finite f = true -> B2R f <> 0%R -> is_finite_strict f = true).
  { intros [s|s| |s m e P] Q Z; try discriminate; [|reflexivity]. now elim Z. }
  apply B2R_inj; [apply St|apply St|]; congruence.
Qed.
Lemma colour_of_slot h j : fin h -> j < 512 -> val h = (rn j / rn 512)%R ->
  match color_rainbow h with Ok c => Some c | _ => None end = slot_colour j.
Proof.
  intros F Hj V. destruct (N.eq_dec j 0) as [->|Nj].
  - change (rn 0) with 0%R in V. unfold Rdiv in V. rewrite Rmult_0_l in V.
    destruct h as [s|s| |s m e]; try (destruct F; discriminate).
    + destruct s; vm_compute; reflexivity.
    + exfalso. unfold val, SF2R in V. apply eq_0_F2R in V. destruct s; discriminate.
  - unfold slot_colour. f_equal. f_equal.
    destruct (fz_ok j) as (Fj & Vj); [lia|]. destruct (fz_ok 512) as (Fk & Vk); [lia|].
    assert (P : (0 < rn j)%R) by (apply rn_pos; lia). assert (P2 : (0 < rn 512)%R) by (apply rn_pos; lia).
    change (IZR (Z.of_N j)) with (rn j) in Vj. change (IZR (Z.of_N 512)) with (rn 512) in Vk.
    destruct (div_dyadic (fz j) (fz 512) j 9) as (Fd & Vd); try assumption; [rewrite Vk; lra|now rewrite Vj, Vk|lia|lia|].
    change (2 ^ 9) with 512 in Vd. symmetry. assert (X : a_div binary32 (fz j) (fz 512) = h); [|now rewrite X].
    apply float_unique; try assumption; [now rewrite Vd, V|].
    rewrite Vd. assert (0 < rn j / rn 512)%R; [|lra]. apply Rmult_lt_0_compat; [exact P|]. now apply Rinv_0_lt_compat.
Qed.
Theorem C67_first_512_differ k id id' c : k <= 9 -> id < 512 -> id' < 512 ->
  color_rainbow_id id (2 ^ k) = Ok c -> color_rainbow_id id' (2 ^ k) = Ok c -> id = id'.
Proof.
  intros Hk Hi Hj Ei Ej. assert (M : 2 ^ k * 2 ^ (9 - k) = 512) by (rewrite <- N.pow_add_r; replace (k + (9 - k)) with 9 by lia; reflexivity).
  assert (S : forall x, x < 512 -> color_rainbow_id x (2 ^ k) = Ok c -> slot_colour (hslot x (2 ^ k) (9 - k)) = Some c).
  { intros x Hx Ex. destruct (rainbow_slot k (9 - k) x) as (h & E & F & V); [now rewrite M|lia|].
    rewrite M in V. rewrite <- (colour_of_slot h _ F).
    - unfold color_rainbow_id in Ex. rewrite E in Ex. assert (Ex2 : color_rainbow h = Ok c) by exact Ex. now rewrite Ex2.
    - rewrite <- M. apply hslot_lt; [apply RainbowP.pow_pos|now rewrite M].
    - exact V. }
  apply (hslot_inj id id' (2 ^ k) (9 - k)); [apply RainbowP.pow_pos|now rewrite M|now rewrite M|].
  apply slot_colour_inj.
  - rewrite <- M. apply hslot_lt; [apply RainbowP.pow_pos|now rewrite M].
  - rewrite <- M. apply hslot_lt; [apply RainbowP.pow_pos|now rewrite M].
  - rewrite (S id Hi Ei), (S id' Hj Ej). reflexivity.
Qed.

(** ** Where the natural statement fails *)
(** colours have 8 bits per channel: with the default of 16 ids per revolution, id 677 looks like id 341 *)
Theorem C67_colours_never_repeat_refuted :
  exists id id' c, id <> id' /\ color_rainbow_id id 16 = Ok c /\ color_rainbow_id id' 16 = Ok c.
Proof. exists 341, 677, (mkColor 0 255 0 255). split; [discriminate|]. split; vm_compute; reflexivity. Qed.
(** zero ids per revolution divide by zero *)
Theorem C67_zero_per_revolution_refuted id : color_rainbow_id id 0 = UB.
Proof. reflexivity. Qed.

(** ** A case (the values of tests/utest_color.cpp:112-121) *)
Theorem C67_case :
  map (fun id => color_rainbow_id id 16) [0; 1; 8; 15; 16; 17; 32; 33] =
  [Ok (mkColor 255 0 0 255); Ok (mkColor 255 95 0 255); Ok (mkColor 0 255 255 255); Ok (mkColor 255 0 95 255);
   Ok (mkColor 255 47 0 255); Ok (mkColor 255 143 0 255); Ok (mkColor 255 23 0 255); Ok (mkColor 255 119 0 255)] /\
  16 * 2 ^ 4 <= 2 ^ 47 /\ 4 + 4 <= 23 /\ 16 = 2 ^ 4.
Proof. split; [vm_compute; reflexivity|]. repeat split; vm_compute; congruence. Qed.
