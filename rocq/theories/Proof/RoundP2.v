(** Rounding to nearest even, in the words of [nearest]. *)
From Coq Require Import NArith ZArith Reals Bool List Lia Lra.
From Flocq Require Import Core.Core.
From Verif.Model Require Import Types Json.
From Verif.Spec Require Import BinarySpec JsonSpec NumberSpec.
From Verif.Proof Require Import JsonNum RoundP.
Set Default Proof Using "All".

Section fmt.
Context (e m : N) (He : (2 <= e)%N) (Hm : (1 <= m)%N).
Notation rnd := (rnd e m).
Notation fexp := (fexp e m).
#[local] Instance prec_inst : Prec_gt_0 (prec m) := prec_pos e m He Hm.
#[local] Instance fexp_valid : Valid_exp fexp := fexp_valid e m He Hm.
#[local] Instance fexp_NE : Exists_NE radix2 fexp := fexp_NE e m He Hm.
#[local] Instance fexp_mono : Monotone_exp fexp := FLT_exp_monotone _ _.

Lemma rnd_opp s x : rnd (cond_Ropp s x) = cond_Ropp s (rnd x).
Proof. destruct s; [apply round_NE_opp|reflexivity]. Qed.
Lemma rnd_abs x : Rabs (rnd x) = rnd (Rabs x).
Proof. symmetry. apply round_NE_abs. exact fexp_valid. Qed.
Lemma rnd_mono x y : (x <= y)%R -> (rnd x <= rnd y)%R.
Proof. apply round_le; [exact fexp_valid|apply valid_rnd_N]. Qed.

(** the largest number and the place where infinity starts *)
Definition top : R := bpow radix2 (high_exp e).
Definition half_gap : R := bpow radix2 (high_exp e - Z.of_N m - 2).
Lemma overflow_eq : overflow_from e m = (top - half_gap)%R.
Proof.
  unfold overflow_from, top, half_gap. rewrite Rmult_minus_distr_r, <- bpow_plus. replace (- Z.of_N m - 1 + (high_exp e - 1))%Z with (high_exp e - Z.of_N m - 2)%Z by lia. f_equal.
  change 2%R with (bpow radix2 1). rewrite <- bpow_plus. f_equal. lia.
Qed.
Lemma top_F2R k : (k <= high_exp e)%Z -> top = F2R (Float radix2 (2 ^ (high_exp e - k)) k).
Proof. intros H. unfold top, F2R. cbn [Fnum Fexp]. change 2%Z with (radix_val radix2). rewrite IZR_Zpower by lia. rewrite <- bpow_plus. f_equal. lia. Qed.
Lemma largest_format : generic_format radix2 fexp (top - 2 * half_gap).
Proof.
  pose proof (high_pos e m He Hm) as Hh. apply generic_format_FLT. exists (Float radix2 (2 ^ (Z.of_N m + 1) - 1) (high_exp e - Z.of_N m - 1)); cbn [Fnum Fexp].
  - rewrite (top_F2R (high_exp e - Z.of_N m - 1)) by lia. replace (high_exp e - (high_exp e - Z.of_N m - 1))%Z with (Z.of_N m + 1)%Z by lia. unfold F2R, half_gap. cbn [Fnum Fexp].
    rewrite minus_IZR. replace (high_exp e - Z.of_N m - 2)%Z with (-1 + (high_exp e - Z.of_N m - 1))%Z by lia. rewrite bpow_plus. change (bpow radix2 (-1)) with (/ 2)%R. lra.
  - rewrite Z.abs_eq; [unfold prec; change (Zpower radix2 (Z.of_N m + 1)) with (2 ^ (Z.of_N m + 1))%Z; lia|]. assert (0 < 2 ^ (Z.of_N m + 1))%Z by (apply Z.pow_pos_nonneg; lia). lia.
  - rewrite low_high by assumption. lia.
Qed.
Lemma half_pos : (0 < half_gap)%R. Proof. apply bpow_gt_0. Qed.
Lemma round_limit : rnd (top - half_gap) = top.
Proof.
  pose proof (high_pos e m He Hm) as Hh. set (k := (high_exp e - Z.of_N m - 2)%Z). set (n := (2 ^ (m + 2) - 1)%N).
  assert (Pn : (2 ^ (m + 2) = 4 * 2 ^ m)%N) by (rewrite N.pow_add_r; change (2 ^ 2)%N with 4%N; lia). pose proof (pow2_pos m) as Pm.
  assert (E : (top - half_gap)%R = F2R (Float radix2 (Z.of_N n) k)).
  { rewrite (top_F2R k) by lia. unfold half_gap. fold k. replace (high_exp e - k)%Z with (Z.of_N (m + 2)) by lia. rewrite <- pow2_Z. unfold F2R, n. cbn [Fnum Fexp]. rewrite N2Z.inj_sub by lia. rewrite minus_IZR. change (IZR (Z.of_N 1)) with 1%R. ring. }
  assert (Pn1 : (2 ^ (m + 1) = 2 * 2 ^ m)%N) by (rewrite N.pow_add_r; change (2 ^ 1)%N with 2%N; lia).
  assert (Nn : (n = 4 * 2 ^ m - 1)%N) by (unfold n; rewrite Pn; reflexivity).
  assert (L : N.log2 n = (m + 1)%N). { apply N.log2_unique; [apply N.le_0_l|]. rewrite <- N.add_1_r. replace (m + 1 + 1)%N with (m + 2)%N by lia. rewrite Pn, Pn1, Nn. clear -Pm. generalize dependent (2 ^ m)%N. lia. }
  assert (n <> 0)%N by (rewrite Nn; clear -Pm; lia). rewrite E, (round_value e m He Hm) by assumption.
  assert (Q : out_exp e m n k = (k + 1)%Z) by (unfold out_exp; rewrite L, low_high by assumption; lia).
  assert (S : out_sig e m n k = (2 * 2 ^ m)%N).
  { unfold out_sig. rewrite Q. replace (k + 1 <=? k)%Z with false by (symmetry; apply Z.leb_gt; lia). replace (Z.to_N (k + 1 - k)) with 1%N by lia. unfold round_shift. change (2 ^ 1)%N with 2%N.
    replace n with (1 + (2 * 2 ^ m - 1) * 2)%N by lia. rewrite N.div_add, N.mod_add by lia. change (1 / 2)%N with 0%N. change (1 mod 2)%N with 1%N. change (2 * 1 ?= 2)%N with Eq. cbv zeta.
    rewrite N.add_0_l. replace (N.even (2 * 2 ^ m - 1)) with false; [cbv iota; clear -Pm; lia|]. symmetry. rewrite <- N.negb_odd. replace (2 * 2 ^ m - 1)%N with (1 + 2 * (2 ^ m - 1))%N by lia. rewrite N.odd_add_mul_2. reflexivity. }
  rewrite S, Q. rewrite (top_F2R (k + 1)) by lia. f_equal. f_equal. replace (high_exp e - (k + 1))%Z with (Z.of_N (m + 1)) by lia. rewrite <- pow2_Z, N.pow_add_r. change (2 ^ 1)%N with 2%N. lia.
Qed.
Lemma small_iff x : (Rabs x < overflow_from e m)%R <-> (Rabs (rnd x) < top)%R.
Proof.
  rewrite overflow_eq, rnd_abs. pose proof half_pos as Hg. set (y := Rabs x). split; intros H.
  - destruct (Rlt_or_le (rnd y) top) as [|C]; [assumption|exfalso].
    destruct (Rle_or_lt y (top - 2 * half_gap)) as [C2|C2].
    + apply rnd_mono in C2. unfold RoundP.rnd in *. rewrite (round_generic radix2 fexp ZnearestE (top - 2 * half_gap)) in C2 by apply largest_format. lra.
    + destruct (round_N_pt radix2 fexp (fun z => negb (Z.even z)) y) as [_ N]. specialize (N _ largest_format). unfold RoundP.rnd in *. rewrite (Rabs_right (_ - y)) in N by lra. rewrite Rabs_left in N by lra. lra.
  - destruct (Rlt_or_le y (top - half_gap)) as [|C]; [assumption|exfalso]. apply rnd_mono in C. rewrite round_limit in C. lra.
Qed.

Lemma even_pattern v : (v < 2 ^ (1 + e + m))%N -> N.even v = N.even (fl_sig e m v).
Proof.
  intros Hv. assert (P2 : N.even (2 ^ m) = true) by (replace m with (N.succ (m - 1)) by lia; rewrite N.pow_succ_r'; apply N.even_mul).
  assert (E : N.even v = N.even (v mod 2 ^ m)).
  { rewrite (N.div_mod v (2 ^ m)) at 1 by (pose proof (pow2_pos m); lia). rewrite N.even_add, N.even_mul, P2. cbn. destruct (N.even (v mod 2 ^ m)); reflexivity. }
  rewrite E. unfold fl_sig, fl_man. destruct (fl_exp e m v =? 0)%N; [reflexivity|]. rewrite N.even_add, P2. destruct (N.even (v mod 2 ^ m)); reflexivity.
Qed.
Lemma even_signed s r : Z.even (signed s r) = N.even r.
Proof. unfold signed. destruct s; cbn [cond_Zopp]; [rewrite Z.even_opp|]; destruct r; reflexivity. Qed.
Lemma finite_canonical v : is_finite e m v -> fl_sig e m v <> 0%N -> canonical radix2 fexp (Float radix2 (signed (fl_sign e m v) (fl_sig e m v)) (fl_scale e m v)).
Proof.
  intros F Hz. destruct (finite_range e m He Hm v F) as (L & S & _ & C). unfold canonical, cexp. cbn [Fexp]. unfold signed. rewrite F2R_cond_Zopp.
  rewrite <- (mag_abs radix2 (cond_Ropp _ _)), abs_cond_Ropp, mag_abs, (mag_sig e m He Hm) by assumption. unfold fexp, FLT_exp, prec.
  assert (L2 : (N.log2 (fl_sig e m v) < m + 1)%N) by (apply N.log2_lt_pow2; lia). destruct C as [C|C]; [|lia].
  assert (L3 : (m <= N.log2 (fl_sig e m v))%N) by (apply N.log2_le_pow2; lia). lia.
Qed.

Lemma nearest_of_round x r : (r < 2 ^ (1 + e + m))%N -> ((Rabs (rnd x) < top)%R -> is_finite e m r /\ number_of e m r = rnd x) ->
  ((top <= Rabs (rnd x))%R -> r = infinity e m (if Rlt_dec x 0 then true else false)) -> nearest e m x r.
Proof.
  intros Hr H1 H2. split; [exact Hr|]. split.
  - intros S. apply small_iff in S. destruct (H1 S) as [F E]. split; [exact F|]. intros w Hw Fw. pose proof (round_NE_pt radix2 fexp x) as [[_ N] P].
    specialize (N _ (fl_finite_format e m He Hm w Fw)). unfold RoundP.rnd in *. rewrite E. split; [exact N|]. intros T Hne.
    destruct P as [(g & G1 & G2 & G3)|P].
    + rewrite even_pattern by exact Hr. destruct (N.eq_dec (fl_sig e m r) 0) as [->|Hz]; [reflexivity|]. pose proof (finite_canonical r F Hz) as C.
      assert (U : g = Float radix2 (signed (fl_sign e m r) (fl_sig e m r)) (fl_scale e m r)).
      { apply (canonical_unique radix2 fexp); [exact G2|exact C|]. rewrite <- G1, <- (number_F2R e m He Hm). symmetry. exact E. }
      rewrite U in G3. cbn [Fnum] in G3. rewrite even_signed in G3. exact G3.
    + exfalso. apply Hne. apply P. split; [apply fl_finite_format; assumption|]. intros f Hf. rewrite <- T. destruct (round_N_pt radix2 fexp (fun z => negb (Z.even z)) x) as [_ N']. apply N', Hf.
  - intros S. apply H2. destruct (Rlt_or_le (Rabs (rnd x)) top) as [C|C]; [|exact C]. apply small_iff in C. lra.
Qed.
(** +-sig * 2^ex is converted to the nearest number *)
Lemma fl_round_nearest s sig ex : nearest e m (F2R (Float radix2 (signed s sig) ex)) (fl_round e m s sig ex).
Proof.
  destruct (fl_round_spec e m He Hm s sig ex) as (R1 & R2 & R3). set (y := F2R (Float radix2 (Z.of_N sig) ex)) in *.
  assert (Ey : F2R (Float radix2 (signed s sig) ex) = cond_Ropp s y) by (unfold signed; apply F2R_cond_Zopp).
  assert (Y0 : (0 <= y)%R) by (apply F2R_ge_0; cbn; lia). assert (RY : (0 <= rnd y)%R) by (rewrite <- (Rabs_right y) by lra; rewrite <- rnd_abs; apply Rabs_pos).
  rewrite Ey. apply nearest_of_round; [exact R1| |]; rewrite rnd_opp, abs_cond_Ropp, (Rabs_right (rnd y)) by lra; intros H.
  - destruct (R2 H) as (A & _ & B). auto.
  - rewrite (R3 H). f_equal. assert (Yp : (0 < y)%R).
    { destruct (Rle_lt_or_eq_dec 0 y Y0) as [|Z]; [assumption|]. exfalso. rewrite <- Z in H. unfold RoundP.rnd in H. rewrite round_0 in H by apply valid_rnd_N. unfold top in H. pose proof (bpow_gt_0 radix2 (high_exp e)). lra. }
    destruct s; cbn [cond_Ropp]; destruct (Rlt_dec _ 0); try reflexivity; exfalso; lra.
Qed.
End fmt.
