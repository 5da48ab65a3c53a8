(** Conversion to a floating-point format is rounding to nearest, ties to even (through Flocq). *)
From Coq Require Import NArith ZArith Reals Bool List Lia Lra.
From Flocq Require Import Core.Core.
From Verif.Model Require Import Types Json.
From Verif.Spec Require Import BinarySpec JsonSpec NumberSpec.
From Verif.Proof Require Import JsonNum.
Set Default Proof Using "All".

Lemma pow2_Z k : Z.of_N (2 ^ k) = (2 ^ Z.of_N k)%Z. Proof. apply N2Z.inj_pow. Qed.
Lemma pow2_R k : IZR (Z.of_N (2 ^ k)) = bpow radix2 (Z.of_N k).
Proof. rewrite pow2_Z. rewrite <- (IZR_Zpower radix2) by lia. reflexivity. Qed.
Lemma pow2_pos k : (0 < 2 ^ k)%N. Proof. apply N.neq_0_lt_0, N.pow_nonzero. lia. Qed.

Lemma round_shift_nearest sig sh : Z.of_N (round_shift sig sh) = ZnearestE (IZR (Z.of_N sig) * bpow radix2 (- Z.of_N sh)).
Proof.
  pose proof (pow2_pos sh) as P. pose proof (N.div_mod sig (2 ^ sh) ltac:(lia)) as E. pose proof (N.mod_lt sig (2 ^ sh) ltac:(lia)) as L.
  unfold round_shift. set (q := (sig / 2 ^ sh)%N) in *. set (r := (sig mod 2 ^ sh)%N) in *. clearbody q r. cbv zeta.
  assert (B : (bpow radix2 (Z.of_N sh) * bpow radix2 (- Z.of_N sh) = 1)%R) by (rewrite <- bpow_plus; replace (Z.of_N sh + - Z.of_N sh)%Z with 0%Z by lia; reflexivity).
  pose proof (bpow_gt_0 radix2 (- Z.of_N sh)) as Bp. set (b := bpow radix2 (- Z.of_N sh)) in *.
  set (x := (IZR (Z.of_N sig) * b)%R).
  assert (Ex : x = (IZR (Z.of_N q) + IZR (Z.of_N r) * b)%R).
  { unfold x. rewrite E, N2Z.inj_add, N2Z.inj_mul, plus_IZR, mult_IZR, pow2_R. rewrite Rmult_plus_distr_r. f_equal.
    replace (bpow radix2 (Z.of_N sh) * IZR (Z.of_N q) * b)%R with (IZR (Z.of_N q) * (bpow radix2 (Z.of_N sh) * b))%R by ring. rewrite B. ring. }
  assert (R1 : (0 <= IZR (Z.of_N r))%R) by (apply IZR_le; lia).
  assert (R2 : (IZR (Z.of_N r) * b < 1)%R) by (rewrite <- B; apply Rmult_lt_compat_r; [exact Bp|]; rewrite <- pow2_R; apply IZR_lt; lia).
  assert (R3 : (0 <= IZR (Z.of_N r) * b)%R) by (apply Rmult_le_pos; lra).
  assert (Fl : Zfloor x = Z.of_N q) by (apply Zfloor_imp; rewrite plus_IZR; lra).
  unfold Znearest. rewrite Fl.
  assert (Cmp : Rcompare (x - IZR (Z.of_N q)) (/ 2) = (2 * r ?= 2 ^ sh)%N).
  { replace (x - IZR (Z.of_N q))%R with (IZR (Z.of_N r) * b)%R by lra.
    assert (H2 : (IZR (Z.of_N (2 * r)) = 2 * IZR (Z.of_N r))%R) by (rewrite N2Z.inj_mul, mult_IZR; reflexivity).
    assert (Hb : (/ 2 = / 2 * IZR (Z.of_N (2 ^ sh)) * b)%R) by (rewrite pow2_R, Rmult_assoc, B; ring).
    destruct (N.compare_spec (2 * r) (2 ^ sh)) as [C|C|C].
    - apply Rcompare_Eq. rewrite Hb. f_equal. rewrite <- C, H2. lra.
    - apply Rcompare_Lt. rewrite Hb. apply Rmult_lt_compat_r; [exact Bp|]. assert (IZR (Z.of_N (2 * r)) < IZR (Z.of_N (2 ^ sh)))%R by (apply IZR_lt; lia). lra.
    - apply Rcompare_Gt. rewrite Hb. apply Rmult_lt_compat_r; [exact Bp|]. assert (IZR (Z.of_N (2 ^ sh)) < IZR (Z.of_N (2 * r)))%R by (apply IZR_lt; lia). lra. }
  rewrite Cmp. assert (Ce : (2 * r ?= 2 ^ sh)%N <> Lt -> Zceil x = (Z.of_N q + 1)%Z).
  { intros C. rewrite Zceil_floor_neq; [rewrite Fl; reflexivity|]. rewrite Fl, Ex. assert (0 < r)%N by (destruct (N.compare_spec (2 * r) (2 ^ sh)); [lia|congruence|lia]).
    assert (0 < IZR (Z.of_N r) * b)%R by (apply Rmult_lt_0_compat; [apply IZR_lt; lia|exact Bp]). lra. }
  destruct (2 * r ?= 2 ^ sh)%N; [|reflexivity|rewrite Ce by discriminate; lia].
  replace (Z.even (Z.of_N q)) with (N.even q) by (destruct q; reflexivity). destruct (N.even q); cbn [negb]; [reflexivity|]. rewrite Ce by discriminate. lia.
Qed.

Section fmt.
Context (e m : N) (He : (2 <= e)%N) (Hm : (1 <= m)%N).
Definition prec : Z := (Z.of_N m + 1)%Z.
Definition fexp := FLT_exp (low_exp e m) prec.
Definition rnd (x : R) : R := round radix2 fexp ZnearestE x.
Lemma prec_pos : Prec_gt_0 prec. Proof. unfold Prec_gt_0, prec. lia. Qed.
#[local] Instance prec_inst : Prec_gt_0 prec := prec_pos.
#[local] Instance fexp_valid : Valid_exp fexp. Proof. apply FLT_exp_valid. exact prec_pos. Qed.
#[local] Instance fexp_NE : Exists_NE radix2 fexp. Proof. apply exists_NE_FLT. unfold prec. right. lia. Qed.

Lemma fl_min_low : fl_min e m = low_exp e m.
Proof. unfold fl_min, low_exp. rewrite pow2_Z. replace (Z.of_N (e - 1)) with (Z.of_N e - 1)%Z by lia. reflexivity. Qed.
Lemma high_pos : (2 <= high_exp e)%Z.
Proof. unfold high_exp. change 2%Z with (2 ^ 1)%Z at 1. apply Z.pow_le_mono_r; lia. Qed.
Lemma two_high : (2 * high_exp e = Z.of_N (2 ^ e))%Z.
Proof. unfold high_exp. rewrite pow2_Z. replace (Z.of_N e) with (Z.succ (Z.of_N e - 1)) at 2 by lia. rewrite Z.pow_succ_r by lia. reflexivity. Qed.
Lemma low_high : low_exp e m = (2 - high_exp e - Z.of_N m)%Z. Proof. reflexivity. Qed.

Definition signed (s : bool) (r : N) : Z := cond_Zopp s (Z.of_N r).
Lemma number_F2R v : number_of e m v = F2R (Float radix2 (signed (fl_sign e m v) (fl_sig e m v)) (fl_scale e m v)).
Proof.
  unfold number_of, negative, fl_sign. rewrite N.testbit_eqb. set (s := (_ =? 1)%N). unfold magnitude, fl_sig, fl_scale, fl_exp, fl_man.
  set (x := ((v / 2 ^ m) mod 2 ^ e)%N). unfold signed. rewrite F2R_cond_Zopp, fl_min_low.
  assert (E : (if (x =? 0)%N then IZR (Z.of_N (v mod 2 ^ m)) * bpow radix2 (low_exp e m) else IZR (Z.of_N (2 ^ m + v mod 2 ^ m)) * bpow radix2 (low_exp e m + Z.of_N x - 1))%R =
    F2R (Float radix2 (Z.of_N (if (x =? 0)%N then v mod 2 ^ m else 2 ^ m + v mod 2 ^ m)) (low_exp e m + Z.of_N (N.max 1 x) - 1))).
  { unfold F2R. cbn [Fnum Fexp]. destruct (N.eqb_spec x 0) as [->|Hx]; [f_equal; f_equal; cbn; lia|]. rewrite N.max_r by lia. reflexivity. }
  rewrite E. destruct s; reflexivity.
Qed.
(** significand and exponent of a finite value *)
Lemma finite_range v : is_finite e m v -> (fl_sig e m v < 2 ^ (m + 1))%N /\ (low_exp e m <= fl_scale e m v)%Z /\ (fl_scale e m v <= high_exp e - 1 - Z.of_N m)%Z /\
  (2 ^ m <= fl_sig e m v \/ fl_scale e m v = low_exp e m)%N.
Proof.
  intros F. unfold is_finite in F. unfold fl_sig, fl_scale, fl_exp, fl_man. rewrite fl_min_low. pose proof (pow2_pos m) as Pm. pose proof (pow2_pos e) as Pe.
  pose proof (N.mod_lt v (2 ^ m) ltac:(lia)) as L1. pose proof (N.mod_lt (v / 2 ^ m) (2 ^ e) ltac:(lia)) as L2. set (x := ((v / 2 ^ m) mod 2 ^ e)%N) in *.
  rewrite N.pow_add_r. change (2 ^ 1)%N with 2%N. pose proof two_high as T. pose proof high_pos as T2. pose proof low_high as T3.
  set (f := (v mod 2 ^ m)%N) in *. clearbody x f. clear v.
  generalize dependent (2 ^ m)%N. generalize dependent (2 ^ e)%N. intros pe Pe F L2 T pm Pm L1.
  generalize dependent (low_exp e m). generalize dependent (high_exp e). intros he T T2 le T3. destruct (N.eqb_spec x 0) as [->|Hx].
  - rewrite N.max_l by lia. repeat split; lia.
  - rewrite N.max_r by lia. repeat split; lia.
Qed.
Lemma fl_finite_format v : is_finite e m v -> generic_format radix2 fexp (number_of e m v).
Proof.
  intros F. destruct (finite_range v F) as (L & S & _). rewrite number_F2R. apply generic_format_FLT. eexists; [reflexivity| |exact S]. cbn [Fnum].
  unfold signed. rewrite abs_cond_Zopp. rewrite Z.abs_eq by lia. change (Zpower radix2 prec) with (2 ^ prec)%Z. unfold prec. replace (Z.of_N m + 1)%Z with (Z.of_N (m + 1)) by lia. rewrite <- pow2_Z. lia.
Qed.
(** what bits stand for *)
Lemma decode s qq r : (r <= 2 ^ (m + 1))%N -> (qq = 0 \/ 2 ^ m <= r)%N -> (qq * 2 ^ m + r < (2 ^ e - 1) * 2 ^ m)%N ->
  let v := fl_pack e m s (qq * 2 ^ m + r) in
  (v < 2 ^ (1 + e + m))%N /\ is_finite e m v /\ fl_sign e m v = s /\ number_of e m v = F2R (Float radix2 (signed s r) (low_exp e m + Z.of_N qq)).
Proof.
  intros Hr Hq Hb v. assert (K : exists x y, (qq * 2 ^ m + r = x * 2 ^ m + y)%N /\ (x < 2 ^ e - 1)%N /\ (y < 2 ^ m)%N /\
    F2R (Float radix2 (Z.of_N (if (x =? 0)%N then y else 2 ^ m + y)) (low_exp e m + Z.of_N (N.max 1 x) - 1)) = F2R (Float radix2 (Z.of_N r) (low_exp e m + Z.of_N qq))).
  { pose proof (pow2_pos m) as Pm. rewrite N.pow_add_r in Hr. change (2 ^ 1)%N with 2%N in Hr.
    destruct (N.lt_ge_cases r (2 ^ m)) as [C|C].
    - assert (qq = 0)%N as -> by (destruct Hq; lia). exists 0%N, r. split; [reflexivity|]. split; [|split; [exact C|]].
      + assert (0 < 2 ^ e - 1)%N by (assert (2 ^ 2 <= 2 ^ e)%N by (apply N.pow_le_mono_r; lia); change (2 ^ 2)%N with 4%N in *; lia). lia.
      + cbn [N.eqb]. f_equal. f_equal. cbn. lia.
    - destruct (N.eq_dec r (2 ^ m * 2)) as [->|C2].
      + exists (qq + 2)%N, 0%N. split; [lia|]. split; [|split; [lia|]].
        * generalize dependent (2 ^ m)%N. generalize (2 ^ e - 1)%N. intros. nia.
        * replace (qq + 2 =? 0)%N with false by (symmetry; apply N.eqb_neq; lia). rewrite N.max_r, N.add_0_r by lia. unfold F2R. cbn [Fnum Fexp].
          rewrite N2Z.inj_mul, mult_IZR. replace (low_exp e m + Z.of_N (qq + 2) - 1)%Z with (1 + (low_exp e m + Z.of_N qq))%Z by lia. rewrite bpow_plus. change (bpow radix2 1) with 2%R. change (IZR (Z.of_N 2)) with 2%R. ring.
      + exists (qq + 1)%N, (r - 2 ^ m)%N. split; [lia|]. split; [|split; [lia|]].
        * generalize dependent (2 ^ m)%N. generalize (2 ^ e - 1)%N. intros. nia.
        * replace (qq + 1 =? 0)%N with false by (symmetry; apply N.eqb_neq; lia). rewrite N.max_r by lia. f_equal. f_equal; lia. }
  destruct K as (x & y & E & Hx & Hy & V). unfold v. rewrite E. assert (Hx' : (x < 2 ^ e)%N) by lia. pose proof (body_lt e m x y Hx' Hy) as BL.
  split; [apply pack_lt, BL|]. split; [|split; [apply pack_sign, BL|]].
  - apply finite_iff. unfold fl_finite. rewrite pack_exp by assumption. apply negb_true_iff, N.eqb_neq. lia.
  - rewrite number_F2R. unfold signed. rewrite !F2R_cond_Zopp, pack_sign by exact BL. f_equal. rewrite <- V. unfold fl_sig, fl_scale. rewrite pack_exp, pack_man, fl_min_low by assumption. reflexivity.
Qed.
Lemma mag_sig sig ex : sig <> 0%N -> mag radix2 (F2R (Float radix2 (Z.of_N sig) ex)) = (Z.of_N (N.log2 sig) + 1 + ex)%Z :> Z.
Proof.
  intros Hs. apply mag_unique_pos. pose proof (N.log2_spec sig ltac:(lia)) as [L1 L2]. unfold F2R. cbn [Fnum Fexp].
  replace (Z.of_N (N.log2 sig) + 1 + ex - 1)%Z with (Z.of_N (N.log2 sig) + ex)%Z by lia. rewrite <- N.add_1_r in L2.
  replace (Z.of_N (N.log2 sig) + 1 + ex)%Z with (Z.of_N (N.log2 sig + 1) + ex)%Z by lia. rewrite !bpow_plus, <- !pow2_R.
  pose proof (bpow_gt_0 radix2 ex) as B. split; [apply Rmult_le_compat_r; [lra|apply IZR_le; lia]|apply Rmult_lt_compat_r; [exact B|apply IZR_lt; lia]].
Qed.
(** the significand and exponent [fl_round] computes *)
Definition out_exp (sig : N) (ex : Z) : Z := Z.max (ex + Z.of_N (N.log2 sig) - Z.of_N m) (low_exp e m).
Definition out_sig (sig : N) (ex : Z) : N :=
  let q := out_exp sig ex in if (q <=? ex)%Z then (sig * 2 ^ Z.to_N (ex - q))%N else round_shift sig (Z.to_N (q - ex)).
Lemma round_value sig ex : sig <> 0%N -> rnd (F2R (Float radix2 (Z.of_N sig) ex)) = F2R (Float radix2 (Z.of_N (out_sig sig ex)) (out_exp sig ex)).
Proof.
  intros Hs. assert (C : cexp radix2 fexp (F2R (Float radix2 (Z.of_N sig) ex)) = out_exp sig ex).
  { unfold cexp, fexp, FLT_exp. rewrite mag_sig by exact Hs. unfold out_exp, prec. lia. }
  unfold rnd, round. rewrite C. f_equal. f_equal. unfold scaled_mantissa. rewrite C. unfold F2R. cbn [Fnum Fexp]. rewrite Rmult_assoc, <- bpow_plus. unfold out_sig.
  destruct (Z.leb_spec (out_exp sig ex) ex) as [Q|Q].
  - replace (ex + - out_exp sig ex)%Z with (Z.of_N (Z.to_N (ex - out_exp sig ex))) by lia. rewrite <- pow2_R, <- mult_IZR, <- N2Z.inj_mul. apply Zrnd_IZR. apply valid_rnd_N.
  - rewrite round_shift_nearest. f_equal. f_equal. f_equal. lia.
Qed.
Lemma out_range sig ex : sig <> 0%N -> (out_sig sig ex <= 2 ^ (m + 1))%N /\ (out_exp sig ex = low_exp e m \/ 2 ^ m <= out_sig sig ex)%N /\ (low_exp e m <= out_exp sig ex)%Z.
Proof.
  intros Hs. pose proof (N.log2_spec sig ltac:(lia)) as [L1 L2]. set (L := N.log2 sig) in *. assert (Hq : (low_exp e m <= out_exp sig ex)%Z) by (unfold out_exp; lia).
  assert (Hq2 : (ex + Z.of_N L - out_exp sig ex <= Z.of_N m)%Z) by (unfold out_exp; fold L; lia).
  assert (Hq3 : out_exp sig ex = low_exp e m \/ (ex + Z.of_N L - out_exp sig ex = Z.of_N m)%Z) by (unfold out_exp; fold L; lia).
  unfold out_sig. set (q := out_exp sig ex) in *. clearbody q L. rewrite <- N.add_1_r in L2. destruct (Z.leb_spec q ex) as [Q|Q].
  - set (k := Z.to_N (ex - q)). assert (Hk : (L + k <= m)%N) by lia. pose proof (pow2_pos k) as Pk. split; [|split; [|exact Hq]].
    + apply N.lt_le_incl. apply N.lt_le_trans with (2 ^ (L + 1) * 2 ^ k)%N; [nia|]. rewrite <- N.pow_add_r. apply N.pow_le_mono_r; lia.
    + destruct Hq3 as [Hq3|Hq3]; [left; exact Hq3|right]. apply N.le_trans with (2 ^ L * 2 ^ k)%N; [|nia]. rewrite <- N.pow_add_r. apply N.pow_le_mono_r; lia.
  - set (k := Z.to_N (q - ex)). pose proof (pow2_pos k) as Pk.
    assert (RS : (sig / 2 ^ k <= round_shift sig k <= sig / 2 ^ k + 1)%N) by (unfold round_shift; cbv zeta; generalize (sig / 2 ^ k)%N; intros w; destruct (_ ?= _)%N, (N.even w); lia).
    split; [|split; [|exact Hq]].
    + assert (sig / 2 ^ k < 2 ^ (m + 1))%N; [|lia]. apply N.div_lt_upper_bound; [lia|]. apply N.lt_le_trans with (2 ^ (L + 1))%N; [exact L2|]. rewrite <- N.pow_add_r. apply N.pow_le_mono_r; lia.
    + destruct Hq3 as [Hq3|Hq3]; [left; exact Hq3|right]. assert (2 ^ m <= sig / 2 ^ k)%N; [|lia]. apply N.div_le_lower_bound; [lia|]. rewrite <- N.pow_add_r.
      apply N.le_trans with (2 ^ L)%N; [apply N.pow_le_mono_r; lia|exact L1].
Qed.
Lemma fl_inf_infinity s : fl_inf e m s = infinity e m s. Proof. reflexivity. Qed.
(** [fl_round] is rounding; infinity if the rounded value is too large *)
Lemma round_bits sig ex : sig <> 0%N ->
  (Z.to_N (out_exp sig ex - low_exp e m) * 2 ^ m + out_sig sig ex <? (2 ^ e - 1) * 2 ^ m)%N = Rlt_bool (F2R (Float radix2 (Z.of_N (out_sig sig ex)) (out_exp sig ex))) (bpow radix2 (high_exp e)).
Proof.
  intros Hs. destruct (out_range sig ex Hs) as (H1 & H2 & H3). set (r := out_sig sig ex) in *. set (q := out_exp sig ex) in *. clearbody r q.
  pose proof two_high as T. pose proof high_pos as T2. pose proof low_high as T3. pose proof (pow2_pos m) as Pm. rewrite N.pow_add_r in H1. change (2 ^ 1)%N with 2%N in H1.
  unfold F2R. cbn [Fnum Fexp]. set (k := Z.to_N (q - low_exp e m)). assert (Eq : q = (low_exp e m + Z.of_N k)%Z) by lia. clearbody k. subst q.
  assert (T' : (Z.of_N (2 ^ e) = 4 + (high_exp e - 1 - Z.of_N m - low_exp e m - 1))%Z) by lia.
  destruct (Z.lt_trichotomy (low_exp e m + Z.of_N k) (high_exp e - 1 - Z.of_N m)) as [C|[C|C]].
  - rewrite Rlt_bool_true.
    + apply N.ltb_lt. assert (Hk : (k + 3 <= 2 ^ e - 1)%N) by lia. apply (N.mul_le_mono_r _ _ (2 ^ m)) in Hk. lia.
    + apply Rle_lt_trans with (IZR (Z.of_N (2 ^ (m + 1))) * bpow radix2 (low_exp e m + Z.of_N k))%R.
      { apply Rmult_le_compat_r; [apply bpow_ge_0|]. apply IZR_le. rewrite N.pow_add_r. change (2 ^ 1)%N with 2%N. lia. }
      rewrite pow2_R, <- bpow_plus. apply bpow_lt. lia.
  - assert (Ek : (k + 3 = 2 ^ e)%N) by lia. rewrite C. destruct (N.eq_dec r (2 ^ m * 2)) as [->|Hne].
    + rewrite Rlt_bool_false.
      * apply N.ltb_ge. replace (2 ^ e - 1)%N with (k + 2)%N by lia. lia.
      * rewrite N2Z.inj_mul, mult_IZR, pow2_R. change (IZR (Z.of_N 2)) with (bpow radix2 1). rewrite <- !bpow_plus. apply bpow_le. lia.
    + rewrite Rlt_bool_true.
      * apply N.ltb_lt. replace (2 ^ e - 1)%N with (k + 2)%N by lia. lia.
      * apply Rlt_le_trans with (IZR (Z.of_N (2 ^ m * 2)) * bpow radix2 (high_exp e - 1 - Z.of_N m))%R; [apply Rmult_lt_compat_r; [apply bpow_gt_0|apply IZR_lt; lia]|].
        rewrite N2Z.inj_mul, mult_IZR, pow2_R. change (IZR (Z.of_N 2)) with (bpow radix2 1). rewrite <- !bpow_plus. apply bpow_le. lia.
  - destruct H2 as [H2|H2]; [lia|]. rewrite Rlt_bool_false.
    + apply N.ltb_ge. assert (Hk : (2 ^ e - 1 <= k + 1)%N) by lia. apply (N.mul_le_mono_r _ _ (2 ^ m)) in Hk. lia.
    + apply Rle_trans with (IZR (Z.of_N (2 ^ m)) * bpow radix2 (low_exp e m + Z.of_N k))%R; [|apply Rmult_le_compat_r; [apply bpow_ge_0|apply IZR_le; lia]].
      rewrite pow2_R, <- bpow_plus. apply bpow_le. lia.
Qed.
Lemma fl_round_spec s sig ex : let x := F2R (Float radix2 (Z.of_N sig) ex) in let v := fl_round e m s sig ex in
  (v < 2 ^ (1 + e + m))%N /\
  ((rnd x < bpow radix2 (high_exp e))%R -> is_finite e m v /\ fl_sign e m v = s /\ number_of e m v = cond_Ropp s (rnd x)) /\
  ((bpow radix2 (high_exp e) <= rnd x)%R -> v = infinity e m s).
Proof.
  intros x v. unfold v, fl_round. destruct (N.eqb_spec sig 0) as [E|E].
  - subst sig. assert (X0 : rnd x = 0%R) by (unfold x; rewrite F2R_0; apply round_0; apply valid_rnd_N). rewrite X0.
    destruct (decode s 0 0) as (D1 & D2 & D3 & D4); [lia|lia| |].
    { pose proof (pow2_pos m). assert (2 ^ 2 <= 2 ^ e)%N by (apply N.pow_le_mono_r; lia). change (2 ^ 2)%N with 4%N in *. generalize dependent (2 ^ m)%N. generalize dependent (2 ^ e)%N. intros. nia. }
    change (0 * 2 ^ m + 0)%N with 0%N in *. split; [exact D1|]. split; [|intros H; pose proof (bpow_gt_0 radix2 (high_exp e)); lra]. intros _. split; [exact D2|]. split; [exact D3|].
    rewrite D4. unfold signed. rewrite F2R_cond_Zopp, F2R_0. reflexivity.
  - pose proof (round_value sig ex E) as RV. fold x in RV. pose proof (round_bits sig ex E) as RB. destruct (out_range sig ex E) as (H1 & H2 & H3). rewrite fl_min_low.
    change (if (Z.max (ex + Z.of_N (N.log2 sig) - Z.of_N m) (low_exp e m) <=? ex)%Z then _ else _) with (out_sig sig ex).
    change (Z.max (ex + Z.of_N (N.log2 sig) - Z.of_N m) (low_exp e m)) with (out_exp sig ex). cbv zeta. rewrite RB, <- RV. destruct (Rlt_bool_spec (rnd x) (bpow radix2 (high_exp e))) as [C|C].
    + assert (B : (Z.to_N (out_exp sig ex - low_exp e m) * 2 ^ m + out_sig sig ex < (2 ^ e - 1) * 2 ^ m)%N) by (apply N.ltb_lt; rewrite RB, <- RV; apply Rlt_bool_true, C).
      destruct (decode s (Z.to_N (out_exp sig ex - low_exp e m)) (out_sig sig ex) H1) as (D1 & D2 & D3 & D4); [destruct H2; [left; lia|right; assumption]|exact B|].
      split; [exact D1|]. split; [|intros H; lra]. intros _. split; [exact D2|]. split; [exact D3|]. rewrite D4, RV. unfold signed. rewrite F2R_cond_Zopp. f_equal. f_equal. f_equal. lia.
    + split; [|split; [intros H; lra|reflexivity]]. unfold fl_inf. apply pack_lt. pose proof (pow2_pos m). pose proof (pow2_pos e). rewrite N.pow_add_r. nia.
Qed.
End fmt.
