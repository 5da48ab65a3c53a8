(** C73: numbers in JSON are read as the nearest number of the type. *)
From Coq Require Import NArith ZArith Reals Bool List Lia Lra.
From stdpp Require Import base list.
From Flocq Require Import Core.Core.
From Verif.Model Require Import Types Json JsonCodec.
From Verif.Spec Require Import BinarySpec JsonSpec NumberSpec.
From Verif.Proof Require Import JsonNum RoundP RoundP2.

Lemma signed_int z : signed (z <? 0)%Z (Z.to_N (Z.abs z)) = z.
Proof. unfold signed. destruct (Z.ltb_spec z 0); cbn [cond_Zopp]; lia. Qed.
Lemma int_nearest e m z : (2 <= e)%N -> (1 <= m)%N -> nearest e m (IZR z) (fl_round e m (z <? 0)%Z (Z.to_N (Z.abs z)) 0).
Proof.
  intros He Hm. pose proof (fl_round_nearest e m He Hm (z <? 0)%Z (Z.to_N (Z.abs z)) 0) as H. rewrite signed_int in H.
  replace (F2R (Float radix2 z 0)) with (IZR z) in H; [exact H|]. unfold F2R. cbn [Fnum Fexp]. cbn [bpow]. ring.
Qed.

(** ** C73: a member of type float *)
Theorem C73_float_member j x : json_number j x -> exists r, jc_from jc_f32 j = Ok r /\ nearest 8 23 x r.
Proof.
  intros [z|v [Hv F]]; cbn [jc_from jc_f32 get_float].
  - eexists. split; [reflexivity|]. apply int_nearest; lia.
  - eexists. split; [reflexivity|]. unfold double_to_float, fl_convert. rewrite (proj2 (finite_iff 11 52 v)) by exact F.
    rewrite (number_F2R 11 52) by lia. apply fl_round_nearest; lia.
Qed.
(** ** C73: a member of type double: a double is read as it is, an integer as the nearest double *)
Theorem C73_double_member j x : json_number j x -> exists r, jc_from jc_f64 j = Ok r /\ nearest 11 52 x r.
Proof.
  intros [z|v [Hv F]]; cbn [jc_from jc_f64 get_double].
  - eexists. split; [reflexivity|]. apply int_nearest; lia.
  - eexists. split; [reflexivity|]. split; [exact Hv|]. split.
    + intros _. split; [exact F|]. intros w Hw Fw. rewrite Rminus_diag_eq, Rabs_R0 by reflexivity. split; [apply Rabs_pos|]. intros E Hne. exfalso. apply Hne.
      symmetry in E. destruct (Req_dec (number_of 11 52 w - number_of 11 52 v) 0) as [D|D]; [lra|]. apply Rabs_no_R0 in D. contradiction.
    + intros O. exfalso. pose proof (small_iff 11 52 ltac:(lia) ltac:(lia) (number_of 11 52 v)) as [_ S]. refine (Rlt_not_le _ _ (S _) O). unfold RoundP.rnd. rewrite round_generic by (try apply valid_rnd_N; apply fl_finite_format; lia || exact F).
      destruct (finite_range 11 52 ltac:(lia) ltac:(lia) v F) as (A & _ & B & _). rewrite number_F2R by lia. unfold signed. rewrite F2R_cond_Zopp, abs_cond_Ropp, Rabs_right by (apply Rle_ge, F2R_ge_0; cbn; lia).
      unfold F2R, top. cbn [Fnum Fexp]. apply Rlt_le_trans with (IZR (Z.of_N (2 ^ (52 + 1))) * bpow radix2 (fl_scale 11 52 v))%R.
      { apply Rmult_lt_compat_r; [apply bpow_gt_0|]. apply IZR_lt. lia. }
      rewrite pow2_R, <- bpow_plus. apply bpow_le. lia.
Qed.
Theorem C73_double_exact v : jc_from jc_f64 (JFloat v) = Ok v.
Proof. reflexivity. Qed.

(** a float is written as the double with the same value *)
Theorem C73_float_written v : finite32 v -> exists d, jc_to jc_f32 v = JFloat d /\ finite64 d /\ number_of 11 52 d = number_of 8 23 v.
Proof.
  intros [Hv F]. exists (float_to_double v). split; [reflexivity|]. apply finite_iff in F. rewrite !number_F2R by lia.
  destruct (N.eq_dec (fl_sig 8 23 v) 0) as [Z|Z].
  - unfold float_to_double, fl_convert. rewrite F, Z. destruct (fl_round_spec 11 52 ltac:(lia) ltac:(lia) (fl_sign 8 23 v) 0 (fl_scale 8 23 v)) as (A & B & _).
    destruct B as (B1 & B2 & B3); [rewrite F2R_0; unfold RoundP.rnd; rewrite round_0 by apply valid_rnd_N; apply bpow_gt_0|].
    split; [split; [exact A|exact B1]|]. rewrite <- number_F2R by lia. rewrite B3, F2R_0. unfold RoundP.rnd. rewrite round_0 by apply valid_rnd_N. unfold signed. rewrite F2R_cond_Zopp. rewrite F2R_0. reflexivity.
  - destruct (widen_facts v Hv F Z) as (L & W1 & W2 & W3 & W4 & W5). split; [split; [exact W1|apply finite_iff; exact W2]|].
    rewrite W3, W4, W5. unfold signed. rewrite !F2R_cond_Zopp. f_equal. unfold F2R. cbn [Fnum Fexp]. set (k := (52 - N.log2 (fl_sig 8 23 v))%N).
    rewrite N2Z.inj_mul, mult_IZR, pow2_R, Rmult_assoc, <- bpow_plus. f_equal. f_equal. lia.
Qed.

(** ** C73: a member of an unsigned integer type: integers modulo 2^bits, other numbers truncated;
    a number out of range is undefined behaviour *)
Lemma trunc_value v : double_trunc v = Ztrunc (number_of 11 52 v).
Proof.
  rewrite number_F2R by lia. unfold signed. rewrite F2R_cond_Zopp. unfold double_trunc. set (y := F2R (Float radix2 (Z.of_N (fl_sig 11 52 v)) (fl_scale 11 52 v))).
  assert (Y : (0 <= y)%R) by (apply F2R_ge_0; cbn; lia).
  assert (E : Zfloor y = (if fl_scale 11 52 v <? 0 then Z.of_N (fl_sig 11 52 v) / 2 ^ (- fl_scale 11 52 v) else Z.of_N (fl_sig 11 52 v) * 2 ^ fl_scale 11 52 v)%Z).
  { unfold y, F2R. cbn [Fnum Fexp]. destruct (Z.ltb_spec (fl_scale 11 52 v) 0) as [C|C].
    - rewrite <- Zfloor_div by (apply Z.pow_nonzero; lia). f_equal. unfold Rdiv. f_equal. change 2%Z with (radix_val radix2). rewrite IZR_Zpower by lia. rewrite <- bpow_opp. f_equal. lia.
    - change 2%Z with (radix_val radix2). rewrite <- IZR_Zpower by lia. rewrite <- mult_IZR. apply Zfloor_IZR. }
  rewrite <- E. destruct (fl_sign 11 52 v); cbn [cond_Ropp]; [rewrite Ztrunc_opp|]; rewrite Ztrunc_floor by exact Y; reflexivity.
Qed.
Theorem C73_unsigned_member bits :
  (forall z, jc_from (jc_unsigned bits) (JInt z) = Ok (Z.to_N (z mod 2 ^ Z.of_N bits))) /\
  (forall n, (n < 2 ^ bits)%N -> jc_from (jc_unsigned bits) (JInt (Z.of_N n)) = Ok n) /\
  (forall v, finite64 v -> (-1 < number_of 11 52 v < IZR (2 ^ Z.of_N bits))%R -> jc_from (jc_unsigned bits) (JFloat v) = Ok (Z.to_N (Ztrunc (number_of 11 52 v)))) /\
  (forall v, finite64 v -> (number_of 11 52 v <= -1 \/ IZR (2 ^ Z.of_N bits) <= number_of 11 52 v)%R -> jc_from (jc_unsigned bits) (JFloat v) = UB).
Proof.
  cbn [jc_from jc_unsigned get_unsigned]. split; [reflexivity|]. split; [|split].
  - intros n H. f_equal. rewrite Z.mod_small; [lia|]. rewrite <- N2Z.inj_pow with (m := 2%N) || rewrite <- pow2_Z. lia.
  - intros v _ [H1 H2]. cbv zeta. rewrite trunc_value. set (x := number_of 11 52 v) in *.
    assert (A : (0 <= Ztrunc x)%Z).
    { destruct (Rle_or_lt 0 x) as [C|C]; [rewrite Ztrunc_floor by exact C; apply Zfloor_lub; exact C|]. rewrite Ztrunc_ceil by lra. assert (-1 < Zceil x)%Z; [|lia]. apply lt_IZR. pose proof (Zceil_ub x). lra. }
    assert (B : (Ztrunc x < 2 ^ Z.of_N bits)%Z).
    { destruct (Rle_or_lt 0 x) as [C|C]; [rewrite Ztrunc_floor by exact C; apply lt_IZR; pose proof (Zfloor_lb x); lra|]. rewrite Ztrunc_ceil by lra. assert (Zceil x <= 0)%Z by (apply Zceil_glb; lra). assert (0 < 2 ^ Z.of_N bits)%Z by (apply Z.pow_pos_nonneg; lia). lia. }
    rewrite (proj2 (Z.leb_le _ _) A), (proj2 (Z.ltb_lt _ _) B). reflexivity.
  - intros v _ H. cbv zeta. rewrite trunc_value. set (x := number_of 11 52 v) in *. destruct H as [H|H].
    + assert (A : (Ztrunc x <= -1)%Z) by (rewrite Ztrunc_ceil by lra; apply Zceil_glb; exact H). rewrite (proj2 (Z.leb_gt _ _)) by lia. reflexivity.
    + assert (P : (0 < 2 ^ Z.of_N bits)%Z) by (apply Z.pow_pos_nonneg; lia). assert (0 <= x)%R by (apply IZR_lt in P; lra).
      assert (A : (2 ^ Z.of_N bits <= Ztrunc x)%Z) by (rewrite Ztrunc_floor by assumption; apply Zfloor_lub; exact H). rewrite (proj2 (Z.ltb_ge _ _)) by exact A. rewrite andb_false_r. reflexivity.
Qed.
(** ** C73: a member of type int: integers modulo 2^32, other numbers truncated *)
Theorem C73_int_member :
  (forall z, exists r, jc_from jc_i32 (JInt z) = Ok r /\ (- 2 ^ 31 <= r < 2 ^ 31 /\ exists k, z = r + k * 2 ^ 32)%Z) /\
  (forall z, (- 2 ^ 31 <= z < 2 ^ 31)%Z -> jc_from jc_i32 (JInt z) = Ok z) /\
  (forall v, finite64 v -> (- IZR (2 ^ 31) - 1 < number_of 11 52 v < IZR (2 ^ 31))%R -> jc_from jc_i32 (JFloat v) = Ok (Ztrunc (number_of 11 52 v))) /\
  (forall v, finite64 v -> (number_of 11 52 v <= - IZR (2 ^ 31) - 1 \/ IZR (2 ^ 31) <= number_of 11 52 v)%R -> jc_from jc_i32 (JFloat v) = UB).
Proof.
  cbn [jc_from jc_i32 get_int32]. split; [|split; [|split]].
  - intros z. eexists. split; [reflexivity|]. unfold wrap_signed. change (2 ^ (Z.of_N 32 - 1))%Z with (2 ^ 31)%Z. change (2 ^ Z.of_N 32)%Z with (2 ^ 32)%Z.
    pose proof (Z.mod_pos_bound (z + 2 ^ 31) (2 ^ 32) ltac:(lia)). split; [lia|]. exists ((z + 2 ^ 31) / 2 ^ 32)%Z. pose proof (Z.div_mod (z + 2 ^ 31) (2 ^ 32) ltac:(lia)). lia.
  - intros z H. f_equal. unfold wrap_signed. change (2 ^ (Z.of_N 32 - 1))%Z with (2 ^ 31)%Z. change (2 ^ Z.of_N 32)%Z with (2 ^ 32)%Z. rewrite Z.mod_small by lia. lia.
  - intros v _ [H1 H2]. cbv zeta. rewrite trunc_value. set (x := number_of 11 52 v) in *.
    assert (A : (- 2 ^ 31 <= Ztrunc x)%Z).
    { destruct (Rle_or_lt 0 x) as [C|C]; [rewrite Ztrunc_floor by exact C; assert (0 <= Zfloor x)%Z by (apply Zfloor_lub; exact C); lia|]. rewrite Ztrunc_ceil by lra. assert (- 2 ^ 31 - 1 < Zceil x)%Z; [|lia]. apply lt_IZR. rewrite minus_IZR, opp_IZR. pose proof (Zceil_ub x). lra. }
    assert (B : (Ztrunc x < 2 ^ 31)%Z).
    { destruct (Rle_or_lt 0 x) as [C|C]; [rewrite Ztrunc_floor by exact C; apply lt_IZR; pose proof (Zfloor_lb x); lra|]. rewrite Ztrunc_ceil by lra. assert (Zceil x <= 0)%Z by (apply Zceil_glb; lra). lia. }
    rewrite (proj2 (Z.leb_le _ _) A), (proj2 (Z.ltb_lt _ _) B). reflexivity.
  - intros v _ H. cbv zeta. rewrite trunc_value. set (x := number_of 11 52 v) in *. assert (P : (0 < IZR (2 ^ 31))%R) by (apply IZR_lt; lia). destruct H as [H|H].
    + assert (A : (Ztrunc x <= - 2 ^ 31 - 1)%Z) by (rewrite Ztrunc_ceil by lra; apply Zceil_glb; rewrite minus_IZR, opp_IZR; exact H). rewrite (proj2 (Z.leb_gt _ _)) by lia. reflexivity.
    + assert (A : (2 ^ 31 <= Ztrunc x)%Z) by (rewrite Ztrunc_floor by lra; apply Zfloor_lub; exact H). rewrite (proj2 (Z.ltb_ge _ _)) by exact A. rewrite andb_false_r. reflexivity.
Qed.

(** ** examples: 16777217 lies between two floats and goes to the even one, 2^128 is infinite, the
    double 0.1 is rounded up, -0.75 is no negative index, -1 is the largest id *)
Theorem C73_ex :
  jc_from jc_f32 (JInt 16777217) = Ok 0x4B800000%N /\ number_of 8 23 0x4B800000 = 16777216%R /\
  jc_from jc_f32 (JInt 16777219) = Ok 0x4B800002%N /\
  jc_from jc_f32 (JInt (2 ^ 128)) = Ok (infinity 8 23 false) /\
  jc_from jc_f32 (JFloat 0x3FB999999999999A) = Ok 0x3DCCCCCD%N /\ finite64 0x3FB999999999999A /\
  jc_from (jc_unsigned 64) (JFloat 0xBFE8000000000000) = Ok 0%N /\ finite64 0xBFE8000000000000 /\ number_of 11 52 0xBFE8000000000000 = (-3/4)%R /\
  jc_from (jc_unsigned 64) (JInt (-1)) = Ok (2 ^ 64 - 1)%N /\ jc_from (jc_unsigned 64) (JFloat 0xBFF8000000000000) = UB.
Proof.
  split; [vm_compute; reflexivity|]. split.
  { unfold number_of, magnitude. replace (negative 8 23 0x4B800000) with false by (vm_compute; reflexivity). replace ((0x4B800000 / 2 ^ 23) mod 2 ^ 8)%N with 151%N by (vm_compute; reflexivity). replace (0x4B800000 mod 2 ^ 23)%N with 0%N by (vm_compute; reflexivity).
    change (151 =? 0)%N with false. change (low_exp 8 23 + Z.of_N 151 - 1)%Z with 1%Z. change (bpow radix2 1) with 2%R. change (Z.of_N (2 ^ 23 + 0)) with 8388608%Z. lra. }
  split; [vm_compute; reflexivity|]. split; [vm_compute; reflexivity|]. split; [vm_compute; reflexivity|]. split; [split; [vm_compute; reflexivity|vm_compute; discriminate]|].
  split; [vm_compute; reflexivity|]. split; [split; [vm_compute; reflexivity|vm_compute; discriminate]|]. split.
  { unfold number_of, magnitude. replace (negative 11 52 0xBFE8000000000000) with true by (vm_compute; reflexivity). replace ((0xBFE8000000000000 / 2 ^ 52) mod 2 ^ 11)%N with 1022%N by (vm_compute; reflexivity). replace (0xBFE8000000000000 mod 2 ^ 52)%N with 0x8000000000000%N by (vm_compute; reflexivity).
    change (1022 =? 0)%N with false. replace (low_exp 11 52 + Z.of_N 1022 - 1)%Z with (- 52 + - 1)%Z by (vm_compute; reflexivity). rewrite bpow_plus. replace (Z.of_N (2 ^ 52 + 0x8000000000000)) with (2 ^ 52 + 2 ^ 51)%Z by (vm_compute; reflexivity).
    rewrite plus_IZR. change 2%Z with (radix_val radix2). rewrite !IZR_Zpower by lia. rewrite <- Rmult_assoc, Rmult_plus_distr_r, <- !bpow_plus. change (bpow radix2 (52 + -52)) with 1%R. change (bpow radix2 (51 + -52)) with (/ 2)%R. change (bpow radix2 (-1)) with (/ 2)%R. lra. }
  split; vm_compute; reflexivity.
Qed.
