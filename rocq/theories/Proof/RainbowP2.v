(** The hues of ids in binary32, for a power of two of ids per revolution *)
From Coq Require Import ZArith NArith Reals Lra Lia Floats.SpecFloat List Bool QArith Qreals.
From Flocq Require Import Core.Core IEEE754.BinarySingleNaN.
From Verif.Model Require Import Types Mesh Numbers Color.
From Verif.Spec Require Import ColorSpec.
From Verif.Proof Require Import FloatP ColorP RainbowP.
Import ListNotations.
Set Default Proof Using "Type".
Local Open Scope N_scope.

Definition rn (x : N) : R := IZR (Z.of_N x).
Lemma rn_add x y : rn (x + y) = (rn x + rn y)%R.
Proof. unfold rn. now rewrite N2Z.inj_add, plus_IZR. Qed.
Lemma rn_mul x y : rn (x * y) = (rn x * rn y)%R.
Proof. unfold rn. now rewrite N2Z.inj_mul, mult_IZR. Qed.
Lemma rn_pos x : 0 < x -> (0 < rn x)%R.
Proof. intros H. apply (IZR_lt 0). lia. Qed.
Lemma rn_nonneg x : (0 <= rn x)%R.
Proof. apply (IZR_le 0). lia. Qed.
Lemma rn_le x y : x <= y -> (rn x <= rn y)%R.
Proof. intros H. apply IZR_le. lia. Qed.

Lemma fl_dyadic (a j : N) : a < 2 ^ 24 -> j <= 100 -> fl (rn a / rn (2 ^ j)) = (rn a / rn (2 ^ j))%R.
Proof.
  intros Ha Hj. unfold fl. apply round_generic; [apply valid_rnd_N|].
  apply generic_format_FLT. exists (Float radix2 (Z.of_N a) (- Z.of_N j)).
  - unfold F2R. cbn [Fnum Fexp]. rewrite bpow_opp. unfold Rdiv, rn. f_equal. f_equal.
    rewrite N2Z.inj_pow. change (Z.of_N 2) with 2%Z. rewrite <- (IZR_Zpower radix2) by lia. reflexivity.
  - cbn [Fnum]. change (radix2 ^ 24)%Z with (Z.of_N (2 ^ 24)). lia.
  - cbn [Fexp]. lia.
Qed.
Lemma dyadic_bound (a j : N) : a < 2 ^ 24 -> (0 <= rn a / rn (2 ^ j) <= IZR (2 ^ 24))%R.
Proof.
  intros Ha. pose proof (rn_nonneg a). assert (1 <= rn (2 ^ j))%R by (apply (rn_le 1); pose proof (RainbowP.pow_pos j); lia).
  assert (Ha' : (rn a <= IZR (2 ^ 24))%R) by (apply IZR_le; change (2 ^ 24)%Z with (Z.of_N (2 ^ 24)); lia).
  split.
  - apply Rmult_le_pos; [assumption|]. left. apply Rinv_0_lt_compat. lra.
  - apply Rle_trans with (rn a); [|exact Ha']. rewrite <- (Rmult_1_r (rn a)) at 2.
    apply Rmult_le_compat_l; [assumption|]. rewrite <- Rinv_1. apply Rinv_le; lra.
Qed.
(** arithmetic whose exact result is a dyadic fraction is exact *)
Lemma add_dyadic x y a j : fin x -> fin y -> (val x + val y = rn a / rn (2 ^ j))%R -> a < 2 ^ 24 -> j <= 100 ->
  fin (x +f y) /\ val (x +f y) = (rn a / rn (2 ^ j))%R.
Proof.
  intros X Y E Ha Hj. pose proof (dyadic_bound a j Ha). destruct (add_in x y (2 ^ 24)) as (F & V); try assumption; [lia|rewrite E; lra|].
  split; [exact F|]. rewrite V, E. now apply fl_dyadic.
Qed.
Lemma sub_dyadic x y a j : fin x -> fin y -> (val x - val y = rn a / rn (2 ^ j))%R -> a < 2 ^ 24 -> j <= 100 ->
  fin (x -f y) /\ val (x -f y) = (rn a / rn (2 ^ j))%R.
Proof.
  intros X Y E Ha Hj. pose proof (dyadic_bound a j Ha). destruct (sub_in x y (2 ^ 24)) as (F & V); try assumption; [lia|rewrite E; lra|].
  split; [exact F|]. rewrite V, E. now apply fl_dyadic.
Qed.
Lemma mul_dyadic x y a j : fin x -> fin y -> (val x * val y = rn a / rn (2 ^ j))%R -> a < 2 ^ 24 -> j <= 100 ->
  fin (x *f y) /\ val (x *f y) = (rn a / rn (2 ^ j))%R.
Proof.
  intros X Y E Ha Hj. pose proof (dyadic_bound a j Ha). destruct (mul_in x y (2 ^ 24)) as (F & V); try assumption; [lia|rewrite E; lra|].
  split; [exact F|]. rewrite V, E. now apply fl_dyadic.
Qed.
Lemma div_dyadic x y a j : fin x -> fin y -> val y <> 0%R -> (val x / val y = rn a / rn (2 ^ j))%R -> a < 2 ^ 24 -> j <= 100 ->
  fin (a_div binary32 x y) /\ val (a_div binary32 x y) = (rn a / rn (2 ^ j))%R.
Proof.
  intros X Y Y0 E Ha Hj. pose proof (dyadic_bound a j Ha). destruct (div_in x y (2 ^ 24)) as (F & V); try assumption; [lia|rewrite E; lra|].
  split; [exact F|]. rewrite V, E. now apply fl_dyadic.
Qed.

Lemma floor_rn a b : 0 < b -> Zfloor (rn a / rn b) = Z.of_N (a / b).
Proof. intros H. unfold rn. rewrite Zfloor_div by lia. symmetry. apply N2Z.inj_div. Qed.

Lemma fmod_dyadic x id k : fin x -> val x = (rn id / rn (2 ^ k))%R -> id < 2 ^ 24 -> k <= 24 ->
  fin (f32_fmod1 x) /\ val (f32_fmod1 x) = (rn (id mod 2 ^ k) / rn (2 ^ k))%R.
Proof.
  intros F V Hid Hk. unfold f32_fmod1. pose proof (dyadic_bound id k Hid) as B.
  rewrite (trunc_ok x F) by (rewrite V; apply B). rewrite V, floor_rn by apply RainbowP.pow_pos. rewrite N2Z.id.
  assert (P := RainbowP.pow_pos k). assert (PR := rn_pos _ P).
  assert (Q : id / 2 ^ k <= id) by (apply N.div_le_upper_bound; nia).
  destruct (fz_ok (id / 2 ^ k)) as (F2 & V2); [lia|].
  apply sub_dyadic; try assumption.
  - rewrite V, V2. change (IZR (Z.of_N (id / 2 ^ k))) with (rn (id / 2 ^ k)).
    assert (E : id = 2 ^ k * (id / 2 ^ k) + id mod 2 ^ k) by (apply N.div_mod; lia).
    rewrite E at 1. rewrite rn_add, rn_mul. field. lra.
  - assert (id mod 2 ^ k <= id) by (apply N.mod_le; lia). lia.
  - lia.
Qed.

Lemma float_hue k id e : id < 2 ^ k * 2 ^ e -> k + e <= 23 ->
  exists h, exponential_offset binary32 f32_fmod1 id (2 ^ k) = Ok h /\ fin h /\
    val h = (rn (hnum id (2 ^ k)) / (rn (2 ^ k) * rn (2 ^ hexp id (2 ^ k))))%R.
Proof.
  intros Hid Hke. set (n := 2 ^ k). assert (P : 0 < n) by apply RainbowP.pow_pos.
  assert (M : id < 2 ^ 23).
  { eapply N.lt_le_trans; [exact Hid|]. rewrite <- N.pow_add_r. apply N.pow_le_mono_r; lia. }
  assert (P2 : 2 ^ 24 = 2 * 2 ^ 23) by reflexivity. assert (P3 : 2 ^ 64 = 2 ^ 41 * 2 ^ 23) by reflexivity.
  assert (P4 : 1 < 2 ^ 41) by reflexivity.
  assert (Nn : n <= 2 ^ 23) by (apply N.pow_le_mono_r; lia).
  pose proof (hexp_le id n e P Hid) as HE.
  pose proof (hnum_lt id n P) as HL.
  assert (HB : hnum id n < 2 ^ 24).
  { eapply N.lt_le_trans; [exact HL|]. revert HE. generalize (hexp id n) as x. intros x HE. unfold n. rewrite <- N.pow_add_r. apply N.pow_le_mono_r; lia. }
  unfold exponential_offset. assert (N0 : (n =? 0) = false) by (apply N.eqb_neq, N.neq_0_lt_0; exact P). rewrite N0. cbv zeta.
  change (a_of_Z binary32 (Z.of_N id)) with (fz id). change (a_of_Z binary32 (Z.of_N n)) with (fz n).
  rewrite (N.mod_small (id + 1)) by nia.
  destruct (fz_ok id) as (Fi & Vi); [lia|]. destruct (fz_ok n) as (Fn & Vn); [lia|].
  assert (PR := rn_pos _ P).
  destruct (div_dyadic (fz id) (fz n) id k) as (Fd & Vd); try assumption; [rewrite Vn; unfold rn in PR; lra|rewrite Vi, Vn; reflexivity|lia|lia|].
  destruct (fmod_dyadic _ id k Fd Vd) as (Fp & Vp); [lia|lia|]. fold n in Vp.
  eexists. split; [reflexivity|].
  assert (Edm : id = n * (id / n) + id mod n) by (apply N.div_mod; lia).
  assert (Lm : id mod n < n) by (apply N.mod_lt; lia).
  revert HE HL HB. unfold hnum, hexp.
  destruct (N.eqb_spec (id / n) 0) as [K0|K0]; intros HE HL HB.
  - assert (L : (n <? id + 1) = false).
    { apply N.ltb_ge. rewrite K0 in Edm. revert Edm Lm. generalize (id mod n). clear. intros. lia. }
    rewrite L. destruct fz0 as (F0 & V0).
    destruct (add_dyadic _ _ (id mod n) k Fp F0) as (F & V).
    { rewrite Vp, V0. unfold n. ring. }
    { revert Lm Nn P2. clear. generalize (id mod n) as m, n. intros. lia. }
    { lia. }
    split; [exact F|]. etransitivity; [exact V|]. unfold n. change (2 ^ 0) with 1. rewrite N.mul_1_r, N.add_0_r.
    change (rn 1) with 1%R. now rewrite Rmult_1_r.
  - assert (L : (n <? id + 1) = true).
    { apply N.ltb_lt. clear - P Edm K0. revert Edm K0. generalize (id / n) as q, (id mod n) as m. intros. nia. }
    rewrite L. set (l := N.log2 (id / n)) in *. set (S := 2 ^ l) in *.
    destruct (log_lt (id / n)) as (A & B); [now apply N.neq_0_lt_0|]. fold l S in A, B.
    assert (Pl : 2 ^ (l + 1) = 2 * S) by (unfold S; rewrite N.pow_add_r; change (2 ^ 1) with 2; lia).
    assert (Pe : n * 2 * S = 2 ^ (k + (l + 1))) by (rewrite N.pow_add_r, Pl; unfold n; lia).
    assert (Le : k + (l + 1) <= 23) by (revert HE; generalize (l + 1); clear - Hke; intros; lia).
    assert (B24 : 2 ^ (k + (l + 1)) <= 2 ^ 23) by (apply N.pow_le_mono_r; [lia|exact Le]).
    rewrite (N.mod_small (n * 2 * S)) by (rewrite Pe; nia). rewrite Pe.
    change (a_of_Z binary32 (Z.of_N 2)) with (fz 2). change (a_of_Z binary32 (Z.of_N 1)) with (fz 1).
    change (a_of_Z binary32 (Z.of_N (id / n - S))) with (fz (id / n - S)).
    change (a_of_Z binary32 (Z.of_N (2 ^ (k + (l + 1))))) with (fz (2 ^ (k + (l + 1)))).
    set (s := id / n - S) in *.
    assert (Ls : 2 * s + 1 < 2 ^ 24).
    { assert (s < S) by (unfold s; revert A B; generalize (id / n); clear; intros; lia).
      assert (2 * S <= 2 ^ (k + (l + 1))) by (rewrite <- Pe; nia). lia. }
    destruct (fz_ok 2) as (F2 & V2); [lia|]. destruct fz1 as (F1 & V1). destruct (fz_ok s) as (Fs & Vs); [lia|].
    destruct (fz_ok (2 ^ (k + (l + 1)))) as (FD & VD); [lia|].
    assert (PD := rn_pos _ (RainbowP.pow_pos (k + (l + 1)))). fold (rn (2 ^ (k + (l + 1)))) in VD.
    destruct (mul_dyadic (fz 2) (fz s) (2 * s) 0) as (Fm & Vm); try assumption.
    { rewrite V2, Vs. change (2 ^ 0) with 1. change (rn 1) with 1%R. rewrite rn_mul. unfold Rdiv. rewrite Rinv_1. unfold rn. cbn [Z.of_N]. ring. }
    { lia. } { lia. }
    destruct (add_dyadic (fz 2 *f fz s) (fz 1) (2 * s + 1) 0) as (Fa & Va); try assumption.
    { rewrite Vm, V1. change (2 ^ 0) with 1. change (rn 1) with 1%R. rewrite rn_add. change (rn 1) with 1%R. unfold Rdiv. rewrite Rinv_1. ring. }
    { lia. }
    destruct (div_dyadic (fz 1) (fz (2 ^ (k + (l + 1)))) 1 (k + (l + 1))) as (Fq & Vq); try assumption.
    { rewrite VD. lra. } { rewrite V1, VD. reflexivity. } { revert Le. generalize (k + (l + 1)). clear. intros. lia. }
    destruct (mul_dyadic _ _ (2 * s + 1) (k + (l + 1)) Fa Fq) as (Fo & Vo); try assumption.
    { rewrite Va, Vq. change (2 ^ 0) with 1. change (rn 1) with 1%R. field. lra. }
    { revert Le. generalize (k + (l + 1)). clear. intros. lia. }
    destruct (add_dyadic _ _ (id mod n * 2 ^ (l + 1) + (2 * s + 1)) (k + (l + 1)) Fp Fo) as (Fh & Vh).
    { rewrite Vp, Vo, (N.pow_add_r 2 k (l + 1)). fold n. assert (PL := rn_pos _ (RainbowP.pow_pos (l + 1))).
      rewrite (rn_add (id mod n * 2 ^ (l + 1)) (2 * s + 1)), (rn_mul (id mod n)), (rn_mul n). field. lra. }
    { exact HB. } { revert Le. generalize (k + (l + 1)). clear. intros. lia. }
    split; [exact Fh|]. rewrite Vh, (N.pow_add_r 2 k (l + 1)). fold n. rewrite (rn_mul n). reflexivity.
Qed.

(** any number of ids per revolution: the hue is a finite float that is not negative *)
Definition big : R := IZR (2 ^ 70).
Lemma fl_big x : (0 <= x <= big)%R -> (0 <= fl x <= big)%R.
Proof.
  intros H. split.
  - rewrite <- fl_0. now apply fl_le.
  - assert (E : fl big = big).
    { unfold fl. apply round_generic; [apply valid_rnd_N|]. change big with (bpow radix2 70).
      apply generic_format_FLT. exists (Float radix2 1 70); [unfold F2R; cbn [Fnum Fexp]; now rewrite Rmult_1_l|reflexivity|cbn; lia]. }
    rewrite <- E. now apply fl_le.
Qed.
Lemma big_small x : (0 <= x <= big)%R -> small x.
Proof.
  intros H. unfold small. rewrite Rabs_pos_eq by lra. apply Rle_lt_trans with big; [lra|].
  unfold big. change (bpow radix2 128) with (IZR (2 ^ 128)). apply IZR_lt. reflexivity.
Qed.
Lemma of_N_big (x : N) : x < 2 ^ 64 -> fin (fz x) /\ val (fz x) = fl (rn x) /\ (0 <= fl (rn x) <= IZR (2 ^ 64))%R.
Proof.
  intros H. assert (B : (0 <= rn x <= IZR (2 ^ 64))%R).
  { split; [apply rn_nonneg|]. apply IZR_le. change (2 ^ 64)%Z with (Z.of_N (2 ^ 64)). lia. }
  assert (E : fl (IZR (2 ^ 64)) = IZR (2 ^ 64)).
  { unfold fl. apply round_generic; [apply valid_rnd_N|]. change (IZR (2 ^ 64)) with (bpow radix2 64).
    apply generic_format_FLT. exists (Float radix2 1 64); [unfold F2R; cbn [Fnum Fexp]; now rewrite Rmult_1_l|reflexivity|cbn; lia]. }
  assert (B2 : (0 <= fl (rn x) <= IZR (2 ^ 64))%R).
  { split; [rewrite <- fl_0|rewrite <- E]; now apply fl_le. }
  split; [|split; [|exact B2]]; unfold fz; cbn [a_of_Z binary32]; unfold f32_of_Z; rewrite binary_normalize_equiv;
    pose proof (binary_normalize_correct 24 128 eq_refl eq_refl mode_NE (Z.of_N x) 0 false) as K;
    change (SpecFloat.fexp 24 128) with fexp32 in K; cbn [round_mode] in K;
    assert (EE : F2R (Float radix2 (Z.of_N x) 0) = IZR (Z.of_N x)) by (unfold F2R; cbn; lra);
    rewrite EE in K; change (round radix2 fexp32 ZnearestE (IZR (Z.of_N x))) with (fl (rn x)) in K;
    (rewrite Rlt_bool_true in K by (rewrite Rabs_pos_eq by lra; apply Rle_lt_trans with (IZR (2 ^ 64)); [lra|];
       change (bpow radix2 128) with (IZR (2 ^ 128)); apply IZR_lt; reflexivity));
    destruct K as (K1 & K2 & _); [now apply fin_B2SF|now rewrite val_B2SF].
Qed.
Lemma fl_pow2 (e : Z) : (0 <= e <= 100)%Z -> fl (bpow radix2 e) = bpow radix2 e.
Proof.
  intros H. unfold fl. apply round_generic; [apply valid_rnd_N|]. apply generic_format_FLT.
  exists (Float radix2 1 e); [unfold F2R; cbn [Fnum Fexp]; now rewrite Rmult_1_l|reflexivity|cbn; lia].
Qed.
Lemma fl_upto (e : Z) x : (0 <= e <= 100)%Z -> (0 <= x <= bpow radix2 e)%R -> (0 <= fl x <= bpow radix2 e)%R.
Proof. intros He H. split; [rewrite <- fl_0|rewrite <- (fl_pow2 e He)]; now apply fl_le. Qed.
Definition b48 : R := bpow radix2 48.
Lemma b48_val : b48 = IZR (2 ^ 48). Proof. reflexivity. Qed.
Lemma b48_big : (b48 * b48 <= bpow radix2 100)%R.
Proof. unfold b48. rewrite <- bpow_plus. apply bpow_le. lia. Qed.
Lemma b48_1 : (1 <= b48)%R. Proof. apply (bpow_le radix2 0). lia. Qed.
Lemma upto_small x : (0 <= x <= bpow radix2 100)%R -> small x.
Proof. intros H. unfold small. rewrite Rabs_pos_eq by lra. apply Rle_lt_trans with (bpow radix2 100); [lra|]. apply bpow_lt. lia. Qed.

Lemma finite_hue id n : 0 < n -> n < 2 ^ 64 -> id < 2 ^ 47 ->
  exists h, exponential_offset binary32 f32_fmod1 id n = Ok h /\ fin h.
Proof.
  intros P Hn Hid. unfold exponential_offset.
  assert (N0 : (n =? 0) = false) by (apply N.eqb_neq, N.neq_0_lt_0; exact P). rewrite N0. cbv zeta.
  change (a_of_Z binary32 (Z.of_N id)) with (fz id). change (a_of_Z binary32 (Z.of_N n)) with (fz n).
  assert (P64 : 2 ^ 47 < 2 ^ 64) by reflexivity. assert (P48 : 2 ^ 48 = 2 * 2 ^ 47) by reflexivity.
  assert (P49 : 2 ^ 48 < 2 ^ 64) by reflexivity.
  rewrite (N.mod_small (id + 1)) by lia.
  assert (U : forall x, x <= 2 ^ 48 -> (0 <= rn x <= b48)%R).
  { intros x Hx. split; [apply rn_nonneg|]. rewrite b48_val. change (2 ^ 48)%Z with (Z.of_N (2 ^ 48)). now apply rn_le. }
  assert (UF : forall x, (0 <= x <= b48)%R -> (0 <= fl x <= b48)%R) by (intros x Hx; apply (fl_upto 48); [lia|exact Hx]).
  pose proof b48_1 as B1. pose proof b48_big as BB.
  assert (B100 : (b48 <= bpow radix2 100)%R) by (apply bpow_le; lia).
  destruct (of_N_big id) as (Fi & Vi & _); [lia|]. destruct (of_N_big n Hn) as (Fn & Vn & _).
  assert (L1 : (1 <= fl (rn n))%R) by (rewrite <- fl_1; apply fl_le, (rn_le 1); lia).
  assert (Ri := UF _ (U id ltac:(lia))).
  assert (Q0 : (0 <= fl (rn id) / fl (rn n) <= b48)%R).
  { split.
    - apply Rmult_le_pos; [lra|]. left. apply Rinv_0_lt_compat. lra.
    - apply Rle_trans with (fl (rn id) * 1)%R; [|lra]. apply Rmult_le_compat_l; [lra|]. rewrite <- Rinv_1. apply Rinv_le; lra. }
  destruct (div_ok (fz id) (fz n) Fi Fn) as (Fd & Vd).
  { rewrite Vn. lra. } { rewrite Vi, Vn. apply upto_small. pose proof (UF _ Q0). lra. }
  rewrite Vi, Vn in Vd. pose proof (UF _ Q0) as Rx. set (x := a_div binary32 (fz id) (fz n)) in *.
  assert (Pr : fin (f32_fmod1 x) /\ (0 <= val (f32_fmod1 x) <= b48)%R).
  { unfold f32_fmod1. rewrite (trunc_ok x Fd) by (rewrite Vd; lra).
    assert (Fl0 : (0 <= Zfloor (val x))%Z) by (apply Zfloor_lub; rewrite Vd; lra).
    assert (Fl1 : (IZR (Zfloor (val x)) <= val x)%R) by apply Zfloor_lb.
    assert (Fl2 : (Zfloor (val x) <= 2 ^ 48)%Z).
    { apply le_IZR. rewrite <- b48_val. rewrite Vd in *. lra. }
    set (t := Z.to_N (Zfloor (val x))). assert (Et : rn t = IZR (Zfloor (val x))) by (unfold rn, t; now rewrite Z2N.id).
    destruct (of_N_big t) as (Ft & Vt & Rt).
    { unfold t. change (2 ^ 64) with (Z.to_N (2 ^ 64)). apply Z2N.inj_lt; try lia. }
    assert (Lt : (fl (rn t) <= val x)%R) by (rewrite <- (fl_val x Fd); apply fl_le; rewrite Et; exact Fl1).
    assert (Rd : (0 <= val x - val (fz t) <= b48)%R) by (rewrite Vt; rewrite Vd in *; lra).
    destruct (sub_ok x (fz t) Fd Ft) as (Fs & Vs).
    { apply upto_small. pose proof (UF _ Rd). lra. }
    split; [exact Fs|]. rewrite Vs. now apply UF. }
  destruct Pr as (Fp & Rp).
  assert (Of : forall o, fin o -> (0 <= val o <= b48 * b48)%R -> fin (f32_fmod1 x +f o)).
  { intros o Fo Ro. apply add_ok; [assumption|assumption|].
    unfold small.
    assert (S1 : (0 <= val (f32_fmod1 x) + val o <= bpow radix2 97)%R).
    { split; [lra|]. replace (b48 * b48)%R with (bpow radix2 96) in Ro by (unfold b48; now rewrite <- bpow_plus).
      assert (b48 <= bpow radix2 96)%R by (apply bpow_le; lia).
      replace (bpow radix2 97) with (2 * bpow radix2 96)%R by (change 2%R with (bpow radix2 1); now rewrite <- bpow_plus). lra. }
    apply (fl_upto 97) in S1; [|lia]. rewrite Rabs_pos_eq by lra. apply Rle_lt_trans with (bpow radix2 97); [lra|]. apply bpow_lt. lia. }
  assert (Oo : forall o, fin o /\ (0 <= val o <= b48 * b48)%R -> fin (f32_fmod1 x +f o)) by (intros o (A & B); now apply Of).
  eexists. split; [reflexivity|]. apply Oo. clear Of Oo.
  destruct (n <? id + 1) eqn:C.
  2: { destruct fz0 as (F0 & V0). split; [exact F0|]. change (a_of_Z binary32 (Z.of_N 0)) with (fz 0). rewrite V0. nra. }
  apply N.ltb_lt in C.
  assert (Edm : id = n * (id / n) + id mod n) by (apply N.div_mod; lia).
  assert (Lm : id mod n < n) by (apply N.mod_lt; lia).
  assert (K0 : id / n <> 0).
  { intros K. rewrite K in Edm. revert Edm Lm C. generalize (id mod n). clear. intros. lia. }
  destruct (log_lt (id / n)) as (A & B); [now apply N.neq_0_lt_0|]. set (S := 2 ^ N.log2 (id / n)) in *.
  assert (PS : 0 < S) by apply RainbowP.pow_pos.
  assert (D1 : n * 2 * S <= 2 * id).
  { clear - Edm A. revert Edm A. clearbody S. generalize (id / n) as q, (id mod n) as m. intros. nia. }
  assert (Ls : id / n - S <= id).
  { clear - Edm P A. revert Edm A. clearbody S. generalize (id / n) as q, (id mod n) as m. intros. nia. }
  set (s := id / n - S) in *. clearbody s. rewrite (N.mod_small (n * 2 * S)) by lia.
  assert (D0 : 2 <= n * 2 * S) by (clear - P PS; clearbody S; nia).
  set (D := n * 2 * S) in *. clearbody D.
  change (a_of_Z binary32 (Z.of_N 2)) with (fz 2). change (a_of_Z binary32 (Z.of_N 1)) with (fz 1).
  change (a_of_Z binary32 (Z.of_N s)) with (fz s). change (a_of_Z binary32 (Z.of_N D)) with (fz D).
  destruct (of_N_big s) as (Fs & Vs & _); [lia|]. destruct (of_N_big D) as (FD & VD & _); [lia|].
  destruct (fz_ok 2) as (F2 & V2); [lia|]. destruct fz1 as (F1 & V1). change (IZR (Z.of_N 2)) with 2%R in V2.
  assert (E47 : (2 * bpow radix2 47 = bpow radix2 48)%R) by (change 2%R with (bpow radix2 1); now rewrite <- bpow_plus).
  assert (E48 : (2 * bpow radix2 48 = bpow radix2 49)%R) by (change 2%R with (bpow radix2 1); now rewrite <- bpow_plus).
  assert (Rs : (0 <= fl (rn s) <= bpow radix2 47)%R).
  { apply fl_upto; [lia|]. split; [apply rn_nonneg|]. change (bpow radix2 47) with (rn (2 ^ 47)). apply rn_le. lia. }
  assert (RD : (1 <= fl (rn D))%R) by (rewrite <- fl_1; apply fl_le, (rn_le 1); lia).
  change (bpow radix2 48 <= bpow radix2 100)%R in B100.
  assert (R1 : (0 <= val (fz 2) * val (fz s) <= bpow radix2 48)%R) by (rewrite V2, Vs; lra).
  apply (fl_upto 48) in R1; [|lia].
  destruct (mul_ok (fz 2) (fz s) F2 Fs) as (Fm & Vm); [apply upto_small; lra|]. rewrite <- Vm in R1.
  change (1 <= bpow radix2 48)%R in B1.
  assert (R2 : (0 <= val (fz 2 *f fz s) + val (fz 1) <= bpow radix2 49)%R) by (rewrite V1; lra).
  apply (fl_upto 49) in R2; [|lia].
  assert (L49 : (bpow radix2 49 <= bpow radix2 100)%R) by (apply bpow_le; lia).
  destruct (add_ok (fz 2 *f fz s) (fz 1) Fm F1) as (Fa & Va); [apply upto_small; lra|]. rewrite <- Va in R2.
  assert (R3 : (0 <= val (fz 1) / val (fz D) <= bpow radix2 0)%R).
  { rewrite V1, VD. change (bpow radix2 0) with 1%R. split.
    - apply Rmult_le_pos; [lra|]. left. apply Rinv_0_lt_compat. lra.
    - unfold Rdiv. rewrite Rmult_1_l. rewrite <- Rinv_1. apply Rinv_le; lra. }
  apply (fl_upto 0) in R3; [|lia]. change (bpow radix2 0) with 1%R in R3.
  destruct (div_ok (fz 1) (fz D) F1 FD) as (Fq & Vq); [rewrite VD; lra|apply upto_small; lra|]. rewrite <- Vq in R3.
  set (u := fz 2 *f fz s +f fz 1) in *. set (q := a_div binary32 (fz 1) (fz D)) in *.
  assert (R4 : (0 <= val u * val q <= bpow radix2 49)%R) by nra.
  apply (fl_upto 49) in R4; [|lia].
  destruct (mul_ok u q Fa Fq) as (Fo & Vo); [apply upto_small; lra|]. rewrite <- Vo in R4.
  split; [exact Fo|]. split; [apply R4|]. apply Rle_trans with (bpow radix2 49); [apply R4|].
  unfold b48. rewrite <- bpow_plus. apply bpow_le. lia.
Qed.
