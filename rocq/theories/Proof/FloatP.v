(** Correctness of the standard library's executable binary32 operations with
    respect to rounding of real numbers, through Flocq's theorems. *)
From Coq Require Import ZArith NArith Reals Lra Lia Floats.SpecFloat.
From Flocq Require Import Core.Core IEEE754.BinarySingleNaN.
From Verif.Model Require Import Numbers.
Set Default Proof Using "Type".
Local Open Scope R_scope.

#[local] Instance Hprec : Prec_gt_0 24 := eq_refl.
#[local] Instance Hmax : Prec_lt_emax 24 128 := eq_refl.

Definition fexp32 := FLT_exp (3 - 128 - 24) 24.
Definition fl (x : R) : R := round radix2 fexp32 ZnearestE x.
Definition val (x : spec_float) : R := SF2R radix2 x.
(** A finite binary32 value. *)
Definition fin (x : spec_float) : Prop :=
  valid_binary 24 128 x = true /\ is_finite_SF x = true.

#[local] Instance fexp_valid : Valid_exp fexp32.
Proof. apply FLT_exp_valid. reflexivity. Qed.

Lemma round_nearest_even_equiv s m l :
  round_nearest_even m l = choice_mode mode_NE s m l.
Proof.
  case l; [reflexivity|intro c]. case c; [|reflexivity..].
  simpl. unfold Round.cond_incr. now case Z.even.
Qed.
Lemma binary_round_aux_equiv sx mx ex lx :
  SpecFloat.binary_round_aux 24 128 sx mx ex lx
  = binary_round_aux 24 128 mode_NE sx mx ex lx.
Proof.
  unfold SpecFloat.binary_round_aux, binary_round_aux.
  set (mrse' := shr_fexp _ _ _ _ _). case mrse'; intros mrs' e'; simpl.
  now rewrite (round_nearest_even_equiv sx).
Qed.
Lemma binary_round_equiv s m e :
  SpecFloat.binary_round 24 128 s m e = binary_round 24 128 mode_NE s m e.
Proof.
  unfold SpecFloat.binary_round, binary_round, shl_align_fexp.
  set (mez := shl_align _ _ _). case mez as [mz ez]. apply binary_round_aux_equiv.
Qed.
Lemma binary_normalize_equiv m e szero :
  SpecFloat.binary_normalize 24 128 m e szero
  = B2SF (binary_normalize 24 128 Hprec Hmax mode_NE m e szero).
Proof.
  case m as [|p|p]; [reflexivity| |]; simpl; rewrite B2SF_SF2B; apply binary_round_equiv.
Qed.

Lemma mul_equiv (x y : binary_float 24 128) :
  SFmul 24 128 (B2SF x) (B2SF y) = B2SF (Bmult mode_NE x y).
Proof.
  destruct x as [sx|sx| |sx mx ex Bx], y as [sy|sy| |sy my ey By]; [now trivial..|].
  simpl. rewrite B2SF_SF2B. apply binary_round_aux_equiv.
Qed.
Lemma add_equiv (x y : binary_float 24 128) :
  SFadd 24 128 (B2SF x) (B2SF y) = B2SF (Bplus mode_NE x y).
Proof.
  destruct x as [sx|sx| |sx mx ex Bx], y as [sy|sy| |sy my ey By];
  [now (trivial || simpl; case Bool.eqb)..|]. apply binary_normalize_equiv.
Qed.
Lemma sub_equiv (x y : binary_float 24 128) :
  SFsub 24 128 (B2SF x) (B2SF y) = B2SF (Bminus mode_NE x y).
Proof.
  destruct x as [sx|sx| |sx mx ex Bx], y as [sy|sy| |sy my ey By];
  [now (trivial || simpl; case Bool.eqb)..|]. simpl. unfold Zminus.
  rewrite <- cond_Zopp_negb. apply binary_normalize_equiv.
Qed.

Lemma fin_B2SF (x : binary_float 24 128) : is_finite x = true -> fin (B2SF x).
Proof.
  intros H. split; [apply valid_binary_B2SF|]. now rewrite is_finite_SF_B2SF.
Qed.
Lemma val_B2SF (x : binary_float 24 128) : val (B2SF x) = B2R x.
Proof. unfold val. apply SF2R_B2SF. Qed.

Definition small (r : R) : Prop := Rabs r < bpow radix2 128.

Lemma fin_bin x : fin x -> exists b : binary_float 24 128, B2SF b = x /\ is_finite b = true.
Proof.
  intros (V & F). exists (SF2B x V). split; [apply B2SF_SF2B|]. now rewrite is_finite_SF2B.
Qed.

Lemma mul_ok x y : fin x -> fin y -> small (fl (val x * val y)) ->
  fin (a_mul binary32 x y) /\ val (a_mul binary32 x y) = fl (val x * val y).
Proof.
  intros Hx Hy. unfold small, fl. cbn [a_mul binary32].
  destruct (fin_bin x Hx) as (bx & <- & Fx), (fin_bin y Hy) as (b & <- & Fy).
  rewrite !val_B2SF, mul_equiv. intros S.
  pose proof (Bmult_correct 24 128 Hprec Hmax mode_NE bx b) as H.
  change (SpecFloat.fexp 24 128) with fexp32 in H. cbn [round_mode] in H.
  rewrite Rlt_bool_true in H by exact S.
  destruct H as (H1 & H2 & _). split.
  - apply fin_B2SF. rewrite H2, Fx, Fy. reflexivity.
  - rewrite val_B2SF. exact H1.
Qed.
Lemma add_ok x y : fin x -> fin y -> small (fl (val x + val y)) ->
  fin (a_add binary32 x y) /\ val (a_add binary32 x y) = fl (val x + val y).
Proof.
  intros Hx Hy. unfold small, fl. cbn [a_add binary32].
  destruct (fin_bin x Hx) as (bx & <- & Fx), (fin_bin y Hy) as (b & <- & Fy).
  rewrite !val_B2SF, add_equiv. intros S.
  pose proof (Bplus_correct 24 128 Hprec Hmax mode_NE bx b) as H.
  change (SpecFloat.fexp 24 128) with fexp32 in H. cbn [round_mode] in H.
  rewrite Rlt_bool_true in H by exact S.
  destruct (H Fx Fy) as (H1 & H2 & _). split.
  - apply fin_B2SF. exact H2.
  - rewrite val_B2SF. exact H1.
Qed.
Lemma sub_ok x y : fin x -> fin y -> small (fl (val x - val y)) ->
  fin (a_sub binary32 x y) /\ val (a_sub binary32 x y) = fl (val x - val y).
Proof.
  intros Hx Hy. unfold small, fl. cbn [a_sub binary32].
  destruct (fin_bin x Hx) as (bx & <- & Fx), (fin_bin y Hy) as (b & <- & Fy).
  rewrite !val_B2SF, sub_equiv. intros S.
  pose proof (Bminus_correct 24 128 Hprec Hmax mode_NE bx b) as H.
  change (SpecFloat.fexp 24 128) with fexp32 in H. cbn [round_mode] in H.
  rewrite Rlt_bool_true in H by exact S.
  destruct (H Fx Fy) as (H1 & H2 & _). split.
  - apply fin_B2SF. exact H2.
  - rewrite val_B2SF. exact H1.
Qed.

Lemma div_equiv (x y : binary_float 24 128) :
  SFdiv 24 128 (B2SF x) (B2SF y) = B2SF (Bdiv mode_NE x y).
Proof.
  destruct x as [sx|sx| |sx mx ex Bx], y as [sy|sy| |sy my ey By];
  [now (trivial || simpl; case Bool.eqb)..|].
  simpl. rewrite B2SF_SF2B. set (melz := SFdiv_core_binary _ _ _ _ _ _).
  case melz as [[mz ez] lz]. apply binary_round_aux_equiv.
Qed.
Lemma div_ok x y : fin x -> fin y -> val y <> 0 -> small (fl (val x / val y)) ->
  fin (a_div binary32 x y) /\ val (a_div binary32 x y) = fl (val x / val y).
Proof.
  intros Hx Hy. unfold small, fl. cbn [a_div binary32].
  destruct (fin_bin x Hx) as (bx & <- & Fx), (fin_bin y Hy) as (b & <- & Fy).
  rewrite !val_B2SF, div_equiv. intros NZ S.
  pose proof (Bdiv_correct 24 128 Hprec Hmax mode_NE bx b NZ) as H.
  change (SpecFloat.fexp 24 128) with fexp32 in H. cbn [round_mode] in H.
  rewrite Rlt_bool_true in H by exact S.
  destruct H as (H1 & H2 & _). split.
  - apply fin_B2SF. rewrite H2. exact Fx.
  - rewrite val_B2SF. exact H1.
Qed.
Lemma abs_ok x : fin x -> fin (a_abs binary32 x) /\ val (a_abs binary32 x) = Rabs (val x).
Proof.
  intros Hx. cbn [a_abs binary32]. destruct (fin_bin x Hx) as (b & <- & F).
  assert (K : SFabs (B2SF b) = B2SF (Babs b)) by (destruct b; reflexivity).
  rewrite K, !val_B2SF, B2R_Babs. split; [|reflexivity].
  apply fin_B2SF. rewrite is_finite_Babs. exact F.
Qed.

Lemma lt_ok x y : fin x -> fin y -> a_lt binary32 x y = true <-> val x < val y.
Proof.
  intros Hx Hy. cbn [a_lt binary32].
  destruct (fin_bin x Hx) as (bx & <- & Fx), (fin_bin y Hy) as (b & <- & Fy).
  rewrite !val_B2SF. change (SFltb (B2SF bx) (B2SF b)) with (Bltb bx b).
  rewrite Bltb_correct by assumption.
  destruct (Rlt_bool_spec (B2R bx) (B2R b)); split; intros; try assumption; try reflexivity;
    try discriminate; lra.
Qed.
Lemma nlt_ok x y : fin x -> fin y -> a_lt binary32 x y = false <-> val y <= val x.
Proof.
  intros Fx Fy. pose proof (lt_ok x y Fx Fy) as H.
  destruct (a_lt binary32 x y).
  - split; [discriminate|]. intros. pose proof (proj1 H eq_refl). lra.
  - split; [|reflexivity]. intros _. destruct (Rle_or_lt (val y) (val x)) as [L|L]; [exact L|].
    apply H in L. discriminate.
Qed.

(** ** Rounding *)
Lemma fl_le x y : x <= y -> fl x <= fl y.
Proof. apply round_le; typeclasses eauto. Qed.
Lemma fl_val x : fin x -> fl (val x) = val x.
Proof.
  intros H. unfold fl. apply round_generic; [typeclasses eauto|].
  destruct (fin_bin x H) as (b & <- & _). rewrite val_B2SF. apply (generic_format_B2R 24 128).
Qed.
Lemma fl_int (z : Z) : (Z.abs z <= 2 ^ 24)%Z -> fl (IZR z) = IZR z.
Proof.
  intros H. unfold fl. apply round_generic; [typeclasses eauto|].
  destruct (Z.eq_dec (Z.abs z) (2 ^ 24)) as [E|E].
  - assert (K : exists s, (z = s * 2 ^ 24)%Z /\ (s = 1 \/ s = -1)%Z).
    { destruct (Z.abs_eq_or_opp z) as [A|A]; [exists 1%Z|exists (-1)%Z]; lia. }
    destruct K as (s & -> & S). apply generic_format_FLT.
    exists (Float radix2 s 24); [|cbn [Fnum]; destruct S as [-> | ->]; reflexivity|cbn; lia].
    unfold F2R. cbn [Fnum Fexp]. rewrite mult_IZR. reflexivity.
  - apply generic_format_FLT.
    exists (Float radix2 z 0); [unfold F2R; cbn; lra| |cbn; lia].
    cbn [Fnum]. change (radix2 ^ 24)%Z with (2 ^ 24)%Z. lia.
Qed.
Lemma fl_0 : fl 0 = 0.
Proof. apply (fl_int 0). cbn. lia. Qed.
Lemma fl_1 : fl 1 = 1.
Proof. apply (fl_int 1). cbn. lia. Qed.

Lemma fl_bound (x : R) (z : Z) : (Z.abs z <= 2 ^ 24)%Z -> x <= IZR z -> fl x <= IZR z.
Proof. intros H L. rewrite <- (fl_int z H). now apply fl_le. Qed.
Lemma fl_bound_l (x : R) (z : Z) : (Z.abs z <= 2 ^ 24)%Z -> IZR z <= x -> IZR z <= fl x.
Proof. intros H L. rewrite <- (fl_int z H). now apply fl_le. Qed.

Lemma small_int (r : R) (z : Z) : (0 <= z <= 2 ^ 24)%Z -> 0 <= r <= IZR z -> small r.
Proof.
  intros H L. unfold small. rewrite Rabs_pos_eq by lra.
  apply Rle_lt_trans with (IZR z); [lra|].
  change (bpow radix2 128) with (IZR (2 ^ 128)). apply IZR_lt.
  assert ((2 ^ 24 < 2 ^ 128)%Z) by reflexivity. lia.
Qed.

(** The rounding error of values up to 2^e. *)
Lemma fl_err (x : R) (e : Z) : (-100 <= e)%Z -> 0 <= x <= bpow radix2 e ->
  Rabs (fl x - x) <= bpow radix2 (e - 24).
Proof.
  intros He H.
  pose proof (error_le_half_ulp radix2 fexp32 (fun n => negb (Z.even n)) x) as L.
  change (round radix2 fexp32 (Znearest (fun n => negb (Z.even n))) x) with (fl x) in L.
  eapply Rle_trans; [exact L|].
  assert (U : ulp radix2 fexp32 x <= ulp radix2 fexp32 (bpow radix2 e)).
  { apply ulp_le_pos; [typeclasses eauto|apply FLT_exp_monotone|apply H|apply H]. }
  assert (W : ulp radix2 fexp32 (bpow radix2 e) = 2 * bpow radix2 (e - 24)).
  { rewrite ulp_bpow. change 2 with (bpow radix2 1). rewrite <- bpow_plus. f_equal.
    unfold fexp32, FLT_exp. lia. }
  lra.
Qed.

(** ** Conversions *)
Lemma of_Z_ok (z : Z) : (Z.abs z <= 2 ^ 24)%Z ->
  fin (a_of_Z binary32 z) /\ val (a_of_Z binary32 z) = IZR z.
Proof.
  intros H. cbn [a_of_Z binary32]. unfold f32_of_Z. rewrite binary_normalize_equiv.
  pose proof (binary_normalize_correct 24 128 Hprec Hmax mode_NE z 0 false) as K.
  change (SpecFloat.fexp 24 128) with fexp32 in K. cbn [round_mode] in K.
  assert (E : F2R (Float radix2 z 0) = IZR z) by (unfold F2R; cbn; lra).
  rewrite E in K. change (round radix2 fexp32 ZnearestE (IZR z)) with (fl (IZR z)) in K.
  rewrite (fl_int z H) in K.
  rewrite Rlt_bool_true in K.
  - destruct K as (K1 & K2 & _). split; [now apply fin_B2SF|]. now rewrite val_B2SF.
  - rewrite <- abs_IZR. change (bpow radix2 128) with (IZR (2 ^ 128)). apply IZR_lt.
    assert ((2 ^ 24 < 2 ^ 128)%Z) by reflexivity. lia.
Qed.

Lemma trunc_ok x : fin x -> 0 <= val x -> f32_trunc x = Some (Z.to_N (Zfloor (val x))).
Proof.
  intros (V & F) P. destruct x as [s|s| |s m e]; try discriminate.
  - unfold val in *. cbn [SF2R] in *. rewrite (Zfloor_IZR 0). reflexivity.
  - unfold val, SF2R in *. destruct s.
    + exfalso. assert (K : F2R (Float radix2 (cond_Zopp true (Z.pos m)) e) < 0).
      { apply F2R_lt_0. cbn. lia. }
      lra.
    + unfold f32_trunc. f_equal. cbn [cond_Zopp].
      unfold F2R. cbn [Fnum Fexp]. destruct e as [|p|p].
      * cbn [bpow]. rewrite Rmult_1_r, Zfloor_IZR. reflexivity.
      * assert (K : IZR (Z.pos m) * bpow radix2 (Z.pos p) = IZR (Z.pos m * 2 ^ Z.pos p)).
        { rewrite mult_IZR. reflexivity. }
        rewrite K, Zfloor_IZR. rewrite Z2N.inj_mul by lia. rewrite Z2N.inj_pow by lia. reflexivity.
      * assert (Q : (0 < 2 ^ Z.pos p)%Z) by lia.
        assert (K : IZR (Z.pos m) * bpow radix2 (Z.neg p) = IZR (Z.pos m) / IZR (2 ^ Z.pos p)).
        { reflexivity. }
        rewrite K, Zfloor_div by lia. rewrite Z2N.inj_div by lia. rewrite Z2N.inj_pow by lia. reflexivity.
Qed.

Lemma trunc_neg x : fin x -> -1 < val x < 0 -> f32_trunc x = Some 0%N.
Proof.
  intros (V & F) P. destruct x as [s|s| |s m e]; try discriminate.
  - unfold val in P. cbn in P. lra.
  - unfold val, SF2R in P. destruct s.
    + assert (Q : 0 <= F2R (Float radix2 (Z.pos m) e) < 1).
      { split; [apply F2R_ge_0; cbn; lia|].
        assert (K : F2R (Float radix2 (cond_Zopp true (Z.pos m)) e) = - F2R (Float radix2 (Z.pos m) e))
          by (apply F2R_Zopp). lra. }
      assert (T : f32_trunc (S754_finite false m e) = Some 0%N).
      { unfold F2R in Q. cbn [Fnum Fexp] in Q. destruct e as [|p|p].
        - cbn in Q. exfalso. assert (1 <= IZR (Z.pos m)) by (apply IZR_le; lia). lra.
        - exfalso. assert (1 <= IZR (Z.pos m)) by (apply IZR_le; lia).
          assert (1 <= bpow radix2 (Z.pos p)) by (apply (bpow_le radix2 0); lia). nra.
        - cbn [f32_trunc]. f_equal. apply N.div_small.
          assert (K : IZR (Z.pos m) * bpow radix2 (Z.neg p) = IZR (Z.pos m) / IZR (2 ^ Z.pos p))
            by reflexivity.
          rewrite K in Q. assert (G : 0 < IZR (2 ^ Z.pos p)) by (apply IZR_lt; lia).
          assert (H : (Z.pos m < 2 ^ Z.pos p)%Z).
          { apply lt_IZR. destruct Q as (_ & Q). apply (Rmult_lt_compat_r _ _ _ G) in Q.
            unfold Rdiv in Q. rewrite Rmult_assoc, Rinv_l, Rmult_1_r, Rmult_1_l in Q by lra. exact Q. }
          apply N2Z.inj_lt. rewrite N2Z.inj_pow. exact H. }
      unfold f32_trunc in *. assert (T2 := f_equal (fun o => match o with Some n => n | None => 0%N end) T). cbv beta iota in T2. rewrite T2. reflexivity.
    + exfalso. assert (K : 0 < F2R (Float radix2 (cond_Zopp false (Z.pos m)) e)).
      { apply F2R_gt_0. cbn. lia. }
      lra.
Qed.

(** ** Operations with bounded results *)
Lemma fl_sym_bound (x : R) (z : Z) : (0 <= z <= 2 ^ 24)%Z -> - IZR z <= x <= IZR z ->
  - IZR z <= fl x <= IZR z.
Proof.
  intros H L. split; [|apply fl_bound; [lia|lra]].
  rewrite <- opp_IZR. apply fl_bound_l; [lia|]. rewrite opp_IZR. lra.
Qed.
Lemma small_sym (r : R) (z : Z) : (0 <= z <= 2 ^ 24)%Z -> - IZR z <= r <= IZR z -> small r.
Proof.
  intros H L. unfold small. apply Rle_lt_trans with (IZR z); [apply Rabs_le; lra|].
  change (bpow radix2 128) with (IZR (2 ^ 128)). apply IZR_lt.
  assert ((2 ^ 24 < 2 ^ 128)%Z) by reflexivity. lia.
Qed.
Lemma mul_in x y z : (0 <= z <= 2 ^ 24)%Z -> fin x -> fin y ->
  - IZR z <= val x * val y <= IZR z ->
  fin (a_mul binary32 x y) /\ val (a_mul binary32 x y) = fl (val x * val y).
Proof. intros H X Y L. apply mul_ok; try assumption. eapply small_sym; [|apply fl_sym_bound]; eassumption. Qed.
Lemma add_in x y z : (0 <= z <= 2 ^ 24)%Z -> fin x -> fin y ->
  - IZR z <= val x + val y <= IZR z ->
  fin (a_add binary32 x y) /\ val (a_add binary32 x y) = fl (val x + val y).
Proof. intros H X Y L. apply add_ok; try assumption. eapply small_sym; [|apply fl_sym_bound]; eassumption. Qed.
Lemma sub_in x y z : (0 <= z <= 2 ^ 24)%Z -> fin x -> fin y ->
  - IZR z <= val x - val y <= IZR z ->
  fin (a_sub binary32 x y) /\ val (a_sub binary32 x y) = fl (val x - val y).
Proof. intros H X Y L. apply sub_ok; try assumption. eapply small_sym; [|apply fl_sym_bound]; eassumption. Qed.
Lemma div_in x y z : (0 <= z <= 2 ^ 24)%Z -> fin x -> fin y -> val y <> 0 ->
  - IZR z <= val x / val y <= IZR z ->
  fin (a_div binary32 x y) /\ val (a_div binary32 x y) = fl (val x / val y).
Proof. intros H X Y N L. apply div_ok; try assumption. eapply small_sym; [|apply fl_sym_bound]; eassumption. Qed.

(** The rounding error, for either sign. *)
Lemma fl_opp x : fl (- x) = - fl x.
Proof. apply round_NE_opp. Qed.
Lemma fl_err_sym (x : R) (e : Z) : (-100 <= e)%Z -> - bpow radix2 e <= x <= bpow radix2 e ->
  - bpow radix2 (e - 24) <= fl x - x <= bpow radix2 (e - 24).
Proof.
  intros He H. destruct (Rle_or_lt 0 x) as [P|P].
  - apply Rabs_le_inv, fl_err; [assumption|lra].
  - assert (K : Rabs (fl (- x) - - x) <= bpow radix2 (e - 24)) by (apply fl_err; [assumption|lra]).
    apply Rabs_le_inv in K. rewrite fl_opp in K. lra.
Qed.
