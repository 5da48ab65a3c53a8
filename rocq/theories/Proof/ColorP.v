From Coq Require Import ZArith NArith Reals Lra Lia Floats.SpecFloat List.
From Flocq Require Import Core.Core IEEE754.BinarySingleNaN.
From Verif.Model Require Import Types Mesh Numbers Color.
From Verif.Spec Require Import ColorSpec.
From Verif.Proof Require Import FloatP.
Set Default Proof Using "Type".
Local Open Scope R_scope.

Lemma fz_ok (n : N) : (n <= 2 ^ 24)%N -> fin (fz n) /\ val (fz n) = IZR (Z.of_N n).
Proof. intros H. apply of_Z_ok. lia. Qed.
Lemma fz0 : fin (fz 0) /\ val (fz 0) = 0. Proof. apply (fz_ok 0). lia. Qed.
Lemma fz1 : fin (fz 1) /\ val (fz 1) = 1. Proof. apply (fz_ok 1). lia. Qed.

Lemma clamp_ok x : number x ->
  fin (unit_clamp x) /\ 0 <= val (unit_clamp x) <= 1 /\
  (a_lt binary32 x (fz 0) = false -> a_lt binary32 (fz 1) x = false -> unit_clamp x = x) /\
  (a_lt binary32 x (fz 0) = true -> unit_clamp x = fz 0) /\
  (a_lt binary32 (fz 1) x = true -> a_lt binary32 x (fz 0) = false -> unit_clamp x = fz 1).
Proof.
  intros (V & N). unfold unit_clamp, a_clamp.
  destruct fz0 as (F0 & V0), fz1 as (F1 & V1).
  destruct (a_lt binary32 x (fz 0)) eqn:L0.
  { rewrite V0. split; [exact F0|]. split; [lra|]. intuition congruence. }
  destruct (a_lt binary32 (fz 1) x) eqn:L1.
  { rewrite V1. split; [exact F1|]. split; [lra|]. intuition congruence. }
  assert (F : fin x).
  { split; [exact V|]. destruct x as [s|s| |s m e]; try reflexivity; try congruence.
    destruct s; vm_compute in L0, L1; discriminate. }
  split; [exact F|]. split; [|intuition congruence].
  apply nlt_ok in L0; [|assumption..]. apply nlt_ok in L1; [|assumption..]. lra.
Qed.

Lemma to_u8_ok x (r : R) : fin x -> 0 <= val x -> val x < 256 ->
  to_u8 x = Ok (Z.to_N (Zfloor (val x))) /\ (Z.to_N (Zfloor (val x)) < 256)%N /\
  IZR (Z.of_N (Z.to_N (Zfloor (val x)))) <= val x /\
  val x < IZR (Z.of_N (Z.to_N (Zfloor (val x)))) + 1.
Proof.
  intros F P U. unfold to_u8. rewrite (trunc_ok x F P).
  assert (G : (0 <= Zfloor (val x))%Z) by (apply Zfloor_lub; exact P).
  assert (H : (Zfloor (val x) < 256)%Z).
  { apply lt_IZR. eapply Rle_lt_trans; [apply Zfloor_lb|exact U]. }
  destruct (N.ltb_spec (Z.to_N (Zfloor (val x))) 256); [|lia].
  rewrite Z2N.id by assumption.
  split; [reflexivity|]. split; [assumption|]. split; [apply Zfloor_lb|apply Zfloor_ub].
Qed.

Definition bp8 : bpow radix2 8 = 256. Proof. reflexivity. Qed.

Lemma err1 x : 0 <= x <= 1 -> Rabs (fl x - x) <= / 16777216.
Proof. intros H. apply (fl_err x 0); [lia|]. cbn. lra. Qed.
Lemma err256 x : 0 <= x <= 256 -> Rabs (fl x - x) <= / 65536.
Proof. intros H. apply (fl_err x 8); [lia|]. rewrite bp8. lra. Qed.
Lemma err512 x : 0 <= x <= 512 -> Rabs (fl x - x) <= / 32768.
Proof.
  intros H. apply (fl_err x 9); [lia|]. change (bpow radix2 9) with 512. lra.
Qed.
Lemma abs_split a b : Rabs a <= b -> - b <= a <= b.
Proof. apply Rabs_le_inv. Qed.

Lemma u8_small (n : N) : (n < 256)%N -> 0 <= IZR (Z.of_N n) <= 255.
Proof. intros H. split; apply IZR_le; lia. Qed.

(** One component of a blend. *)
Section blend.
Context (x y : N) (w : f32).
Hypothesis (Hx : (x < 256)%N) (Hy : (y < 256)%N) (Fw : fin w) (Hw : 0 <= val w <= 1).
Let a := IZR (Z.of_N x).
Let b := IZR (Z.of_N y).

Lemma blend_val :
  let m := fl (1 - val w) in
  let s := fl (fl (a * m) + fl (b * val w)) in
  fin (fz x *f (fz 1 -f w) +f fz y *f w) /\
  val (fz x *f (fz 1 -f w) +f fz y *f w) = s /\
  0 <= s <= 511 /\
  Rabs (s - (a * (1 - val w) + b * val w)) <= / 1000.
Proof using All.
  intros m s.
  destruct (fz_ok x ltac:(lia)) as (Fx & Vx), (fz_ok y ltac:(lia)) as (Fy & Vy), fz1 as (F1 & V1).
  pose proof (u8_small x Hx : 0 <= a <= 255) as A. pose proof (u8_small y Hy : 0 <= b <= 255) as B.
  assert (M : 0 <= m <= 1).
  { unfold m. split; [apply (fl_bound_l _ 0)|apply (fl_bound _ 1)]; lia || lra. }
  assert (Em := abs_split _ _ (err1 (1 - val w) ltac:(lra))). fold m in Em.
  destruct (sub_ok (fz 1) w F1 Fw) as (Fs & Vs).
  { rewrite V1. apply (small_int _ 1); [lia|]. exact M. }
  rewrite V1 in Vs. fold m in Vs.
  assert (P1 : 0 <= a * m <= 255) by nra.
  assert (P2 : 0 <= b * val w <= 255) by nra.
  assert (Q1 : 0 <= fl (a * m) <= 255).
  { split; [apply (fl_bound_l _ 0)|apply (fl_bound _ 255)]; lia || lra. }
  assert (Q2 : 0 <= fl (b * val w) <= 255).
  { split; [apply (fl_bound_l _ 0)|apply (fl_bound _ 255)]; lia || lra. }
  assert (E1 := abs_split _ _ (err256 (a * m) ltac:(lra))).
  assert (E2 := abs_split _ _ (err256 (b * val w) ltac:(lra))).
  destruct (mul_ok (fz x) (fz 1 -f w) Fx Fs) as (F3 & V3).
  { rewrite Vx, Vs. change (IZR (Z.of_N x)) with a. apply (small_int _ 255); [lia|]. exact Q1. }
  destruct (mul_ok (fz y) w Fy Fw) as (F4 & V4).
  { rewrite Vy. change (IZR (Z.of_N y)) with b. apply (small_int _ 255); [lia|]. exact Q2. }
  rewrite Vx, Vs in V3. rewrite Vy in V4. change (IZR (Z.of_N x)) with a in V3. change (IZR (Z.of_N y)) with b in V4.
  assert (S : 0 <= s <= 511).
  { unfold s. split; [apply (fl_bound_l _ 0)|apply (fl_bound _ 511)]; lia || lra. }
  destruct (add_ok (fz x *f (fz 1 -f w)) (fz y *f w) F3 F4) as (F5 & V5).
  { rewrite V3, V4. apply (small_int _ 511); [lia|]. exact S. }
  rewrite V3, V4 in V5.
  split; [exact F5|]. split; [exact V5|]. split; [exact S|].
  assert (E3 := abs_split _ _ (err512 (fl (a * m) + fl (b * val w)) ltac:(lra))). fold s in E3.
  assert (E4 : - / 65536 <= a * m - a * (1 - val w) <= / 65536) by nra.
  apply Rabs_le. lra.
Qed.

Lemma blend_component_ok :
  exists n, blend_component x y w = Ok n /\ between1 x y n /\ interpolates1 (val w) x y n.
Proof using All.
  destruct blend_val as (F & V & S & E).
  set (v := fz x *f (fz 1 -f w) +f fz y *f w) in *.
  pose proof (u8_small x Hx : 0 <= a <= 255) as A. pose proof (u8_small y Hy : 0 <= b <= 255) as B.
  apply abs_split in E. rewrite <- V in *.
  assert (U1 : a * (1 - val w) + b * val w <= IZR (Z.of_N (N.max x y))).
  { assert (a <= IZR (Z.of_N (N.max x y))) by (apply IZR_le; lia).
    assert (b <= IZR (Z.of_N (N.max x y))) by (apply IZR_le; lia). nra. }
  assert (U2 : IZR (Z.of_N (N.min x y)) <= a * (1 - val w) + b * val w).
  { assert (IZR (Z.of_N (N.min x y)) <= a) by (apply IZR_le; lia).
    assert (IZR (Z.of_N (N.min x y)) <= b) by (apply IZR_le; lia). nra. }
  assert (U3 : IZR (Z.of_N (N.max x y)) <= 255) by (apply IZR_le; lia).
  destruct (to_u8_ok v 0 F ltac:(lra) ltac:(lra)) as (T & L & LB & UB).
  exists (Z.to_N (Zfloor (val v))). unfold blend_component. fold v. split; [exact T|].
  set (n := Z.to_N (Zfloor (val v))) in *.
  split; [split|].
  - assert (K : (Z.of_N n < Z.of_N (N.max x y) + 1)%Z); [|lia].
    apply lt_IZR. rewrite plus_IZR. lra.
  - assert (K : (Z.of_N (N.min x y) < Z.of_N n + 2)%Z); [|lia].
    apply lt_IZR. rewrite plus_IZR. lra.
  - unfold interpolates1. fold a b. lra.
Qed.

Lemma blend_start : val w = 0 -> blend_component x y w = Ok x.
Proof using All.
  intros W. destruct blend_val as (F & V & S & E).
  set (v := fz x *f (fz 1 -f w) +f fz y *f w) in *.
  pose proof (u8_small x Hx : 0 <= a <= 255) as A. pose proof (u8_small y Hy : 0 <= b <= 255) as B.
  rewrite W in V. replace (1 - 0) with 1 in V by lra. rewrite fl_1, Rmult_1_r, Rmult_0_r in V.
  rewrite fl_0, Rplus_0_r in V. change a with (IZR (Z.of_N x)) in V. rewrite fl_int, fl_int in V by lia.
  destruct (to_u8_ok v 0 F ltac:(rewrite V; fold a; lra) ltac:(rewrite V; fold a; lra)) as (T & _).
  unfold blend_component. fold v. rewrite T, V, Zfloor_IZR, N2Z.id. reflexivity.
Qed.
Lemma blend_end : val w = 1 -> blend_component x y w = Ok y.
Proof using All.
  intros W. destruct blend_val as (F & V & S & E).
  set (v := fz x *f (fz 1 -f w) +f fz y *f w) in *.
  pose proof (u8_small x Hx : 0 <= a <= 255) as A. pose proof (u8_small y Hy : 0 <= b <= 255) as B.
  rewrite W in V. replace (1 - 1) with 0 in V by lra. rewrite fl_0, Rmult_1_r, Rmult_0_r in V.
  rewrite fl_0, Rplus_0_l in V. change b with (IZR (Z.of_N y)) in V. rewrite fl_int, fl_int in V by lia.
  destruct (to_u8_ok v 0 F ltac:(rewrite V; fold b; lra) ltac:(rewrite V; fold b; lra)) as (T & _).
  unfold blend_component. fold v. rewrite T, V, Zfloor_IZR, N2Z.id. reflexivity.
Qed.
End blend.

(** ** Blending two colours *)
Lemma blend_ok (x y : Color) (w : f32) :
  is_color x -> is_color y -> number w ->
  exists c, color_blend x y w = Ok c /\ between_colors x y c /\
    interpolates (val (unit_clamp w)) x y c.
Proof.
  intros (X1 & X2 & X3 & X4) (Y1 & Y2 & Y3 & Y4) W.
  destruct (clamp_ok w W) as (F & R & _).
  destruct (blend_component_ok _ _ _ X1 Y1 F R) as (r & E1 & B1 & I1).
  destruct (blend_component_ok _ _ _ X2 Y2 F R) as (g & E2 & B2 & I2).
  destruct (blend_component_ok _ _ _ X3 Y3 F R) as (b & E3 & B3 & I3).
  destruct (blend_component_ok _ _ _ X4 Y4 F R) as (a & E4 & B4 & I4).
  exists (mkColor r g b a). unfold color_blend. rewrite E1, E2, E3, E4.
  split; [reflexivity|]. split; [split; [exact B1|split; [exact B2|split; [exact B3|exact B4]]]|].
  split; [exact I1|split; [exact I2|split; [exact I3|exact I4]]].
Qed.

Lemma blend_at_0 (x y : Color) (w : f32) :
  is_color x -> is_color y -> number w -> val (unit_clamp w) = 0 -> color_blend x y w = Ok x.
Proof.
  intros (X1 & X2 & X3 & X4) (Y1 & Y2 & Y3 & Y4) W V.
  destruct (clamp_ok w W) as (F & R & _). unfold color_blend.
  rewrite !blend_start by assumption. destruct x. reflexivity.
Qed.
Lemma blend_at_1 (x y : Color) (w : f32) :
  is_color x -> is_color y -> number w -> val (unit_clamp w) = 1 -> color_blend x y w = Ok y.
Proof.
  intros (X1 & X2 & X3 & X4) (Y1 & Y2 & Y3 & Y4) W V.
  destruct (clamp_ok w W) as (F & R & _). unfold color_blend.
  rewrite !blend_end by assumption. destruct y. reflexivity.
Qed.

(** At or below 0, at or above 1. *)
Lemma clamp_low w : number w -> a_le binary32 w (fz 0) = true -> val (unit_clamp w) = 0.
Proof.
  intros W L. destruct (clamp_ok w W) as (F & R & K1 & K2 & _).
  destruct (a_lt binary32 w (fz 0)) eqn:E.
  - rewrite (K2 eq_refl). apply fz0.
  - destruct W as (V & N).
    destruct w as [s|s| |s m e]; [reflexivity|destruct s; discriminate|congruence|].
    exfalso. destruct s; [vm_compute in E; discriminate|vm_compute in L; discriminate].
Qed.
Lemma fin_number x : fin x -> number x.
Proof. intros (V & F). split; [exact V|]. intros ->. discriminate. Qed.

Lemma le_lt_or x y : fin x -> fin y -> a_le binary32 x y = true -> val x <= val y.
Proof.
  intros X Y L. cbn [a_le binary32] in L.
  destruct (Rle_or_lt (val x) (val y)) as [H|H]; [exact H|].
  apply lt_ok in H; [|assumption..]. cbn [a_lt binary32] in H.
  unfold SFltb, SFleb in *. 
  assert (S : SFcompare y x = Some Lt) by (destruct (SFcompare y x) as [[]|]; congruence || discriminate).
  exfalso. destruct (fin_bin x X) as (bx & <- & Fx), (fin_bin y Y) as (by_ & <- & Fy).
  change (SFcompare (B2SF by_) (B2SF bx)) with (Bcompare by_ bx) in S.
  change (SFcompare (B2SF bx) (B2SF by_)) with (Bcompare bx by_) in L.
  rewrite Bcompare_swap in S. destruct (Bcompare bx by_) as [[]|]; discriminate.
Qed.
Lemma clamp_high w : number w -> a_le binary32 (fz 1) w = true -> val (unit_clamp w) = 1.
Proof.
  intros W L. destruct (clamp_ok w W) as (F & R & K1 & K2 & K3).
  destruct fz0 as (F0 & V0), fz1 as (F1 & V1).
  destruct (a_lt binary32 w (fz 0)) eqn:E0.
  - exfalso. destruct w as [s|s| |s m e]; try discriminate.
    + destruct s; discriminate.
    + destruct s; [vm_compute in L; discriminate|vm_compute in E0; discriminate].
  - destruct (a_lt binary32 (fz 1) w) eqn:E1.
    + rewrite K3 by reflexivity. exact V1.
    + rewrite (K1 eq_refl eq_refl) in *. apply le_lt_or in L; [|assumption..]. lra.
Qed.

(** ** gray, quality *)
Lemma scale255 v : fin v -> 0 <= val v <= 1 ->
  exists n, to_u8 (v *f fz 255) = Ok n /\ (n < 256)%N /\
    (val v = 0 -> n = 0%N) /\ (val v = 1 -> n = 255%N).
Proof.
  intros F R. destruct (fz_ok 255 ltac:(lia)) as (F2 & V2).
  change (IZR (Z.of_N 255)) with 255 in V2.
  destruct (mul_in v (fz 255) 255 ltac:(lia) F F2) as (F3 & V3); [rewrite V2; lra|].
  rewrite V2 in V3.
  assert (B : 0 <= fl (val v * 255) <= 255).
  { split; [apply (fl_bound_l _ 0)|apply (fl_bound _ 255)]; lia || lra. }
  destruct (to_u8_ok (v *f fz 255) 0 F3 ltac:(lra) ltac:(lra)) as (T & L & _).
  eexists. split; [exact T|]. split; [exact L|]. rewrite V3.
  split; intros ->.
  - rewrite Rmult_0_l, fl_0, (Zfloor_IZR 0). reflexivity.
  - rewrite Rmult_1_l, (fl_int 255), (Zfloor_IZR 255) by (cbn; lia). reflexivity.
Qed.

Lemma half_val : fin (a_div binary32 (fz 1) (fz 2)) /\ val (a_div binary32 (fz 1) (fz 2)) = / 2.
Proof.
  assert (E : a_div binary32 (fz 1) (fz 2) = S754_finite false 8388608 (-24)) by (vm_compute; reflexivity).
  rewrite E. split; [split; reflexivity|]. unfold val, SF2R, F2R. cbn [Fnum Fexp cond_Zopp]. change (bpow radix2 (-24)) with (/ 16777216). lra.
Qed.

Lemma double_in v : fin v -> 0 <= val v <= / 2 -> fin (v *f fz 2) /\ 0 <= val (v *f fz 2) <= 1.
Proof.
  intros F R. destruct (fz_ok 2 ltac:(lia)) as (F2 & V2). change (IZR (Z.of_N 2)) with 2 in V2.
  destruct (mul_in v (fz 2) 1 ltac:(lia) F F2) as (F3 & V3); [rewrite V2; lra|].
  split; [exact F3|]. rewrite V3, V2.
  split; [apply (fl_bound_l _ 0)|apply (fl_bound _ 1)]; lia || lra.
Qed.

Lemma gray_ok w : number w -> exists n, color_gray w = Ok (mkColor n n n 255) /\ (n < 256)%N /\
  (a_le binary32 w (fz 0) = true -> n = 0%N) /\ (a_le binary32 (fz 1) w = true -> n = 255%N).
Proof.
  intros W. destruct (clamp_ok w W) as (F & R & _).
  destruct (scale255 _ F R) as (n & T & L & Z0 & Z1). exists n.
  unfold color_gray. rewrite T. split; [reflexivity|]. split; [exact L|].
  split; intros H; [apply Z0, clamp_low|apply Z1, clamp_high]; assumption.
Qed.

Lemma quality_ok w : number w -> exists c, color_quality w = Ok c /\ is_color c /\
  c_b c = 0%N /\ c_a c = 255%N /\ (c_r c = 255%N \/ c_g c = 255%N) /\
  (a_le binary32 w (fz 0) = true -> c_g c = 0%N) /\ (a_le binary32 (fz 1) w = true -> c_r c = 0%N).
Proof.
  intros W. destruct (clamp_ok w W) as (F & R & _). unfold color_quality.
  set (v := unit_clamp w) in *. destruct half_val as (FH & VH), fz1 as (F1 & V1).
  destruct (a_lt binary32 (a_div binary32 (fz 1) (fz 2)) v) eqn:L.
  - apply lt_ok in L; [|assumption..]. rewrite VH in L.
    destruct (sub_in (fz 1) v 1 ltac:(lia) F1 F) as (F3 & V3); [rewrite V1; lra|].
    rewrite V1 in V3.
    assert (B : 0 <= fl (1 - val v) <= / 2).
    { split; [apply (fl_bound_l _ 0); lia || lra|].
      rewrite <- VH. rewrite <- (fl_val _ FH). apply fl_le. lra. }
    destruct (double_in _ F3 ltac:(lra)) as (F4 & B4).
    destruct (scale255 _ F4 B4) as (n & T & Ln & Z0 & _). rewrite T.
    eexists. split; [reflexivity|]. unfold is_color. cbn. repeat split; try lia.
    + intros H. apply (clamp_low w W) in H. fold v in H. lra.
    + intros H. apply (clamp_high w W) in H. fold v in H. apply Z0.
      destruct (fz_ok 2 ltac:(lia)) as (G2 & W2).
      destruct (mul_in (fz 1 -f v) (fz 2) 1 ltac:(lia) F3 G2) as (_ & ->); [rewrite W2, V3; cbn; lra|].
      rewrite V3, H. replace (1 - 1) with 0 by lra. rewrite fl_0, Rmult_0_l. apply fl_0.
  - apply nlt_ok in L; [|assumption..]. rewrite VH in L.
    destruct (double_in _ F ltac:(lra)) as (F4 & B4).
    destruct (scale255 _ F4 B4) as (n & T & Ln & Z0 & _). rewrite T.
    eexists. split; [reflexivity|]. unfold is_color. cbn. repeat split; try lia.
    + intros H. apply (clamp_low w W) in H. fold v in H. apply Z0.
      destruct (fz_ok 2 ltac:(lia)) as (G2 & W2).
      destruct (mul_in v (fz 2) 1 ltac:(lia) F G2) as (_ & ->); [rewrite W2; cbn; lra|].
      rewrite H, Rmult_0_l. apply fl_0.
    + intros H. apply (clamp_high w W) in H. fold v in H. lra.
Qed.

(** ** spectrum *)
Lemma to_size_ok x : fin x -> 0 <= val x <= 16777216 ->
  exists n, to_size x = Ok n /\ IZR (Z.of_N n) <= val x /\ val x < IZR (Z.of_N n) + 1 /\
    (n <= 2 ^ 24)%N.
Proof.
  intros F R. exists (Z.to_N (Zfloor (val x))).
  assert (G : (0 <= Zfloor (val x))%Z) by (apply Zfloor_lub; lra).
  assert (H : (Zfloor (val x) <= 16777216)%Z).
  { apply le_IZR. eapply Rle_trans; [apply Zfloor_lb|lra]. }
  unfold to_size. rewrite (trunc_ok x F ltac:(lra)).
  destruct (N.ltb_spec (Z.to_N (Zfloor (val x))) (2 ^ 64)) as [L|L]; [|exfalso].
  - rewrite Z2N.id by assumption. split; [reflexivity|]. split; [apply Zfloor_lb|].
    split; [apply Zfloor_ub|]. lia.
  - assert (2 ^ 64 = 18446744073709551616)%N by reflexivity. lia.
Qed.

Lemma vat_in {T} (l : list T) (i : N) : (i < N.of_nat (length l))%N ->
  exists x, vat l i = Ok x /\ nth_error l (N.to_nat i) = Some x.
Proof.
  intros H. unfold vat. destruct (N.ltb_spec i (N.of_nat (length l))) as [_|L]; [|lia].
  destruct (nth_error l (N.to_nat i)) as [x|] eqn:E.
  - exists x. split; [|reflexivity].
    assert (K : forall (l : list T) n, stdpp.base.lookup n l = nth_error l n).
    { induction l0 as [|a r IH]; intros [|n]; cbn; auto. }
    rewrite K, E. reflexivity.
  - apply nth_error_None in E. lia.
Qed.

Lemma spectrum_ok w (cs : list Color) :
  number w -> Forall is_color cs -> cs <> nil -> (N.of_nat (length cs) <= 2 ^ 24)%N ->
  exists c, color_spectrum w cs = Ok c /\
    (exists i x y, nth_error cs i = Some x /\ (nth_error cs (S i) = Some y \/ y = x) /\
       between_colors x y c) /\
    (a_le binary32 w (fz 0) = true -> nth_error cs 0 = Some c) /\
    (a_le binary32 (fz 1) w = true -> nth_error cs (length cs - 1) = Some c).
Proof.
  intros W FC NE LEN. destruct (clamp_ok w W) as (F & R & _).
  assert (FA : forall i x, nth_error cs i = Some x -> is_color x).
  { intros i x E. apply nth_error_In in E. rewrite List.Forall_forall in FC. auto. }
  unfold color_spectrum. destruct cs as [|c0 rest] eqn:CS; [congruence|]. rewrite <- CS in *.
  assert (P : (0 < length cs)%nat) by (rewrite CS; cbn; lia). clear CS c0 rest.
  set (v := unit_clamp w) in *. set (steps := (N.of_nat (length cs) - 1)%N).
  assert (SB : (steps < 2 ^ 24)%N) by lia.
  destruct (fz_ok steps ltac:(lia)) as (FS & VS).
  set (S := IZR (Z.of_N steps)) in *.
  assert (S0 : 0 <= S <= 16777215).
  { unfold S. split; apply IZR_le; [lia|]. assert (2 ^ 24 = 16777216)%N by reflexivity. lia. }
  assert (SZ : (0 <= Z.of_N steps <= 2 ^ 24)%Z) by lia.
  assert (M : 0 <= val v * val (fz steps) <= S) by (rewrite VS; nra).
  destruct (mul_in v (fz steps) (Z.of_N steps) SZ F FS) as (FP & VP); [fold S; lra|].
  assert (PB : 0 <= val (v *f fz steps) <= S).
  { rewrite VP. split; [apply (fl_bound_l _ 0); lia || lra|].
    apply fl_bound; [lia|]. fold S; lra. }
  destruct (to_size_ok _ FP ltac:(lra)) as (n & T & N1 & N2 & N3). rewrite T.
  cbn [rbind].
  assert (NS : (n <= steps)%N).
  { assert (K : (Z.of_N n <= Z.of_N steps)%Z); [|lia]. apply le_IZR. fold S. lra. }
  assert (LOW : a_le binary32 w (fz 0) = true -> val (v *f fz steps) = 0 /\ n = 0%N).
  { intros H. assert (V0 : val v = 0) by now apply clamp_low.
    assert (Z0 : val (v *f fz steps) = 0) by (rewrite VP, V0, Rmult_0_l; apply fl_0).
    split; [exact Z0|]. rewrite Z0 in N1.
    assert (K : (Z.of_N n <= 0)%Z) by (apply le_IZR; exact N1). lia. }
  assert (HIGH : a_le binary32 (fz 1) w = true -> n = steps).
  { intros H. assert (V1 : val v = 1) by now apply clamp_high.
    assert (Z1 : val (v *f fz steps) = S).
    { rewrite VP, V1, Rmult_1_l, VS. unfold S. apply fl_int. lia. }
    rewrite Z1 in N2. unfold S in N2. rewrite <- plus_IZR in N2. apply lt_IZR in N2. lia. }
  destruct (N.leb_spec steps n) as [L|L].
  - destruct (vat_in cs steps ltac:(lia)) as (x & E & G). rewrite E.
    assert (X : N.to_nat steps = (length cs - 1)%nat) by lia.
    exists x. split; [reflexivity|]. split; [|split].
    + exists (N.to_nat steps), x, x. split; [exact G|]. split; [now right|].
      unfold between_colors, between1. lia.
    + intros H. destruct (LOW H) as (_ & ->). assert (steps = 0%N) by lia.
      rewrite <- G. f_equal. lia.
    + intros _. rewrite <- G. f_equal. lia.
  - destruct (vat_in cs n ltac:(lia)) as (x & E & G). rewrite E. cbn [rbind].
    destruct (vat_in cs (n + 1) ltac:(lia)) as (y & E2 & G2). rewrite E2. cbn [rbind].
    destruct (fz_ok n ltac:(lia)) as (Fn & Vn).
    destruct (sub_in (v *f fz steps) (fz n) 1 ltac:(lia) FP Fn) as (FW & VW); [rewrite Vn; lra|].
    destruct (blend_ok x y _ (FA _ _ G) (FA _ _ G2) (fin_number _ FW)) as (c & B & Bt & It).
    exists c. split; [exact B|]. split; [|split].
    + exists (N.to_nat n), x, y. split; [exact G|]. split; [left|exact Bt].
      rewrite <- G2. f_equal. lia.
    + intros H. destruct (LOW H) as (Z0 & ->). 
      assert (VW0 : val (v *f fz steps -f fz 0) = 0).
      { rewrite VW, Vn, Z0. cbn. rewrite Rminus_0_r. apply fl_0. }
      rewrite (blend_at_0 x y) in B; [injection B as <-; exact G|eauto..|now apply fin_number|].
      destruct (clamp_ok _ (fin_number _ FW)) as (_ & _ & K1 & _).
      destruct fz0 as (F0 & V0), fz1 as (F1 & V1).
      rewrite K1; [exact VW0| |]; apply nlt_ok; try assumption; rewrite ?V0, ?V1; lra.
    + intros H. apply HIGH in H. lia.
Qed.

(** ** Hue conversions *)
Lemma e1 x : -1 <= x <= 1 -> - / 16777216 <= fl x - x <= / 16777216.
Proof. intros H. apply (fl_err_sym x 0); [lia|]. change (bpow radix2 0) with 1. lra. Qed.
Lemma e2 x : -2 <= x <= 2 -> - / 8388608 <= fl x - x <= / 8388608.
Proof. intros H. apply (fl_err_sym x 1); [lia|]. change (bpow radix2 1) with 2. lra. Qed.
Lemma e8 x : -256 <= x <= 256 -> - / 65536 <= fl x - x <= / 65536.
Proof. intros H. apply (fl_err_sym x 8); [lia|]. rewrite bp8. lra. Qed.
Lemma fl_rng x a b : (Z.abs a <= 2 ^ 24)%Z -> (Z.abs b <= 2 ^ 24)%Z ->
  IZR a <= x <= IZR b -> IZR a <= fl x <= IZR b.
Proof. intros A B (L & U). split; [apply fl_bound_l|apply fl_bound]; assumption. Qed.

Ltac num k := let F := fresh "F" in let V := fresh "V" in
  destruct (fz_ok k ltac:(lia)) as (F & V);
  let z := eval vm_compute in (Z.of_N k) in change (Z.of_N k) with z in V.

Lemma fmod2_ok x : fin x -> 0 <= val x <= 6 -> fin (fmod2 x) /\ 0 <= val (fmod2 x) <= 2.
Proof.
  intros F R. unfold fmod2. num 2%N. num 4%N. num 6%N.
  destruct (a_lt binary32 x (fz 2)) eqn:L2.
  { apply lt_ok in L2; [|assumption..]. split; [assumption|lra]. }
  apply nlt_ok in L2; [|assumption..].
  destruct (a_lt binary32 x (fz 4)) eqn:L4.
  { apply lt_ok in L4; [|assumption..].
    destruct (sub_in x (fz 2) 6 ltac:(lia) F ltac:(assumption)) as (G & W); [lra|].
    split; [exact G|]. rewrite W. apply (fl_rng _ 0 2); lia || lra. }
  apply nlt_ok in L4; [|assumption..].
  destruct (a_lt binary32 x (fz 6)) eqn:L6.
  { apply lt_ok in L6; [|assumption..].
    destruct (sub_in x (fz 4) 6 ltac:(lia) F ltac:(assumption)) as (G & W); [lra|].
    split; [exact G|]. rewrite W. apply (fl_rng _ 0 2); lia || lra. }
  apply nlt_ok in L6; [|assumption..].
  destruct (sub_in x (fz 6) 6 ltac:(lia) F ltac:(assumption)) as (G & W); [lra|].
  split; [exact G|]. rewrite W. apply (fl_rng _ 0 2); lia || lra.
Qed.

(** 1 - |y| for a y between -1 and 1. *)
Lemma one_minus_abs y : fin y -> -1 <= val y <= 1 ->
  fin (fz 1 -f a_abs binary32 y) /\ 0 <= val (fz 1 -f a_abs binary32 y) <= 1 /\
  val (fz 1 -f a_abs binary32 y) = fl (1 - Rabs (val y)).
Proof.
  intros F R. destruct (abs_ok y F) as (FA & VA), fz1 as (F1 & V1).
  assert (A : 0 <= Rabs (val y) <= 1) by (split; [apply Rabs_pos|apply Rabs_le; lra]).
  destruct (sub_in (fz 1) (a_abs binary32 y) 1 ltac:(lia) F1 FA) as (G & W); [rewrite V1, VA; lra|].
  rewrite V1, VA in W. split; [exact G|]. split; [|exact W].
  rewrite W. apply (fl_rng _ 0 1); lia || lra.
Qed.

Lemma scaled c t : fin c -> fin t -> 0 <= val c <= 1 -> 0 <= val t <= 1 ->
  fin (c *f t) /\ 0 <= val (c *f t) <= val c.
Proof.
  intros C T RC RT.
  destruct (mul_in c t 1 ltac:(lia) C T) as (G & W); [nra|].
  split; [exact G|]. rewrite W. split.
  - apply (fl_bound_l _ 0); [lia|nra].
  - rewrite <- (fl_val c C) at 2. apply fl_le. nra.
Qed.


(** Everything below up to [1/100000] is rounding. *)
Definition near (e x y : R) : Prop := - e <= x - y <= e.
Lemma near_abs e x y : near e x y -> near e (Rabs x) (Rabs y).
Proof. unfold near. intros H. unfold Rabs. destruct (Rcase_abs x), (Rcase_abs y); lra. Qed.
Lemma near_scale e c x y : 0 <= c <= 1 -> near e x y -> near e (c * x) (c * y).
Proof. unfold near. intros C H. rewrite <- Rmult_minus_distr_l. nra. Qed.

Lemma e4m x : -8 <= x <= 8 -> near (/ 2097152) (fl x) x.
Proof. intros H. apply (fl_err_sym x 3); [lia|]. change (bpow radix2 3) with 8. lra. Qed.

Lemma fmod2_near x (k : R) : fin x -> 0 <= val x <= 6 ->
  exists k, near (/ 1000000) (val (fmod2 x)) (val x - 2 * k) /\
    ((k = 0 /\ val x < 2) \/ (k = 1 /\ 2 <= val x < 4) \/ (k = 2 /\ 4 <= val x < 6) \/
     (k = 3 /\ val x = 6)).
Proof.
  intros F R. unfold fmod2. num 2%N. num 4%N. num 6%N. unfold near.
  destruct (a_lt binary32 x (fz 2)) eqn:L2.
  { apply lt_ok in L2; [|assumption..]. exists 0. split; [lra|left; lra]. }
  apply nlt_ok in L2; [|assumption..].
  destruct (a_lt binary32 x (fz 4)) eqn:L4.
  { apply lt_ok in L4; [|assumption..]. exists 1.
    destruct (sub_in x (fz 2) 6 ltac:(lia) F ltac:(assumption)) as (G & W); [lra|].
    pose proof (e2 (val x - val (fz 2)) ltac:(lra)). rewrite <- W in H. lra. }
  apply nlt_ok in L4; [|assumption..].
  destruct (a_lt binary32 x (fz 6)) eqn:L6.
  { apply lt_ok in L6; [|assumption..]. exists 2.
    destruct (sub_in x (fz 4) 6 ltac:(lia) F ltac:(assumption)) as (G & W); [lra|].
    pose proof (e2 (val x - val (fz 4)) ltac:(lra)). rewrite <- W in H. lra. }
  apply nlt_ok in L6; [|assumption..]. exists 3.
  destruct (sub_in x (fz 6) 6 ltac:(lia) F ltac:(assumption)) as (G & W); [lra|].
  pose proof (e2 (val x - val (fz 6)) ltac:(lra)). rewrite <- W in H. lra.
Qed.

Ltac abs_cases := unfold hue_r, hue_g, hue_b, clamp01, near, Rmax, Rmin, Rabs in *;
  repeat (match goal with |- context [Rcase_abs ?a] => destruct (Rcase_abs a) end);
  repeat (match goal with |- context [Rle_dec 1 ?b] => destruct (Rle_dec 1 b) end);
  repeat (match goal with |- context [Rle_dec 0 ?b] => destruct (Rle_dec 0 b) end); lra.

Definition rgb_near (c h : R) (t : f32 * f32 * f32) : Prop :=
  let '(r, g, b) := t in
  (fin r /\ near (/ 100000) (val r) (c * hue_r h)) /\
  (fin g /\ near (/ 100000) (val g) (c * hue_g h)) /\
  (fin b /\ near (/ 100000) (val b) (c * hue_b h)).

Lemma near_1 e c f : 0 <= e -> 0 <= c <= 1 -> near e 1 f -> near e c (c * f).
Proof. unfold near. intros. nra. Qed.
Lemma near_0 e c f : 0 <= e -> 0 <= c <= 1 -> near e 0 f -> near e 0 (c * f).
Proof. unfold near. intros. nra. Qed.
Lemma near_x e1 e2 c x u f : 0 <= c <= 1 -> near e1 x (c * u) -> near e2 u f -> near (e1 + e2) x (c * f).
Proof. intros C H K. apply (near_scale _ c) in K; [|assumption]. unfold near in *. lra. Qed.

Lemma rgb_acc c h : fin c -> fin h -> 0 <= val c <= 1 -> 0 <= val h <= 1 ->
  rgb_near (val c) (val h) (rgb_from_chroma_hue c h).
Proof.
  intros C H RC RH. unfold rgb_from_chroma_hue. num 6%N.
  destruct (mul_in h (fz 6) 6 ltac:(lia) H ltac:(assumption)) as (G & W); [rewrite V; lra|].
  rewrite V in W.
  assert (B6 : 0 <= val (h *f fz 6) <= 6).
  { rewrite W. apply (fl_rng _ 0 6); lia || lra. }
  assert (N6 : near (/ 2097152) (val (h *f fz 6)) (6 * val h)).
  { rewrite W. replace (6 * val h) with (val h * 6) by lra. apply e4m. lra. }
  clear W. set (p := h *f fz 6) in *. clearbody p.
  destruct (fmod2_ok _ G B6) as (F2 & B2). destruct fz1 as (F1 & V1), fz0 as (F0 & V0).
  destruct (fmod2_near _ 0 G B6) as (k & NK & K).
  destruct (sub_in (fmod2 p) (fz 1) 1 ltac:(lia) F2 F1) as (F3 & V3); [rewrite V1; lra|].
  assert (B3 : -1 <= val (fmod2 p -f fz 1) <= 1).
  { rewrite V3, V1. apply (fl_rng _ (-1) 1); lia || lra. }
  pose proof (e1 (val (fmod2 p) - 1) ltac:(lra)) as N3. rewrite V1 in V3. rewrite <- V3 in N3.
  destruct (one_minus_abs _ F3 B3) as (F4 & B4 & V4).
  assert (N4 : near (/ 200000) (val (fz 1 -f a_abs binary32 (fmod2 p -f fz 1)))
                 (1 - Rabs (val p - 2 * k - 1))).
  { assert (A : near (/ 500000) (val (fmod2 p -f fz 1)) (val p - 2 * k - 1)) by (unfold near in *; lra).
    apply near_abs in A.
    assert (Q : 0 <= Rabs (val (fmod2 p -f fz 1)) <= 1) by (split; [apply Rabs_pos|apply Rabs_le; lra]).
    pose proof (e1 (1 - Rabs (val (fmod2 p -f fz 1))) ltac:(lra)) as E. rewrite <- V4 in E.
    unfold near in *. lra. }
  set (u := fz 1 -f _) in *. clearbody u.
  destruct (scaled c _ C F4 RC B4) as (F5 & B5).
  assert (N5 : near (/ 10000000) (val (c *f u)) (val c * val u)).
  { destruct (mul_in c u 1 ltac:(lia) C F4) as (_ & ->); [nra|].
    pose proof (e1 (val c * val u) ltac:(nra)). unfold near. lra. }
  set (x := c *f u) in *. clearbody x.
  num 2%N. num 3%N. num 4%N. num 5%N.
  assert (ONE : forall f, near (/ 100000) 1 f -> fin c /\ near (/ 100000) (val c) (val c * f)).
  { intros f Q. split; [exact C|]. apply near_1; lra || assumption. }
  assert (ZER : forall f, near (/ 100000) 0 f -> fin (fz 0) /\ near (/ 100000) (val (fz 0)) (val c * f)).
  { intros f Q. split; [exact F0|]. rewrite V0. apply near_0; lra || assumption. }
  assert (XXX : forall f, near (/ 300000) (1 - Rabs (val p - 2 * k - 1)) f ->
            fin x /\ near (/ 100000) (val x) (val c * f)).
  { intros f Q. split; [exact F5|].
    assert (Z0 : near (/ 200000 + / 300000) (val u) f) by (unfold near in *; lra).
    pose proof (near_x _ _ _ _ _ _ RC N5 Z0). unfold near in *. lra. }
  clear N4 N5 N3 NK V4 V3 B3.
  destruct (a_lt binary32 p (fz 1)) eqn:L1; [apply lt_ok in L1; [|assumption..]|apply nlt_ok in L1; [|assumption..]].
  { assert (k = 0) as -> by lra. split; [|split]; [apply ONE|apply XXX|apply ZER]; clear ONE XXX ZER; abs_cases. }
  destruct (a_lt binary32 p (fz 2)) eqn:L2; [apply lt_ok in L2; [|assumption..]|apply nlt_ok in L2; [|assumption..]].
  { assert (k = 0) as -> by lra. split; [|split]; [apply XXX|apply ONE|apply ZER]; clear ONE XXX ZER; abs_cases. }
  destruct (a_lt binary32 p (fz 3)) eqn:L3; [apply lt_ok in L3; [|assumption..]|apply nlt_ok in L3; [|assumption..]].
  { assert (k = 1) as -> by lra. split; [|split]; [apply ZER|apply ONE|apply XXX]; clear ONE XXX ZER; abs_cases. }
  destruct (a_lt binary32 p (fz 4)) eqn:L4; [apply lt_ok in L4; [|assumption..]|apply nlt_ok in L4; [|assumption..]].
  { assert (k = 1) as -> by lra. split; [|split]; [apply ZER|apply XXX|apply ONE]; clear ONE XXX ZER; abs_cases. }
  destruct (a_lt binary32 p (fz 5)) eqn:L5; [apply lt_ok in L5; [|assumption..]|apply nlt_ok in L5; [|assumption..]].
  { assert (k = 2) as -> by lra. split; [|split]; [apply XXX|apply ZER|apply ONE]; clear ONE XXX ZER; abs_cases. }
  assert (k = 2 \/ k = 3) as [-> | ->] by lra.
  all: split; [|split]; [apply ONE|apply ZER|apply XXX]; clear ONE XXX ZER; abs_cases.
Qed.

Lemma hue_unit f : (exists h, f = hue_r h \/ f = hue_g h \/ f = hue_b h) -> 0 <= f <= 1.
Proof. intros (h & [-> | [-> | ->]]); unfold hue_r, hue_g, hue_b, clamp01, Rmax, Rmin;
  repeat (match goal with |- context [Rle_dec ?a ?b] => destruct (Rle_dec a b) end); lra. Qed.

Lemma channel_ok r m (cf low : R) : fin r -> fin m -> near (/ 50000) (val r) cf ->
  near (/ 100000) (val m) low -> 0 <= low -> 0 <= cf -> cf + low <= 1 ->
  exists n, to_u8 ((r +f m) *f fz 255) = Ok n /\ (n < 256)%N /\ channel_of (low + cf) n.
Proof.
  intros FR FM NR NM L0 C0 B. num 255%N. unfold near in *.
  destruct (add_in r m 2 ltac:(lia) FR FM) as (FS & VS); [lra|].
  pose proof (e2 (val r + val m) ltac:(lra)) as E. rewrite <- VS in E.
  destruct (mul_in (r +f m) (fz 255) 256 ltac:(lia) FS ltac:(assumption)) as (FP & VP); [rewrite V; lra|].
  rewrite V in VP.
  pose proof (e8 (val (r +f m) * 255) ltac:(lra)) as E'. rewrite <- VP in E'.
  destruct (Rle_or_lt 0 (val ((r +f m) *f fz 255))) as [P|P].
  - destruct (to_u8_ok _ 0 FP P ltac:(lra)) as (T & L & LB & UB).
    eexists. split; [exact T|]. split; [exact L|]. unfold channel_of. lra.
  - exists 0%N. unfold to_u8. rewrite (trunc_neg _ FP ltac:(lra)). split; [reflexivity|].
    split; [lia|]. unfold channel_of. cbn [Z.of_N]. lra.
Qed.

Lemma shift_ok t m c c' h low : rgb_near c h t -> near (/ 100000) c c' -> fin m -> near (/ 100000) (val m) low ->
  0 <= low -> 0 <= c' -> c' + low <= 1 ->
  exists x, rgb_shift t m = Ok x /\ is_color x /\ shows_hue h c' low x.
Proof.
  destruct t as [[r g] b]. intros ((FR & BR) & (FG & BG) & (FB & BB)) CC FM NM L0 C0 U.
  pose proof (hue_unit (hue_r h) ltac:(eauto)) as HR.
  pose proof (hue_unit (hue_g h) ltac:(eauto)) as HG.
  pose proof (hue_unit (hue_b h) ltac:(eauto)) as HB.
  assert (M : forall x f, 0 <= f <= 1 -> near (/ 100000) x (c * f) -> near (/ 50000) x (c' * f)).
  { intros x f Hf N. assert (near (/ 100000) (c * f) (c' * f)); [|unfold near in *; lra].
    rewrite (Rmult_comm c), (Rmult_comm c'). apply near_scale; assumption. }
  apply M in BR; [|assumption]. apply M in BG; [|assumption]. apply M in BB; [|assumption].
  destruct (channel_ok r m _ _ FR FM BR NM L0 ltac:(nra) ltac:(nra)) as (x & E1 & L1 & S1).
  destruct (channel_ok g m _ _ FG FM BG NM L0 ltac:(nra) ltac:(nra)) as (y & E2 & L2 & S2).
  destruct (channel_ok b m _ _ FB FM BB NM L0 ltac:(nra) ltac:(nra)) as (z & E3 & L3 & S3).
  unfold rgb_shift. rewrite E1, E2, E3. eexists. split; [reflexivity|].
  split; [unfold is_color; cbn; lia|]. unfold shows_hue. cbn [c_r c_g c_b c_a]. auto.
Qed.

Lemma hsv_ok h s v : number h -> number s -> number v ->
  exists c, color_hsv h s v = Ok c /\ is_color c /\
    let H := val (unit_clamp h) in let S := val (unit_clamp s) in let V := val (unit_clamp v) in
    shows_hue H (V * S) (V - V * S) c.
Proof.
  intros H S V. unfold color_hsv.
  destruct (clamp_ok h H) as (FH & RH & _). destruct (clamp_ok s S) as (FS & RS & _).
  destruct (clamp_ok v V) as (FV & RV & _). cbn zeta.
  destruct (scaled _ _ FV FS RV RS) as (FC & BC).
  destruct (mul_in (unit_clamp v) (unit_clamp s) 1 ltac:(lia) FV FS) as (_ & VC); [nra|].
  pose proof (e1 (val (unit_clamp v) * val (unit_clamp s)) ltac:(nra)) as EC. rewrite <- VC in EC.
  set (c := _ *f _) in *. clearbody c.
  destruct (sub_in (unit_clamp v) c 1 ltac:(lia) FV FC) as (FM & VM); [lra|].
  pose proof (e1 (val (unit_clamp v) - val c) ltac:(lra)) as E. rewrite <- VM in E.
  apply (shift_ok _ _ (val c)); unfold near; try lra; try nra.
  - apply rgb_acc; lra || assumption.
  - exact FM.
Qed.

Lemma hls_ok h l s : number h -> number l -> number s ->
  exists c, color_hls h l s = Ok c /\ is_color c /\
    let H := val (unit_clamp h) in let L := val (unit_clamp l) in let S := val (unit_clamp s) in
    let chroma := (1 - Rabs (2 * L - 1)) * S in
    shows_hue H chroma (L - chroma / 2) c.
Proof.
  intros H L S. unfold color_hls.
  destruct (clamp_ok h H) as (FH & RH & _). destruct (clamp_ok s S) as (FS & RS & _).
  destruct (clamp_ok l L) as (FL & RL & _).
  set (l' := unit_clamp l) in *. set (s' := unit_clamp s) in *. set (h' := unit_clamp h) in *.
  clearbody l' s' h'. cbn zeta. num 2%N. destruct fz1 as (F1 & V1).
  destruct (mul_in (fz 2) l' 2 ltac:(lia) ltac:(assumption) FL) as (F2 & V2); [rewrite V; lra|].
  rewrite V in V2.
  assert (B2 : 0 <= val (fz 2 *f l') <= 2) by (rewrite V2; apply (fl_rng _ 0 2); lia || lra).
  pose proof (e2 (2 * val l') ltac:(lra)) as E2. rewrite <- V2 in E2.
  destruct (sub_in (fz 2 *f l') (fz 1) 1 ltac:(lia) F2 F1) as (F3 & V3); [rewrite V1; lra|].
  rewrite V1 in V3.
  assert (B3 : -1 <= val (fz 2 *f l' -f fz 1) <= 1) by (rewrite V3; apply (fl_rng _ (-1) 1); lia || lra).
  pose proof (e1 (val (fz 2 *f l') - 1) ltac:(lra)) as E3. rewrite <- V3 in E3.
  destruct (one_minus_abs _ F3 B3) as (F4 & B4 & V4).
  set (y := fz 2 *f l' -f fz 1) in *.
  assert (AB : 0 <= Rabs (val y) <= 1) by (split; [apply Rabs_pos|apply Rabs_le; lra]).
  pose proof (e1 (1 - Rabs (val y)) ltac:(lra)) as E4. rewrite <- V4 in E4.
  assert (NY : near (/ 1000000) (Rabs (val y)) (Rabs (2 * val l' - 1))).
  { apply near_abs. unfold near. lra. }
  assert (AL : Rabs (2 * val l' - 1) <= 1 /\ 2 * val l' - 1 <= Rabs (2 * val l' - 1) /\
               - (2 * val l' - 1) <= Rabs (2 * val l' - 1)).
  { split; [apply Rabs_le; lra|]. split; [apply Rle_abs|]. rewrite <- Rabs_Ropp. apply Rle_abs. }
  set (al := Rabs (2 * val l' - 1)) in *.
  destruct (scaled _ _ F4 FS B4 RS) as (F5 & B5).
  destruct (mul_in (fz 1 -f a_abs binary32 y) s' 1 ltac:(lia) F4 FS) as (_ & VC); [nra|].
  pose proof (e1 (val (fz 1 -f a_abs binary32 y) * val s') ltac:(nra)) as EC. rewrite <- VC in EC.
  assert (NU : near (/ 500000) (val (fz 1 -f a_abs binary32 y) * val s') ((1 - al) * val s')).
  { rewrite (Rmult_comm _ (val s')), (Rmult_comm (1 - al)). apply near_scale; [assumption|].
    unfold near in *. lra. }
  set (c := (fz 1 -f a_abs binary32 y) *f s') in *.
  destruct (div_in c (fz 2) 1 ltac:(lia) F5 ltac:(assumption)) as (F6 & V6); [rewrite V; lra|rewrite V; lra|].
  rewrite V in V6. pose proof (e1 (val c / 2) ltac:(lra)) as E6. rewrite <- V6 in E6.
  destruct (sub_in l' (a_div binary32 c (fz 2)) 2 ltac:(lia) FL F6) as (F7 & V7); [lra|].
  pose proof (e2 (val l' - val (a_div binary32 c (fz 2))) ltac:(lra)) as E7. rewrite <- V7 in E7.
  assert (NP : 0 <= (1 - al) * val s' <= 1 - al) by nra.
  unfold near in *.
  apply (shift_ok _ _ (val c)); unfold near; try lra.
  - apply rgb_acc; lra || assumption.
  - exact F7.
Qed.

Lemma unit_value_ok x : number x -> val (unit_clamp x) = unit_value x.
Proof.
  intros N. unfold unit_value.
  change f_zero with (fz 0). change f_one with (fz 1).
  destruct (SFleb x (fz 0)) eqn:A; [apply clamp_low; assumption|].
  destruct (SFleb (fz 1) x) eqn:B; [apply clamp_high; assumption|].
  destruct (clamp_ok x N) as (_ & _ & K & _). rewrite K; [reflexivity| |].
  - cbn [a_lt binary32]. unfold SFltb, SFleb in *. destruct (SFcompare x (fz 0)) as [[]|]; congruence.
  - cbn [a_lt binary32]. unfold SFltb, SFleb in *. destruct (SFcompare (fz 1) x) as [[]|]; congruence.
Qed.
