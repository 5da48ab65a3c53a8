(** Rotation matrices and quaternions, over the real numbers. *)
From Coq Require Import Reals Lra.
From Verif.Model Require Import Numbers BBox Rotation.
From Verif.Spec Require Import RotationSpec.
Local Open Scope R_scope.

Section Rot.
  Context (a b c d e f g h i : R).
  Hypothesis (R00 : a * a + b * b + c * c = 1) (R11 : d * d + e * e + f * f = 1) (R22 : g * g + h * h + i * i = 1)
    (R01 : a * d + b * e + c * f = 0) (R02 : a * g + b * h + c * i = 0) (R12 : d * g + e * h + f * i = 0)
    (D : a * (e * i - f * h) - b * (d * i - f * g) + c * (d * h - e * g) = 1).
  (** the cofactors are the entries *)
  Lemma cof_a : e * i - f * h = a.
  Proof using R00 R01 R02 D. transitivity ((e * i - f * h) * (a * a + b * b + c * c) + (c * h - b * i) * (a * d + b * e + c * f) + (b * f - c * e) * (a * g + b * h + c * i)); [rewrite R00, R01, R02; ring|].
    transitivity ((a * (e * i - f * h) - b * (d * i - f * g) + c * (d * h - e * g)) * a); [ring|rewrite D; ring]. Qed.
  Lemma cof_b : f * g - d * i = b.
  Proof using R00 R01 R02 D. transitivity ((f * g - d * i) * (a * a + b * b + c * c) + (a * i - c * g) * (a * d + b * e + c * f) + (c * d - a * f) * (a * g + b * h + c * i)); [rewrite R00, R01, R02; ring|].
    transitivity ((a * (e * i - f * h) - b * (d * i - f * g) + c * (d * h - e * g)) * b); [ring|rewrite D; ring]. Qed.
  Lemma cof_c : d * h - e * g = c.
  Proof using R00 R01 R02 D. transitivity ((d * h - e * g) * (a * a + b * b + c * c) + (b * g - a * h) * (a * d + b * e + c * f) + (a * e - b * d) * (a * g + b * h + c * i)); [rewrite R00, R01, R02; ring|].
    transitivity ((a * (e * i - f * h) - b * (d * i - f * g) + c * (d * h - e * g)) * c); [ring|rewrite D; ring]. Qed.
  Lemma cof_d : c * h - b * i = d.
  Proof using R01 R11 R12 D. transitivity ((e * i - f * h) * (a * d + b * e + c * f) + (c * h - b * i) * (d * d + e * e + f * f) + (b * f - c * e) * (d * g + e * h + f * i)); [rewrite R01, R11, R12; ring|].
    transitivity ((a * (e * i - f * h) - b * (d * i - f * g) + c * (d * h - e * g)) * d); [ring|rewrite D; ring]. Qed.
  Lemma cof_e : a * i - c * g = e.
  Proof using R01 R11 R12 D. transitivity ((f * g - d * i) * (a * d + b * e + c * f) + (a * i - c * g) * (d * d + e * e + f * f) + (c * d - a * f) * (d * g + e * h + f * i)); [rewrite R01, R11, R12; ring|].
    transitivity ((a * (e * i - f * h) - b * (d * i - f * g) + c * (d * h - e * g)) * e); [ring|rewrite D; ring]. Qed.
  Lemma cof_f : b * g - a * h = f.
  Proof using R01 R11 R12 D. transitivity ((d * h - e * g) * (a * d + b * e + c * f) + (b * g - a * h) * (d * d + e * e + f * f) + (a * e - b * d) * (d * g + e * h + f * i)); [rewrite R01, R11, R12; ring|].
    transitivity ((a * (e * i - f * h) - b * (d * i - f * g) + c * (d * h - e * g)) * f); [ring|rewrite D; ring]. Qed.
  Lemma cof_g : b * f - c * e = g.
  Proof using R02 R22 R12 D. transitivity ((e * i - f * h) * (a * g + b * h + c * i) + (c * h - b * i) * (d * g + e * h + f * i) + (b * f - c * e) * (g * g + h * h + i * i)); [rewrite R02, R12, R22; ring|].
    transitivity ((a * (e * i - f * h) - b * (d * i - f * g) + c * (d * h - e * g)) * g); [ring|rewrite D; ring]. Qed.
  Lemma cof_h : c * d - a * f = h.
  Proof using R02 R22 R12 D. transitivity ((f * g - d * i) * (a * g + b * h + c * i) + (a * i - c * g) * (d * g + e * h + f * i) + (c * d - a * f) * (g * g + h * h + i * i)); [rewrite R02, R12, R22; ring|].
    transitivity ((a * (e * i - f * h) - b * (d * i - f * g) + c * (d * h - e * g)) * h); [ring|rewrite D; ring]. Qed.
  Lemma cof_i : a * e - b * d = i.
  Proof using R02 R22 R12 D. transitivity ((d * h - e * g) * (a * g + b * h + c * i) + (b * g - a * h) * (d * g + e * h + f * i) + (a * e - b * d) * (g * g + h * h + i * i)); [rewrite R02, R12, R22; ring|].
    transitivity ((a * (e * i - f * h) - b * (d * i - f * g) + c * (d * h - e * g)) * i); [ring|rewrite D; ring]. Qed.
  (** the columns are orthonormal too *)
  Definition columns : Prop := a * a + d * d + g * g = 1 /\ b * b + e * e + h * h = 1 /\ c * c + f * f + i * i = 1 /\
    a * b + d * e + g * h = 0 /\ a * c + d * f + g * i = 0 /\ b * c + e * f + h * i = 0.
  Lemma columns_ok : columns.
  Proof using R00 R11 R22 R01 R02 R12 D.
    pose proof cof_a as Ca. pose proof cof_b as Cb. pose proof cof_c as Cc. pose proof cof_d as Cd. pose proof cof_e as Ce. pose proof cof_f as Cf. pose proof cof_g as Cg. pose proof cof_h as Ch. pose proof cof_i as Ci.
    unfold columns. split; [|split; [|split; [|split; [|split]]]].
    - rewrite <- Ca at 2. rewrite <- Cd at 2. rewrite <- Cg at 2. rewrite <- D. ring.
    - rewrite <- Cb at 2. rewrite <- Ce at 2. rewrite <- Ch at 2. rewrite <- D. ring.
    - rewrite <- Cc at 2. rewrite <- Cf at 2. rewrite <- Ci at 2. rewrite <- D. ring.
    - transitivity (a * (f * g - d * i) + d * (a * i - c * g) + g * (c * d - a * f)); [rewrite Cb, Ce, Ch; reflexivity|ring].
    - transitivity (a * (d * h - e * g) + d * (b * g - a * h) + g * (a * e - b * d)); [rewrite Cc, Cf, Ci; reflexivity|ring].
    - transitivity (b * (d * h - e * g) + e * (b * g - a * h) + h * (a * e - b * d)); [rewrite Cc, Cf, Ci; reflexivity|ring].
  Qed.
  (** the products of the components of the quaternion *)
  Definition products (w x y z : R) : Prop :=
    4 * (w * w) = 1 + a + e + i /\ 4 * (x * x) = 1 + a - e - i /\ 4 * (y * y) = 1 - a + e - i /\ 4 * (z * z) = 1 - a - e + i /\
    4 * (w * x) = h - f /\ 4 * (w * y) = c - g /\ 4 * (w * z) = d - b /\ 4 * (x * y) = b + d /\ 4 * (x * z) = c + g /\ 4 * (y * z) = f + h.
  Ltac facts := pose proof cof_a as Ca; pose proof cof_b as Cb; pose proof cof_c as Cc; pose proof cof_d as Cd; pose proof cof_e as Ce; pose proof cof_f as Cf; pose proof cof_g as Cg; pose proof cof_h as Ch; pose proof cof_i as Ci;
    destruct columns_ok as (K1 & K2 & K3 & K4 & K5 & K6).
  (** [p q] with p = u r, q = v r and 4 r r X = 1 *)
  Lemma scaled u v r X m : 4 * (r * r) * X = 1 -> u * v = X * m -> 4 * ((u * r) * (v * r)) = m.
  Proof using. intros H E. replace (4 * (u * r * (v * r))) with (4 * (r * r) * (u * v)) by ring. rewrite E. transitivity (4 * (r * r) * X * m); [ring|rewrite H; ring]. Qed.
  Lemma crossed u r s m : r * s = 1 / 2 -> u = m -> 4 * (1 / 2 * s * (u * r)) = m.
  Proof using. intros H <-. transitivity (2 * u * (r * s)); [field|rewrite H; field]. Qed.
  Lemma squared s X : s * s = X -> 4 * (1 / 2 * s * (1 / 2 * s)) = X.
  Proof using. intros <-. field. Qed.
  Lemma inverse r s X : r * s = 1 / 2 -> s * s = X -> 4 * (r * r) * X = 1.
  Proof using. intros H <-. transitivity (4 * ((r * s) * (r * s))); [ring|rewrite H; field]. Qed.
  Lemma swap u v m : 4 * (u * v) = m -> 4 * (v * u) = m.
  Proof using. intros <-. ring. Qed.
  Context (r s : R) (Hrs : r * s = 1 / 2).
  Ltac prod X Hs := let H := fresh in pose proof (inverse r s X Hrs Hs) as H; repeat split;
    first [apply squared; lra | apply crossed; [exact Hrs|lra] | apply swap, crossed; [exact Hrs|lra] | apply (scaled _ _ r X); [exact H|lra]].
  Lemma prod_w : s * s = 1 + a + e + i -> products (1 / 2 * s) ((h - f) * r) ((c - g) * r) ((d - b) * r).
  Proof using All. intros Hs. facts. prod (1 + a + e + i) Hs. Qed.
  Lemma prod_x : s * s = 1 + a - e - i -> products ((h - f) * r) (1 / 2 * s) ((d + b) * r) ((g + c) * r).
  Proof using All. intros Hs. facts. prod (1 + a - e - i) Hs. Qed.
  Lemma prod_y : s * s = 1 - a + e - i -> products ((c - g) * r) ((b + d) * r) (1 / 2 * s) ((h + f) * r).
  Proof using All. intros Hs. facts. prod (1 - a + e - i) Hs. Qed.
  Lemma prod_z : s * s = 1 - a - e + i -> products ((d - b) * r) ((c + g) * r) ((f + h) * r) (1 / 2 * s).
  Proof using All. intros Hs. facts. prod (1 - a - e + i) Hs. Qed.
End Rot.

Lemma half_inverse s X : 0 < X -> s = sqrt X -> (1 / 2) / s * s = 1 / 2 /\ s * s = X.
Proof. intros HX ->. pose proof (sqrt_lt_R0 X HX) as Hs. split; [field; lra|apply sqrt_sqrt; lra]. Qed.
Lemma products_back a b c d e f g h i w x y z : products a b c d e f g h i w x y z ->
  rot_of_quat reals (mkQ4 w x y z) = mkM3 (mkV3 a b c) (mkV3 d e f) (mkV3 g h i) /\ w * w + x * x + y * y + z * z = 1.
Proof.
  intros (H1 & H2 & H3 & H4 & H5 & H6 & H7 & H8 & H9 & H10). split; [|lra]. unfold rot_of_quat. cbn [reals a_of_Z a_add a_sub a_mul a_div num qw qx qy qz].
  f_equal; f_equal; lra.
Qed.
Lemma lt_true x y : (if Rlt_dec x y then true else false) = true -> x < y.
Proof. destruct (Rlt_dec x y); [auto|discriminate]. Qed.
Lemma lt_false x y : (if Rlt_dec x y then true else false) = false -> y <= x.
Proof. destruct (Rlt_dec x y); [discriminate|intros _; lra]. Qed.
Lemma quat_products a b c d e f g h i : is_rotation (mkM3 (mkV3 a b c) (mkV3 d e f) (mkV3 g h i)) ->
  let q := quat_of_rot reals (mkM3 (mkV3 a b c) (mkV3 d e f) (mkV3 g h i)) in products a b c d e f g h i (qw q) (qx q) (qy q) (qz q).
Proof.
  intros (R00 & R11 & R22 & R01 & R02 & R12 & D). unfold dot, det in *. cbn [mx my mz vx vy vz] in *.
  unfold quat_of_rot. cbn [reals a_of_Z a_add a_sub a_mul a_div a_sqrt a_lt num mx my mz vx vy vz].
  destruct (if Rlt_dec 0 (a + (e + i)) then true else false) eqn:C1; [|destruct (if Rlt_dec (if if Rlt_dec a e then true else false then e else a) i then true else false) eqn:C2; [|destruct (if Rlt_dec a e then true else false) eqn:C3]]; cbv zeta; cbn [qw qx qy qz].
  - apply lt_true in C1. destruct (half_inverse _ (a + (e + i) + 1) ltac:(lra) eq_refl) as [Hr Hs]. apply prod_w; try assumption. rewrite Hs. ring.
  - apply lt_false in C1. apply lt_true in C2. assert (C : a < i /\ e < i).
    { destruct (if Rlt_dec a e then true else false) eqn:C3; [apply lt_true in C3|apply lt_false in C3]; lra. }
    destruct (half_inverse _ (i - a - e + 1) ltac:(lra) eq_refl) as [Hr Hs]. apply prod_z; try assumption. rewrite Hs. ring.
  - apply lt_false in C1, C2. apply lt_true in C3. destruct (half_inverse _ (e - i - a + 1) ltac:(lra) eq_refl) as [Hr Hs]. apply prod_y; try assumption. rewrite Hs. ring.
  - apply lt_false in C1, C2, C3. destruct (half_inverse _ (a - e - i + 1) ltac:(lra) eq_refl) as [Hr Hs]. apply prod_x; try assumption. rewrite Hs. ring.
Qed.
Theorem rotation_back m : is_rotation m -> rot_of_quat reals (quat_of_rot reals m) = m.
Proof.
  intros H. destruct m as [[a b c] [d e f] [g h i]]. pose proof (quat_products a b c d e f g h i H) as P. cbv zeta in P.
  destruct (quat_of_rot reals _) as [w x y z]. cbn [qw qx qy qz] in P. apply (products_back a b c d e f g h i w x y z P).
Qed.
Theorem rotation_unit m : is_rotation m -> let q := quat_of_rot reals m in qw q * qw q + qx q * qx q + qy q * qy q + qz q * qz q = 1.
Proof.
  intros H. destruct m as [[a b c] [d e f] [g h i]]. pose proof (quat_products a b c d e f g h i H) as P. cbv zeta in *.
  destruct (quat_of_rot reals _) as [w x y z]. cbn [qw qx qy qz] in *. apply (products_back a b c d e f g h i w x y z P).
Qed.
(** a unit quaternion is a rotation *)
Theorem unit_rotation q : qw q * qw q + qx q * qx q + qy q * qy q + qz q * qz q = 1 -> is_rotation (rot_of_quat reals q).
Proof.
  destruct q as [w x y z]. cbn [qw qx qy qz]. intros H. unfold rot_of_quat, is_rotation, dot, det. cbn [reals a_of_Z a_add a_sub a_mul a_div num mx my mz vx vy vz qw qx qy qz].
  assert (W : w * w = 1 - x * x - y * y - z * z) by lra.
  repeat split; ring_simplify; replace (w ^ 2) with (w * w) by ring; rewrite ?W; ring.
Qed.
