(** Colours of ids: hues as fractions *)
From Coq Require Import ZArith NArith Lia Bool List QArith Qround Qfield.
From Verif.Model Require Import Types Mesh Numbers Color.
Import ListNotations.
Set Default Proof Using "Type".
Local Open Scope N_scope.

(** the hue of an id is [hnum id n / (n * 2 ^ hexp id n)] *)
Definition hexp (id n : N) : N := if id / n =? 0 then 0 else N.log2 (id / n) + 1.
Definition hnum (id n : N) : N :=
  (id mod n) * 2 ^ hexp id n + (if id / n =? 0 then 0 else 2 * (id / n - 2 ^ N.log2 (id / n)) + 1).

Definition qz (x : N) : Q := inject_Z (Z.of_N x).

Lemma div_floor (a b : N) : 0 < b -> Qfloor (qz a / qz b) = Z.of_N (a / b).
Proof.
  intros H. unfold qz. rewrite N2Z.inj_div.
  unfold Qfloor, Qdiv, Qmult, Qinv, inject_Z. cbn [Qnum Qden].
  destruct (Z.of_N b) eqn:E; try lia. cbn. rewrite Z.mul_1_r. reflexivity.
Qed.
Lemma qz_pos x : 0 < x -> ~ (qz x == 0)%Q.
Proof. intros H. unfold qz, Qeq, inject_Z. cbn. lia. Qed.
Lemma qz_add x y : (qz (x + y) == qz x + qz y)%Q.
Proof. unfold qz. rewrite N2Z.inj_add, inject_Z_plus. reflexivity. Qed.
Lemma qz_mul x y : (qz (x * y) == qz x * qz y)%Q.
Proof. unfold qz. rewrite N2Z.inj_mul, inject_Z_mult. reflexivity. Qed.

Lemma log_lt r : 0 < r -> 2 ^ N.log2 r <= r < 2 * 2 ^ N.log2 r.
Proof. intros H. destruct (N.log2_spec r H) as (A & B). rewrite N.pow_succ_r' in B. lia. Qed.

Lemma fmod_q id n : 0 < n -> (q_fmod1 (qz id / qz n) == qz (id mod n) / qz n)%Q.
Proof.
  intros H. unfold q_fmod1. rewrite div_floor by exact H. change (inject_Z (Z.of_N (id / n))) with (qz (id / n)).
  assert (E : id = n * (id / n) + id mod n) by (apply N.div_mod; lia).
  rewrite E at 1. rewrite qz_add, qz_mul. field. now apply qz_pos.
Qed.

Lemma mod_small_eq a : a < 2 ^ 64 -> a mod 2 ^ 64 = a.
Proof. apply N.mod_small. Qed.

Lemma hue_rep sq id n : 0 < n -> id < 2 ^ 47 ->
  exists h : Q, exponential_offset (exact sq) q_fmod1 id n = Ok h /\ (h == qz (hnum id n) / (qz n * qz (2 ^ hexp id n)))%Q.
Proof.
  intros Hn Hid. unfold exponential_offset.
  assert (N0 : (n =? 0) = false) by (apply N.eqb_neq; lia). rewrite N0. cbv zeta.
  eexists. split; [reflexivity|].
  cbn [exact a_of_Z a_div a_add a_mul].
  change (inject_Z (Z.of_N id)) with (qz id). change (inject_Z (Z.of_N n)) with (qz n).
  assert (P47 : 2 ^ 47 < 2 ^ 64) by reflexivity.
  rewrite (mod_small_eq (id + 1)) by lia.
  rewrite (fmod_q id n Hn). unfold hnum, hexp.
  assert (Nz := qz_pos n Hn).
  assert (Edm : id = n * (id / n) + id mod n) by (apply N.div_mod; lia).
  assert (Lm : id mod n < n) by (apply N.mod_lt; lia).
  destruct (N.eqb_spec (id / n) 0) as [K0|K0].
  - assert (L : (n <? id + 1) = false) by (apply N.ltb_ge; rewrite K0 in Edm; nia).
    rewrite L. change (inject_Z (Z.of_N 0)) with (qz 0). rewrite N.add_0_r, qz_mul.
    change (2 ^ 0) with 1. change (qz 0) with 0%Q. change (qz 1) with 1%Q. field. exact Nz.
  - assert (L : (n <? id + 1) = true) by (apply N.ltb_lt; clear - Hn Edm K0; revert Edm K0; generalize (id / n) as q, (id mod n) as m; intros; nia). rewrite L.
    set (r := id / n) in *. set (S := 2 ^ N.log2 r) in *.
    assert (Pr : 0 < r) by now apply N.neq_0_lt_0. destruct (log_lt r Pr) as (A & B). fold S in A, B.
    assert (PS : 0 < S) by (unfold S; apply N.neq_0_lt_0, N.pow_nonzero; lia).
    assert (SM : n * 2 * S < 2 ^ 64).
    { assert (n * 2 * S <= 2 * id) by (clear - Edm A; revert Edm; generalize (id mod n) as m; clearbody r S; intros; nia). assert (2 * 2 ^ 47 < 2 ^ 64) by reflexivity. lia. }
    rewrite (mod_small_eq _ SM).
    replace (2 ^ (N.log2 r + 1)) with (2 * S) by (unfold S; rewrite N.pow_add_r; change (2 ^ 1) with 2; lia).
    change (inject_Z (Z.of_N 2)) with (qz 2). change (inject_Z (Z.of_N 1)) with (qz 1).
    change (inject_Z (Z.of_N (r - S))) with (qz (r - S)). change (inject_Z (Z.of_N (n * 2 * S))) with (qz (n * 2 * S)).
    rewrite !qz_add, !qz_mul. assert (NS := qz_pos S PS). change (qz 2) with 2%Q. change (qz 1) with 1%Q.
    field. split; [exact NS|exact Nz].
Qed.

Lemma hnum_lt id n : 0 < n -> hnum id n < n * 2 ^ hexp id n.
Proof.
  intros Hn. unfold hnum, hexp.
  assert (Lm : id mod n < n) by (apply N.mod_lt; lia).
  destruct (N.eqb_spec (id / n) 0) as [K0|K0].
  - change (2 ^ 0) with 1. lia.
  - destruct (log_lt (id / n)) as (A & B); [now apply N.neq_0_lt_0|].
    replace (2 ^ (N.log2 (id / n) + 1)) with (2 * 2 ^ N.log2 (id / n)) by (rewrite N.pow_add_r; change (2 ^ 1) with 2; lia).
    set (S := 2 ^ N.log2 (id / n)) in *. clearbody S. revert A B Lm. generalize (id / n) as q, (id mod n) as m. clear. intros. nia.
Qed.

Lemma hue_range sq id n h : 0 < n -> id < 2 ^ 47 ->
  exponential_offset (exact sq) q_fmod1 id n = Ok h -> (0 <= h /\ h < 1)%Q.
Proof.
  intros Hn Hid E. destruct (hue_rep sq id n Hn Hid) as (h' & E' & Q). rewrite E in E'. injection E' as <-.
  pose proof (hnum_lt id n Hn) as L. set (D := n * 2 ^ hexp id n) in *.
  assert (Q' : (h == qz (hnum id n) / qz D)%Q) by (unfold D; rewrite qz_mul; exact Q).
  assert (PD : (0 < qz D)%Q) by (unfold qz, Qlt, inject_Z; cbn; lia).
  rewrite Q'. split.
  - apply Qle_shift_div_l; [exact PD|]. unfold qz, Qle, Qmult, inject_Z. cbn. lia.
  - apply Qlt_shift_div_r; [exact PD|]. unfold qz, Qlt, Qmult, inject_Z. cbn. lia.
Qed.

(** dyadic fractions in lowest terms *)
Lemma hnum_odd id n : hexp id n = 0 \/ exists a, hnum id n = 2 * a + 1.
Proof.
  unfold hnum, hexp. destruct (N.eqb_spec (id / n) 0) as [K0|K0]; [now left|right].
  rewrite N.pow_add_r. change (2 ^ 1) with 2.
  eexists (id mod n * 2 ^ N.log2 (id / n) + (id / n - 2 ^ N.log2 (id / n))). lia.
Qed.
Lemma odd_dyadic a b e f : (e = 0 \/ exists x, a = 2 * x + 1) -> a * 2 ^ f = b * 2 ^ e -> f < e -> False.
Proof.
  intros O E L. destruct O as [->|(x & ->)]; [lia|].
  replace e with (f + (e - f - 1) + 1) in E by lia. rewrite !N.pow_add_r in E. change (2 ^ 1) with 2 in E.
  assert (P : 2 ^ f <> 0) by (apply N.pow_nonzero; lia).
  assert (X : 2 * x + 1 = b * 2 ^ (e - f - 1) * 2).
  { apply (N.mul_cancel_r _ _ _ P). rewrite E. ring. }
  lia.
Qed.
Lemma hexp_eq id id' n : hnum id n * 2 ^ hexp id' n = hnum id' n * 2 ^ hexp id n -> hexp id n = hexp id' n.
Proof.
  intros E. destruct (N.lt_trichotomy (hexp id n) (hexp id' n)) as [L|[L|L]]; [|exact L|]; exfalso.
  - apply (odd_dyadic (hnum id' n) (hnum id n) (hexp id' n) (hexp id n) (hnum_odd _ _)); [now symmetry|exact L].
  - apply (odd_dyadic (hnum id n) (hnum id' n) (hexp id n) (hexp id' n) (hnum_odd _ _)); [exact E|exact L].
Qed.
Lemma split_base a b a' b' m : b < m -> b' < m -> a * m + b = a' * m + b' -> a = a' /\ b = b'.
Proof. intros L L' E. assert (a = a') by nia. subst. split; [reflexivity|lia]. Qed.
Lemma hnum_inj id id' n : 0 < n ->
  hnum id n * 2 ^ hexp id' n = hnum id' n * 2 ^ hexp id n -> id = id'.
Proof.
  intros Hn E. pose proof (hexp_eq _ _ _ E) as X. rewrite X in E.
  assert (P : 2 ^ hexp id' n <> 0) by (apply N.pow_nonzero; lia).
  apply (proj1 (N.mul_cancel_r _ _ _ P)) in E. clear P.
  assert (D : id = n * (id / n) + id mod n) by (apply N.div_mod; lia).
  assert (D' : id' = n * (id' / n) + id' mod n) by (apply N.div_mod; lia).
  unfold hnum in E. rewrite X in E.
  unfold hexp in E, X.
  destruct (N.eqb_spec (id / n) 0) as [K0|K0], (N.eqb_spec (id' / n) 0) as [K0'|K0'];
    try (exfalso; revert X; generalize (N.log2 (id / n)) (N.log2 (id' / n)); clear; intros; lia).
  - change (2 ^ 0) with 1 in E. rewrite K0 in D. rewrite K0' in D'. lia.
  - assert (XL : N.log2 (id / n) = N.log2 (id' / n)) by (revert X; generalize (N.log2 (id / n)) (N.log2 (id' / n)); clear; intros; lia). rewrite XL in E.
    destruct (log_lt (id / n)) as (A & B); [now apply N.neq_0_lt_0|]. destruct (log_lt (id' / n)) as (A' & B'); [now apply N.neq_0_lt_0|].
    rewrite XL in A, B. rewrite N.pow_add_r in E. change (2 ^ 1) with 2 in E.
    set (S := 2 ^ N.log2 (id' / n)) in *.
    clearbody S. revert D D' A B A' B' E. generalize (id / n) as q, (id' / n) as q', (id mod n) as m, (id' mod n) as m'. clear. intros.
    apply split_base in E; [|lia|lia]. destruct E as (E1 & E2). assert (q = q') by lia. subst. reflexivity.
Qed.

Lemma frac_eq a b c d n : 0 < n -> 0 < b -> 0 < d -> (qz a / (qz n * qz b) == qz c / (qz n * qz d))%Q -> a * d = c * b.
Proof.
  intros Hn Hb Hd E. apply qz_pos in Hn, Hb, Hd.
  assert (X : (qz a * qz d == qz c * qz b)%Q).
  { transitivity (qz a / (qz n * qz b) * (qz n * qz b * qz d))%Q; [field; auto|]. rewrite E. field. auto. }
  rewrite <- !qz_mul in X. unfold qz, Qeq, inject_Z in X. cbn in X. lia.
Qed.
Lemma pow_pos x : 0 < 2 ^ x.
Proof. apply N.neq_0_lt_0, N.pow_nonzero. lia. Qed.

Lemma hues_differ sq id id' n h h' : 0 < n -> id < 2 ^ 47 -> id' < 2 ^ 47 ->
  exponential_offset (exact sq) q_fmod1 id n = Ok h -> exponential_offset (exact sq) q_fmod1 id' n = Ok h' ->
  (h == h')%Q -> id = id'.
Proof.
  intros Hn H1 H2 E1 E2 Eq.
  destruct (hue_rep sq id n Hn H1) as (a & Ea & Qa). rewrite E1 in Ea. injection Ea as <-.
  destruct (hue_rep sq id' n Hn H2) as (b & Eb & Qb). rewrite E2 in Eb. injection Eb as <-.
  rewrite Qa, Qb in Eq. apply frac_eq in Eq; [|exact Hn|apply pow_pos|apply pow_pos].
  now apply (hnum_inj id id' n Hn).
Qed.

(** ids below [n * 2 ^ e] *)
Lemma hexp_le id n e : 0 < n -> id < n * 2 ^ e -> hexp id n <= e.
Proof.
  intros Hn L. unfold hexp. destruct (N.eqb_spec (id / n) 0) as [K0|K0]; [lia|].
  assert (K : id / n < 2 ^ e) by (apply N.div_lt_upper_bound; lia).
  assert (W : N.log2 (id / n) < e) by (apply N.log2_lt_pow2; [now apply N.neq_0_lt_0|exact K]).
  revert W. generalize (N.log2 (id / n)). clear. intros. lia.
Qed.
(** the numerator over [n * 2 ^ e] *)
Definition hslot (id n e : N) : N := hnum id n * 2 ^ (e - hexp id n).
Lemma hslot_lt id n e : 0 < n -> id < n * 2 ^ e -> hslot id n e < n * 2 ^ e.
Proof.
  intros Hn L. unfold hslot. pose proof (hexp_le id n e Hn L) as E.
  pose proof (hnum_lt id n Hn) as K. replace (2 ^ e) with (2 ^ hexp id n * 2 ^ (e - hexp id n)).
  - rewrite N.mul_assoc. apply N.mul_lt_mono_pos_r; [apply pow_pos|exact K].
  - rewrite <- N.pow_add_r. f_equal. lia.
Qed.
Lemma hslot_frac id n e : 0 < n -> id < n * 2 ^ e ->
  (qz (hnum id n) / (qz n * qz (2 ^ hexp id n)) == qz (hslot id n e) / qz (n * 2 ^ e))%Q.
Proof.
  intros Hn L. unfold hslot. pose proof (hexp_le id n e Hn L) as E.
  replace (2 ^ e) with (2 ^ hexp id n * 2 ^ (e - hexp id n)).
  - rewrite !qz_mul. pose proof (qz_pos _ (pow_pos (hexp id n))). pose proof (qz_pos _ (pow_pos (e - hexp id n))).
    pose proof (qz_pos _ Hn). field. auto.
  - rewrite <- N.pow_add_r. f_equal. lia.
Qed.
Lemma hslot_inj id id' n e : 0 < n -> id < n * 2 ^ e -> id' < n * 2 ^ e -> hslot id n e = hslot id' n e -> id = id'.
Proof.
  intros Hn L L' E. apply (hnum_inj id id' n Hn).
  apply (frac_eq _ _ _ _ n Hn (pow_pos _) (pow_pos _)). rewrite (hslot_frac id n e Hn L), (hslot_frac id' n e Hn L'), E. reflexivity.
Qed.
(** an injection of [0, m) into itself takes every value *)
Lemma onto (f : N -> N) m : (forall x, x < m -> f x < m) -> (forall x y, x < m -> y < m -> f x = f y -> x = y) ->
  forall j, j < m -> exists x, x < m /\ f x = j.
Proof.
  intros R I j Lj. set (l := map N.of_nat (seq 0 (N.to_nat m))).
  assert (Il : forall x, In x l <-> x < m).
  { intros x. unfold l. rewrite in_map_iff. split.
    - intros (k & <- & K). apply in_seq in K. lia.
    - intros K. exists (N.to_nat x). split; [lia|]. apply in_seq. lia. }
  assert (Nl : NoDup l).
  { unfold l. apply FinFun.Injective_map_NoDup; [intros a b; lia|apply seq_NoDup]. }
  assert (Nf : NoDup (map f l)).
  { assert (Sub : forall x, In x l -> x < m) by (intros x; apply Il). revert Sub Nl. clear -I. induction l as [|a l IH]; intros Sub Nl; cbn; [constructor|].
    inversion Nl as [|? ? Na Nl']; subst. constructor.
    - intros K. apply in_map_iff in K as (b & E & Hb). apply Na.
      assert (b = a) by (apply I; [apply Sub; now right|apply Sub; now left|exact E]). now subst.
    - apply IH; [intros x Hx; apply Sub; now right|exact Nl']. }
  assert (Inc : incl l (map f l)).
  { apply NoDup_length_incl; [exact Nf|rewrite map_length; lia|].
    intros y Hy. apply in_map_iff in Hy as (x & <- & Hx). apply Il, R, Il, Hx. }
  assert (Hj : In j l) by now apply Il.
  apply Inc, in_map_iff in Hj as (x & E & Hx). exists x. split; [now apply Il|exact E].
Qed.
