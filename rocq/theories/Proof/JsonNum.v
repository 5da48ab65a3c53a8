(** Numbers and strings in JSON: float -> double -> float, UTF-8. *)
From Coq Require Import NArith ZArith Bool List Lia.
From stdpp Require Import base list gmap.
From Verif.Model Require Import Types Json.
From Verif.Spec Require Import BinarySpec JsonSpec.
Local Open Scope N_scope.

Lemma finite_iff e m v : fl_finite e m v = true <-> is_finite e m v.
Proof. unfold fl_finite, is_finite, fl_exp. rewrite negb_true_iff, N.eqb_neq. reflexivity. Qed.
Lemma finite_iff_not e m v : fl_finite e m v = false <-> ~ is_finite e m v.
Proof. unfold fl_finite, is_finite, fl_exp. rewrite negb_false_iff, N.eqb_eq. lia. Qed.

(** the three parts of a bit pattern *)
Lemma parts e m v : v < 2 ^ (1 + e + m) ->
  v = fl_pack e m (fl_sign e m v) (fl_exp e m v * 2 ^ m + fl_man m v) /\ fl_exp e m v < 2 ^ e /\ fl_man m v < 2 ^ m.
Proof.
  intros Hv. unfold fl_pack, fl_sign, fl_exp, fl_man.
  assert (Pm : 2 ^ m <> 0) by (apply N.pow_nonzero; lia). assert (Pe : 2 ^ e <> 0) by (apply N.pow_nonzero; lia).
  split; [|split; apply N.mod_lt; assumption].
  pose proof (N.div_mod v (2 ^ m) Pm) as H1. pose proof (N.div_mod (v / 2 ^ m) (2 ^ e) Pe) as H2.
  rewrite N.div_div in H2 by assumption. rewrite <- N.pow_add_r in H2. rewrite (N.add_comm m e) in H2.
  rewrite N.testbit_eqb.
  assert (Hq : v / 2 ^ (e + m) < 2). { apply N.div_lt_upper_bound; [apply N.pow_nonzero; lia|]. replace (1 + e + m) with (e + m + 1) in Hv by lia. rewrite N.pow_add_r in Hv. lia. }
  rewrite (N.mod_small _ 2 Hq). 
  rewrite N.pow_add_r in *. set (q := v / (2 ^ e * 2 ^ m)) in *. set (x := (v / 2 ^ m) mod 2 ^ e) in *. set (y := v mod 2 ^ m) in *. set (w := v / 2 ^ m) in *.
  rewrite H1 at 1. rewrite H2. destruct (N.eqb_spec q 1) as [E|E]; [rewrite E|replace q with 0 by lia]; lia.
Qed.
Lemma pack_sign e m s v : v < 2 ^ (e + m) -> fl_sign e m (fl_pack e m s v) = s.
Proof.
  intros Hv. unfold fl_sign, fl_pack. rewrite N.testbit_eqb. destruct s.
  - replace (2 ^ (e + m) + v) with (v + 1 * 2 ^ (e + m)) by lia. rewrite N.div_add by (apply N.pow_nonzero; lia). rewrite N.div_small by exact Hv. reflexivity.
  - rewrite N.add_0_l, N.div_small by exact Hv. reflexivity.
Qed.
Lemma pack_exp e m s x y : x < 2 ^ e -> y < 2 ^ m -> fl_exp e m (fl_pack e m s (x * 2 ^ m + y)) = x.
Proof.
  intros Hx Hy. unfold fl_exp, fl_pack. assert (Pm : 2 ^ m <> 0) by (apply N.pow_nonzero; lia). assert (Pe : 2 ^ e <> 0) by (apply N.pow_nonzero; lia).
  rewrite N.pow_add_r. destruct s.
  - replace (2 ^ e * 2 ^ m + (x * 2 ^ m + y)) with (y + (x + 1 * 2 ^ e) * 2 ^ m) by lia.
    rewrite N.div_add, N.div_small, N.add_0_l, N.mod_add, N.mod_small by assumption. reflexivity.
  - replace (0 + (x * 2 ^ m + y)) with (y + x * 2 ^ m) by lia. rewrite N.div_add, N.div_small, N.add_0_l, N.mod_small by assumption. reflexivity.
Qed.
Lemma pack_man e m s x y : x < 2 ^ e -> y < 2 ^ m -> fl_man m (fl_pack e m s (x * 2 ^ m + y)) = y.
Proof.
  intros Hx Hy. unfold fl_man, fl_pack. assert (Pm : 2 ^ m <> 0) by (apply N.pow_nonzero; lia).
  rewrite N.pow_add_r. destruct s.
  - replace (2 ^ e * 2 ^ m + (x * 2 ^ m + y)) with (y + (2 ^ e + x) * 2 ^ m) by lia. rewrite N.mod_add, N.mod_small by assumption. reflexivity.
  - replace (0 + (x * 2 ^ m + y)) with (y + x * 2 ^ m) by lia. rewrite N.mod_add, N.mod_small by assumption. reflexivity.
Qed.

Lemma body_lt e m x y : x < 2 ^ e -> y < 2 ^ m -> x * 2 ^ m + y < 2 ^ (e + m).
Proof. intros Hx Hy. rewrite N.pow_add_r. nia. Qed.
Lemma pack_lt e m s v : v < 2 ^ (e + m) -> fl_pack e m s v < 2 ^ (1 + e + m).
Proof. intros Hv. unfold fl_pack. replace (1 + e + m) with (1 + (e + m)) by lia. rewrite (N.pow_add_r 2 1). change (2 ^ 1) with 2. destruct s; lia. Qed.

Lemma round_shift_exact a sh : round_shift (a * 2 ^ sh) sh = a.
Proof.
  unfold round_shift. assert (P : 2 ^ sh <> 0) by (apply N.pow_nonzero; lia). rewrite N.div_mul, N.mod_mul by exact P.
  rewrite N.mul_0_r. destruct (N.compare_spec 0 (2 ^ sh)); [lia|reflexivity|lia].
Qed.

(** significand and scale of a finite float *)
Lemma float_parts v : fits 32 v -> fl_finite 8 23 v = true ->
  exists s sig ex, fl_sign 8 23 v = s /\ fl_sig 8 23 v = sig /\ fl_scale 8 23 v = ex /\
    (- 149 <= ex <= 104)%Z /\ sig < 2 ^ 24 /\ (2 ^ 23 <= sig \/ ex = (- 149)%Z) /\
    v = fl_pack 8 23 s (Z.to_N (ex + 149) * 2 ^ 23 + sig).
Proof.
  intros Hv Hf. destruct (parts 8 23 v Hv) as (E & He & Hm). unfold fl_finite in Hf. apply negb_true_iff, N.eqb_neq in Hf.
  change (2 ^ 8 - 1) with 255 in Hf. change (2 ^ 8) with 256 in He.
  exists (fl_sign 8 23 v), (fl_sig 8 23 v), (fl_scale 8 23 v). do 3 (split; [reflexivity|]).
  unfold fl_sig, fl_scale. change (fl_min 8 23) with (-149)%Z. change (2 ^ 24) with 16777216. change (2 ^ 23) with 8388608 in *.
  destruct (N.eqb_spec (fl_exp 8 23 v) 0) as [Z|Z].
  - rewrite Z in *. cbn [N.max N.compare]. split; [lia|]. split; [lia|]. split; [right; reflexivity|]. rewrite E at 1. reflexivity.
  - rewrite N.max_r by lia. split; [lia|]. split; [lia|]. split; [left; lia|]. rewrite E at 1. f_equal. lia.
Qed.

Lemma widen_facts v : fits 32 v -> fl_finite 8 23 v = true -> fl_sig 8 23 v <> 0 ->
  let L := N.log2 (fl_sig 8 23 v) in
  L <= 23 /\ fits 64 (float_to_double v) /\ fl_finite 11 52 (float_to_double v) = true /\ fl_sign 11 52 (float_to_double v) = fl_sign 8 23 v /\
  fl_sig 11 52 (float_to_double v) = fl_sig 8 23 v * 2 ^ (52 - L) /\
  fl_scale 11 52 (float_to_double v) = (fl_scale 8 23 v - Z.of_N (52 - L))%Z.
Proof.
  intros Hv Hf Hz. destruct (float_parts v Hv Hf) as (s & sig & ex & Es & Eg & Ee & Hex & Hsig & Hn & _).
  unfold float_to_double, fl_convert. rewrite Hf, Es, Eg, Ee. rewrite Eg in Hz. cbv zeta.
  pose proof (N.log2_spec sig ltac:(lia)) as [L1 L2]. set (L := N.log2 sig) in *.
  assert (HL : L < 24). { apply N.log2_lt_pow2; [lia|exact Hsig]. }
  assert (Hr : 2 ^ 52 <= sig * 2 ^ (52 - L) < 2 ^ 53).
  { replace (2 ^ 52) with (2 ^ L * 2 ^ (52 - L)) by (rewrite <- N.pow_add_r; f_equal; lia).
    replace (2 ^ 53) with (2 ^ N.succ L * 2 ^ (52 - L)) by (rewrite <- N.pow_add_r; f_equal; lia).
    assert (2 ^ (52 - L) <> 0) by (apply N.pow_nonzero; lia). nia. }
  assert (ER : fl_round 11 52 s sig ex = fl_pack 11 52 s (Z.to_N (ex + Z.of_N L - 52 + 1074) * 2 ^ 52 + sig * 2 ^ (52 - L))).
  { unfold fl_round. destruct (N.eqb_spec sig 0) as [|_]; [contradiction|]. change (fl_min 11 52) with (-1074)%Z. fold L.
    rewrite Z.max_l by lia.
    replace (ex + Z.of_N L - Z.of_N 52 <=? ex)%Z with true by (symmetry; apply Z.leb_le; lia).
    replace (Z.to_N (ex - (ex + Z.of_N L - Z.of_N 52))) with (52 - L) by lia.
    replace (ex + Z.of_N L - Z.of_N 52 - -1074)%Z with (ex + Z.of_N L - 52 + 1074)%Z by lia.
    replace (_ <? _) with true; [reflexivity|]. symmetry. apply N.ltb_lt.
    change ((2 ^ 11 - 1) * 2 ^ 52) with (2045 * 2 ^ 52 + 2 ^ 53). change (2 ^ 53) with (2 ^ 52 * 2) in *.
    generalize dependent (sig * 2 ^ (52 - L)). intros r Hr. assert (Z.to_N (ex + Z.of_N L - 52 + 1074) <= 2045) by lia.
    assert (P : 0 < 2 ^ 52) by reflexivity. generalize dependent (2 ^ 52). intros. nia. }
  rewrite ER. set (q := (ex + Z.of_N L - 52 + 1074)%Z) in *. set (r := sig * 2 ^ (52 - L)) in *.
  assert (Hq : (872 <= q <= 1149 + 0)%Z) by lia.
  replace (Z.to_N q * 2 ^ 52 + r) with ((Z.to_N q + 1) * 2 ^ 52 + (r - 2 ^ 52)) by lia.
  assert (Hx : Z.to_N q + 1 < 2 ^ 11) by (change (2 ^ 11) with 2048; lia).
  assert (Hy : r - 2 ^ 52 < 2 ^ 52) by (change (2 ^ 53) with (2 ^ 52 * 2) in Hr; lia).
  split; [lia|]. split; [|split; [|split; [|split]]].
  - apply (pack_lt 11 52). apply body_lt; assumption.
  - unfold fl_finite. rewrite pack_exp by assumption. apply negb_true_iff, N.eqb_neq. change (2 ^ 11 - 1) with 2047. lia.
  - apply pack_sign, body_lt; assumption.
  - unfold fl_sig. rewrite pack_exp, pack_man by assumption. replace (Z.to_N q + 1 =? 0) with false by (symmetry; apply N.eqb_neq; lia). lia.
  - unfold fl_scale. rewrite pack_exp by assumption. change (fl_min 11 52) with (-1074)%Z. rewrite N.max_r by lia. lia.
Qed.

(** a float survives the conversion to double and back *)
Lemma float_double_float v : fits 32 v -> fl_finite 8 23 v = true -> double_to_float (float_to_double v) = v.
Proof.
  intros Hv Hf. destruct (float_parts v Hv Hf) as (s & sig & ex & Es & Eg & Ee & Hex & Hsig & Hn & Ev).
  destruct (N.eq_dec sig 0) as [->|Hz].
  { destruct Hn as [Hn|Hn]; [change (2 ^ 23) with 8388608 in Hn; lia|]. rewrite Hn in Ev. assert (Ev' : v = fl_pack 8 23 s 0) by (rewrite Ev; reflexivity). clear - Ev'. subst v. destruct s; vm_compute; reflexivity. }
  destruct (widen_facts v Hv Hf ltac:(congruence)) as (HL & _ & Wf & Ws & Wg & We). rewrite Eg, Ee, Es in *.
  pose proof (N.log2_spec sig ltac:(lia)) as [L1 L2]. set (L := N.log2 sig) in *. rewrite Ev at 2.
  unfold double_to_float, fl_convert. rewrite Wf, Ws, Wg, We.
  assert (P : 2 ^ (52 - L) <> 0) by (apply N.pow_nonzero; lia).
  unfold fl_round. replace (sig * 2 ^ (52 - L) =? 0) with false by (symmetry; apply N.eqb_neq; nia).
  rewrite N.log2_mul_pow2 by lia. fold L. change (fl_min 8 23) with (-149)%Z.
  assert (Hq : Z.max (ex - Z.of_N (52 - L) + Z.of_N (52 - L + L) - Z.of_N 23) (-149) = ex).
  { destruct Hn as [Hn|Hn].
    - assert (L = 23). { assert (23 <= L) by (apply N.log2_le_pow2; lia). lia. } lia.
    - lia. }
  rewrite Hq. replace (ex <=? ex - Z.of_N (52 - L))%Z with false by (symmetry; apply Z.leb_gt; lia).
  replace (Z.to_N (ex - (ex - Z.of_N (52 - L)))) with (52 - L) by lia. rewrite round_shift_exact.
  replace (ex - -149)%Z with (ex + 149)%Z by lia. rewrite (proj2 (N.ltb_lt _ _)); [reflexivity|].
  change ((2 ^ 8 - 1) * 2 ^ 23) with 2139095040. change (2 ^ 23) with 8388608. change (2 ^ 24) with 16777216 in Hsig. lia.
Qed.
Lemma float_to_double_finite v : fits 32 v -> fl_finite 11 52 (float_to_double v) = fl_finite 8 23 v.
Proof.
  intros Hv. destruct (fl_finite 8 23 v) eqn:Hf.
  - destruct (N.eq_dec (fl_sig 8 23 v) 0) as [Z|Z].
    + unfold float_to_double, fl_convert. rewrite Hf. unfold fl_round. rewrite Z. destruct (fl_sign 8 23 v); reflexivity.
    + apply (widen_facts v Hv Hf Z).
  - unfold float_to_double, fl_convert. rewrite Hf. destruct (fl_man 23 v =? 0); [destruct (fl_sign 8 23 v)|]; reflexivity.
Qed.

(** ** UTF-8 *)
Lemma cont_iff x : cont x = true <-> 128 <= x <= 191.
Proof. unfold cont, within. rewrite andb_true_iff, !N.leb_le. reflexivity. Qed.
Lemma within_iff a b x : within a b x = true <-> a <= x <= b.
Proof. unfold within. rewrite andb_true_iff, !N.leb_le. reflexivity. Qed.
Lemma within_not a b x : within a b x = false <-> x < a \/ b < x.
Proof. unfold within. rewrite andb_false_iff, !N.leb_gt. reflexivity. Qed.

Ltac dm := repeat match goal with
  | |- context [N.div ?a ?b] => lazymatch goal with H : a = b * (a / b) + a mod b |- _ => fail | _ => pose proof (N.div_mod a b ltac:(lia)); pose proof (N.mod_lt a b ltac:(lia)) end
  | |- context [N.modulo ?a ?b] => lazymatch goal with H : a = b * (a / b) + a mod b |- _ => fail | _ => pose proof (N.div_mod a b ltac:(lia)); pose proof (N.mod_lt a b ltac:(lia)) end
  end.
Ltac gen := repeat match goal with 
  | H : context [N.div ?a ?b] |- _ => let q := fresh "q" in let E := fresh in remember (N.div a b) as q eqn:E; clear E
  | H : context [N.modulo ?a ?b] |- _ => let q := fresh "q" in let E := fresh in remember (N.modulo a b) as q eqn:E; clear E
  end.
Lemma utf8_char c r : scalar_value c -> utf8 (utf8_encode c ++ r) = utf8 r.
Proof.
  intros Hc. unfold scalar_value in Hc. unfold utf8_encode.
  destruct (N.ltb_spec c 0x80) as [H1|H1]; [cbn; rewrite (proj2 (N.ltb_lt c 128)) by lia; reflexivity|].
  destruct (N.ltb_spec c 0x800) as [H2|H2].
  { cbn [app utf8]. set (a := 0xC0 + c / 64). set (b := 0x80 + c mod 64).
    assert (194 <= a <= 223 /\ 128 <= b <= 191) as [Ha Hb] by (unfold a, b; dm; gen; lia). clearbody a b.
    rewrite (proj2 (N.ltb_ge a 128)) by lia. rewrite (proj2 (within_iff 194 223 a)) by lia. rewrite (proj2 (cont_iff b)) by lia. reflexivity. }
  destruct (N.ltb_spec c 0x10000) as [H3|H3].
  { cbn [app utf8]. set (a := 0xE0 + c / 4096). set (b := 0x80 + c / 64 mod 64). set (d := 0x80 + c mod 64).
    assert (224 <= a <= 239 /\ 128 <= b <= 191 /\ 128 <= d <= 191 /\ (a = 224 -> 160 <= b) /\ (a = 237 -> b <= 159)) as (Ha & Hb & Hd & He & Hs).
    { unfold a, b, d. pose proof (N.div_div c 64 64 ltac:(lia) ltac:(lia)) as Ed. change (64 * 64) with 4096 in Ed. rewrite <- Ed. dm. gen. lia. }
    clearbody a b d.
    rewrite (proj2 (N.ltb_ge a 128)) by lia. rewrite (proj2 (within_not 194 223 a)) by lia. rewrite (proj2 (within_iff 224 239 a)) by lia.
    rewrite (proj2 (cont_iff d)) by lia. rewrite (proj2 (within_iff _ _ b)); [reflexivity|].
    destruct (N.eqb_spec a 224); destruct (N.eqb_spec a 237); lia. }
  cbn [app utf8]. set (a := 0xF0 + c / 262144). set (b := 0x80 + c / 4096 mod 64). set (d := 0x80 + c / 64 mod 64). set (f := 0x80 + c mod 64).
  assert (240 <= a <= 244 /\ 128 <= b <= 191 /\ 128 <= d <= 191 /\ 128 <= f <= 191 /\ (a = 240 -> 144 <= b) /\ (a = 244 -> b <= 143)) as (Ha & Hb & Hd & Hf & He & Hs).
  { unfold a, b, d, f. pose proof (N.div_div c 64 64 ltac:(lia) ltac:(lia)) as Ed. change (64 * 64) with 4096 in Ed.
    pose proof (N.div_div c 4096 64 ltac:(lia) ltac:(lia)) as Ed2. change (4096 * 64) with 262144 in Ed2. rewrite <- Ed2, <- Ed. dm. gen. lia. }
  clearbody a b d f.
  rewrite (proj2 (N.ltb_ge a 128)) by lia. rewrite (proj2 (within_not 194 223 a)) by lia. rewrite (proj2 (within_not 224 239 a)) by lia. rewrite (proj2 (within_iff 240 244 a)) by lia.
  rewrite (proj2 (cont_iff d)), (proj2 (cont_iff f)) by lia. rewrite (proj2 (within_iff _ _ b)); [reflexivity|].
  destruct (N.eqb_spec a 240); destruct (N.eqb_spec a 244); lia.
Qed.
Lemma is_utf8_accepted s : is_utf8 s -> utf8 s = true.
Proof.
  intros (cs & H & ->). induction H as [|c cs Hc _ IH]; [reflexivity|]. cbn [map concat]. rewrite utf8_char by exact Hc. exact IH.
Qed.
Lemma is_utf8_cons c s : scalar_value c -> is_utf8 s -> is_utf8 (utf8_encode c ++ s).
Proof. intros Hc (cs & H & ->). exists (c :: cs). split; [constructor; assumption|reflexivity]. Qed.
Lemma decode2 a b : 194 <= a <= 223 -> 128 <= b <= 191 -> exists c, scalar_value c /\ utf8_encode c = [a; b].
Proof.
  intros Ha Hb. exists ((a - 192) * 64 + (b - 128)). split; [unfold scalar_value; lia|]. unfold utf8_encode.
  rewrite (proj2 (N.ltb_ge _ 0x80)) by lia. rewrite (proj2 (N.ltb_lt _ 0x800)) by lia.
  set (c := (a - 192) * 64 + (b - 128)). assert (c / 64 = a - 192) as -> by (unfold c; dm; gen; lia). assert (c mod 64 = b - 128) as -> by (unfold c; dm; gen; lia). repeat f_equal; lia.
Qed.
Lemma decode3 a b d : 224 <= a <= 239 -> 128 <= b <= 191 -> 128 <= d <= 191 -> (a = 224 -> 160 <= b) -> (a = 237 -> b <= 159) ->
  exists c, scalar_value c /\ utf8_encode c = [a; b; d].
Proof.
  intros Ha Hb Hd He Hs. exists ((a - 224) * 4096 + (b - 128) * 64 + (d - 128)). set (c := _ + _ + (d - 128)).
  assert (D1 : c / 64 = (a - 224) * 64 + (b - 128)) by (unfold c; dm; gen; lia). assert (D2 : c mod 64 = d - 128) by (unfold c; dm; gen; lia).
  assert (D3 : c / 4096 = a - 224) by (unfold c; dm; gen; lia). assert (D4 : c / 64 mod 64 = b - 128) by (rewrite D1; dm; gen; lia).
  assert (Hc : 0x800 <= c < 0x10000) by (unfold c; lia).
  split; [unfold scalar_value; unfold c; lia|]. unfold utf8_encode. rewrite (proj2 (N.ltb_ge _ 0x80)) by lia. rewrite (proj2 (N.ltb_ge _ 0x800)) by lia. rewrite (proj2 (N.ltb_lt _ 0x10000)) by lia.
  rewrite D2, D3, D4. repeat f_equal; lia.
Qed.
Lemma decode4 a b d f : 240 <= a <= 244 -> 128 <= b <= 191 -> 128 <= d <= 191 -> 128 <= f <= 191 -> (a = 240 -> 144 <= b) -> (a = 244 -> b <= 143) ->
  exists c, scalar_value c /\ utf8_encode c = [a; b; d; f].
Proof.
  intros Ha Hb Hd Hf He Hs. exists ((a - 240) * 262144 + (b - 128) * 4096 + (d - 128) * 64 + (f - 128)). set (c := _ + _ + _ + (f - 128)).
  assert (D1 : c / 64 = (a - 240) * 4096 + (b - 128) * 64 + (d - 128)) by (unfold c; dm; gen; lia). assert (D2 : c mod 64 = f - 128) by (unfold c; dm; gen; lia).
  assert (D3 : c / 4096 = (a - 240) * 64 + (b - 128)) by (unfold c; dm; gen; lia). assert (D4 : c / 64 mod 64 = d - 128) by (rewrite D1; dm; gen; lia).
  assert (D5 : c / 262144 = a - 240) by (unfold c; dm; gen; lia). assert (D6 : c / 4096 mod 64 = b - 128) by (rewrite D3; dm; gen; lia).
  assert (Hc : 0x10000 <= c) by (unfold c; lia).
  split; [unfold scalar_value; unfold c; lia|]. unfold utf8_encode. rewrite (proj2 (N.ltb_ge _ 0x80)) by lia. rewrite (proj2 (N.ltb_ge _ 0x800)) by lia. rewrite (proj2 (N.ltb_ge _ 0x10000)) by lia.
  rewrite D2, D4, D5, D6. repeat f_equal; lia.
Qed.
Lemma accepted_is_utf8 s : utf8 s = true -> is_utf8 s.
Proof.
  remember (length s) as n eqn:En. revert s En. induction n as [n IH] using lt_wf_ind. intros s -> H.
  assert (IH' : forall r, (length r < length s)%nat -> utf8 r = true -> is_utf8 r) by (intros r Hr Hu; eapply IH; [exact Hr|reflexivity|exact Hu]). clear IH.
  destruct s as [|a r]; [exists []; split; [constructor|reflexivity]|]. cbn [utf8] in H.
  destruct (N.ltb_spec a 128) as [Ha|Ha].
  { replace (a :: r) with (utf8_encode a ++ r); [apply is_utf8_cons; [unfold scalar_value; lia|apply IH'; [cbn; lia|exact H]]|]. unfold utf8_encode. rewrite (proj2 (N.ltb_lt a 0x80)) by lia. reflexivity. }
  destruct (within 194 223 a) eqn:W1.
  { apply within_iff in W1. destruct r as [|b r]; [discriminate|]. apply andb_true_iff in H as [Hb H]. apply cont_iff in Hb.
    destruct (decode2 a b W1 Hb) as (c & Hc & E). change (a :: b :: r) with ([a; b] ++ r). rewrite <- E. apply is_utf8_cons; [exact Hc|]. apply IH'; [cbn; lia|exact H]. }
  destruct (within 224 239 a) eqn:W2.
  { apply within_iff in W2. destruct r as [|b [|d r]]; try discriminate. rewrite !andb_true_iff in H. destruct H as [[Hb Hd] H]. apply within_iff in Hb. apply cont_iff in Hd.
    destruct (decode3 a b d) as (c & Hc & E); try lia; try (destruct (N.eqb_spec a 224); destruct (N.eqb_spec a 237); lia).
    change (a :: b :: d :: r) with ([a; b; d] ++ r). rewrite <- E. apply is_utf8_cons; [exact Hc|]. apply IH'; [cbn; lia|exact H]. }
  destruct (within 240 244 a) eqn:W3; [|discriminate].
  apply within_iff in W3. destruct r as [|b [|d [|f r]]]; try discriminate. rewrite !andb_true_iff in H. destruct H as [[[Hb Hd] Hf] H]. apply within_iff in Hb. apply cont_iff in Hd, Hf.
  destruct (decode4 a b d f) as (c & Hc & E); try lia; try (destruct (N.eqb_spec a 240); destruct (N.eqb_spec a 244); lia).
  change (a :: b :: d :: f :: r) with ([a; b; d; f] ++ r). rewrite <- E. apply is_utf8_cons; [exact Hc|]. apply IH'; [cbn; lia|exact H].
Qed.
