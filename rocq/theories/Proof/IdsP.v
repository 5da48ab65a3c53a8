(** Node symbols, layer prefixes and layer keys. *)
From Coq Require Import NArith ZArith Bool Lia ZifyN ZifyBool.
From Verif.Model Require Import Types.
From Verif.Proof Require Import Arith.
Local Open Scope N_scope.
Ltac Zify.zify_post_hook ::= Z.div_mod_to_equations.

Lemma sym_roundtrip key idx : key < 2 ^ 8 -> idx < 2 ^ 56 ->
  sym_category (sym_make key idx) = key /\ sym_index (sym_make key idx) = idx /\ sym_make key idx < 2 ^ 64.
Proof.
  intros Hk Hi. change (2 ^ 8) with 256 in *. change (2 ^ 56) with 72057594037927936 in *. change (2 ^ 64) with 18446744073709551616.
  rewrite sym_category_div, sym_index_mod. unfold sym_make.
  rewrite two8_eq, two56_eq. rewrite !N.mod_small with (a := key), !N.mod_small with (a := idx) by assumption. lia.
Qed.
Lemma sym_of_parts id : id < 2 ^ 64 -> sym_make (sym_category id) (sym_index id) = id.
Proof.
  change (2 ^ 64) with 18446744073709551616. intros H. rewrite sym_category_div, sym_index_mod. unfold sym_make.
  rewrite two8_eq, two56_eq. lia.
Qed.
Lemma sym_alias key idx k : sym_make key (idx + k * 2 ^ 56) = sym_make key idx.
Proof. unfold sym_make. change (2 ^ 56) with two56. rewrite N.mod_add; [reflexivity|]. rewrite two56_eq. lia. Qed.
Lemma sym_incr_ok s : s < 2 ^ 64 -> sym_category (sym_incr s) = sym_category s /\
  sym_index (sym_incr s) = (sym_index s + 1) mod 2 ^ 56.
Proof.
  intros Hs. unfold sym_incr.
  assert (Hc : sym_category s < 2 ^ 8).
  { rewrite sym_category_div. rewrite two56_eq. change (2 ^ 64) with 18446744073709551616 in *. change (2 ^ 8) with 256. lia. }
  assert (sym_make (sym_category s) (sym_index s + 1) = sym_make (sym_category s) ((sym_index s + 1) mod 2 ^ 56)) as ->.
  { unfold sym_make. change (2 ^ 56) with two56. rewrite N.mod_mod by (rewrite two56_eq; lia). reflexivity. }
  destruct (sym_roundtrip (sym_category s) ((sym_index s + 1) mod 2 ^ 56) Hc) as (H1 & H2 & _).
  - apply N.mod_lt. change (2 ^ 56) with 72057594037927936. lia.
  - split; assumption.
Qed.

Lemma prefix_roundtrip p i : p < 2 ^ 32 -> i < 2 ^ 32 ->
  prefix_from_id (prefix_make_id p i) = p /\ prefix_index (prefix_make_id p i) = i /\ prefix_make_id p i < 2 ^ 64 /\
  forall q, prefix_matches q (prefix_make_id p i) = true <-> q = p.
Proof.
  intros Hp Hi. split; [apply make_id_from; assumption|]. split; [apply make_id_index; assumption|].
  split; [apply make_id_lt; assumption|]. intros q. rewrite prefix_matches_from, make_id_from by assumption. reflexivity.
Qed.
Lemma prefix_id_inj p i q j : p < 2 ^ 32 -> i < 2 ^ 32 -> q < 2 ^ 32 -> j < 2 ^ 32 ->
  prefix_make_id p i = prefix_make_id q j -> p = q /\ i = j.
Proof.
  intros Hp Hi Hq Hj H. destruct (prefix_roundtrip p i Hp Hi) as (A & B & _). destruct (prefix_roundtrip q j Hq Hj) as (C & D & _).
  rewrite H in *. split; congruence.
Qed.
Lemma prefix_alias p i : prefix_make_id p (i + 2 ^ 32) = prefix_make_id (p + 1) i.
Proof. rewrite !prefix_make_id_mul. f_equal. change (2 ^ 32) with two32. lia. Qed.
Lemma prefix_of_any_id id : id < 2 ^ 64 -> prefix_make_id (prefix_from_id id) (prefix_index id) = id.
Proof. intros H. apply make_id_of_id; [apply prefix_from_id_lt|assumption|reflexivity]. Qed.
Lemma prefix_parts key idx : key < 2 ^ 8 -> idx < 2 ^ 24 ->
  prefix_key (prefix_of_key_idx key idx) = key /\ prefix_sub (prefix_of_key_idx key idx) = idx /\ prefix_of_key_idx key idx < 2 ^ 32.
Proof.
  intros Hk Hi. rewrite prefix_key_div, prefix_sub_mod. unfold prefix_of_key_idx.
  change (2 ^ 8) with 256 in *. change (2 ^ 24) with 16777216 in *. change (2 ^ 32) with 4294967296.
  rewrite two8_eq, two24_eq. lia.
Qed.
(** A dynamic node id read as a NodeSymbol. *)
Lemma prefix_symbol key idx i : key < 2 ^ 8 -> idx < 2 ^ 24 -> i < 2 ^ 32 ->
  sym_category (prefix_make_id (prefix_of_key_idx key idx) i) = key /\
  sym_index (prefix_make_id (prefix_of_key_idx key idx) i) = idx * 2 ^ 32 + i.
Proof.
  intros Hk Hx Hi. destruct (prefix_parts key idx Hk Hx) as (_ & _ & Hp).
  rewrite make_id_small by assumption. rewrite sym_category_div, sym_index_mod. unfold prefix_of_key_idx.
  change (2 ^ 8) with 256 in *. change (2 ^ 24) with 16777216 in *. change (2 ^ 32) with 4294967296 in *.
  rewrite two8_eq, two24_eq, two56_eq, two32_eq. lia.
Qed.

Lemma key_eqb_spec a b : key_eqb a b = true <->
  lk_layer a = lk_layer b /\ lk_dynamic a = lk_dynamic b /\ (lk_dynamic a = true -> lk_prefix a = lk_prefix b).
Proof.
  unfold key_eqb. destruct a as [la pa []], b as [lb pb []]; cbn;
    destruct (N.eqb_spec la lb), (N.eqb_spec pa pb); cbn; intuition (try discriminate; try congruence).
Qed.
Lemma key_eqb_equiv :
  (forall a, key_eqb a a = true) /\
  (forall a b, key_eqb a b = true -> key_eqb b a = true) /\
  (forall a b c, key_eqb a b = true -> key_eqb b c = true -> key_eqb a c = true).
Proof.
  split; [|split]; intros *; rewrite ?key_eqb_spec; [auto| |].
  - intros (H1 & H2 & H3). rewrite <- H1, <- H2. repeat split; auto. intros H. symmetry. auto.
  - intros (H1 & H2 & H3) (J1 & J2 & J3). rewrite H1, H2 in *. repeat split; auto. intros H. rewrite H3, J3; auto.
Qed.
Lemma key_parent_order :
  (forall a, key_is_parent a a = false) /\
  (forall a b c, key_is_parent a b = true -> key_is_parent b c = true -> key_is_parent a c = true) /\
  (forall a b a' b', key_eqb a a' = true -> key_eqb b b' = true -> key_is_parent a b = key_is_parent a' b') /\
  (forall a b, (key_is_parent a b = true /\ key_is_parent b a = false /\ lk_layer a <> lk_layer b) \/
               (key_is_parent a b = false /\ key_is_parent b a = true /\ lk_layer a <> lk_layer b) \/
               (key_is_parent a b = false /\ key_is_parent b a = false /\ lk_layer a = lk_layer b)).
Proof.
  unfold key_is_parent. split; [|split; [|split]]; intros *; rewrite ?key_eqb_spec; lia.
Qed.
