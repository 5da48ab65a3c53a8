(** Bit arithmetic of NodeSymbol and LayerPrefix. *)
From Coq Require Import NArith ZArith Bool Lia.
From Coq Require Import ZifyN ZifyBool.
From Verif.Model Require Import Types.
Local Open Scope N_scope.
Ltac Zify.zify_post_hook ::= Z.div_mod_to_equations.

#[global] Arguments two8 : simpl never.
#[global] Arguments two24 : simpl never.
#[global] Arguments two32 : simpl never.
#[global] Arguments two56 : simpl never.
#[global] Arguments two64 : simpl never.

Lemma two8_eq : two8 = 256. Proof. reflexivity. Qed.
Lemma two24_eq : two24 = 16777216. Proof. reflexivity. Qed.
Lemma two32_eq : two32 = 4294967296. Proof. reflexivity. Qed.
Lemma two56_eq : two56 = 72057594037927936. Proof. reflexivity. Qed.
Lemma two64_eq : two64 = 18446744073709551616. Proof. reflexivity. Qed.

Lemma land_mask32 x : N.land (two32 - 1) x = x mod two32.
Proof. rewrite N.land_comm. change (two32 - 1) with (N.ones 32). rewrite N.land_ones. reflexivity. Qed.
Lemma land_mask56 x : N.land x (two56 - 1) = x mod two56.
Proof. change (two56 - 1) with (N.ones 56). rewrite N.land_ones. reflexivity. Qed.
Lemma land_mask24 x : N.land x (two24 - 1) = x mod two24.
Proof. change (two24 - 1) with (N.ones 24). rewrite N.land_ones. reflexivity. Qed.

Lemma sym_category_div s : sym_category s = s / two56.
Proof. unfold sym_category. rewrite N.shiftr_div_pow2. reflexivity. Qed.
Lemma sym_index_mod s : sym_index s = s mod two56.
Proof. apply land_mask56. Qed.
Lemma prefix_index_mod s : prefix_index s = s mod two32.
Proof. apply land_mask32. Qed.
Lemma prefix_from_id_div x : prefix_from_id x = (x / two32) mod two32.
Proof. unfold prefix_from_id. rewrite N.shiftr_div_pow2. reflexivity. Qed.
Lemma prefix_make_id_mul p i : prefix_make_id p i = (p * two32 + i) mod two64.
Proof. unfold prefix_make_id. rewrite N.shiftl_mul_pow2. reflexivity. Qed.
Lemma prefix_key_div p : prefix_key p = p / two24.
Proof. unfold prefix_key. rewrite N.shiftr_div_pow2. reflexivity. Qed.
Lemma prefix_sub_mod p : prefix_sub p = p mod two24.
Proof. apply land_mask24. Qed.

(** Ids of one prefix. *)
Section Prefix.
  Context (p : N) (Hp : p < two32).

  Lemma make_id_small i : i < two32 -> prefix_make_id p i = p * two32 + i.
  Proof. intros Hi. rewrite prefix_make_id_mul. rewrite two32_eq, two64_eq in *. apply N.mod_small. lia. Qed.
  Lemma make_id_lt i : prefix_make_id p i < two64.
  Proof. rewrite prefix_make_id_mul. apply N.mod_lt. rewrite two64_eq. lia. Qed.
  Lemma make_id_index i : i < two32 -> prefix_index (prefix_make_id p i) = i.
  Proof. intros Hi. rewrite make_id_small by assumption. rewrite prefix_index_mod. rewrite two32_eq in *. lia. Qed.
  Lemma make_id_from i : i < two32 -> prefix_from_id (prefix_make_id p i) = p.
  Proof. intros Hi. rewrite make_id_small by assumption. rewrite prefix_from_id_div. rewrite two32_eq in *. lia. Qed.
  Lemma make_id_inj i j : i < two32 -> j < two32 -> prefix_make_id p i = prefix_make_id p j -> i = j.
  Proof. intros Hi Hj H. apply (f_equal prefix_index) in H. rewrite !make_id_index in H by assumption. exact H. Qed.
  Lemma make_id_of_id x : x < two64 -> prefix_from_id x = p -> prefix_make_id p (prefix_index x) = x.
  Proof.
    intros Hx H. rewrite make_id_small.
    - rewrite prefix_index_mod. rewrite prefix_from_id_div in H. rewrite two32_eq, two64_eq in *. lia.
    - rewrite prefix_index_mod. rewrite two32_eq. lia.
  Qed.
  (** With a zero 24-bit sub-index the 56-bit category id is the 32-bit index. *)
  Lemma make_id_sym_index i : prefix_sub p = 0 -> i < two32 -> sym_index (prefix_make_id p i) = i.
  Proof.
    intros Hs Hi. rewrite make_id_small by assumption. rewrite sym_index_mod.
    rewrite prefix_sub_mod in Hs. rewrite two24_eq, two32_eq, two56_eq in *. lia.
  Qed.
End Prefix.

Lemma prefix_from_id_lt x : prefix_from_id x < two32.
Proof. rewrite prefix_from_id_div. apply N.mod_lt. rewrite two32_eq. lia. Qed.
Lemma prefix_index_lt x : prefix_index x < two32.
Proof. rewrite prefix_index_mod. apply N.mod_lt. rewrite two32_eq. lia. Qed.
Lemma prefix_matches_from p x : prefix_matches p x = true <-> p = prefix_from_id x.
Proof. unfold prefix_matches. rewrite N.eqb_eq. reflexivity. Qed.
