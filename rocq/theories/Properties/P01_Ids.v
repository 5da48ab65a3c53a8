(** C01, C02, C04: identifiers. *)
From Coq Require Import NArith Bool.
From Verif.Model Require Import Types.
From Verif.Proof Require Import IdsP.
Local Open Scope N_scope.

(** C01 *)
Theorem C01_symbol_components_recovered : forall key idx, key < 2 ^ 8 -> idx < 2 ^ 56 ->
  sym_category (sym_make key idx) = key /\ sym_index (sym_make key idx) = idx /\ sym_make key idx < 2 ^ 64.
Proof. exact sym_roundtrip. Qed.
Print Assumptions C01_symbol_components_recovered.
Theorem C01_symbol_of_any_id : forall id, id < 2 ^ 64 -> sym_make (sym_category id) (sym_index id) = id.
Proof. exact sym_of_parts. Qed.
Print Assumptions C01_symbol_of_any_id.
Theorem C01_symbol_index_wraps : forall key idx k, sym_make key (idx + k * 2 ^ 56) = sym_make key idx.
Proof. exact sym_alias. Qed.
Print Assumptions C01_symbol_index_wraps.
Theorem C01_symbol_increment : forall s, s < 2 ^ 64 ->
  sym_category (sym_incr s) = sym_category s /\ sym_index (sym_incr s) = (sym_index s + 1) mod 2 ^ 56.
Proof. exact sym_incr_ok. Qed.
Print Assumptions C01_symbol_increment.
(** 'x' = 120 *)
Example C01_case : sym_make 120 5 = 8646911284551352325 /\ 120 < 2 ^ 8 /\ 5 < 2 ^ 56 /\ sym_incr (sym_make 120 (2 ^ 56 - 1)) = sym_make 120 0.
Proof. vm_compute. auto. Qed.

(** C02 *)
Theorem C02_prefix_ids_recovered : forall p i, p < 2 ^ 32 -> i < 2 ^ 32 ->
  prefix_from_id (prefix_make_id p i) = p /\ prefix_index (prefix_make_id p i) = i /\ prefix_make_id p i < 2 ^ 64 /\
  forall q, prefix_matches q (prefix_make_id p i) = true <-> q = p.
Proof. exact prefix_roundtrip. Qed.
Print Assumptions C02_prefix_ids_recovered.
Theorem C02_prefix_ids_distinct : forall p i q j, p < 2 ^ 32 -> i < 2 ^ 32 -> q < 2 ^ 32 -> j < 2 ^ 32 ->
  prefix_make_id p i = prefix_make_id q j -> p = q /\ i = j.
Proof. exact prefix_id_inj. Qed.
Print Assumptions C02_prefix_ids_distinct.
Theorem C02_every_id_has_a_prefix : forall id, id < 2 ^ 64 -> prefix_make_id (prefix_from_id id) (prefix_index id) = id.
Proof. exact prefix_of_any_id. Qed.
Print Assumptions C02_every_id_has_a_prefix.
Theorem C02_prefix_ids_alias_beyond_32_bits : forall p i, prefix_make_id p (i + 2 ^ 32) = prefix_make_id (p + 1) i.
Proof. exact prefix_alias. Qed.
Print Assumptions C02_prefix_ids_alias_beyond_32_bits.
Theorem C02_prefix_key_and_symbol : forall key idx i, key < 2 ^ 8 -> idx < 2 ^ 24 -> i < 2 ^ 32 ->
  sym_category (prefix_make_id (prefix_of_key_idx key idx) i) = key /\
  sym_index (prefix_make_id (prefix_of_key_idx key idx) i) = idx * 2 ^ 32 + i.
Proof. exact prefix_symbol. Qed.
Print Assumptions C02_prefix_key_and_symbol.
Example C02_case : prefix_make_id (prefix_of_key 97) 7 = sym_make 97 7 /\ prefix_of_key 97 < 2 ^ 32 /\ 7 < 2 ^ 32.
Proof. vm_compute. auto. Qed.

(** C04 *)
Theorem C04_layer_key_equality_is_equivalence :
  (forall a, key_eqb a a = true) /\
  (forall a b, key_eqb a b = true -> key_eqb b a = true) /\
  (forall a b c, key_eqb a b = true -> key_eqb b c = true -> key_eqb a c = true).
Proof. exact key_eqb_equiv. Qed.
Print Assumptions C04_layer_key_equality_is_equivalence.
Theorem C04_layer_key_equality_meaning : forall a b, key_eqb a b = true <->
  lk_layer a = lk_layer b /\ lk_dynamic a = lk_dynamic b /\ (lk_dynamic a = true -> lk_prefix a = lk_prefix b).
Proof. exact key_eqb_spec. Qed.
Print Assumptions C04_layer_key_equality_meaning.
Theorem C04_is_parent_strict_order :
  (forall a, key_is_parent a a = false) /\
  (forall a b c, key_is_parent a b = true -> key_is_parent b c = true -> key_is_parent a c = true) /\
  (forall a b a' b', key_eqb a a' = true -> key_eqb b b' = true -> key_is_parent a b = key_is_parent a' b') /\
  (forall a b, (key_is_parent a b = true /\ key_is_parent b a = false /\ lk_layer a <> lk_layer b) \/
               (key_is_parent a b = false /\ key_is_parent b a = true /\ lk_layer a <> lk_layer b) \/
               (key_is_parent a b = false /\ key_is_parent b a = false /\ lk_layer a = lk_layer b)).
Proof. exact key_parent_order. Qed.
Print Assumptions C04_is_parent_strict_order.
(** The static OBJECTS layer and a dynamic AGENTS layer share their LayerId but are different keys. *)
Example C04_case : key_eqb (key_static OBJECTS) (key_dynamic AGENTS 97) = false /\
  key_is_parent (key_static ROOMS) (key_dynamic AGENTS 97) = true /\ key_valid (key_static OBJECTS) = true /\ key_valid key_unknown = false.
Proof. vm_compute. auto. Qed.
