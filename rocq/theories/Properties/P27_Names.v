(** C57: the texts of ids, prefixes and layers. *)
From Coq Require Import NArith Bool List String Ascii Lia.
From stdpp Require Import base list strings.
From Verif.Model Require Import Types Node Names.
From Verif.Proof Require Import Arith NamesP.
Local Open Scope string_scope.
Local Open Scope list_scope.
Local Open Scope N_scope.
#[local] Arguments append : simpl nomatch.

(** Two different 64-bit ids never have the same label. *)
Theorem C57_label_unique : forall a b, a < 2 ^ 64 -> b < 2 ^ 64 -> sym_label a = sym_label b -> a = b.
Proof. exact label_unique. Qed.
Print Assumptions C57_label_unique.
Example C57_label_cases : sym_label (sym_make 97 5) = "a(5)" /\ sym_label (sym_make 90 0) = "Z(0)" /\ sym_label 12 = "12" /\
  sym_label (sym_make 48 5) = "3458764513820540933".
Proof. vm_compute. auto. Qed.

(** The label of a node is letter, bracket, index if its category is a letter. *)
Definition is_letter (c : ascii) : bool := existsb (Ascii.eqb c) (list_ascii_of_string "ABCDEFGHIJKLMNOPQRSTUVWXYZabcdefghijklmnopqrstuvwxyz").
Lemma alpha_letter c : is_alpha (N_of_ascii c) = is_letter c.
Proof. destruct c as [[] [] [] [] [] [] [] []]; vm_compute; reflexivity. Qed.
Theorem C57_label : forall c i, i < 2 ^ 56 ->
  sym_label (sym_make (N_of_ascii c) i) =
  if is_letter c then String c (append "(" (append (show_N i) ")")) else show_N (N_of_ascii c * 2 ^ 56 + i).
Proof.
  intros c i Hi. rewrite <- alpha_letter. assert (Hc : N_of_ascii c < 256) by apply N_ascii_bounded.
  assert (E : sym_make (N_of_ascii c) i = N_of_ascii c * 2 ^ 56 + i) by (unfold sym_make, two8; rewrite !N.mod_small by assumption; reflexivity).
  assert (E1 : sym_category (sym_make (N_of_ascii c) i) = N_of_ascii c).
  { rewrite sym_category_div, E. change two56 with (2 ^ 56). rewrite N.div_add_l by discriminate. rewrite N.div_small by exact Hi. lia. }
  assert (E2 : sym_index (sym_make (N_of_ascii c) i) = i).
  { rewrite sym_index_mod, E. change two56 with (2 ^ 56). rewrite N.add_comm, N.mod_add by discriminate. apply N.mod_small, Hi. }
  unfold sym_label. rewrite E1, E2. destruct (is_alpha (N_of_ascii c)); [|rewrite E; reflexivity].
  unfold char. rewrite ascii_N_embedding. reflexivity.
Qed.
Print Assumptions C57_label.

(** A displayed list of ids determines the list. *)
Theorem C57_list_unique : forall xs ys, Forall (fun x => x < 2 ^ 64) xs -> Forall (fun x => x < 2 ^ 64) ys -> show_ids xs = show_ids ys -> xs = ys.
Proof. intros xs ys Hx Hy H. apply (list_unique xs ys Hx Hy). exact (f_equal tail H). Qed.
Print Assumptions C57_list_unique.
Example C57_list_case : show_ids [sym_make 97 5; 12; sym_make 98 7] = "[a(5), 12, b(7)]" /\ show_ids [] = "[]".
Proof. vm_compute. auto. Qed.

(** "x123"_id is NodeSymbol('x', 123) for every character x and every index below 2^56; an
    index of 2^64 or more throws. *)
Theorem C57_literal : forall c i,
  (i < 2 ^ 56 -> id_literal (String c (show_N i)) = Ok (N_of_ascii c * 2 ^ 56 + i)) /\
  (2 ^ 56 <= i < 2 ^ 64 -> id_literal (String c (show_N i)) = Ok (N_of_ascii c * 2 ^ 56 + i mod 2 ^ 56)) /\
  (2 ^ 64 <= i -> id_literal (String c (show_N i)) = Throw).
Proof.
  intros c i. rewrite literal_show. assert (Hc : N_of_ascii c < 256) by apply N_ascii_bounded.
  unfold two64. change 18446744073709551616 with (2 ^ 64). unfold sym_make, two8. change two56 with (2 ^ 56).
  assert (L : 2 ^ 56 < 2 ^ 64) by (apply N.pow_lt_mono_r; lia).
  rewrite (N.mod_small (N_of_ascii c)) by exact Hc. generalize dependent (2 ^ 64). intros p L. split; [|split]; intros H.
  - rewrite (proj2 (N.leb_gt _ _)) by lia. rewrite N.mod_small by exact H. reflexivity.
  - rewrite (proj2 (N.leb_gt _ _)) by lia. reflexivity.
  - rewrite (proj2 (N.leb_le _ _)) by lia. reflexivity.
Qed.
Print Assumptions C57_literal.
Definition no_sign (s : string) : Prop := match s with String c _ => c <> "-"%char /\ c <> "+"%char | EmptyString => True end.
Theorem C57_literal_malformed : forall c r, starts_with_digit r = false -> no_sign r -> skip_space r = r -> id_literal "" = Throw /\ id_literal (String c r) = Throw.
Proof.
  intros c r H Hs Hr. split; [reflexivity|]. cbn [id_literal]. unfold stoull. rewrite Hr. destruct r as [|x r]; [reflexivity|].
  assert (K : (match String x r with String "-"%char r0 => (true, r0) | String "+"%char r0 => (false, r0) | _ => (false, String x r) end) = (false, String x r)).
  { destruct Hs as [H1 H2]. destruct x as [[] [] [] [] [] [] [] []]; try reflexivity; congruence. }
  rewrite K, H. reflexivity.
Qed.
Print Assumptions C57_literal_malformed.
(** White space before the number is ignored, and only that: the six characters of "C" *)
Definition white (c : ascii) : Prop := In c [" "; "009"; "010"; "011"; "012"; "013"]%char.
Fixpoint all_white (w : string) : Prop := match w with EmptyString => True | String c r => white c /\ all_white r end.
Theorem C57_literal_space : forall c w r, all_white w -> id_literal (String c (w ++ r)) = id_literal (String c r).
Proof.
  intros c w r H. assert (K : stoull (w ++ r) = stoull r); [|cbn [id_literal]; rewrite K; reflexivity].
  assert (K : skip_space (w ++ r) = skip_space r); [|unfold stoull; rewrite K; reflexivity].
  induction w as [|a w IH]; [reflexivity|]. destruct H as [Ha Hw]. cbn. assert (is_space a = true) as ->; [|apply IH, Hw].
  unfold white in Ha. cbn in Ha. intuition (subst; reflexivity).
Qed.
Print Assumptions C57_literal_space.
Theorem C57_literal_other : forall c x r, ~ white x -> starts_with_digit (String x r) = false -> x <> "-"%char -> x <> "+"%char -> id_literal (String c (String x r)) = Throw.
Proof.
  intros c x r Hw Hd H1 H2. assert (Hsp : is_space x = false).
  { destruct (is_space x) eqn:E; [|reflexivity]. exfalso. apply Hw. unfold white. clear - E. destruct x as [[|] [|] [|] [|] [|] [|] [|] [|]]; vm_compute in E; try discriminate E; cbn; tauto. }
  cbn [id_literal]. unfold stoull. cbn [skip_space]. rewrite Hsp.
  destruct x as [[|] [|] [|] [|] [|] [|] [|] [|]]; try congruence; rewrite Hd; reflexivity.
Qed.
Print Assumptions C57_literal_other.
Example C57_literal_cases : id_literal "p12" = Ok (112 * 2 ^ 56 + 12) /\ id_literal "p" = Throw /\ id_literal "" = Throw /\ id_literal "pq1" = Throw.
Proof. vm_compute. auto. Qed.
(** Deviations: a label is not a literal, trailing text is ignored, a sign is accepted and wraps,
    and an index of 2^56 gives the id of index 0. *)
Theorem C57_literal_deviations : id_literal "a(5)" = Throw /\ id_literal "a5xyz" = id_literal "a5" /\
  id_literal "a-1" = Ok (97 * 2 ^ 56 + (2 ^ 56 - 1)) /\ id_literal "a72057594037927936" = id_literal "a0".
Proof. vm_compute. auto. Qed.

(** The text of a 32-bit prefix, with or without its key as a letter, determines the prefix. *)
Theorem C57_prefix_unique : forall p q with_key, p < 2 ^ 32 -> q < 2 ^ 32 -> prefix_str p with_key = prefix_str q with_key -> p = q.
Proof. exact prefix_text_unique. Qed.
Print Assumptions C57_prefix_unique.
Example C57_prefix_cases : prefix_str (prefix_of_key 97) true = "a" /\ prefix_str (prefix_of_key 97 + 3) true = "a(3)" /\ prefix_str (prefix_of_key 97) false = "1627389952".
Proof. vm_compute. auto. Qed.

(** The names of layers. *)
Definition layer_table : list (string * LayerId) :=
  [("SEGMENTS", 1); ("OBJECTS", 2); ("PLACES", 3); ("ROOMS", 4); ("BUILDINGS", 5); ("MESH_PLACES", 20)].
Definition synonyms : list (string * LayerId) := [("AGENTS", 2); ("STRUCTURE", 3)].
Theorem C57_layer_names :
  (forall name l, (name, l) ∈ layer_table -> layer_to_string l = name) /\
  (forall l, (forall name, (name, l) ∉ layer_table) -> layer_to_string l = "UNKNOWN") /\
  (forall text name l, (name, l) ∈ layer_table ++ synonyms -> upper text = name -> layer_of_string text = l) /\
  (forall text, (forall name l, (name, l) ∈ layer_table ++ synonyms -> upper text <> name) -> layer_of_string text = UNKNOWN_LAYER).
Proof.
  split; [|split; [|split]].
  - intros name l H. unfold layer_table in H. repeat (apply elem_of_cons in H as [H|H]; [injection H as -> ->; reflexivity|]). apply elem_of_nil in H. contradiction.
  - intros l H. unfold layer_to_string. repeat match goal with |- context [l =? ?k] => destruct (N.eqb_spec l k) as [->|] end; try reflexivity; exfalso.
    + apply (H "SEGMENTS"). apply elem_of_list_In. vm_compute. tauto.
    + apply (H "OBJECTS"). apply elem_of_list_In. vm_compute. tauto.
    + apply (H "PLACES"). apply elem_of_list_In. vm_compute. tauto.
    + apply (H "ROOMS"). apply elem_of_list_In. vm_compute. tauto.
    + apply (H "BUILDINGS"). apply elem_of_list_In. vm_compute. tauto.
    + apply (H "MESH_PLACES"). apply elem_of_list_In. vm_compute. tauto.
  - intros text name l H E. unfold layer_of_string. rewrite E. cbv zeta. unfold layer_table, synonyms in H. cbn [app] in H.
    repeat (apply elem_of_cons in H as [H|H]; [injection H as -> ->; reflexivity|]). apply elem_of_nil in H. contradiction.
  - intros text H. unfold layer_of_string. cbv zeta.
    assert (K : forall name l, (name, l) ∈ layer_table ++ synonyms -> String.eqb (upper text) name = false) by (intros name l Hn; apply String.eqb_neq, (H name l Hn)).
    rewrite (K "SEGMENTS" 1), (K "OBJECTS" 2), (K "AGENTS" 2), (K "PLACES" 3), (K "STRUCTURE" 3), (K "ROOMS" 4), (K "BUILDINGS" 5), (K "MESH_PLACES" 20);
      [reflexivity|apply elem_of_list_In; cbn; tauto..].
Qed.
Print Assumptions C57_layer_names.
(** Reading the name of a layer gives the layer, or UNKNOWN for a layer without a name. *)
Theorem C57_layer_round_trip : forall l, layer_of_string (layer_to_string l) = if String.eqb (layer_to_string l) "UNKNOWN" then UNKNOWN_LAYER else l.
Proof.
  intros l. unfold layer_to_string. repeat match goal with |- context [(l =? ?k)%N] => destruct (N.eqb_spec l k) as [->|]; [reflexivity|] end. reflexivity.
Qed.
Print Assumptions C57_layer_round_trip.
(** Letter case does not matter. *)
Theorem C57_layer_case : forall s t, upper s = upper t -> layer_of_string s = layer_of_string t.
Proof. intros s t H. unfold layer_of_string. rewrite H. reflexivity. Qed.
Print Assumptions C57_layer_case.
Example C57_layer_cases : layer_of_string "Mesh_Places" = 20 /\ layer_of_string "agents" = layer_of_string "Objects" /\ layer_of_string "room" = UNKNOWN_LAYER /\ layer_to_string 7 = "UNKNOWN".
Proof. vm_compute. auto. Qed.
