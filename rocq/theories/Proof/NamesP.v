(** Decimal texts, labels, literals. *)
From Coq Require Import NArith Bool List String Ascii Lia.
From Coq Require Import Decimal DecimalN DecimalString.
From Verif.Model Require Import Types Node Names.
From Verif.Proof Require Import Arith.
Local Open Scope string_scope.
Local Open Scope N_scope.

#[local] Arguments append : simpl nomatch.
Lemma append_assoc (a b c : string) : (a ++ b) ++ c = a ++ (b ++ c).
Proof. induction a as [|x a IH]; cbn [append]; [reflexivity|f_equal; exact IH]. Qed.
Lemma append_nil (a : string) : a ++ "" = a.
Proof. induction a as [|x a IH]; cbn [append]; [reflexivity|f_equal; exact IH]. Qed.
Lemma append_cancel (a b c : string) : a ++ b = a ++ c -> b = c.
Proof. induction a as [|x a IH]; cbn [append]; intros H; [exact H|]. injection H. exact IH. Qed.

(** a text that does not go on with a digit *)
Definition no_digit (s : string) : Prop := starts_with_digit s = false.

Fixpoint value_from (d : uint) (acc : N) : N :=
  match d with
  | Nil => acc
  | D0 l => value_from l (acc * 10 + 0) | D1 l => value_from l (acc * 10 + 1) | D2 l => value_from l (acc * 10 + 2)
  | D3 l => value_from l (acc * 10 + 3) | D4 l => value_from l (acc * 10 + 4) | D5 l => value_from l (acc * 10 + 5)
  | D6 l => value_from l (acc * 10 + 6) | D7 l => value_from l (acc * 10 + 7) | D8 l => value_from l (acc * 10 + 8)
  | D9 l => value_from l (acc * 10 + 9)
  end.
Lemma value_acc d : forall p, N.pos (Pos.of_uint_acc d p) = value_from d (N.pos p).
Proof. induction d; intros p; cbn [Pos.of_uint_acc value_from]; [reflexivity|..]; rewrite IHd; f_equal; lia. Qed.
Lemma value_of_uint d : N.of_uint d = value_from d 0.
Proof.
  unfold N.of_uint. induction d; cbn [Pos.of_uint value_from]; [reflexivity|exact IHd|..]; rewrite value_acc; reflexivity.
Qed.
Lemma read_uint d rest : forall acc, no_digit rest -> read_digits (NilEmpty.string_of_uint d ++ rest) acc = value_from d acc.
Proof.
  intros acc Hr. revert acc. induction d; intros acc; [|cbn [NilEmpty.string_of_uint append read_digits value_from];
    match goal with |- context [digit_of ?c] => let v := eval vm_compute in (digit_of c) in change (digit_of c) with v end; apply IHd..].
  cbn [NilEmpty.string_of_uint append value_from]. destruct rest as [|c r]; [reflexivity|]. unfold no_digit in Hr. cbn in Hr. cbn [read_digits]. destruct (digit_of c); [discriminate|reflexivity].
Qed.
Lemma show_uint n : show_N n = NilEmpty.string_of_uint (N.to_uint n) /\ N.to_uint n <> Nil.
Proof.
  assert (H : N.to_uint n <> Nil).
  { destruct n as [|p]; [discriminate|]. intros H. assert (E : N.of_uint (N.to_uint (N.pos p)) = 0) by (rewrite H; reflexivity). rewrite DecimalN.Unsigned.of_to in E. discriminate. }
  split; [|exact H]. unfold show_N. destruct (N.to_uint n); [contradiction|reflexivity..].
Qed.
Lemma read_show n rest : no_digit rest -> read_digits (show_N n ++ rest) 0 = n.
Proof. intros H. destruct (show_uint n) as [-> _]. rewrite read_uint by exact H. rewrite <- value_of_uint. apply DecimalN.Unsigned.of_to. Qed.
Lemma show_starts n rest : exists c r, show_N n ++ rest = String c r /\ exists d, digit_of c = Some d.
Proof.
  destruct (show_uint n) as [-> H]. destruct (N.to_uint n) as [|u|u|u|u|u|u|u|u|u|u]; [contradiction|..]; cbn [NilEmpty.string_of_uint append]; eexists; eexists; (split; [reflexivity|]); vm_compute; eauto.
Qed.
Lemma digit_range c d : digit_of c = Some d -> 48 <= N_of_ascii c <= 57.
Proof. unfold digit_of. destruct (48 <=? N_of_ascii c) eqn:E1; [|discriminate]. destruct (N_of_ascii c <=? 57) eqn:E2; [|discriminate]. intros _. apply N.leb_le in E1, E2. lia. Qed.
Lemma digit_plain c d : digit_of c = Some d -> is_space c = false /\ c <> "-"%char /\ c <> "+"%char /\ is_alpha (N_of_ascii c) = false.
Proof.
  intros H. apply digit_range in H. unfold is_space, is_alpha. repeat split.
  - destruct (N.eqb_spec (N_of_ascii c) 32); [lia|]. destruct (N.leb_spec 9 (N_of_ascii c)), (N.leb_spec (N_of_ascii c) 13); cbn; lia || reflexivity.
  - intros ->. vm_compute in H. destruct H as [H _]. apply H. reflexivity.
  - intros ->. vm_compute in H. destruct H as [H _]. apply H. reflexivity.
  - destruct (N.leb_spec 65 (N_of_ascii c)), (N.leb_spec 97 (N_of_ascii c)); cbn; lia || reflexivity.
Qed.

(** *** Literals *)
Lemma stoull_show n rest : no_digit rest -> stoull (show_N n ++ rest) = if two64 <=? n then Throw else Ok n.
Proof.
  intros Hr. destruct (show_starts n rest) as (c & r & E & d & Hd). destruct (digit_plain c d Hd) as (Hs & Hm & Hp & _).
  unfold stoull. rewrite E. cbn [skip_space]. rewrite Hs.
  assert (K : (match String c r with String "-"%char r0 => (true, r0) | String "+"%char r0 => (false, r0) | _ => (false, String c r) end) = (false, String c r)).
  { destruct c as [[] [] [] [] [] [] [] []]; try reflexivity; congruence. }
  rewrite K. cbn [starts_with_digit]. rewrite Hd. cbn [negb]. rewrite <- E, read_show by exact Hr. reflexivity.
Qed.
Lemma literal_show c n : id_literal (String c (show_N n)) = if two64 <=? n then Throw else Ok (sym_make (N_of_ascii c) n).
Proof. cbn [id_literal]. rewrite <- (append_nil (show_N n)), stoull_show by reflexivity. destruct (two64 <=? n); reflexivity. Qed.

(** *** Labels *)
Definition tail (s : string) : string := match s with String _ r => r | EmptyString => s end.
Definition unlabel (s : string) : N :=
  match s with
  | String c r => if is_alpha (N_of_ascii c) then sym_make (N_of_ascii c) (read_digits (tail r) 0) else read_digits s 0
  | EmptyString => 0
  end.
Lemma category_lt id : id < two64 -> sym_category id < 256.
Proof. intros H. rewrite sym_category_div. unfold two64, two56 in *. apply N.div_lt_upper_bound; lia. Qed.
Lemma sym_parts id : id < two64 -> sym_make (sym_category id) (sym_index id) = id.
Proof.
  intros H. unfold sym_make. pose proof (category_lt id H) as Hc. rewrite sym_category_div, sym_index_mod in *. rewrite N.mod_mod by (unfold two56; lia).
  unfold two8. rewrite (N.mod_small (id / two56)) by exact Hc. pose proof (N.div_mod id two56 ltac:(unfold two56; lia)). lia.
Qed.
Lemma ascii_code n : n < 256 -> N_of_ascii (ascii_of_N n) = n.
Proof. apply N_ascii_embedding. Qed.
Lemma unlabel_label id rest : id < two64 -> no_digit rest -> unlabel (sym_label id ++ rest) = id.
Proof.
  intros H Hr. unfold sym_label. destruct (is_alpha (sym_category id)) eqn:E.
  - unfold char. cbn [append unlabel tail]. rewrite ascii_code by (apply category_lt, H). rewrite E. rewrite append_assoc, read_show by reflexivity. apply sym_parts, H.
  - destruct (show_starts id rest) as (c & r & E' & d & Hd). rewrite E'. cbn [unlabel]. destruct (digit_plain c d Hd) as (_ & _ & _ & ->). rewrite <- E'. apply read_show, Hr.
Qed.
Lemma label_cancel a b r s : a < two64 -> b < two64 -> no_digit r -> no_digit s -> sym_label a ++ r = sym_label b ++ s -> a = b /\ r = s.
Proof.
  intros Ha Hb Hr Hs H. assert (E : a = b) by (rewrite <- (unlabel_label a r), <- (unlabel_label b s) by assumption; rewrite H; reflexivity).
  split; [exact E|]. subst b. apply append_cancel in H. exact H.
Qed.
Lemma label_unique a b : a < two64 -> b < two64 -> sym_label a = sym_label b -> a = b.
Proof. intros Ha Hb H. apply (label_cancel a b "" "" Ha Hb eq_refl eq_refl). rewrite H. reflexivity. Qed.
Lemma label_starts a rest : a < two64 -> exists c r, sym_label a ++ rest = String c r /\ c <> "]"%char.
Proof.
  intros H. unfold sym_label. destruct (is_alpha (sym_category a)) eqn:E.
  - unfold char. cbn [append]. eexists; eexists. split; [reflexivity|]. intros K.
    pose proof (ascii_code _ (category_lt a H)) as C. rewrite K in C. rewrite <- C in E. vm_compute in E. discriminate.
  - destruct (show_starts a rest) as (c & r & -> & d & Hd). exists c, r. split; [reflexivity|]. intros ->. vm_compute in Hd. discriminate.
Qed.
Definition after (xs : list N) : string := match xs with nil => "]" | _ => ", " ++ show_rest xs ++ "]" end.
Lemma show_rest_cons x xs : show_rest (x :: xs) ++ "]" = sym_label x ++ after xs.
Proof. destruct xs as [|y ys]; [reflexivity|]. unfold after. cbn [show_rest]. rewrite !append_assoc. reflexivity. Qed.
Lemma after_no_digit xs : no_digit (after xs). Proof. destruct xs; reflexivity. Qed.
Lemma list_unique xs : forall ys, Forall (fun x => x < two64) xs -> Forall (fun x => x < two64) ys -> show_rest xs ++ "]" = show_rest ys ++ "]" -> xs = ys.
Proof.
  induction xs as [|x xs IH]; intros [|y ys] Hx Hy H; [reflexivity|..].
  - inversion Hy; subst. rewrite show_rest_cons in H. destruct (label_starts y (after ys)) as (c & r & E & Hc); [assumption|]. rewrite E in H. injection H as <- _. contradiction.
  - inversion Hx; subst. rewrite show_rest_cons in H. destruct (label_starts x (after xs)) as (c & r & E & Hc); [assumption|]. rewrite E in H. injection H as -> _. contradiction.
  - inversion Hx; inversion Hy; subst. rewrite !show_rest_cons in H. apply label_cancel in H as [-> H]; [|assumption|assumption|apply after_no_digit|apply after_no_digit].
    f_equal. apply IH; [assumption|assumption|]. unfold after in H. destruct xs as [|x2 xs], ys as [|y2 ys]; [reflexivity|discriminate|discriminate|].
    apply append_cancel in H. exact H.
Qed.

(** *** Prefixes *)
Lemma prefix_parts p : p < two32 -> p = prefix_key p * two24 + prefix_sub p /\ prefix_key p < 256.
Proof.
  intros H. rewrite prefix_key_div, prefix_sub_mod. split.
  - pose proof (N.div_mod p two24 ltac:(unfold two24; lia)). lia.
  - apply N.div_lt_upper_bound; unfold two32, two24 in *; lia.
Qed.
Lemma prefix_text_unique p q b : p < two32 -> q < two32 -> prefix_str p b = prefix_str q b -> p = q.
Proof.
  intros Hp Hq H. destruct b; unfold prefix_str in H; cbn [negb] in H.
  - destruct (prefix_parts p Hp) as [Ep Kp], (prefix_parts q Hq) as [Eq Kq]. unfold char in H. cbn [append] in H.
    pose proof (f_equal (fun s => match s with String c _ => c | EmptyString => "]"%char end) H) as Hk. apply (f_equal tail) in H. cbn [tail] in H.
    apply (f_equal N_of_ascii) in Hk. rewrite !ascii_code in Hk by assumption.
    assert (Hs : prefix_sub p = prefix_sub q).
    { destruct (N.eqb_spec (prefix_sub p) 0) as [E1|E1], (N.eqb_spec (prefix_sub q) 0) as [E2|E2]; try discriminate; [congruence|].
      apply (f_equal tail) in H. cbn [tail append] in H. apply (f_equal (fun s => read_digits s 0)) in H. rewrite !read_show in H by reflexivity. exact H. }
    rewrite Ep, Eq, Hk, Hs. reflexivity.
  - rewrite <- (read_show p "" eq_refl), <- (read_show q "" eq_refl), !append_nil, H. reflexivity.
Qed.
