(** No reader leaves its buffer. *)
From Coq Require Import NArith ZArith Bool List Lia.
From stdpp Require Import base list gmap.
From Verif.Model Require Import Types Mesh Attrs Node Binary.
From Verif.Spec Require Import BinarySpec.
From Verif.Proof Require Import BinaryP.
Local Open Scope N_scope.

(** With [n] bytes left, the reader succeeds after at least [m] bytes with a value in [Q] or
    fails in an allowed way. *)
Definition inside (E : fault -> Prop) {A} (n m : N) (r : Reader A) (Q : A -> Prop) : Prop :=
  forall buf pos, Forall is_byte buf -> len buf < max_object -> pos + n <= len buf ->
    match r buf pos with
    | Val a p => pos + m <= p <= len buf /\ Q a
    | Fail f => E f
    end.
Definition tame (f : fault) : Prop := f = Exception \/ f = Undefined.
Definition exn (f : fault) : Prop := f = Exception.

Lemma inside_stays {A} m (r : Reader A) Q : inside tame 0 m r Q -> stays_inside r.
Proof.
  intros H buf pos Hb Hl Hp. specialize (H buf pos Hb Hl). destruct (r buf pos) as [a p|f].
  - destruct H as [[? ?] _]; [lia|]. lia.
  - destruct H as [->| ->]; [lia| |]; split; discriminate.
Qed.
Lemma inside_safe {A} m (r : Reader A) Q : inside exn 0 m r Q -> safe_on_all r.
Proof.
  intros H. split.
  - apply (inside_stays m r Q). intros buf pos Hb Hl Hp. specialize (H buf pos Hb Hl Hp).
    destruct (r buf pos); [exact H|]. left. exact H.
  - intros buf pos Hb Hl Hp E. specialize (H buf pos Hb Hl). rewrite E in H.
    discriminate H. lia.
Qed.

Section Inside.
  Context (E : fault -> Prop) (HE : E Exception).
  Notation ins := (inside E).

  Lemma ins_weaken {A} n m n' m' (r : Reader A) (Q Q' : A -> Prop) :
    n <= n' -> m' <= m -> (forall a, Q a -> Q' a) -> ins n m r Q -> ins n' m' r Q'.
  Proof.
    intros Hn Hm HQ H buf pos Hb Hl Hp. specialize (H buf pos Hb Hl).
    destruct (r buf pos) as [a p|f]; [|apply H; lia]. destruct H as [? ?]; [lia|]. split; [lia|auto].
  Qed.
  Lemma ins_ret {A} n (a : A) (Q : A -> Prop) : Q a -> ins n 0 (ret a) Q.
  Proof. intros HQ buf pos Hb Hl Hp. cbn. split; [lia|exact HQ]. Qed.
  Lemma ins_fail {A} n m (Q : A -> Prop) f : E f -> ins n m (fail f) Q.
  Proof. intros Hf buf pos Hb Hl Hp. exact Hf. Qed.
  Lemma ins_bind {A B} n m1 m2 (r : Reader A) (k : A -> Reader B) Q1 Q2 :
    ins n m1 r Q1 -> (forall a, Q1 a -> ins 0 m2 (k a) Q2) -> ins n (m1 + m2) (bind r k) Q2.
  Proof.
    intros H1 H2 buf pos Hb Hl Hp. unfold bind. specialize (H1 buf pos Hb Hl Hp).
    destruct (r buf pos) as [a p|f]; [|exact H1]. destruct H1 as [? HQ].
    specialize (H2 a HQ buf p Hb Hl). destruct (k a buf p) as [b p'|f]; [|apply H2; lia].
    destruct H2 as [? ?]; [lia|]. split; [lia|assumption].
  Qed.
  Lemma ins_check {A} nb ne m (k : unit -> Reader A) Q :
    ne * nb < max_object -> ins (ne * nb) m (k tt) Q -> ins 0 m (bind (check_valid nb ne) k) Q.
  Proof.
    intros Hs H buf pos Hb Hl Hp. unfold bind, check_valid. change (N.of_nat (length buf)) with (len buf).
    rewrite max_object_val in Hl, Hs. rewrite two64_val.
    rewrite (N.mod_small (ne * nb)) by lia. rewrite N.mod_small by lia.
    destruct (N.ltb_spec (len buf) (pos + ne * nb)); [exact HE|].
    apply H; [exact Hb|rewrite max_object_val; exact Hl|lia].
  Qed.
  Lemma ins_byte {A} n m (k : N -> Reader A) Q :
    1 <= n -> (forall b, is_byte b -> ins n m (k b) Q) -> ins n m (bind byte_at k) Q.
  Proof.
    intros Hn H buf pos Hb Hl Hp. unfold bind, byte_at.
    destruct (buf !! N.to_nat pos) as [b|] eqn:Eb.
    - apply H; [|exact Hb|exact Hl|exact Hp]. eapply Forall_lookup_1; [exact Hb|exact Eb].
    - apply lookup_ge_None_1 in Eb. unfold len in Hp. lia.
  Qed.
  Lemma ins_advance {A} n m (k : unit -> Reader A) Q :
    ins n m (k tt) Q -> ins (n + 1) (m + 1) (bind (advance 1) k) Q.
  Proof.
    intros H buf pos Hb Hl Hp. unfold bind, advance.
    assert (Hm : pos + 1 < two64) by (rewrite two64_val; rewrite max_object_val in Hl; lia).
    rewrite N.mod_small by exact Hm.
    specialize (H buf (pos + 1) Hb Hl). destruct (k tt buf (pos + 1)); [|apply H; lia].
    destruct H as [? ?]; [lia|]. split; [lia|assumption].
  Qed.
  Lemma ins_assoc {A B C} n m (r : Reader A) (k : A -> Reader B) (h : B -> Reader C) Q :
    ins n m (bind r (fun a => bind (k a) h)) Q -> ins n m (bind (bind r k) h) Q.
  Proof. intros H buf pos Hb Hl Hp. rewrite bind_assoc. apply H; assumption. Qed.
  Lemma ins_curr {A} m (k : N -> Reader A) Q :
    (forall t, is_byte t -> ins 1 m (k t) Q) -> ins 0 m (bind curr_type k) Q.
  Proof.
    intros H. apply ins_assoc. apply ins_check; [reflexivity|]. apply ins_byte; [reflexivity|exact H].
  Qed.
  Lemma ins_type {A} t m (k : unit -> Reader A) Q :
    ins 0 m (k tt) Q -> ins 0 (m + 1) (bind (check_type t) k) Q.
  Proof.
    intros H. apply ins_assoc. apply ins_curr. intros r Hr. destruct (t =? r).
    - apply (ins_advance 0 m k Q H).
    - intros buf pos Hb Hl Hp. exact HE.
  Qed.
  Lemma ins_word nb : ins (N.of_nat nb) (N.of_nat nb) (take_word nb) (fun v => v < 256 ^ N.of_nat nb).
  Proof.
    induction nb as [|k IH].
    - apply (ins_ret 0 0). reflexivity.
    - cbn [take_word]. apply ins_byte; [lia|]. intros b Hb.
      replace (N.of_nat (S k)) with (N.of_nat k + 1) at 1 2 by lia. apply ins_advance.
      rewrite <- (N.add_0_r (N.of_nat k)) at 2.
      eapply ins_bind; [exact IH|]. intros r Hr. apply ins_ret.
      rewrite Nat2N.inj_succ, N.pow_succ_r'. unfold is_byte in Hb. revert Hr. generalize (256 ^ N.of_nat k). intros w Hr. lia.
  Qed.
  Lemma ins_bytes n : ins (N.of_nat n) (N.of_nat n) (take_bytes n) (fun l => length l = n).
  Proof.
    induction n as [|k IH].
    - apply (ins_ret 0 []). reflexivity.
    - cbn [take_bytes]. apply ins_byte; [lia|]. intros b Hb.
      replace (N.of_nat (S k)) with (N.of_nat k + 1) by lia. apply ins_advance.
      rewrite <- (N.add_0_r (N.of_nat k)) at 2.
      eapply ins_bind; [exact IH|]. intros r Hr. apply ins_ret. cbn [length]. congruence.
  Qed.
  Lemma ins_length : ins 0 5 read_array_length (fun v => v < two32).
  Proof.
    apply ins_curr. intros t _. destruct (_ || _); [|apply ins_fail, HE].
    apply (ins_advance 0 4 (fun _ => bind (check_valid 4 1) (fun _ => take_word 4))).
    apply ins_check; [reflexivity|]. apply (ins_word 4).
  Qed.
  Lemma ins_check_length n : ins 0 5 (check_array_length n) (fun _ => True).
  Proof.
    apply ins_curr. intros t _. destruct (_ || _); [|apply ins_fail, HE].
    apply (ins_advance 0 4 (fun _ => bind (check_valid 4 1) (fun _ => bind (take_word 4) (fun _ => if n =? n then ret tt else fail Exception)))).
    apply ins_check; [reflexivity|]. rewrite N.eqb_refl.
    change 4 with (N.of_nat 4 + 0) at 2.
    eapply ins_bind; [apply (ins_word 4)|]. intros v _. apply ins_ret. exact I.
  Qed.
  Lemma ins_dynamic_array : ins 0 1 check_dynamic_array (fun _ => True).
  Proof.
    apply ins_curr. intros t _. destruct (_ =? _); [|apply ins_fail, HE].
    intros buf pos Hb Hl Hp. unfold advance. rewrite max_object_val in Hl.
    rewrite N.mod_small by (rewrite two64_val; lia). split; [lia|exact I].
  Qed.
  Lemma ins_array_end : ins 0 0 is_dynamic_array_end (fun _ => True).
  Proof.
    apply ins_curr. intros t _. destruct (_ =? _).
    - eapply (ins_weaken 1 1); [reflexivity|discriminate|intros a H; exact H|].
      apply (ins_advance 0 0 (fun _ => ret true)). apply ins_ret. exact I.
    - apply ins_ret. exact I.
  Qed.
  (** codecs: every read consumes at least one byte *)
  Definition codec_inside {A} (c : Codec A) : Prop := forall old, ins 0 1 (cd_read c old) (fun _ => True).

  Lemma ci_uint tag nb : N.of_nat nb < max_object -> codec_inside (codec_uint tag nb).
  Proof.
    intros Hn old. cbn [cd_read codec_uint].
    apply (ins_type tag 0). apply ins_check; [lia|].
    eapply ins_weaken; [|apply N.le_0_l|intros; exact I|apply (ins_word nb)]. lia.
  Qed.
  Lemma ci_int tag nb : N.of_nat nb < max_object -> codec_inside (codec_int tag nb).
  Proof.
    intros Hn old. cbn [cd_read codec_int].
    apply (ins_type tag 0). apply ins_check; [lia|].
    eapply (ins_weaken (N.of_nat nb) (N.of_nat nb + 0)); [lia|apply N.le_0_l|intros a H; exact H|].
    eapply ins_bind; [apply (ins_word nb)|]. intros. apply ins_ret. exact I.
  Qed.
  Lemma ci_bool : codec_inside c_bool.
  Proof.
    intros old. cbn [cd_read c_bool]. apply ins_curr. intros t _.
    eapply (ins_weaken 0 1); [discriminate|reflexivity|intros a H; exact H|].
    apply (ins_type t 0). destruct (t =? T_FALSE); [apply ins_ret; exact I|].
    destruct (t =? T_TRUE); [apply ins_ret; exact I|apply ins_fail, HE].
  Qed.
  Lemma ci_string : codec_inside c_string.
  Proof.
    intros old. cbn [cd_read c_string].
    eapply (ins_weaken 0 (5 + 0)); [reflexivity|lia|intros a H; exact H|].
    eapply ins_bind; [apply ins_length|]. intros n Hn.
    assert (Hn' : n < 4294967296) by exact Hn.
    apply ins_check; [rewrite max_object_val; lia|].
    eapply ins_weaken; [|apply N.le_0_l|intros; exact I|apply (ins_bytes (N.to_nat n))]. lia.
  Qed.
  Lemma ci_option {A} d (c : Codec A) : codec_inside c -> codec_inside (codec_option d c).
  Proof.
    intros Hc old. cbn [cd_read codec_option]. apply ins_curr. intros t _.
    eapply (ins_weaken 0 1); [discriminate|reflexivity|intros a H; exact H|]. destruct (_ =? _).
    - apply (ins_type _ 0). apply ins_ret. exact I.
    - rewrite <- (N.add_0_r 1). eapply ins_bind; [apply Hc|]. intros. apply ins_ret. exact I.
  Qed.
  Lemma ins_each {A} (c : Codec A) olds : codec_inside c -> ins 0 0 (read_each c olds) (fun _ => True).
  Proof.
    intros Hc. induction olds as [|o r IH]; [apply ins_ret; exact I|]. cbn [read_each].
    eapply (ins_weaken 0 (1 + (0 + 0))); [reflexivity|lia|intros a H; exact H|].
    eapply ins_bind; [apply Hc|]. intros v _. eapply ins_bind; [exact IH|]. intros. apply ins_ret. exact I.
  Qed.
  Lemma ci_vector {A} d (c : Codec A) : codec_inside c -> codec_inside (codec_vector d c).
  Proof.
    intros Hc old. cbn [cd_read codec_vector].
    eapply (ins_weaken 0 (5 + 0)); [reflexivity|lia|intros a H; exact H|].
    eapply ins_bind; [apply ins_length|]. intros n _. apply ins_each, Hc.
  Qed.
  Lemma ci_list {A} d (c : Codec A) : codec_inside c -> codec_inside (codec_list d c).
  Proof.
    intros Hc old. cbn [cd_read codec_list].
    eapply (ins_weaken 0 (5 + 0)); [reflexivity|lia|intros a H; exact H|].
    eapply ins_bind; [apply ins_length|]. intros n _. apply ins_each, Hc.
  Qed.
  Lemma ci_array {A} n (c : Codec A) : codec_inside c -> codec_inside (codec_array n c).
  Proof.
    intros Hc old. cbn [cd_read codec_array].
    eapply (ins_weaken 0 (5 + 0)); [reflexivity|lia|intros a H; exact H|].
    eapply ins_bind; [apply ins_check_length|]. intros _ _. apply ins_each, Hc.
  Qed.
  Lemma ci_set {A} `{Countable A} order d (c : Codec A) : codec_inside c -> codec_inside (codec_set order d c).
  Proof.
    intros Hc old. cbn [cd_read codec_set].
    eapply (ins_weaken 0 (5 + 0)); [reflexivity|lia|intros a H'; exact H'|].
    eapply ins_bind; [apply ins_length|]. intros n _. generalize (N.to_nat n), (∅ : gset A).
    intros k. induction k as [|k IH]; intros s; [apply ins_ret; exact I|]. cbn [read_set].
    eapply (ins_weaken 0 (1 + 0)); [reflexivity|lia|intros a H'; exact H'|].
    eapply ins_bind; [apply Hc|]. intros v _. apply IH.
  Qed.
  Lemma ci_map {K V} `{Countable K} order dk dv (ck : Codec K) (cv : Codec V) :
    codec_inside ck -> codec_inside cv -> codec_inside (codec_map order dk dv ck cv).
  Proof.
    intros Hk Hv old. cbn [cd_read codec_map].
    eapply (ins_weaken 0 (5 + 0)); [reflexivity|lia|intros a H'; exact H'|].
    eapply ins_bind; [apply ins_length|]. intros n _. generalize (N.to_nat n), (∅ : gmap K V).
    intros k. induction k as [|k IH]; intros s; [apply ins_ret; exact I|]. cbn [read_map].
    eapply (ins_weaken 0 (1 + (1 + 0))); [reflexivity|lia|intros a H'; exact H'|].
    eapply ins_bind; [apply Hk|]. intros v _. eapply ins_bind; [apply Hv|]. intros. apply IH.
  Qed.
  Lemma ci_matrix fr fc (c : Codec N) : E Undefined -> codec_inside c -> codec_inside (codec_matrix fr fc c).
  Proof.
    intros HU Hc old. cbn [cd_read codec_matrix].
    eapply (ins_weaken 0 (5 + 0)); [reflexivity|lia|intros a H'; exact H'|].
    eapply ins_bind; [apply ins_length|]. intros n _. destruct (n <? 2); [apply ins_fail, HE|].
    eapply (ins_weaken 0 (1 + (1 + 0))); [reflexivity|lia|intros a H'; exact H'|].
    eapply ins_bind; [apply ci_int; reflexivity|]. intros rows _.
    eapply ins_bind; [apply ci_int; reflexivity|]. intros cols _.
    destruct (negb _); [apply ins_fail, HU|]. destruct (negb _); [apply ins_fail, HE|].
    destruct (negb _); [apply ins_fail, HU|].
    change 0 with (0 + 0) at 2. eapply ins_bind; [apply ins_each, Hc|]. intros. apply ins_ret. exact I.
  Qed.
  Lemma ci_vec3 (c : Codec N) : codec_inside c -> codec_inside (codec_vec3 c).
  Proof.
    intros Hc old. cbn [cd_read codec_vec3].
    eapply (ins_weaken 0 (1 + (1 + (1 + 0)))); [reflexivity|lia|intros a H'; exact H'|].
    eapply ins_bind; [apply Hc|]. intros x _. eapply ins_bind; [apply Hc|]. intros y _.
    eapply ins_bind; [apply Hc|]. intros z _. apply ins_ret. exact I.
  Qed.
  Lemma ci_quat (c : Codec N) : codec_inside c -> codec_inside (codec_quat c).
  Proof.
    intros Hc old. cbn [cd_read codec_quat].
    eapply (ins_weaken 0 (5 + (1 + (1 + (1 + (1 + 0)))))); [reflexivity|lia|intros a H'; exact H'|].
    eapply ins_bind; [apply ins_check_length|]. intros _ _.
    eapply ins_bind; [apply Hc|]. intros w _. eapply ins_bind; [apply Hc|]. intros x _.
    eapply ins_bind; [apply Hc|]. intros y _. eapply ins_bind; [apply Hc|]. intros z _. apply ins_ret. exact I.
  Qed.
  Lemma ins_fields {T} (fs : list (Field T)) t :
    Forall (fun f => codec_inside (fd_codec f)) fs -> ins 0 0 (read_fields fs t) (fun _ => True).
  Proof.
    intros H. revert t. induction H as [|f r Hf Hr IH]; intros t; [apply ins_ret; exact I|].
    cbn [read_fields]. eapply (ins_weaken 0 (1 + 0)); [reflexivity|lia|intros a H'; exact H'|].
    eapply ins_bind; [apply Hf|]. intros v _. apply IH.
  Qed.
End Inside.

Lemma ins_if_true E : inside E 0 0 check_if_true (fun _ => True).
Proof.
  assert (H : inside exn 0 0 (bind curr_type (fun t => bind (check_type t) (fun _ => ret (t =? T_TRUE)))) (fun _ => True)).
  { apply ins_curr; [reflexivity|]. intros t _.
    eapply (ins_weaken _ 0 1); [discriminate|discriminate|intros a H; exact H|].
    apply (ins_type exn eq_refl t 0). apply ins_ret. exact I. }
  intros buf pos Hb Hl Hp. unfold check_if_true. specialize (H buf pos Hb Hl Hp).
  destruct (bind _ _ buf pos) as [a p|f]; [exact H|]. rewrite H. split; [lia|exact I].
Qed.
