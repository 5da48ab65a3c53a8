From Coq Require Import List Bool Lia.
From Verif.Model Require Import Types Zmq.
From Verif.Spec Require Import ZmqSpec.
Import ListNotations.
Set Default Proof Using "Type".

Section zmq.
Context {Msg G : Type} (read : Msg -> result G) (update : G -> Msg -> result G)
        (clone : G -> result G).
Notation ev := (event Msg G).
Notation run := (run read update clone).
Notation step := (step read update clone).
Notation holds := (holds read update).

Lemma applied_app (a b : list ev) : applied (a ++ b) = applied a ++ applied b.
Proof. induction a as [|[] a IH]; cbn; try rewrite IH; reflexivity. Qed.

Definition is_applied (e : ev) : bool := match e with Applied _ => true | _ => false end.
Definition pend (es : list ev) : bool :=
  fold_left (fun b e => match e with Applied _ => true | UnlockR => false | _ => b end) es false.
Definition ann (es : list ev) : bool :=
  fold_left (fun b e => match e with SetChange => true | Clear => false | _ => b end) es false.
Lemma pend_snoc es e : pend (es ++ [e]) =
  match e with Applied _ => true | UnlockR => false | _ => pend es end.
Proof. unfold pend. rewrite fold_left_app. reflexivity. Qed.
Lemma ann_snoc es e : ann (es ++ [e]) =
  match e with SetChange => true | Clear => false | _ => ann es end.
Proof. unfold ann. rewrite fold_left_app. reflexivity. Qed.

Lemma snoc_split {A} (es : list A) e es1 x es2 : es ++ [e] = es1 ++ x :: es2 ->
  (es2 = [] /\ es = es1 /\ e = x) \/ (exists es2', es2 = es2' ++ [e] /\ es = es1 ++ x :: es2').
Proof.
  destruct (exists_last (l := x :: es2)) as (q & z & E); [discriminate|]. rewrite E, app_assoc.
  intros H. apply app_inj_tail in H as [-> ->].
  destruct es2 as [|y es2 _] using rev_ind.
  - left. destruct q as [|? [|]]; cbn in E; try (injection E as -> ; subst; rewrite app_nil_r; auto); discriminate.
  - right. exists es2. change (x :: es2 ++ [y]) with ((x :: es2) ++ [y]) in E.
    apply app_inj_tail in E as [<- <-]. auto.
Qed.

Lemma settled_pend es : settled es <-> pend es = false.
Proof.
  induction es as [|e es IH] using rev_ind.
  { split; [reflexivity|]. intros _ es1 m es2 H. destruct es1; discriminate. }
  rewrite pend_snoc.
  assert (K : is_applied e = false -> e <> UnlockR -> settled (es ++ [e]) <-> settled es).
  { intros NA NU. split.
    - intros S es1 m es2 ->. assert (In UnlockR (es2 ++ [e])) as H.
      { apply (S es1 m). rewrite <- app_assoc. reflexivity. }
      apply in_app_or in H as [H|[H|[]]]; [assumption|congruence].
    - intros S es1 m es2 H. apply snoc_split in H as [(-> & -> & ->)|(es2' & -> & ->)]; [discriminate|].
      apply in_or_app. left. apply (S es1 m es2' eq_refl). }
  destruct e; try (rewrite K; [exact IH|reflexivity|discriminate]).
  - split; [|discriminate]. intros S. destruct (S es m [] eq_refl).
  - split; [reflexivity|]. intros _ es1 m es2 H.
    apply snoc_split in H as [(_ & _ & [=])|(es2' & -> & ->)]. apply in_or_app. right. left. reflexivity.
Qed.

Lemma announced_ann es : announced es <-> ann es = true.
Proof.
  induction es as [|e es IH] using rev_ind.
  { split; [|discriminate]. intros (es1 & es2 & H & _). destruct es1; discriminate. }
  rewrite ann_snoc.
  assert (K : e <> SetChange -> e <> Clear -> announced (es ++ [e]) <-> announced es).
  { intros N1 N2. split.
    - intros (es1 & es2 & H & NC). apply snoc_split in H as [(-> & -> & E)|(es2' & -> & ->)]; [contradiction|].
      exists es1, es2'. split; [reflexivity|]. intros I. apply NC, in_or_app. auto.
    - intros (es1 & es2 & -> & NC). exists es1, (es2 ++ [e]). split; [rewrite <- app_assoc; reflexivity|].
      intros I. apply in_app_or in I as [I|[I|[]]]; [auto|congruence]. }
  destruct e; try (rewrite K; [exact IH|discriminate|discriminate]).
  - split; [reflexivity|]. intros _. exists es, []. split; [reflexivity|intros []].
  - split; [|discriminate]. intros (es1 & es2 & H & NC).
    apply snoc_split in H as [(_ & _ & [=])|(es2' & -> & ->)]. destruct NC. apply in_or_app. right. left. reflexivity.
Qed.

Lemma delivered_snoc es e : is_applied e = false -> delivered es -> delivered (es ++ [e]).
Proof.
  intros NA (es1 & c & es2 & -> & E). exists es1, c, (es2 ++ [e]). split; [rewrite <- app_assoc; reflexivity|].
  rewrite applied_app. destruct e; try discriminate; cbn; rewrite app_nil_r; exact E.
Qed.

Record Inv (es : list ev) (s : ZState Msg G) : Prop := mkInv {
  iv_lock : r_holds (z_rpc s) = true -> u_holds (z_upc s) = false;
  iv_change : z_change s = ann es;
  iv_object : match z_object s with None => applied es = [] | Some g => holds (applied es) g end;
  iv_graph : z_graph s = true <-> In SetGraph es;
  iv_pub : z_graph s = true -> exists g, z_object s = Some g;
  iv_have : (z_rpc s = RPoll true \/ z_rpc s = RHave \/ r_holds (z_rpc s) = true) ->
            exists g, z_object s = Some g;
  iv_set : z_rpc s = RGraph \/ z_rpc s = RUnlock -> z_change s = true;
  iv_unl : z_rpc s = RUnlock -> z_graph s = true;
  iv_settled : pend es = false -> applied es <> [] -> z_graph s = true /\
     (z_change s = true \/ z_upc s = UTest \/ z_upc s = UClone \/ delivered es);
  iv_clone : z_upc s = UClone -> z_graph s = true;
  iv_poll : z_rpc s = RPoll false -> pend es = false
}.

Lemma inv_run es s : run es s -> Inv es s.
Proof.
  induction 1 as [|es s e s' Hr IH Hs].
  { split; cbn; try (intuition discriminate); try reflexivity. }
  destruct s as [ob rp ch gr up]. cbn [z_object z_rpc z_change z_graph z_upc] in *.
  destruct IH as [I1 I2 I3 I4 I5 I6 I7 I8 I9 I10 I11]. cbn [z_object z_rpc z_change z_graph z_upc] in *.
  assert (SG : forall e', e' <> SetGraph -> gr = true <-> In SetGraph (es ++ [e'])).
  { intros e' N. rewrite I4. split; [intros K; apply in_or_app; auto|].
    intros K. apply in_app_or in K as [K|[K|[]]]; [assumption|congruence]. }
  assert (AP : forall e' : ev, is_applied e' = false -> applied (es ++ [e']) = applied es).
  { intros e' N. rewrite applied_app. destruct e'; try discriminate; cbn; apply app_nil_r. }
  inversion Hs; clear Hs; cbn [z_object z_rpc z_change z_graph z_upc with_r with_u] in *; subst.
  all: split; cbn [z_object z_rpc z_change z_graph z_upc with_r with_u r_holds u_holds] in *;
    rewrite ?ann_snoc, ?pend_snoc; try (rewrite AP by reflexivity); try (apply SG; discriminate); try assumption;
    try (intuition (discriminate || congruence || eauto; fail)).
  all: try (intros P A; destruct (I9 P A) as (Q1 & [Q2|[Q2|[Q2|Q2]]]); try discriminate; (split; [assumption|]);
     first [left; (assumption || reflexivity) | right; left; assumption | right; right; left; assumption
           | right; right; right; apply delivered_snoc; [reflexivity|assumption]]).
  all: try (rewrite applied_app; cbn [applied]; rewrite I3; cbn; constructor; assumption).
  all: try (rewrite applied_app; cbn [applied]; econstructor; eassumption).
  - destruct (I6 ltac:(auto)) as [g ->]. split; [|reflexivity].
    intros _. apply in_or_app. right. left. reflexivity.
  - destruct (I6 ltac:(auto)) as [g ->]. reflexivity.
  - destruct (I6 ltac:(auto)) as [g ->]. intros P A. split; [reflexivity|].
    left. apply I7. auto.
  - destruct (I6 ltac:(auto)) as [g ->]. reflexivity.
  - intros [-> | ->]; discriminate (I1 eq_refl).
  - intros P A. destruct (I9 P A) as (Q1 & _). split; [exact Q1|]. right. right. right.
    exists es, c, []. split; [reflexivity|]. rewrite applied_app. cbn. rewrite app_nil_r. reflexivity.
Qed.

Theorem exclusive es s : run es s -> r_holds (z_rpc s) && u_holds (z_upc s) = false.
Proof. intros H. pose proof (iv_lock _ _ (inv_run _ _ H)). destruct (r_holds _); [|reflexivity]. cbn. auto. Qed.

Lemma inside_snoc (on off : ev -> Prop) es e :
  inside on off (es ++ [e]) <-> on e \/ (~ off e /\ inside on off es).
Proof.
  split.
  - intros (es1 & x & es2 & H & O & F). apply snoc_split in H as [(-> & -> & ->)|(es2' & -> & ->)]; [auto|].
    right. split; [apply F, in_or_app; right; left; reflexivity|].
    exists es1, x, es2'. split; [reflexivity|]. split; [exact O|]. intros y Hy. apply F, in_or_app. auto.
  - intros [O|(O & es1 & x & es2 & -> & Ox & F)].
    + exists es, e, []. split; [reflexivity|]. split; [exact O|]. intros ? [].
    + exists es1, x, (es2 ++ [e]). split; [rewrite <- app_assoc; reflexivity|]. split; [exact Ox|].
      intros y Hy. apply in_app_or in Hy as [Hy|[<-|[]]]; auto.
Qed.
Lemma inside_nil (on off : ev -> Prop) : ~ inside on off [].
Proof. intros (es1 & x & es2 & H & _). destruct es1; discriminate. Qed.

(** The places of the threads and the events. *)
Lemma inside_run es s : run es s ->
  (receiver_inside es <-> r_holds (z_rpc s) = true) /\ (user_inside es <-> u_holds (z_upc s) = true).
Proof.
  induction 1 as [|es s e s' Hr [IR IU] Hs].
  { split; (split; [intros K; destruct (inside_nil _ _ K)|discriminate]). }
  destruct s as [ob rp ch gr up]. cbn [z_object z_rpc z_change z_graph z_upc] in *.
  unfold receiver_inside, user_inside in *. rewrite !inside_snoc, IR, IU. clear IR IU Hr.
  inversion Hs; clear Hs; cbn [z_object z_rpc z_change z_graph z_upc with_r with_u] in *; subst;
    cbn [r_holds u_holds]; split; intuition (discriminate || congruence).
Qed.

Theorem never_both es s : run es s -> ~ (receiver_inside es /\ user_inside es).
Proof.
  intros H [A B]. destruct (inside_run es s H) as [IR IU]. apply IR in A. apply IU in B.
  pose proof (exclusive es s H) as K. rewrite A, B in K. discriminate.
Qed.

Theorem has_change es b s : run (es ++ [RetHas b]) s -> b = true <-> announced es.
Proof.
  intros H. inversion H as [|es' s0 e s' Hr Hs E]; [destruct es; discriminate|].
  apply app_inj_tail in E as [-> ->]. rewrite announced_ann.
  inversion Hs; subst. rewrite (iv_change _ _ (inv_run _ _ Hr)). reflexivity.
Qed.

Theorem graph_contents es o s : run (es ++ [RetGraph o]) s ->
  match o with
  | Some c => exists g, holds (applied es) g /\ clone g = Ok c
  | None => ~ In SetGraph es
  end.
Proof.
  intros H. inversion H as [|es' s0 e s' Hr Hs E]; [destruct es; discriminate|].
  apply app_inj_tail in E as [-> ->]. destruct (inv_run _ _ Hr) as [I1 I2 I3 I4 I5 I6 I7 I8 I9 I10 I11].
  inversion Hs; subst.
  - rewrite <- I4. congruence.
  - exists g. match goal with K : z_object _ = Some _ |- _ => rewrite K in I3 end. auto.
Qed.

Theorem settled_none es s : run (es ++ [RetGraph None]) s -> settled es -> applied es = [].
Proof.
  intros H S. apply settled_pend in S. pose proof (graph_contents _ _ _ H) as N. cbn in N.
  inversion H as [|es' s0 e s' Hr Hs E]; [destruct es; discriminate|].
  apply app_inj_tail in E as [-> ->]. destruct (inv_run _ _ Hr) as [I1 I2 I3 I4 I5 I6 I7 I8 I9 I10 I11].
  destruct (applied es) eqn:A; [reflexivity|]. destruct (I9 S ltac:(congruence)) as [K _]. apply I4 in K. contradiction.
Qed.

Theorem nothing_lost es s : run (es ++ [RetHas false]) s -> settled es -> applied es <> [] -> delivered es.
Proof.
  intros H S A. apply settled_pend in S.
  inversion H as [|es' s0 e s' Hr Hs E]; [destruct es; discriminate|].
  apply app_inj_tail in E as [-> ->]. destruct (inv_run _ _ Hr) as [I1 I2 I3 I4 I5 I6 I7 I8 I9 I10 I11].
  inversion Hs; subst. destruct (I9 S A) as [_ [Q|[Q|[Q|Q]]]]; congruence || assumption.
Qed.

Theorem not_stuck es s : run es s -> (forall g, clone g <> Throw) ->
  (exists e o, step s e o /\ match e with Take _ | NoMsg | Applied _ | LockR | SetChange | SetGraph | UnlockR => True | _ => False end)
  \/ (z_rpc s = RHave /\ exists e o, step s e o /\ match e with RetHas _ | Clear | Test | RetGraph _ => True | _ => False end).
Proof.
  intros H NT. destruct (inv_run _ _ H) as [I1 I2 I3 I4 I5 I6 I7 I8 I9 I10 I11].
  destruct s as [ob rp ch gr up]. cbn in *. destruct rp as [[|]|m| | | |].
  - left. exists NoMsg. eexists. split; [apply st_done; reflexivity|exact I].
  - left. exists NoMsg. eexists. split; [apply st_none; reflexivity|exact I].
  - left. exists (Applied m). set (s := mkZ ob (RApply m) ch gr up).
    destruct (racing s) eqn:R; [eexists; split; [apply st_race; exact R|exact I]|].
    destruct ob as [g|].
    + destruct (update g m) as [g'| |] eqn:U.
      * eexists. split; [eapply st_update; reflexivity || eassumption|exact I].
      * eexists. split; [eapply st_bad; reflexivity || eassumption|exact I].
      * eexists. split; [eapply st_worse; reflexivity || eassumption|exact I].
    + destruct (read m) as [g'| |] eqn:U.
      * eexists. split; [eapply st_read; reflexivity || eassumption|exact I].
      * eexists. split; [eapply st_bad; reflexivity || eassumption|exact I].
      * eexists. split; [eapply st_worse; reflexivity || eassumption|exact I].
  - destruct up.
    + left. exists LockR. eexists. split; [apply st_lock; reflexivity|exact I].
    + right. split; [reflexivity|]. exists (RetHas ch). eexists. split; [eapply st_ret_has; reflexivity|exact I].
    + right. split; [reflexivity|]. exists Clear. eexists. split; [eapply st_clear; reflexivity|exact I].
    + right. split; [reflexivity|]. destruct gr.
      * exists Test. eexists. split; [eapply st_test; reflexivity|exact I].
      * exists (RetGraph None). eexists. split; [eapply st_null; reflexivity|exact I].
    + right. split; [reflexivity|]. destruct (I5 (I10 eq_refl)) as [g ->]. destruct (clone g) as [c| |] eqn:C.
      * exists (RetGraph (Some c)). eexists. split; [eapply st_clone; reflexivity || eassumption|exact I].
      * destruct (NT _ C).
      * exists (RetGraph None). eexists. split; [eapply st_clone_ub; reflexivity || eassumption|exact I].
  - left. exists SetChange. eexists. split; [apply st_flag; reflexivity|exact I].
  - left. exists SetGraph. eexists. split; [apply st_graph; reflexivity|exact I].
  - left. exists UnlockR. eexists. split; [apply st_unlock; reflexivity|exact I].
Qed.
End zmq.
