(** C74: a ZmqGraph from its constructor to its destructor. *)
From Coq Require Import List Bool Lia.
From stdpp Require Import base list.
From Verif.Model Require Import Types Graph GraphCodec Zmq ZmqLife.
From Verif.Spec Require Import ZmqSpec ZmqLifeSpec.
From Verif.Proof Require Import ZmqP ZmqLifeP.
From Verif.Properties Require Import P12_Files P14_GraphFiles P17_Receiver.

Section any.
Context {Msg G : Type} (read : Msg -> result G) (update : G -> Msg -> result G) (clone : G -> result G).
Notation run := (run read update clone).
Notation lstep := (lstep read update clone).
Notation lrun := (lrun read update clone).
Notation lfails := (lfails read update clone).

(** Whatever the object does is one of the histories C50 speaks about. *)
Theorem C74_histories : forall leftover es s, lrun leftover es s -> run (inner es) (l_z s).
Proof. exact (lrun_run read update clone). Qed.
(** When the destructor has returned, nothing happens any more: no thread is left that could touch
    the object. *)
Theorem C74_nothing_after : forall leftover es s, lrun leftover es s -> In RetDelete es ->
  (forall e s', ~ lstep s e s') /\ ~ lfails s /\ l_place s = Left.
Proof.
  intros b es s R I. pose proof (gone read update clone _ _ _ R I) as D. split; [exact (gone_steps read update clone _ _ _ R D)|]. split; [exact (gone_safe read update clone _ _ _ R D)|exact (destroyed_left read update clone _ _ _ R D)].
Qed.
(** Once the destructor is called, the receive thread makes at most seven more steps and two for each
    message that arrives; *)
Theorem C74_bounded : forall leftover es1 es2 s, lrun leftover (es1 ++ CallDelete :: es2) s ->
  receiver_steps es2 <= 7 + 2 * delivered_messages es2.
Proof. exact (after_delete read update clone). Qed.
(** and as long as the destructor has not returned, a step can be made, unless a message cannot be
    read: so a history that cannot go on has seen it return. *)
Theorem C74_returns : forall leftover es s, lrun leftover es s -> In CallDelete es ->
  In RetDelete es \/ (exists e s', lstep s e s' /\ (e = Test205 \/ e = RetDelete \/ exists x, e = Inner x /\ by_receiver x = true)) \/ lfails s.
Proof.
  intros b es s R I. destruct (phase_spec read update clone _ _ _ R) as [P1 P2]. destruct (l_phase s) eqn:E.
  - destruct (P1 eq_refl I).
  - right. destruct (joining_moves read update clone _ _ _ R E) as [(e & s' & S)|F]; [left|right; exact F]. exists e, s'. split; [exact S|].
    destruct S as [z f ph|z f ph e z' B S|z pl f e z' B S|z pl f U|z f]; cbn in E; try discriminate; eauto.
  - left. clear P1 P2 I. induction R as [|es s e s' H IH S]; [discriminate|]. apply in_or_app.
    destruct S as [z f ph|z f ph e z' B S|z pl f e z' B S|z pl f U|z f]; cbn in *; try discriminate; try (left; apply IH; assumption). right. left. reflexivity.
Qed.
(** The thread stops only for the destructor, if should_shutdown_ happened to be false. *)
Theorem C74_keeps_receiving : forall es s, lrun false es s -> l_place s = Left -> In CallDelete es.
Proof. intros es s R L. exact (never_left read update clone _ _ _ R (left_flag read update clone _ _ _ R L) eq_refl). Qed.

(** ** What does not hold *)
(** should_shutdown_ has no initial value: if it happens to be true, nothing is ever received,
    hasChange() is always false and graph() always null. *)
Theorem C74_uninitialised_refuted : forall es s, lrun true es s ->
  (forall m, ~ In (Inner (Take m)) es) /\ (forall b, In (Inner (RetHas b)) es -> b = false) /\ (forall o, In (Inner (RetGraph o)) es -> o = None).
Proof.
  intros es s R. pose proof (leftover_inner read update clone _ _ R) as L. split; [intros m I; destruct (L _ I) as [C _]; discriminate|]. split.
  - intros b I. apply (L _ I). reflexivity.
  - intros o I. apply (L _ I). reflexivity.
Qed.

Lemma snoc b es s e s' : lrun b es s -> lstep s e s' -> lrun b (es ++ [e]) s'.
Proof. intros. econstructor; eassumption. Qed.
(** taking over any number of messages without leaving the body *)
Lemma busy b f ph ms g : holds read update ms g -> forall es ch gr,   lrun b es (mkL (mkZ None (RPoll false) ch gr UOut) InBody f ph) ->
  exists es2, lrun b (es ++ es2) (mkL (mkZ (Some g) (RPoll true) ch gr UOut) InBody f ph) /\ applied (inner es2) = ms /\ (forall e, In e es2 -> exists m, e = Inner (Take m) \/ e = Inner (Applied m)).
Proof.
  induction 1 as [m g R|ms m g g' Hg IH U]; intros es ch gr H.
  - exists [Inner (Take m); Inner (Applied m)]. split; [|split; [reflexivity|]].
    + eapply snoc in H; [|apply (ls_receiver read update clone _ f ph (Take m)); [reflexivity|eapply st_take; reflexivity]].
      eapply snoc in H; [|apply (ls_receiver read update clone _ f ph (Applied m)); [reflexivity|eapply st_read; [reflexivity|reflexivity|exact R]]].
      rewrite <- app_assoc in H. exact H.
    + intros e [<-|[<-|[]]]; eauto.
  - destruct (IH es ch gr H) as (es2 & H2 & A & B).
    exists (es2 ++ [Inner (Take m); Inner (Applied m)]). split; [|split].
    + eapply snoc in H2; [|apply (ls_receiver read update clone _ f ph (Take m)); [reflexivity|eapply st_take; reflexivity]].
      eapply snoc in H2; [|apply (ls_receiver read update clone _ f ph (Applied m)); [reflexivity|eapply st_update; [reflexivity| |reflexivity|exact U]]].
      * rewrite <- !app_assoc in H2. exact H2.
      * unfold racing. cbn. destruct gr; reflexivity.
    + rewrite inner_app, <- A. clear. generalize (inner es2). intros l. induction l as [|[] l IH]; cbn in *; congruence.
    + intros e I. apply in_app_or in I as [I|[<-|[<-|[]]]]; eauto.
Qed.
(** The loop takes messages as long as they keep coming: any sequence of messages can be taken over
    after the destructor was called, which has not returned; *)
Theorem C74_endless_shutdown_refuted : forall ms g, holds read update ms g ->
  exists es1 es2 s, lrun false (es1 ++ CallDelete :: es2) s /\ applied (inner es2) = ms /\ ~ In RetDelete es2.
Proof.
  intros ms g H. assert (R : lrun false [Test205; CallDelete] (mkL z_init InBody true Joining)).
  { pose proof (lrun_nil read update clone false) as R. eapply snoc in R; [|apply ls_test]. eapply snoc in R; [|apply ls_delete; reflexivity]. exact R. }
  destruct (busy false true Joining ms g H [Test205; CallDelete] false false) as (es2 & R2 & A & B); [exact R|].
  exists [Test205], es2. eexists. split; [exact R2|]. split; [exact A|]. intros I. destruct (B _ I) as (m & [E|E]); discriminate.
Qed.
(** and as many can be taken over without hasChange() becoming true. *)
Theorem C74_never_announced_refuted : forall ms g, holds read update ms g ->
  exists es s, lrun false (es ++ [Inner (RetHas false)]) s /\ applied (inner es) = ms /\ ~ In (Inner CallGraph) es.
Proof.
  intros ms g H. assert (R : lrun false [Test205] (mkL z_init InBody false Alive)).
  { pose proof (lrun_nil read update clone false) as R. eapply snoc in R; [|apply ls_test]. exact R. }
  destruct (busy false false Alive ms g H [Test205] false false) as (es2 & R2 & A & B); [exact R|].
  eapply snoc in R2; [|apply (ls_user read update clone _ _ _ CallHas); [reflexivity|eapply st_has; reflexivity]].
  eapply snoc in R2; [|apply (ls_user read update clone _ _ _ (RetHas false)); [reflexivity|eapply st_ret_has; reflexivity]].
  exists (([Test205] ++ es2) ++ [Inner CallHas]). eexists. split; [exact R2|]. split.
  - rewrite !inner_app. cbn [inner app]. rewrite <- A. clear. generalize (inner es2). intros l. induction l as [|[] l IH]; cbn in *; congruence.
  - intros I. apply in_app_or in I as [[I|I]|[I|[]]]; try discriminate. destruct (B _ I) as (m & [E|E]); discriminate.
Qed.

(** ** A life: a message, graph(), the destructor while another message arrives *)
Lemma a_life m1 m2 : match read m1 with Ok g => match clone g with Ok _ => match update g m2 with Ok _ => true | _ => false end | _ => false end | _ => false end = true ->
  exists es1 c es2 s, lrun false (es1 ++ Inner (RetGraph (Some c)) :: CallDelete :: es2) s /\ applied (inner es1) = [m1] /\ applied (inner es2) = [m2] /\
    In RetDelete es2 /\ receiver_steps es2 = 8.
Proof.
  intros E. destruct (read m1) as [g| |] eqn:Rd; try discriminate. destruct (clone g) as [c| |] eqn:Cl; try discriminate. destruct (update g m2) as [g'| |] eqn:Up; try discriminate.
  pose proof (lrun_nil read update clone false) as R. eapply snoc in R; [|apply ls_test].
  eapply snoc in R; [|apply ls_receiver with (e := Take m1); [reflexivity|eapply st_take; reflexivity]].
  eapply snoc in R; [|apply ls_receiver with (e := Applied m1); [reflexivity|eapply st_read; [reflexivity|reflexivity|exact Rd]]].
  eapply snoc in R; [|apply ls_receiver with (e := NoMsg); [reflexivity|eapply st_done; reflexivity]].
  eapply snoc in R; [|apply ls_receiver with (e := LockR); [reflexivity|eapply st_lock; reflexivity]].
  eapply snoc in R; [|apply ls_receiver with (e := SetChange); [reflexivity|eapply st_flag; reflexivity]].
  eapply snoc in R; [|apply ls_receiver with (e := SetGraph); [reflexivity|eapply st_graph; reflexivity]].
  eapply snoc in R; [|apply ls_receiver with (e := UnlockR); [reflexivity|eapply st_unlock; reflexivity]].
  eapply snoc in R; [|apply ls_test].
  eapply snoc in R; [|apply ls_user with (e := CallGraph); [reflexivity|eapply st_call; reflexivity]].
  eapply snoc in R; [|apply ls_user with (e := Clear); [reflexivity|eapply st_clear; reflexivity]].
  eapply snoc in R; [|apply ls_user with (e := Test); [reflexivity|eapply st_test; reflexivity]].
  eapply snoc in R; [|apply ls_user with (e := RetGraph (Some c)); [reflexivity|eapply st_clone; [reflexivity|reflexivity|reflexivity|exact Cl]]].
  eapply snoc in R; [|apply ls_delete; reflexivity].
  eapply snoc in R; [|apply ls_receiver with (e := Take m2); [reflexivity|eapply st_take; reflexivity]].
  eapply snoc in R; [|apply ls_receiver with (e := Applied m2); [reflexivity|eapply st_update; [reflexivity|reflexivity|reflexivity|exact Up]]].
  eapply snoc in R; [|apply ls_receiver with (e := NoMsg); [reflexivity|eapply st_done; reflexivity]].
  eapply snoc in R; [|apply ls_receiver with (e := LockR); [reflexivity|eapply st_lock; reflexivity]].
  eapply snoc in R; [|apply ls_receiver with (e := SetChange); [reflexivity|eapply st_flag; reflexivity]].
  eapply snoc in R; [|apply ls_receiver with (e := SetGraph); [reflexivity|eapply st_graph; reflexivity]].
  eapply snoc in R; [|apply ls_receiver with (e := UnlockR); [reflexivity|eapply st_unlock; reflexivity]].
  eapply snoc in R; [|apply ls_test].
  eapply snoc in R; [|apply ls_join].
  cbn [app] in R.
  exists ([Test205; Inner (Take m1); Inner (Applied m1); Inner NoMsg; Inner LockR; Inner SetChange; Inner SetGraph; Inner UnlockR; Test205; Inner CallGraph; Inner Clear; Inner Test]), c,
    [Inner (Take m2); Inner (Applied m2); Inner NoMsg; Inner LockR; Inner SetChange; Inner SetGraph; Inner UnlockR; Test205; RetDelete].
  eexists. split; [exact R|]. split; [reflexivity|]. split; [reflexivity|]. split; [cbn; auto 20|reflexivity].
Qed.
End any.

Theorem C74_ex : exists es1 c es2 s,
  lrun (zmq_read ex_env lib) (zmq_update ex_env lib) g_clone false (es1 ++ Inner (RetGraph (Some c)) :: CallDelete :: es2) s /\
  applied (inner es1) = [ex_message ex_receiver] /\ applied (inner es2) = [ex_message ex_sender] /\ In RetDelete es2 /\ receiver_steps es2 = 8.
Proof. apply a_life. vm_compute. reflexivity. Qed.
