(** Constructor, loop and destructor of a ZmqGraph. *)
From Coq Require Import List Bool Lia.
From stdpp Require Import base list.
From Verif.Model Require Import Types Zmq ZmqLife.
From Verif.Spec Require Import ZmqSpec ZmqLifeSpec.
From Verif.Proof Require Import ZmqP.
Set Default Proof Using "Type".

Section life.
Context {Msg G : Type} (read : Msg -> result G) (update : G -> Msg -> result G) (clone : G -> result G).
Notation step := (step read update clone).
Notation run := (run read update clone).
Notation lstep := (lstep read update clone).
Notation lrun := (lrun read update clone).
Notation lfails := (lfails read update clone).

Lemma inner_app (a b : list (levent Msg G)) : inner (a ++ b) = inner a ++ inner b.
Proof. induction a as [|[] a IH]; cbn; congruence. Qed.
Lemma receiver_app (a b : list (levent Msg G)) : receiver_steps (a ++ b) = receiver_steps a + receiver_steps b.
Proof. induction a as [|[| []| |] a IH]; cbn; lia. Qed.
Lemma messages_app (a b : list (levent Msg G)) : delivered_messages (a ++ b) = delivered_messages a + delivered_messages b.
Proof. induction a as [|[| []| |] a IH]; cbn; lia. Qed.

Lemma lrun_run b es s : lrun b es s -> run (inner es) (l_z s).
Proof.
  induction 1 as [|es s e s' H IH S]; [apply run_nil|]. rewrite inner_app. destruct S; cbn [inner l_z] in *; rewrite ?app_nil_r; try exact IH; eapply run_snoc; eassumption.
Qed.
Lemma at_loop_head b es s : lrun b es s -> l_place s <> InBody -> z_rpc (l_z s) = RPoll false.
Proof.
  induction 1 as [|es s e s' H IH S]; intros P; [reflexivity|]. destruct S as [z f ph|z f ph e z' R S|z pl f e z' R S|z pl f U|z f]; cbn [l_z l_place] in *.
  - apply IH. discriminate.
  - destruct (ends_body z e) eqn:E; [|congruence]. destruct e; try discriminate; inversion S; subst; cbn in *; try reflexivity; try assumption; try congruence. all: repeat match goal with H : z_rpc _ = _ |- _ => rewrite H in *; clear H end; congruence.
  - rewrite <- (IH P). destruct e; try discriminate; inversion S; subst; reflexivity.
  - apply IH, P.
  - apply IH. discriminate.
Qed.
Lemma user_out b es s : lrun b es s -> l_phase s <> Alive -> z_upc (l_z s) = UOut /\ l_flag s = true.
Proof.
  induction 1 as [|es s e s' H IH S]; intros P; [cbn in P; congruence|]. destruct S as [z f ph|z f ph e z' R S|z pl f e z' R S|z pl f U|z f]; cbn [l_z l_phase l_flag] in *.
  - apply IH, P.
  - destruct (IH P) as [A B]. split; [|exact B]. rewrite <- A. destruct e; try discriminate; inversion S; subst; reflexivity.
  - congruence.
  - auto.
  - apply IH. discriminate.
Qed.
Lemma destroyed_left b es s : lrun b es s -> l_phase s = Destroyed -> l_place s = Left.
Proof.
  induction 1 as [|es s e s' H IH S]; intros P; [discriminate|]. destruct S as [z f ph|z f ph e z' R S|z pl f e z' R S|z pl f U|z f]; cbn [l_place l_phase] in *; try discriminate; try reflexivity; specialize (IH P); discriminate.
Qed.
Lemma gone b es s : lrun b es s -> In RetDelete es -> l_phase s = Destroyed.
Proof.
  induction 1 as [|es s e s' H IH S]; intros I; [destruct I|]. apply in_app_or in I as [I|[I|[]]].
  - pose proof (destroyed_left _ _ _ H (IH I)) as L. specialize (IH I). destruct S; cbn in *; congruence.
  - subst e. inversion S; subst; reflexivity.
Qed.
Lemma gone_steps b es s : lrun b es s -> l_phase s = Destroyed -> forall e s', ~ lstep s e s'.
Proof.
  intros R D e s' S. pose proof (destroyed_left _ _ _ R D) as L. destruct S; cbn in *; congruence.
Qed.
Lemma gone_safe b es s : lrun b es s -> l_phase s = Destroyed -> ~ lfails s.
Proof. intros R D (e & o & _ & _ & H). pose proof (destroyed_left _ _ _ R D) as L. destruct (by_receiver e); congruence. Qed.

(** how many steps the receive thread still makes without further messages *)
Definition left_to_do (s : LState Msg G) : nat :=
  match l_place s with
  | Left => 0
  | AtTest => 1
  | InBody => match z_rpc (l_z s) with RApply _ => 7 | RPoll _ => 6 | RHave => 5 | RFlag => 4 | RGraph => 3 | RUnlock => 2 end
  end.
Lemma todo_le s : (left_to_do s <= 7)%nat.
Proof. unfold left_to_do. destruct (l_place s); [lia| |lia]. destruct (z_rpc (l_z s)); lia. Qed.
Lemma step_todo s e s' : lstep s e s' -> l_flag s = true -> (left_to_do s' + receiver_steps [e] <= left_to_do s + 2 * delivered_messages [e])%nat.
Proof.
  intros S F. destruct S as [z f ph|z f ph e z' R S|z pl f e z' R S|z pl f U|z f]; cbn [l_flag] in F; subst; unfold left_to_do; cbn [l_place l_z].
  - cbn. lia.
  - destruct e; try discriminate; inversion S; subst; cbn in *;
      repeat match goal with H : z_rpc _ = _ |- _ => rewrite H in *; clear H end; cbn; try lia.
  - destruct e; try discriminate; inversion S; subst; cbn; lia.
  - cbn. lia.
  - cbn. lia.
Qed.
(** runs in two parts *)
Inductive lsteps : LState Msg G -> list (levent Msg G) -> LState Msg G -> Prop :=
| lsteps_nil s : lsteps s [] s
| lsteps_snoc s es e s1 s2 : lsteps s es s1 -> lstep s1 e s2 -> lsteps s (es ++ [e]) s2.
Lemma lrun_app b es1 es2 s : lrun b (es1 ++ es2) s <-> exists s1, lrun b es1 s1 /\ lsteps s1 es2 s.
Proof.
  split.
  - revert s. induction es2 as [|e es2 IH] using rev_ind; intros s H.
    + rewrite app_nil_r in H. exists s. split; [exact H|constructor].
    + rewrite app_assoc in H. inversion H as [E|es s0 e' s' H1 H2 E]; [destruct (es1 ++ es2); discriminate|]. apply app_inj_tail in E as [-> ->]. destruct (IH _ H1) as (s1 & A & B). exists s1. split; [exact A|econstructor; eassumption].
  - intros (s1 & A & B). induction B as [s|s es e s1 s2 B IH S]; [rewrite app_nil_r; exact A|]. rewrite app_assoc. econstructor; [apply IH; exact A|exact S].
Qed.
Lemma flag_kept s e s' : lstep s e s' -> l_flag s = true -> l_flag s' = true.
Proof. destruct 1; cbn; auto. Qed.
Lemma steps_todo s es s' : lsteps s es s' -> l_flag s = true -> l_flag s' = true /\ (left_to_do s' + receiver_steps es <= left_to_do s + 2 * delivered_messages es)%nat.
Proof.
  induction 1 as [s|s es e s1 s2 H IH S]; intros F; [split; [exact F|cbn; lia]|]. destruct (IH F) as [F1 L]. split; [eapply flag_kept; eassumption|].
  rewrite receiver_app, messages_app. pose proof (step_todo _ _ _ S F1). lia.
Qed.
Lemma after_delete b es1 es2 s : lrun b (es1 ++ CallDelete :: es2) s -> (receiver_steps es2 <= 7 + 2 * delivered_messages es2)%nat.
Proof.
  intros H. change (CallDelete :: es2) with ([CallDelete] ++ es2) in H. rewrite app_assoc in H. apply lrun_app in H as (s1 & A & B).
  inversion A as [E|es s0 e' s' H1 H2 E]; [destruct es1; discriminate|]. apply app_inj_tail in E as [-> ->]. inversion H2; subst.
  destruct (steps_todo _ _ _ B eq_refl) as [_ L]. pose proof (todo_le (mkL z pl true Joining)). lia.
Qed.

Lemma joining_moves b es s : lrun b es s -> l_phase s = Joining -> (exists e s', lstep s e s') \/ lfails s.
Proof.
  intros R J. destruct s as [z pl f ph]. cbn in J. subst ph. destruct (user_out _ _ _ R) as [U F]; [discriminate|]. cbn in U, F. destruct pl.
  - left. eexists _, _. apply ls_test.
  - assert (K : (exists e z', by_receiver e = true /\ step z e (Next z')) \/ (exists e o, by_receiver e = true /\ step z e o /\ (o = Terminated \/ o = Undefined))).
    { assert (NR : racing z = false) by (unfold racing; rewrite U; destruct (z_object z); [|reflexivity]; destruct (z_rpc z); try reflexivity; destruct (z_graph z); reflexivity).
      destruct z as [obj rpc ch gr up]. cbn in U. destruct rpc as [got|m| | | |].
      - left. destruct got; eexists _, _; (split; [|first [apply st_done; reflexivity|apply st_none; reflexivity]]); reflexivity.
      - destruct obj as [g|].
        + destruct (update g m) as [g'| |] eqn:E; [left; eexists _, _; split; [|eapply st_update; [reflexivity|exact NR|reflexivity|exact E]]; reflexivity| |].
          * right. exists (Applied m), Terminated. split; [reflexivity|]. split; [|auto]. apply st_bad; [reflexivity|exact NR|exact E].
          * right. exists (Applied m), Undefined. split; [reflexivity|]. split; [|auto]. apply st_worse; [reflexivity|exact NR|exact E].
        + destruct (read m) as [g'| |] eqn:E; [left; eexists _, _; split; [|eapply st_read; [reflexivity|reflexivity|exact E]]; reflexivity| |].
          * right. exists (Applied m), Terminated. split; [reflexivity|]. split; [|auto]. apply st_bad; [reflexivity|exact NR|exact E].
          * right. exists (Applied m), Undefined. split; [reflexivity|]. split; [|auto]. apply st_worse; [reflexivity|exact NR|exact E].
      - left. eexists _, _. split; [|apply st_lock; [reflexivity|cbn; rewrite U; reflexivity]]. reflexivity.
      - left. eexists _, _. split; [|apply st_flag; reflexivity]. reflexivity.
      - left. eexists _, _. split; [|apply st_graph; reflexivity]. reflexivity.
      - left. eexists _, _. split; [|apply st_unlock; reflexivity]. reflexivity. }
    destruct K as [(e & z' & B & S)|(e & o & B & S & O)].
    + left. eexists _, _. apply ls_receiver; eassumption.
    + right. exists e, o. split; [exact S|]. split; [exact O|]. rewrite B. reflexivity.
  - left. eexists _, _. apply ls_join.
Qed.
Lemma phase_spec b es s : lrun b es s -> (l_phase s = Alive -> ~ In CallDelete es) /\ (l_phase s = Joining -> ~ In RetDelete es).
Proof.
  induction 1 as [|es s e s' H IH S]; [split; intros _ []|]. destruct IH as [I1 I2]. split; intros P I; apply in_app_or in I as [I|[I|[]]].
  - destruct S; cbn in *; try discriminate; try (apply I1; assumption).
  - subst e. inversion S; subst; discriminate.
  - pose proof (gone _ _ _ H I) as D. destruct S; cbn in *; congruence.
  - subst e. inversion S; subst; discriminate.
Qed.
Lemma never_left b es s : lrun b es s -> l_flag s = true -> b = false -> In CallDelete es.
Proof.
  induction 1 as [|es s e s' H IH S]; intros F B; [cbn in F; congruence|]. apply in_or_app. destruct S; cbn in *; first [left; apply IH; assumption|right; left; reflexivity|idtac].
Qed.
Lemma left_flag b es s : lrun b es s -> l_place s = Left -> l_flag s = true.
Proof.
  induction 1 as [|es s e s' H IH S]; intros P; [discriminate|]. destruct S; cbn in *; try (apply IH; assumption); try reflexivity.
  - destruct f; [reflexivity|discriminate].
  - destruct (ends_body z e); discriminate.
Qed.
Lemma leftover_true es s : lrun true es s -> l_flag s = true /\ l_place s <> InBody /\ z_object (l_z s) = None /\ z_change (l_z s) = false /\ z_graph (l_z s) = false.
Proof.
  induction 1 as [|es s e s' H IH S]; [repeat split; discriminate|]. destruct IH as (I1 & I2 & I3 & I4 & I5).
  destruct S as [z f ph|z f ph e z' R S|z pl f e z' R S|z pl f U|z f]; cbn in *; subst; try (repeat split; first [assumption|discriminate|reflexivity]).
  - congruence.
  - destruct e; try discriminate; inversion S; subst; cbn; repeat split; assumption || reflexivity.
Qed.
Lemma leftover_inner es s : lrun true es s -> forall e, In (Inner e) es -> by_receiver e = false /\ (forall b, e = RetHas b -> b = false) /\ (forall o, e = RetGraph o -> o = None).
Proof.
  induction 1 as [|es s e s' H IH S]; [intros ? []|]. intros e0 I. apply in_app_or in I as [I|[I|[]]]; [apply IH, I|]. subst e.
  destruct (leftover_true _ _ H) as (I1 & I2 & I3 & I4 & I5). inversion S; subst; cbn in *; [congruence|]. split; [assumption|]. split.
  - intros b ->. match goal with K : Zmq.step _ _ _ _ (RetHas _) _ |- _ => inversion K; subst end. exact I4.
  - intros o ->. match goal with K : Zmq.step _ _ _ _ (RetGraph _) _ |- _ => inversion K; subst end; [reflexivity|congruence].
Qed.
End life.
