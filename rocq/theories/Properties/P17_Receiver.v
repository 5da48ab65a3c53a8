(** * C50: the zmq receiver *)
From Coq Require Import NArith ZArith Bool List Lia.
From stdpp Require Import base list gmap.
From Verif.Model Require Import Types Mesh Attrs Node EdgeContainer SLayer DLayer Graph Binary Versioning AttrCodec Registry GraphCodec Zmq.
From Verif.Spec Require Import BinarySpec AttrSpec RegistrySpec ProgramSpec AbstractGraph GraphHistory GraphObs GraphFileSpec CutSpec ZmqSpec.
From Verif.Proof Require Import GraphSim GraphRep GraphObsP CloneP PrefixP ZmqP.
From Verif.Properties Require Import P12_Files P13_Registry ExGraph P14_GraphFiles.
Local Open Scope N_scope.

(** ** Every interleaving, whatever messages arrive and whatever reading them does *)
Section any.
Context {Msg G : Type} (read : Msg -> result G) (update : G -> Msg -> result G) (clone : G -> result G).
Notation run := (run read update clone).
Notation step := (step read update clone).

(** The two threads are never both inside their critical sections. *)
Theorem C50_mutual_exclusion : forall es s, run es s -> r_holds (z_rpc s) && u_holds (z_upc s) = false.
Proof. exact (exclusive read update clone). Qed.
(** Between the receive loop's taking the mutex and giving it back no hasChange() or graph()
    call is under way, and the other way round. *)
Theorem C50_critical_sections : forall es s, run es s -> ~ (receiver_inside es /\ user_inside es).
Proof. exact (never_both read update clone). Qed.
(** hasChange() answers whether the receive loop has announced something since the last
    graph() call. *)
Theorem C50_has_change : forall es b s, run (es ++ [RetHas b]) s -> b = true <-> announced es.
Proof. exact (has_change read update clone). Qed.
(** graph() returns a copy of the graph made of all the messages taken over so far; null only
    before the first announcement. *)
Theorem C50_graph_is_complete : forall es o s, run (es ++ [RetGraph o]) s ->
  match o with
  | Some c => exists g, holds read update (applied es) g /\ clone g = Ok c
  | None => ~ In SetGraph es /\ (settled es -> applied es = [])
  end.
Proof.
  intros es [c|] s H; [exact (graph_contents read update clone es (Some c) s H)|].
  split; [exact (graph_contents read update clone es None s H)|exact (settled_none read update clone es s H)].
Qed.
(** No change is lost: when the receive loop has nothing left to do and hasChange() is false,
    a graph() call has already returned everything. *)
Theorem C50_no_change_lost : forall es s, run (es ++ [RetHas false]) s -> settled es -> applied es <> [] -> delivered es.
Proof. exact (nothing_lost read update clone). Qed.
(** No deadlock: the receive thread can go on, or waits for the mutex while the user's call,
    which holds it, can go on. *)
Theorem C50_no_deadlock : forall es s, run es s -> (forall g, clone g <> Throw) ->
  (exists e o, step s e o /\ match e with Take _ | NoMsg | Applied _ | LockR | SetChange | SetGraph | UnlockR => True | _ => False end)
  \/ (z_rpc s = RHave /\ exists e o, step s e o /\ match e with RetHas _ | Clear | Test | RetGraph _ => True | _ => False end).
Proof. exact (not_stuck read update clone). Qed.

(** ** What does not hold *)
(** A first message, up to its announcement. *)
Definition first_message (m : Msg) : list (event Msg G) :=
  [Take m; Applied m; NoMsg; LockR; SetChange; SetGraph; UnlockR].
Lemma first_run m g : read m = Ok g -> run (first_message m) (mkZ (Some g) (RPoll false) true true UOut).
Proof.
  intros R.
  pose proof (run_nil read update clone) as H.
  eapply run_snoc in H; [|eapply st_take; reflexivity]. cbn [app] in H.
  eapply run_snoc in H; [|eapply st_read; [reflexivity|reflexivity|exact R]]. cbn [app] in H.
  eapply run_snoc in H; [|eapply st_done; reflexivity]. cbn [app] in H.
  eapply run_snoc in H; [|eapply st_lock; reflexivity]. cbn [app] in H.
  eapply run_snoc in H; [|eapply st_flag; reflexivity]. cbn [app] in H.
  eapply run_snoc in H; [|eapply st_graph; reflexivity]. cbn [app] in H.
  eapply run_snoc in H; [|eapply st_unlock; reflexivity]. cbn [app] in H. exact H.
Qed.

(** The graph that graph() copies is the one the receive thread is updating: any second message
    that arrives during the copy makes a data race. *)
Theorem C50_data_race_refuted : forall m m' g, read m = Ok g ->
  exists es s, run es s /\ applied es = [m] /\ racing s = true /\
    (forall o, step s (RetGraph o) Undefined) /\ step s (Applied m') Undefined.
Proof.
  intros m m' g R. pose proof (first_run m g R) as H.
  eapply run_snoc in H; [|eapply st_call; reflexivity].
  eapply run_snoc in H; [|eapply st_clear; reflexivity].
  eapply run_snoc in H; [|eapply st_test; reflexivity].
  eapply run_snoc in H; [|eapply (st_take _ _ _ _ _ m'); reflexivity].
  eexists _, _. split; [exact H|]. split; [reflexivity|]. split; [reflexivity|].
  split; [intros o; apply st_race_u; reflexivity|apply st_race; reflexivity].
Qed.
(** A message can be returned by graph() before it is announced; hasChange() then is true
    although nothing came after that call. *)
Theorem C50_spurious_change_refuted : forall m m' g g' c, read m = Ok g -> update g m' = Ok g' -> clone g' = Ok c ->
  exists es1 es2 s, run (es1 ++ RetGraph (Some c) :: es2 ++ [RetHas true]) s /\
    applied es1 = [m; m'] /\ forall x, ~ In (Take x) es2.
Proof.
  intros m m' g g' c R U C. pose proof (first_run m g R) as H.
  eapply run_snoc in H; [|eapply (st_take _ _ _ _ _ m'); reflexivity].
  eapply run_snoc in H; [|eapply st_update; [reflexivity|reflexivity|reflexivity|exact U]].
  eapply run_snoc in H; [|eapply st_call; reflexivity].
  eapply run_snoc in H; [|eapply st_clear; reflexivity].
  eapply run_snoc in H; [|eapply st_test; reflexivity].
  eapply run_snoc in H; [|eapply st_clone; [reflexivity|reflexivity|reflexivity|exact C]].
  eapply run_snoc in H; [|eapply st_done; reflexivity].
  eapply run_snoc in H; [|eapply st_lock; reflexivity].
  eapply run_snoc in H; [|eapply st_flag; reflexivity].
  eapply run_snoc in H; [|eapply st_graph; reflexivity].
  eapply run_snoc in H; [|eapply st_unlock; reflexivity].
  eapply run_snoc in H; [|eapply st_has; reflexivity].
  eapply run_snoc in H; [|eapply st_ret_has; reflexivity].
  exists (first_message m ++ [Take m'; Applied m'; CallGraph; Clear; Test]), [NoMsg; LockR; SetChange; SetGraph; UnlockR; CallHas].
  eexists. split; [exact H|]. split; [reflexivity|].
  intros x. cbn. intuition discriminate.
Qed.
(** hasChange() can be false although a message has been taken over and graph() never called. *)
Theorem C50_late_change_refuted : forall m g, read m = Ok g ->
  exists es s, run (es ++ [RetHas false]) s /\ applied es = [m] /\ ~ In CallGraph es.
Proof.
  intros m g R. pose proof (run_nil read update clone) as H.
  eapply run_snoc in H; [|eapply (st_take _ _ _ _ _ m); reflexivity].
  eapply run_snoc in H; [|eapply st_read; [reflexivity|reflexivity|exact R]].
  eapply run_snoc in H; [|eapply st_has; reflexivity].
  eapply run_snoc in H; [|eapply st_ret_has; reflexivity].
  exists [Take m; Applied m; CallHas]. eexists. split; [exact H|]. split; [reflexivity|].
  cbn. intuition discriminate.
Qed.
(** A message that cannot be read ends the process. *)
Theorem C50_bad_message_refuted : forall m, read m = Throw ->
  exists es s, run es s /\ step s (Applied m) Terminated.
Proof.
  intros m R. pose proof (run_nil read update clone) as H.
  eapply run_snoc in H; [|eapply (st_take _ _ _ _ _ m); reflexivity].
  eexists _, _. split; [exact H|]. apply st_bad; [reflexivity|reflexivity|exact R].
Qed.
End any.

(** ** From the sender's graphs to graph() *)
(** Graphs sent one after the other: each can be written, and either changes the layers or
    agrees with its predecessor on where and when common nodes are. *)
Inductive stream : list Graph -> Prop :=
| stream_one h : reachable h -> saveable h -> stream [h]
| stream_next hs h h' : stream (hs ++ [h]) -> reachable h' -> saveable h' ->
    (g_layer_ids h <> g_layer_ids h' \/ updatable h h') -> stream ((hs ++ [h]) ++ [h']).
(** What the user sees of a graph [c] is the sender's [h]. *)
Definition same_as_sent (h c : Graph) : Prop :=
  g_layer_ids c = g_layer_ids h /\ (forall l, g_has_layer c l = g_has_layer h l) /\
  (forall x, shown <$> node_data c x = kept_data <$> node_data h x) /\
  (forall u v, e_info <$> edge_at c u v = e_info <$> edge_at h u v).

Lemma loaded_updated h g : loaded_from h g -> updated_from h g.
Proof. intros (A & B & C & D). split; [exact A|]. split; [exact B|]. split; [exact C|]. intros u v. rewrite (D u v). reflexivity. Qed.

Lemma updatable_after h g h' : reachable h -> reachable g -> updated_from h g -> updatable h h' -> updatable g h'.
Proof.
  intros Hh Hg (_ & _ & HN & HE) [P T Gn].
  destruct (reachable_RepL h Hh) as [a [HRh _]]. destruct (reachable_RepL g Hg) as [b [HRg _]].
  assert (D : forall x k t at_, node_data g x = Some (k, t, at_) -> exists at', node_data h x = Some (k, t, at')).
  { intros x k t at_ H. rewrite HN in H. destruct (node_data h x) as [[[k' t'] a']|]; [|discriminate].
    cbn in H. injection H as <- <- _. eauto. }
  assert (LY : forall x k, layer_of g x = Some k -> layer_of h x = Some k).
  { intros x k H. rewrite (obs_layer g b HRg) in H. unfold a_key in H. destruct (ag_nodes b !! x) as [n|] eqn:E; [|discriminate].
    pose proof (obs_data g b HRg x) as O. rewrite E in O. cbn in O. destruct (D _ _ _ _ O) as [at' O'].
    rewrite (obs_data h a HRh) in O'. rewrite (obs_layer h a HRh). unfold a_key.
    destruct (ag_nodes a !! x) as [n'|]; [|discriminate]. cbn in *. injection O' as E1 _ _. rewrite E1. exact H. }
  constructor.
  - intros x k t at_ k' t' a' H1 H2. destruct (D _ _ _ _ H1) as [at' H1']. eapply P; eassumption.
  - intros x y k t at1 at2 Hd H1 H2. destruct (D _ _ _ _ H2) as [at' H2']. eapply T; eassumption.
  - intros x H1 H2 v k kv Ha Hk Hkv El.
    assert (K1 : g_has_node h x = true).
    { apply (obs_known h a HRh). pose proof (LY _ _ Hk) as L. rewrite (obs_layer h a HRh) in L.
      unfold a_key in L. unfold a_known. destruct (ag_nodes a !! x); [eauto|discriminate]. }
    apply (Gn x K1 H2 v k kv); [|apply LY; assumption|apply LY; assumption|exact El].
    apply (obs_adjacent h a HRh). apply (obs_adjacent g b HRg) in Ha. unfold a_linked in *.
    rewrite <- (obs_edge g b HRg) in Ha. rewrite <- (obs_edge h a HRh).
    specialize (HE x v). destruct Ha as [e Ha]. rewrite Ha in HE. destruct (edge_at h x v); [eauto|discriminate].
Qed.

Section sent.
Context (env : Env) (ks ks' : list Kind) (p q : Program).
Hypothesis (He : current env) (Hp : program_of ks p) (Hq : program_of ks' q) (Hks : all_classes ks) (Hks' : all_classes ks')
  (Hlen : (length ks <= 256)%nat).
Definition sent (h : Graph) (m : list N) : Prop :=
  (exists im, write_graph env p h im = Ok m) /\ len m < max_object.

Lemma sent_read h m g : reachable h -> saveable h -> sent h m -> zmq_read env q m = Ok g ->
  reachable g /\ updated_from h g.
Proof using All.
  intros Hh HS ((im & W) & L) R.
  destruct (C41_graph_round_trip env ks ks' p q h im He Hp Hq Hks Hks' Hlen Hh HS) as (bs & g' & W' & _ & RB & Hr & HL & _).
  rewrite W in W'. injection W' as <-. specialize (RB [] []). cbn [app] in RB. rewrite app_nil_r in RB.
  unfold zmq_read in R. unfold len in RB. cbn [length] in RB. change (N.of_nat 0) with 0 in RB.
  rewrite (RB L) in R. cbn in R. injection R as <-. split; [exact Hr|apply loaded_updated, HL].
Qed.
Lemma sent_update h m g0 g : reachable h -> saveable h -> sent h m -> reachable g0 ->
  (g_layer_ids g0 <> g_layer_ids h \/ updatable g0 h) -> zmq_update env q g0 m = Ok g ->
  reachable g /\ updated_from h g.
Proof using All.
  intros Hh HS ((im & W) & L) H0 HU R.
  assert (K : exists g', reads_back (update_from_buffer env q g0) m g' /\ reachable g' /\ updated_from h g').
  { destruct (decide (g_layer_ids g0 = g_layer_ids h)) as [Ei|Ei].
    - destruct HU as [HU|HU]; [contradiction|].
      destruct (C42_update_same_layers env ks ks' p q h im g0 He Hp Hq Hks Hks' Hlen Hh HS H0 Ei HU) as (bs & g' & W' & RB & Hr & HL & _).
      rewrite W in W'. injection W' as <-. eauto.
    - destruct (C42_update_other_layers env ks ks' p q h im g0 He Hp Hq Hks Hks' Hlen Hh HS H0 Ei) as (bs & g' & W' & RB & Hr & HL & _).
      rewrite W in W'. injection W' as <-. eauto using loaded_updated. }
  destruct K as (g' & RB & Hr & HL). specialize (RB [] []). cbn [app] in RB. rewrite app_nil_r in RB.
  unfold zmq_update in R. unfold len in RB. cbn [length] in RB. change (N.of_nat 0) with 0 in RB.
  rewrite (RB L) in R. cbn in R. injection R as <-. auto.
Qed.

Lemma stream_holds ms g : holds (zmq_read env q) (zmq_update env q) ms g ->
  forall hs, stream hs -> Forall2 sent hs ms ->
  reachable g /\ exists h, last hs = Some h /\ reachable h /\ saveable h /\ updated_from h g.
Proof using All.
  induction 1 as [m g R|ms m g g' H IH U]; intros hs Hs F.
  - inversion F as [|h ? hs' ? S F']; subst. inversion F'; subst.
    assert (reachable h /\ saveable h) as [Hh HS].
    { inversion Hs as [? ? ? E|? ? ? ? ? ? ? E]; [auto|].
      apply (f_equal length) in E. rewrite !app_length in E. cbn in E. lia. }
    destruct (sent_read _ _ _ Hh HS S R). split; [assumption|]. exists h. auto.
  - inversion Hs as [h Hh HS E|hs0 h h' Hs0 Hh' HS' HU E]; subst.
    + apply Forall2_length in F. rewrite app_length in F. cbn in F.
      destruct H; cbn in F; [lia|rewrite app_length in F; cbn in F; lia].
    + apply Forall2_app_inv in F as [F1 F2].
      2:{ apply Forall2_length in F. rewrite !app_length in *. cbn in *. lia. }
      apply Forall2_cons_1 in F2 as [S _].
      destruct (IH _ Hs0 F1) as (Hg & h0 & E0 & Hh0 & HS0 & HU0).
      rewrite last_snoc in E0. injection E0 as <-.
      destruct (sent_update h' m g g' Hh' HS' S Hg) as [A B]; [|exact U|].
      * destruct HU as [HU|HU]; [left|right].
        -- destruct HU0 as [-> _]. exact HU.
        -- apply (updatable_after h g h'); assumption.
      * split; [exact A|]. exists h'. rewrite last_snoc. auto.
Qed.

(** Whatever the schedule, graph() shows the last graph that was taken over. *)
Theorem C50_end_to_end : forall hs ms es c s, stream hs -> Forall2 sent hs ms ->
  run (zmq_read env q) (zmq_update env q) g_clone (es ++ [RetGraph (Some c)]) s -> applied es = ms ->
  exists h, last hs = Some h /\ reachable c /\ same_as_sent h c.
Proof using All.
  intros hs ms es c s Hs F H A. destruct (C50_graph_is_complete _ _ _ _ _ _ H) as (g & Hg & Hc). rewrite A in Hg.
  destruct (stream_holds ms g Hg hs Hs F) as (Hr & h & E & Hh & HS & HU). exists h. split; [exact E|].
  destruct (clone_behaves g [] [] g Hr I ltac:(constructor) eq_refl) as (c' & _ & Hc' & Hrc & (L1 & L2 & L3) & _ & Li & _).
  rewrite Hc in Hc'. injection Hc' as <-. split; [exact Hrc|].
  destruct HU as (U1 & U2 & U3 & U4). split; [congruence|]. split; [intros l; rewrite L3; apply U2|]. split.
  - intros x. rewrite L1, U3. destruct (node_data h x) as [[[k t] a]|] eqn:En; [|reflexivity].
    cbn. destruct (lk_dynamic k) eqn:Ed; [reflexivity|]. rewrite (sv_static h HS x k t a En Ed). reflexivity.
  - intros u v. rewrite L2. apply U4.
Qed.
(** A message that was cut short, the empty one among them, cannot be read, except where only the
    mesh is missing: the receive loop ends the process. *)
Theorem C50_cut_message_refuted : forall h m P, reachable h -> saveable h -> sent h m -> cut_before (len m) m P ->
  (zmq_read env q P = Throw /\ exists es s, run (zmq_read env q) (zmq_update env q) g_clone es s /\
     step (zmq_read env q) (zmq_update env q) g_clone s (Applied P) Terminated) \/
  (exists g g', zmq_read env q m = Ok g /\ zmq_read env q P = Ok g' /\ g_mesh g' = None /\ but_mesh g' g).
Proof using All.
  intros h m P Hh HS ((im & W) & L) HC.
  destruct (C41_graph_round_trip env ks ks' p q h im He Hp Hq Hks Hks' Hlen Hh HS) as (bs & g & W' & B & RB & _).
  rewrite W in W'. injection W' as <-. specialize (RB [] []). cbn [app] in RB. rewrite app_nil_r in RB.
  unfold len in RB. cbn [length] in RB. change (N.of_nat 0) with 0 in RB. specialize (RB L). fold (len m) in RB.
  destruct (read_cuts env q m 0 g (len m)) as (g0 & k & BM & MM & Hk & HP); [exact B|exact L|apply N.le_0_l|exact RB|].
  destruct (HP P HC (N.le_0_l _)) as [E|[E E']].
  - left. assert (T : zmq_read env q P = Throw) by (unfold zmq_read; rewrite E; reflexivity).
    split; [exact T|]. apply C50_bad_message_refuted. exact T.
  - right. exists g, g0. unfold zmq_read. rewrite RB, E'. auto.
Qed.
End sent.


(** ** A case that meets the hypotheses: two graphs sent and taken over, one graph() call *)
Definition ex_message (h : Graph) : list N := match write_graph ex_env lib h true with Ok bs => bs | _ => [] end.
Lemma ex_sent h : match write_graph ex_env lib h true with Ok bs => len bs <? max_object | _ => false end = true -> sent ex_env lib h (ex_message h).
Proof.
  unfold sent, ex_message. destruct (write_graph ex_env lib h true) as [bs| |] eqn:E; try discriminate.
  intros H. split; [exists true; exact E|apply N.ltb_lt, H].
Qed.
Lemma two_messages {Msg G} (read : Msg -> result G) update clone m1 m2 :
  match read m1 with Ok g => match update g m2 with Ok g' => match clone g' with Ok _ => true | _ => false end | _ => false end | _ => false end = true ->
  exists es c s, run read update clone (es ++ [RetGraph (Some c)]) s /\ applied es = [m1; m2] /\ settled es.
Proof.
  intros E1. destruct (read m1) as [g| |] eqn:Rd; try discriminate.
  destruct (update g m2) as [g'| |] eqn:Up; try discriminate.
  destruct (clone g') as [c| |] eqn:Cl; try discriminate.
  pose proof (first_run read update clone _ _ Rd) as H.
  eapply run_snoc in H; [|eapply (st_take _ _ _ _ _ m2); reflexivity].
  eapply run_snoc in H; [|eapply st_update; [reflexivity|reflexivity|reflexivity|exact Up]].
  eapply run_snoc in H; [|eapply st_done; reflexivity].
  eapply run_snoc in H; [|eapply st_lock; reflexivity].
  eapply run_snoc in H; [|eapply st_flag; reflexivity].
  eapply run_snoc in H; [|eapply st_graph; reflexivity].
  eapply run_snoc in H; [|eapply st_unlock; reflexivity].
  eapply run_snoc in H; [|eapply st_call; reflexivity].
  eapply run_snoc in H; [|eapply st_clear; reflexivity].
  eapply run_snoc in H; [|eapply st_test; reflexivity].
  eapply run_snoc in H; [|eapply st_clone; [reflexivity|reflexivity|reflexivity|exact Cl]].
  eexists _, c, _. split; [exact H|]. split; [reflexivity|]. apply settled_pend. reflexivity.
Qed.
Theorem C50_receiver_example : exists es c s,
  stream [ex_receiver; ex_sender] /\ Forall2 (sent ex_env lib) [ex_receiver; ex_sender] [ex_message ex_receiver; ex_message ex_sender] /\
  run (zmq_read ex_env lib) (zmq_update ex_env lib) g_clone (es ++ [RetGraph (Some c)]) s /\
  applied es = [ex_message ex_receiver; ex_message ex_sender] /\ settled es.
Proof.
  assert (S1 : sent ex_env lib ex_receiver (ex_message ex_receiver)) by (apply ex_sent; vm_compute; reflexivity).
  assert (S2 : sent ex_env lib ex_sender (ex_message ex_sender)) by (apply ex_sent; vm_compute; reflexivity).
  assert (V1 : saveable ex_receiver).
  { apply saveable_b_ok; [exact ex_receiver_reachable| |vm_compute; reflexivity].
    assert (K : g_mesh ex_receiver = None) by (vm_compute; reflexivity). rewrite K. discriminate. }
  destruct C41_ex as (R2 & V2 & _). destruct C42_ex as (R1 & U & _).
  assert (ST : stream [ex_receiver; ex_sender]) by (apply (stream_next [] ex_receiver ex_sender); [apply stream_one; [exact R1|exact V1]|exact R2|exact V2|right; exact U]).
  assert (E1 : match zmq_read ex_env lib (ex_message ex_receiver) with
      | Ok g => match zmq_update ex_env lib g (ex_message ex_sender) with
         | Ok g' => match g_clone g' with Ok _ => true | _ => false end | _ => false end | _ => false end = true) by (vm_compute; reflexivity).
  destruct (two_messages (zmq_read ex_env lib) (zmq_update ex_env lib) g_clone (ex_message ex_receiver) (ex_message ex_sender) E1)
    as (es & c & s & K1 & K2 & K3).
  exists es, c, s. split; [exact ST|]. split; [constructor; [exact S1|constructor; [exact S2|constructor]]|].
  split; [exact K1|]. split; [exact K2|exact K3].
Qed.
