(** C72 a receiver that missed, repeated or reordered messages has the graph of the last one it got. *)
From Coq Require Import NArith ZArith Bool List Lia.
From stdpp Require Import base list gmap.
From Verif.Model Require Import Types Mesh Attrs Node EdgeContainer SLayer DLayer Graph Binary Versioning AttrCodec Registry GraphCodec Zmq.
From Verif.Spec Require Import BinarySpec AttrSpec RegistrySpec ProgramSpec AbstractGraph GraphHistory GraphObs GraphFileSpec ZmqSpec StreamSpec.
From Verif.Proof Require Import GraphRep GraphSim GraphObsP.
From Verif.Properties Require Import P03_Graph P12_Files P13_Registry P14_GraphFiles P17_Receiver ExGraph.
Local Open Scope N_scope.

Lemma has_data h x : reachable h -> g_has_node h x = true <-> exists d, node_data h x = Some d.
Proof.
  intros Hh. destruct (reachable_RepL h Hh) as [a [HR _]]. rewrite (obs_known h a HR), (obs_data h a HR). unfold a_known.
  destruct (ag_nodes a !! x) as [n|]; cbn; split; intros [d Hd]; try discriminate; eauto.
Qed.
Lemma together_updatable home hs h h' : Forall reachable hs -> published_together home hs -> h ∈ hs -> h' ∈ hs -> updatable h h'.
Proof.
  intros HR [PH PT PG] Hh Hh'. rewrite Forall_forall in HR. constructor.
  - intros x k t a k' t' a' H1 H2. apply (PH h Hh) in H1. apply (PH h' Hh') in H2. rewrite H1 in H2. injection H2 as -> ->. auto.
  - intros x y k t a b Hd H1 H2. pose proof (PH h' Hh' _ _ _ _ H1) as E1. pose proof (PH h Hh _ _ _ _ H2) as E2.
    eapply (PT h' h); [exact Hh'|exact Hh|apply has_data; eauto|apply has_data; eauto|rewrite E1; exact Hd|congruence].
  - intros x H1 H2. eapply PG; eassumption.
Qed.

Lemma last_default {A} (l : list A) : forall x d, List.last (x :: l) d = List.last l x.
Proof. induction l as [|y l IH]; intros x d; [reflexivity|]. change (List.last (x :: y :: l) d) with (List.last (y :: l) d). rewrite !IH. reflexivity. Qed.
Section network.
Context (env : Env) (ks ks' : list Kind) (p q : Program).
Hypothesis (He : current env) (Hp : program_of ks p) (Hq : program_of ks' q) (Hks : all_classes ks) (Hks' : all_classes ks')
  (Hlen : (length ks <= 256)%nat).

Lemma first_message m : reachable (st_graph m) -> saveable (st_graph m) -> message_of env p m ->
  exists g, zmq_read env q (st_bytes m) = Ok g /\ reachable g /\ updated_from (st_graph m) g /\ (g_layer_ids g, g_mesh g) = mesh_step ([], None) m.
Proof using All.
  intros Hh HS [W L].
  destruct (C41_graph_round_trip env ks ks' p q (st_graph m) (st_mesh m) He Hp Hq Hks Hks' Hlen Hh HS) as (bs & g' & W' & _ & RB & Hr & HL & HM).
  rewrite W in W'. injection W' as <-. specialize (RB [] []). cbn [app] in RB. rewrite app_nil_r in RB.
  unfold len in RB at 2 3. cbn [length] in RB. change (N.of_nat 0) with 0 in RB. exists g'. unfold zmq_read. rewrite (RB L).
  split; [reflexivity|]. split; [exact Hr|]. split; [apply loaded_updated, HL|]. destruct HL as [-> _]. rewrite HM. unfold mesh_step. f_equal.
  destruct (decide _), (st_mesh m), (g_mesh (st_graph m)); reflexivity.
Qed.
Lemma next_message m g0 : reachable (st_graph m) -> saveable (st_graph m) -> message_of env p m -> reachable g0 -> updatable g0 (st_graph m) ->
  exists g, zmq_update env q g0 (st_bytes m) = Ok g /\ reachable g /\ updated_from (st_graph m) g /\
    (g_layer_ids g, g_mesh g) = mesh_step (g_layer_ids g0, g_mesh g0) m.
Proof using All.
  intros Hh HS [W L] H0 HU.
  assert (K : exists g', reads_back (update_from_buffer env q g0) (st_bytes m) g' /\ reachable g' /\ updated_from (st_graph m) g' /\
    (g_layer_ids g', g_mesh g') = mesh_step (g_layer_ids g0, g_mesh g0) m).
  { unfold mesh_step. destruct (decide (g_layer_ids g0 = g_layer_ids (st_graph m))) as [Ei|Ei].
    - destruct (C42_update_same_layers env ks ks' p q (st_graph m) (st_mesh m) g0 He Hp Hq Hks Hks' Hlen Hh HS H0 Ei HU) as (bs & g' & W' & RB & Hr & HL & HM).
      rewrite W in W'. injection W' as <-. exists g'. split; [exact RB|]. split; [exact Hr|]. split; [exact HL|]. destruct HL as [-> _]. rewrite HM.
      destruct (st_mesh m), (g_mesh (st_graph m)); reflexivity.
    - destruct (C42_update_other_layers env ks ks' p q (st_graph m) (st_mesh m) g0 He Hp Hq Hks Hks' Hlen Hh HS H0 Ei) as (bs & g' & W' & RB & Hr & HL & HM).
      rewrite W in W'. injection W' as <-. exists g'. split; [exact RB|]. split; [exact Hr|]. split; [apply loaded_updated, HL|]. destruct HL as [-> _]. rewrite HM.
      destruct (st_mesh m), (g_mesh (st_graph m)); reflexivity. }
  destruct K as (g' & RB & K). specialize (RB [] []). cbn [app] in RB. rewrite app_nil_r in RB.
  unfold len in RB at 2 3. cbn [length] in RB. change (N.of_nat 0) with 0 in RB. exists g'. unfold zmq_update. rewrite (RB L). split; [reflexivity|exact K].
Qed.

Lemma more_messages home hs : Forall reachable hs -> Forall saveable hs -> published_together home hs ->
  forall ds h g, Forall (fun m => st_graph m ∈ hs /\ message_of env p m) ds -> h ∈ hs -> reachable g -> updated_from h g ->
  exists g', rfold (zmq_update env q) (map st_bytes ds) g = Ok g' /\ reachable g' /\ updated_from (List.last (map st_graph ds) h) g' /\
    (g_layer_ids g', g_mesh g') = fold_left mesh_step ds (g_layer_ids g, g_mesh g).
Proof using All.
  intros HR HS HP. induction ds as [|m ds IH]; intros h g Hds Hh Hg HU; cbn [map rfold fold_left].
  - exists g. auto.
  - inversion Hds as [|? ? [Hm Hmsg] Hds']; subst.
    assert (Ru : reachable (st_graph m)) by (rewrite Forall_forall in HR; auto). assert (Su : saveable (st_graph m)) by (rewrite Forall_forall in HS; auto).
    assert (Rh : reachable h) by (rewrite Forall_forall in HR; auto).
    destruct (next_message m g Ru Su Hmsg Hg) as (g1 & E1 & R1 & U1 & M1).
    { apply (updatable_after h g); [exact Rh|exact Hg|exact HU|]. eapply together_updatable; eassumption. }
    rewrite E1. cbn [rbind]. destruct (IH (st_graph m) g1 Hds' Hm R1 U1) as (g' & E' & R' & U' & M'). exists g'. split; [exact E'|]. split; [exact R'|].
    split; [rewrite last_default; exact U'|rewrite M', M1; reflexivity].
Qed.

(** Of the graphs [hs] a sender ever publishes, the receiver gets any messages [ds], in any order,
    any number of times.  It takes all of them, and has the nodes, attributes and edges of the
    graph of the last one, and the last mesh it got. *)
Theorem C72_lossy_network : forall home hs ds m,
  Forall reachable hs -> Forall saveable hs -> published_together home hs ->
  Forall (fun m => st_graph m ∈ hs /\ message_of env p m) (ds ++ [m]) ->
  exists g, receive env q (map st_bytes (ds ++ [m])) = Ok g /\ reachable g /\ updated_from (st_graph m) g /\ g_mesh g = mesh_after (ds ++ [m]).
Proof using All.
  intros home hs ds m HR HS HP HF. rewrite <- (last_last (map st_graph ds) (st_graph m) (st_graph m)). change [st_graph m] with (map st_graph [m]). rewrite <- map_app.
  destruct (ds ++ [m]) as [|m0 l] eqn:E; [destruct ds; discriminate|]. clear E ds.
  inversion HF as [|? ? [Hm Hmsg] HF']; subst. cbn [map receive].
  destruct (first_message m0) as (g0 & E0 & R0 & U0 & M0); [rewrite Forall_forall in HR; auto|rewrite Forall_forall in HS; auto|exact Hmsg|].
  destruct (more_messages home hs HR HS HP l (st_graph m0) g0 HF' Hm R0 U0) as (g & E & R & U & M). rewrite E0. cbn [rbind]. exists g. split; [exact E|]. split; [exact R|].
  split; [rewrite last_default; exact U|]. change (mesh_after (m0 :: l)) with (snd (fold_left mesh_step l (mesh_step ([], None) m0))).
  rewrite <- M0, <- M. reflexivity.
Qed.

(** The same for the threads of the receiver: whatever the schedule, graph() returns a copy with
    the nodes, attributes and edges of the last message that was taken over. *)
Theorem C72_any_schedule : forall home hs ds m es c s,
  Forall reachable hs -> Forall saveable hs -> published_together home hs ->
  Forall (fun m => st_graph m ∈ hs /\ message_of env p m) (ds ++ [m]) ->
  run (zmq_read env q) (zmq_update env q) g_clone (es ++ [RetGraph (Some c)]) s -> applied es = map st_bytes (ds ++ [m]) ->
  reachable c /\ same_as_sent (st_graph m) c.
Proof using All.
  intros home hs ds m es c s HR HS HP HF Hrun Happ.
  assert (ST : stream (map st_graph (ds ++ [m])) /\ Forall2 (sent env p) (map st_graph (ds ++ [m])) (map st_bytes (ds ++ [m]))).
  { clear Hrun Happ. revert m HF. induction ds as [|m1 ds IH] using rev_ind; intros m HF; rewrite ?app_nil_l in *.
    - inversion HF as [|? ? [Hm [W L]] _]; subst. cbn. split; [apply stream_one; [rewrite Forall_forall in HR|rewrite Forall_forall in HS]; auto|].
      constructor; [|constructor]. split; [eexists; exact W|exact L].
    - apply Forall_app in HF as [HF1 HF2]. destruct (IH m1 HF1) as [I1 I2]. inversion HF2 as [|? ? [Hm [W L]] _]; subst. apply Forall_app in HF1 as [_ HF1].
      inversion HF1 as [|? ? [Hm1 _] _]; subst. rewrite !map_app in *. cbn [map] in *. split.
      + apply stream_next; [exact I1|rewrite Forall_forall in HR; auto|rewrite Forall_forall in HS; auto|right; eapply together_updatable; eassumption].
      + apply Forall2_app; [exact I2|]. constructor; [|constructor]. split; [eexists; exact W|exact L]. }
  destruct ST as [S1 S2]. destruct (C50_end_to_end env ks ks' p q He Hp Hq Hks Hks' Hlen _ _ es c s S1 S2 Hrun Happ) as (h & E & Hc & Hsame).
  rewrite map_app in E. cbn [map] in E. rewrite last_snoc in E. injection E as <-. auto.
Qed.
End network.
Print Assumptions C72_lossy_network.
Print Assumptions C72_any_schedule.

(** ** What a sender may do *)
Definition a_home (home : N -> LayerId) (a : AGraph) : Prop := forall x n, ag_nodes a !! x = Some n -> an_key n = key_static (home x) /\ an_time n = None.
Lemma a_home_nodes home a b : (forall x n, ag_nodes b !! x = Some n -> exists n', ag_nodes a !! x = Some n' /\ an_key n = an_key n' /\ an_time n = an_time n') -> a_home home a -> a_home home b.
Proof. intros H Ha x n E. destruct (H x n E) as (n' & E' & -> & ->). exact (Ha x n' E'). Qed.
Lemma a_home_same home a b : ag_nodes b = ag_nodes a -> a_home home a -> a_home home b.
Proof. unfold a_home. intros ->. auto. Qed.
Lemma a_home_insert home a u v i : a_home home a -> a_home home (snd (a_insert_edge a u v i)).
Proof. unfold a_insert_edge. destruct (decide _); [|auto]. apply a_home_same. reflexivity. Qed.
Lemma a_home_add home a l x at_ : home x = l -> a_home home a -> a_home home (snd (a_emplace a l x None at_)).
Proof.
  intros <- Ha. unfold a_emplace. destruct (decide _); [exact Ha|]. destruct (decide _); [|exact Ha]. intros y nd. cbn. destruct (decide (y = x)) as [->|Hne].
  - rewrite lookup_insert. intros [= <-]. auto.
  - rewrite lookup_insert_ne by congruence. apply Ha.
Qed.
Lemma a_home_set home a x at_ : a_home home a -> a_home home (snd (a_set_node_attrs a x at_)).
Proof.
  intros Ha. unfold a_set_node_attrs. destruct (ag_nodes a !! x) as [n0|] eqn:E; [|exact Ha]. intros y nd. cbn. destruct (decide (y = x)) as [->|Hne].
  - rewrite lookup_insert. intros [= <-]. exact (Ha x n0 E).
  - rewrite lookup_insert_ne by congruence. apply Ha.
Qed.
Lemma a_home_delete home a x l d e : a_home home a -> a_home home (mkAG l d (delete x (ag_nodes a)) e).
Proof. intros Ha y n. cbn. rewrite lookup_delete_Some. intros [_ H]. exact (Ha y n H). Qed.
Lemma a_home_edge_set home a u v i : a_home home a -> a_home home (snd (a_set_edge_attrs a u v i)).
Proof. intros Ha. unfold a_set_edge_attrs. destruct (decide _); [|exact Ha]. destruct (ag_edges a !! _); exact Ha. Qed.
Lemma a_home_step home a o : keeps_home home o -> a_home home a -> a_home home (snd (a_step a o)).
Proof.
  intros Hk Ha. destruct o; cbn [keeps_home] in Hk; cbn [a_step ab snd]; try exact Ha; try contradiction.
  - apply a_home_add; assumption.
  - destruct Hk as [Hk ->]. apply a_home_add; assumption.
  - unfold a_create_dyn. destruct (_ !! _); exact Ha.
  - destruct Hk as [Hk ->]. unfold a_add_or_update_node. destruct (decide _); [|exact Ha]. destruct (decide _); [apply a_home_set, Ha|apply a_home_add; assumption].
  - apply a_home_set, Ha.
  - apply a_home_insert, Ha.
  - unfold a_insert_parent_edge. destruct (a_key a u); [|exact Ha]. destruct (a_key a v); [|exact Ha]. destruct (decide _); exact Ha.
  - unfold a_add_or_update_edge. destruct (decide _); [apply a_home_edge_set, Ha|]. pose proof (a_home_insert home a u v (Some i) Ha) as H. destruct (a_insert_edge a u v (Some i)). exact H.
  - apply a_home_edge_set, Ha.
  - unfold a_remove_edge. destruct (decide _); exact Ha.
  - unfold a_remove_node. destruct (decide _); [|exact Ha]. apply a_home_delete. unfold a_chain. destruct (a_key a n); [|exact Ha]. destruct (decide _); [apply a_home_insert, Ha|exact Ha].
  - unfold a_merge_nodes. destruct (a_key a from); [|exact Ha]. destruct (a_key a to); [|exact Ha]. destruct (decide _); [apply a_home_delete, Ha|exact Ha].
  - destruct (decide _); exact Ha.
  - intros y nd. cbn. rewrite lookup_empty. discriminate.
Qed.
Lemma a_home_run home os : forall a, Forall (keeps_home home) os -> a_home home a -> a_home home (snd (a_run a os)).
Proof.
  induction os as [|o os IH]; intros a Hk Ha; [exact Ha|]. inversion Hk; subst. cbn [a_run]. pose proof (a_home_step home a o ltac:(assumption) Ha) as H.
  destruct (a_step a o) as [b a']. specialize (IH a' ltac:(assumption) H). destruct (a_run a' os). exact IH.
Qed.
Lemma published_home home h : published home h -> reachable h /\ at_home (fun x => (key_static (home x), None)) h.
Proof.
  intros (ids & g0 & os & outs & E0 & Hu & Hall & Hk & Hrun). destruct (C51_history_refines_abstract_graph ids g0 os E0 Hu Hall) as (g' & E & Hr & Hn & _).
  rewrite Hrun in E. injection E as _ <-. split; [exact Hr|]. intros x k t a H. rewrite Hn in H.
  assert (A : a_home home (snd (a_run (a_init ids) os))) by (apply a_home_run; [exact Hk|]; intros y n; cbn; rewrite lookup_empty; discriminate).
  destruct (ag_nodes _ !! x) as [n|] eqn:En in H; [|discriminate]. cbn in H. injection H as <- <- <-. destruct (A _ _ En) as [-> ->]. reflexivity.
Qed.
Lemma static_together home hs : Forall (published home) hs -> published_together (fun x => (key_static (home x), None)) hs.
Proof.
  intros HF. rewrite Forall_forall in HF. constructor.
  - intros h Hh. apply (published_home home h), HF, Hh.
  - intros h h' x y _ _ _ _ Hd. discriminate Hd.
  - intros h h' x Hh _ _ _ v k kv Hadj Hx Hv El. destruct (published_home home h (HF h Hh)) as [Hr Hhome]. destruct (reachable_RepL h Hr) as [a [HR _]].
    assert (K : forall y ky, layer_of h y = Some ky -> ky = key_static (home y)).
    { intros y ky Hy. rewrite (obs_layer h a HR) in Hy. unfold a_key in Hy. pose proof (obs_data h a HR y) as O. destruct (ag_nodes a !! y) as [n|]; [|discriminate].
      cbn in Hy, O. injection Hy as <-. specialize (Hhome _ _ _ _ O). cbn in Hhome. congruence. }
    rewrite (K _ _ Hx), (K _ _ Hv) in *. cbn in El. congruence.
Qed.
(** Senders that use static layers and never move an id to another layer -- any number of them,
    with any histories of allowed calls, restarted at any time with any layers -- meet the
    conditions above. *)
Theorem C72_static_senders : forall env ks ks' p q,
  current env -> program_of ks p -> program_of ks' q -> all_classes ks -> all_classes ks' -> (length ks <= 256)%nat ->
  forall home ds m, Forall (fun m => published home (st_graph m) /\ saveable (st_graph m) /\ message_of env p m) (ds ++ [m]) ->
  exists g, receive env q (map st_bytes (ds ++ [m])) = Ok g /\ reachable g /\ updated_from (st_graph m) g /\ g_mesh g = mesh_after (ds ++ [m]).
Proof.
  intros env ks ks' p q He Hp Hq Hks Hks' Hlen home ds m HF. set (hs := map st_graph (ds ++ [m])).
  assert (HP : Forall (published home) hs) by (apply Forall_map; eapply Forall_impl; [exact HF|]; intros x (A & _ & _); exact A).
  apply (C72_lossy_network env ks ks' p q He Hp Hq Hks Hks' Hlen (fun x => (key_static (home x), None)) hs).
  - eapply Forall_impl; [exact HP|]. intros h Hh. apply (published_home home h Hh).
  - apply Forall_map. eapply Forall_impl; [exact HF|]. intros x (_ & A & _). exact A.
  - apply static_together, HP.
  - apply Forall_forall. intros x Hx. rewrite Forall_forall in HF. destruct (HF x Hx) as (_ & _ & A). split; [|exact A]. apply elem_of_list_fmap. eauto.
Qed.
Print Assumptions C72_static_senders.

(** ** Cases that meet the hypotheses *)
Definition together_b (home : N -> LayerKey * option Z) (hs : list Graph) : bool :=
  forallb (fun h => forallb (fun xk => match node_data h (fst xk) with Some (k, t, _) => bool_decide (home (fst xk) = (k, t)) | None => true end && no_foreign_b h (fst xk))
    (map_to_list (g_lookup h))) hs &&
  forallb (fun h => forallb (fun h' => forallb (fun x => forallb (fun y =>
    negb (lk_dynamic (fst (home (fst x)))) || negb (bool_decide (home (fst x) = home (fst y))) || (fst x =? fst y)) (map_to_list (g_lookup h'))) (map_to_list (g_lookup h))) hs) hs.
Lemma has_lookup h x : g_has_node h x = true -> exists k, In (x, k) (map_to_list (g_lookup h)).
Proof. unfold g_has_node. intros H. apply bool_decide_eq_true in H as [k H]. exists k. apply layer_of_elem. exact H. Qed.
Lemma together_b_ok home hs : Forall reachable hs -> together_b home hs = true -> published_together home hs.
Proof.
  intros HR H. apply andb_true_iff in H as [H1 H2]. rewrite forallb_forall in H1, H2. rewrite Forall_forall in HR. constructor.
  - intros h Hh x k t a Hx. assert (Hk : g_has_node h x = true) by (apply has_data; eauto). apply has_lookup in Hk as [k' Hk]. apply elem_of_list_In in Hh. specialize (H1 h Hh).
    rewrite forallb_forall in H1. specialize (H1 _ Hk). cbn [fst] in H1. rewrite Hx in H1. apply andb_true_iff in H1 as [H1 _]. apply bool_decide_eq_true in H1. exact H1.
  - intros h h' x y Hh Hh' Hx Hy Hd E. apply elem_of_list_In in Hh, Hh'. apply has_lookup in Hx as [kx Hx]. apply has_lookup in Hy as [ky Hy].
    specialize (H2 h Hh). rewrite forallb_forall in H2. specialize (H2 h' Hh'). rewrite forallb_forall in H2. specialize (H2 _ Hx). rewrite forallb_forall in H2. specialize (H2 _ Hy).
    cbn [fst] in H2. rewrite Hd, bool_decide_true in H2 by exact E. apply N.eqb_eq in H2. exact H2.
  - intros h h' x Hh _ Hx _. apply elem_of_list_In in Hh. apply has_lookup in Hx as [kx Hx]. specialize (H1 h Hh). rewrite forallb_forall in H1. specialize (H1 _ Hx).
    apply andb_true_iff in H1 as [_ H1]. apply no_foreign_b_ok, H1.
Qed.
Definition ex_home (x : N) : LayerKey * option Z :=
  if x <? 20 then (key_static PLACES, None) else if x <? 30 then (key_static ROOMS, None) else (key_dynamic AGENTS pfx_a, Some (Z.of_N (prefix_index x) + 1)%Z).
Definition as_message (h : Graph) (im : bool) : Sent := mkSent h im (match write_graph ex_env lib h im with Ok bs => bs | _ => [] end).
Lemma as_message_ok h im : match write_graph ex_env lib h im with Ok bs => len bs <? max_object | _ => false end = true -> message_of ex_env lib (as_message h im).
Proof.
  unfold message_of, as_message. cbn [st_graph st_mesh st_bytes]. destruct (write_graph ex_env lib h im) as [bs| |] eqn:E; try discriminate. intros H. split; [reflexivity|apply N.ltb_lt, H].
Qed.
(** the two sample graphs, with poses of an agent: the older message arrives again, then the newer *)
Definition ex_arrived : list Sent := [as_message ex_sender true; as_message ex_receiver true; as_message ex_receiver false; as_message ex_sender false].
Example C72_ex : Forall reachable [ex_receiver; ex_sender] /\ Forall saveable [ex_receiver; ex_sender] /\ published_together ex_home [ex_receiver; ex_sender] /\
  Forall (fun m => st_graph m ∈ [ex_receiver; ex_sender] /\ message_of ex_env lib m) ex_arrived.
Proof.
  assert (R : Forall reachable [ex_receiver; ex_sender]) by (constructor; [exact ex_receiver_reachable|constructor; [exact ex_sender_reachable|constructor]]).
  assert (K : g_mesh ex_receiver = None) by (vm_compute; reflexivity).
  assert (V1 : saveable ex_receiver) by (apply saveable_b_ok; [exact ex_receiver_reachable|rewrite K; discriminate|vm_compute; reflexivity]).
  destruct C41_ex as (_ & V2 & _). split; [exact R|]. split; [constructor; [exact V1|constructor; [exact V2|constructor]]|].
  split; [apply together_b_ok; [exact R|vm_compute; reflexivity]|].
  assert (M1 : message_of ex_env lib (as_message ex_sender true)) by (apply as_message_ok; vm_compute; reflexivity).
  assert (M2 : message_of ex_env lib (as_message ex_receiver true)) by (apply as_message_ok; vm_compute; reflexivity).
  assert (M3 : message_of ex_env lib (as_message ex_receiver false)) by (apply as_message_ok; vm_compute; reflexivity).
  assert (M4 : message_of ex_env lib (as_message ex_sender false)) by (apply as_message_ok; vm_compute; reflexivity).
  clear K V1 V2 R. unfold ex_arrived. revert M1 M2 M3 M4. generalize ex_env lib. intros e l. unfold as_message. cbn [st_graph]. revert e l.
  generalize ex_sender ex_receiver. intros a b e l M1 M2 M3 M4.
  constructor; [split; [set_solver|exact M1]|]. constructor; [split; [set_solver|exact M2]|]. constructor; [split; [set_solver|exact M3]|]. constructor; [split; [set_solver|exact M4]|constructor].
Qed.
(** a sender with static layers: two moments of one history, a restart with other layers *)
Definition net_home (x : N) : LayerId := if x <? 20 then PLACES else ROOMS.
Definition net_ops1 : list gop := [GEmplace PLACES 10 (base_at 0 0 0); GEmplace PLACES 11 (base_at 1 0 0); GEmplace ROOMS 20 (base_at 0 1 0); GInsertEdge 10 11 None; GInsertParentEdge 20 10 None].
Definition net_ops2 : list gop := net_ops1 ++ [GSetMesh (Some ex_mesh); GRemoveNode 10; GAddOrUpdateNode PLACES 12 (base_at 5 5 5) None; GMergeNodes 11 12; GInsertParentEdge 12 20 None].
Definition run_from (ids : list LayerId) (os : list gop) : option Graph := match g_new ids with Ok g => run_b g os | _ => None end.
Definition net_graph (ids : list LayerId) (os : list gop) : Graph := match run_from ids os with Some g => g | None => ex_start end.
Lemma run_b_run os : forall g g', run_b g os = Some g' -> allowed_run g os /\ exists outs, g_run g os = Some (outs, g').
Proof.
  induction os as [|o r IH]; intros g g'; cbn [run_b allowed_run g_run]; [intros [= <-]; eauto|].
  destruct (allowed_b g o) eqn:Ea; [|discriminate]. destruct (g_step g o) as [[b g1]| |] eqn:Es; [|discriminate|discriminate].
  intros H. destruct (IH _ _ H) as [A [outs B]]. cbn [step_graph]. split; [split; [apply allowed_b_ok, Ea|exact A]|]. rewrite B. eauto.
Qed.
Lemma net_published ids os : UNKNOWN_LAYER ∉ ids -> Forall (keeps_home net_home) os -> match run_from ids os with Some _ => true | None => false end = true ->
  published net_home (net_graph ids os).
Proof.
  intros Hu Hk H. unfold net_graph. destruct (run_from ids os) as [h|] eqn:E; [|discriminate]. unfold run_from in E. destruct (g_new ids) as [g0| |] eqn:E0; try discriminate.
  destruct (run_b_run os g0 h E) as [A [outs B]]. exists ids, g0, os, outs. auto.
Qed.
Definition net_a : Graph := net_graph default_layer_ids net_ops1.
Definition net_b : Graph := net_graph default_layer_ids net_ops2.
Definition net_c : Graph := net_graph [3; 4] net_ops1.
Lemma ops_home1 : Forall (keeps_home net_home) net_ops1. Proof. repeat constructor. Qed.
Lemma ops_home2 : Forall (keeps_home net_home) net_ops2. Proof. repeat constructor. Qed.
Lemma ids_known : UNKNOWN_LAYER ∉ default_layer_ids. Proof. apply (bool_decide_eq_false_1 _). vm_compute. reflexivity. Qed.
Lemma ids_known2 : UNKNOWN_LAYER ∉ [3; 4]. Proof. apply (bool_decide_eq_false_1 _). vm_compute. reflexivity. Qed.
Lemma net_a_ok : published net_home net_a /\ saveable net_a.
Proof.
  assert (P : published net_home net_a) by (apply net_published; [exact ids_known|exact ops_home1|vm_compute; reflexivity]). split; [exact P|].
  apply saveable_b_ok; [apply (published_home _ _ P)| |vm_compute; reflexivity]. assert (K : g_mesh net_a = None) by (vm_compute; reflexivity). rewrite K. discriminate.
Qed.
Lemma net_b_ok : published net_home net_b /\ saveable net_b.
Proof.
  assert (P : published net_home net_b) by (apply net_published; [exact ids_known|exact ops_home2|vm_compute; reflexivity]). split; [exact P|].
  apply saveable_b_ok; [apply (published_home _ _ P)| |vm_compute; reflexivity]. assert (K : g_mesh net_b = Some ex_mesh) by (vm_compute; reflexivity). rewrite K. intros m [= <-]. apply C45_ex.
Qed.
Lemma net_c_ok : published net_home net_c /\ saveable net_c.
Proof.
  assert (P : published net_home net_c) by (apply net_published; [exact ids_known2|exact ops_home1|vm_compute; reflexivity]). split; [exact P|].
  apply saveable_b_ok; [apply (published_home _ _ P)| |vm_compute; reflexivity]. assert (K : g_mesh net_c = None) by (vm_compute; reflexivity). rewrite K. discriminate.
Qed.
Definition net_arrived : list Sent := [as_message net_b true; as_message net_a true; as_message net_c true; as_message net_c true; as_message net_b false; as_message net_a true].
Example C72_ex_static : Forall (fun m => published net_home (st_graph m) /\ saveable (st_graph m) /\ message_of ex_env lib m) net_arrived /\
  mesh_after net_arrived = None /\ mesh_after (take 2 net_arrived) = Some ex_mesh /\
  (match receive ex_env lib (map st_bytes net_arrived) with Ok g => bool_decide (g_num_nodes g false = 3%nat) && g_has_node g 10 && negb (g_has_node g 12) | _ => false end) = true.
Proof.
  split.
  - assert (Ma : message_of ex_env lib (as_message net_a true)) by (apply as_message_ok; vm_compute; reflexivity).
    assert (Mb : message_of ex_env lib (as_message net_b true)) by (apply as_message_ok; vm_compute; reflexivity).
    assert (Mb' : message_of ex_env lib (as_message net_b false)) by (apply as_message_ok; vm_compute; reflexivity).
    assert (Mc : message_of ex_env lib (as_message net_c true)) by (apply as_message_ok; vm_compute; reflexivity).
    destruct net_a_ok as [A1 A2], net_b_ok as [B1 B2], net_c_ok as [C1 C2]. unfold net_arrived. revert Ma Mb Mb' Mc A1 A2 B1 B2 C1 C2. unfold as_message. cbn [st_graph].
    generalize net_a net_b net_c ex_env lib. intros a b c e l Ma Mb Mb' Mc A1 A2 B1 B2 C1 C2.
    constructor; [exact (conj B1 (conj B2 Mb))|]. constructor; [exact (conj A1 (conj A2 Ma))|]. constructor; [exact (conj C1 (conj C2 Mc))|].
    constructor; [exact (conj C1 (conj C2 Mc))|]. constructor; [exact (conj B1 (conj B2 Mb'))|]. constructor; [exact (conj A1 (conj A2 Ma))|constructor].
  - split; [vm_compute; reflexivity|]. split; vm_compute; reflexivity.
Qed.
