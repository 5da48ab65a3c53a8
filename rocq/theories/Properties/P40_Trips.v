(** C71 saving and loading again and again changes nothing more. *)
From Coq Require Import NArith ZArith Bool List Lia String.
From stdpp Require Import base list gmap.
From Verif.Model Require Import Types Mesh Attrs Node EdgeContainer SLayer DLayer Graph Binary Versioning AttrCodec Registry GraphCodec Json Rotation JsonCodec GraphJson Disk.
From Verif.Spec Require Import BinarySpec AttrSpec RegistrySpec ProgramSpec AbstractGraph GraphHistory GraphObs GraphFileSpec JsonSpec TripSpec.
From Verif.Proof Require Import GraphObsP TightP TripP.
From Verif.Properties Require Import P12_Files P13_Registry P14_GraphFiles P24_Json ExGraph.
Local Open Scope N_scope.

Lemma one_trip fsub g t : reachable g -> saveable g -> (is_json t = true -> json_lossless g) -> trip_programs t -> small_file fsub g t ->
  exists g', trip fsub g t = Ok g' /\ reachable g' /\ loaded_from g g' /\ tight g' /\ (g_mesh g' = if keeps_mesh t then g_mesh g else None).
Proof.
  intros Hg HS HJ HP Hsm. destruct t as [p q m|q m]; cbn [is_json keeps_mesh trip trip_programs small_file] in *.
  - destruct HP as (ks & ks' & Hp & Hq & Hks & Hks' & Hlen). destruct (C41_file_round_trip fsub ks ks' p q g m Hp Hq Hks Hks' Hlen Hg HS) as (bs & g' & W & _ & L & Hr & HL & HM).
    destruct (L (Hsm bs W)) as [n E]. exists g'. rewrite W. cbn [rbind]. rewrite E. split; [reflexivity|]. split; [exact Hr|]. split; [exact HL|]. split; [eapply tight_load, E|exact HM].
  - destruct HP as (ks & Hq & Hks). destruct (HJ eq_refl) as (JS & JX & JM).
    destruct (C54_graph_json_round_trip fsub ks q g m Hq Hg JS) as (text & g' & W & R & Hr & (L1 & L2 & L3 & L4) & HM); [intros; apply Hks|].
    exists g'. rewrite W. cbn [rbind]. split; [exact R|]. split; [exact Hr|]. split; [|split; [eapply tight_json, R|]].
    + split; [exact L1|]. split; [exact L2|]. split; [|exact L4]. intros x. rewrite L3. destruct (node_data g x) as [[[k t] a]|] eqn:E; [|reflexivity].
      cbn. rewrite (C54_attributes_exact a) by (apply (JX _ _ _ _ E)). reflexivity.
    + rewrite HM. destruct m; [|reflexivity]. destruct (g_mesh g) as [ms|] eqn:E; [|reflexivity]. cbn. rewrite C54_mesh_exact by (apply JM; reflexivity). reflexivity.
Qed.
(** Any number of times, in any mixture of formats, by any programs: what the first loading gave
    is what every later one gives. *)
Theorem C71_trips : forall fsub h ts,
  reachable h -> saveable h -> (existsb is_json ts = true -> json_lossless h) -> Forall trip_programs ts -> small_files fsub h ts -> ts <> [] ->
  exists g, trips fsub h ts = Ok g /\ reachable g /\ loaded_from h g /\ (g_mesh g = if forallb keeps_mesh ts then g_mesh h else None).
Proof.
  intros fsub h ts. revert h. induction ts as [|t ts IH]; intros h Hh HS HJ HP Hsm Hne; [elim Hne; reflexivity|].
  inversion HP as [|? ? HPt HPts]; subst. destruct Hsm as [Hs1 Hs2]. cbn [existsb] in HJ.
  destruct (one_trip fsub h t Hh HS) as (g1 & E1 & Hr1 & HL1 & HT1 & HM1); [intros E; apply HJ; rewrite E; reflexivity|exact HPt|exact Hs1|].
  unfold trips. cbn [rfold]. rewrite E1. cbn [rbind forallb]. fold (trips fsub g1 ts).
  destruct ts as [|t2 ts].
  - exists g1. split; [reflexivity|]. split; [exact Hr1|]. split; [exact HL1|]. cbn [forallb]. rewrite andb_true_r. exact HM1.
  - assert (Hmc : g_mesh g1 = g_mesh h \/ g_mesh g1 = None) by (rewrite HM1; destruct (keeps_mesh t); auto).
    destruct (IH g1) as (g & E & Hr & HL & HM); [exact Hr1|exact (saveable_again h g1 Hh HS Hr1 HL1 HT1 Hmc)| |exact HPts|exact (Hs2 g1 E1)|discriminate|].
    { intros E. eapply lossless_again; [|exact HL1|exact Hmc]. apply HJ. rewrite E. apply orb_true_r. }
    exists g. split; [exact E|]. split; [exact Hr|]. split; [eapply loaded_trans; eassumption|]. rewrite HM, HM1. destruct (keeps_mesh t), (forallb keeps_mesh (t2 :: ts)); reflexivity.
Qed.
Print Assumptions C71_trips.
(** Two journeys of the same graph end with the same contents, whatever the formats and programs. *)
Theorem C71_formats_agree : forall fsub h ts us,
  reachable h -> saveable h -> (existsb is_json (ts ++ us) = true -> json_lossless h) -> Forall trip_programs (ts ++ us) ->
  small_files fsub h ts -> small_files fsub h us -> ts <> [] -> us <> [] -> forallb keeps_mesh ts = forallb keeps_mesh us ->
  exists g g', trips fsub h ts = Ok g /\ trips fsub h us = Ok g' /\ same_contents g g'.
Proof.
  intros fsub h ts us Hh HS HJ HP Ht Hu Nt Nu HM. rewrite existsb_app in HJ. apply Forall_app in HP as [Pt Pu].
  destruct (C71_trips fsub h ts Hh HS) as (g & E & _ & (L1 & L2 & L3 & L4) & M); [intros E; apply HJ; rewrite E; reflexivity|assumption..|].
  destruct (C71_trips fsub h us Hh HS) as (g' & E' & _ & (L1' & L2' & L3' & L4') & M'); [intros E'; apply HJ; rewrite E'; apply orb_true_r|assumption..|].
  exists g, g'. split; [exact E|]. split; [exact E'|]. split; [congruence|]. split; [intros l; rewrite L2; symmetry; apply L2'|].
  split; [intros x; rewrite L3, L3'; reflexivity|]. split; [intros u v; rewrite L4, L4'; reflexivity|]. rewrite M, M', HM. reflexivity.
Qed.
Print Assumptions C71_formats_agree.
(** Loading anything -- any bytes or any JSON -- gives dynamic layers whose last slot is used; so
    if no index below the last is missing, the graph can be saved again in the binary format. *)
Theorem C71_loaded_slots : forall fsub p g,
  (exists file n, load_binary fsub p file = Val g n) \/ (exists j, read_graph_json fsub p j = Ok g) ->
  forall l q d, g_dlayer g l q = Some d -> dl_nodes d = [] \/ exists n, list.last (dl_nodes d) = Some (Some n).
Proof.
  intros fsub p g H l q d Hd. assert (HT : tight g) by (destruct H as [(file & n & H)|(j & H)]; [eapply tight_load, H|eapply tight_json, H]).
  specialize (HT l q d Hd). destruct HT as [HT _]. destruct (list.last (dl_nodes d)) as [[n|]|] eqn:E; [eauto|elim HT; reflexivity|left; apply last_None, E].
Qed.
Print Assumptions C71_loaded_slots.

(** But the place where the next node of a dynamic layer goes is not part of what is saved: a
    loaded graph starts again at number 0, so that appending a node to a dynamic layer which has
    its node 0 is refused, in the loaded graph, while the original accepts it. *)
Theorem C71_append_refuted : forall fsub p g,
  (exists file n, load_binary fsub p file = Val g n) \/ (exists j, read_graph_json fsub p j = Ok g) ->
  forall l q t a e, g_has_node g (prefix_make_id q 0) = true -> g_emplace_dynamic g l q t a e = Ok (false, g).
Proof.
  intros fsub p g H l q t a e Hn. assert (HT : tight g) by (destruct H as [(file & n & H)|(j & H)]; [eapply tight_load, H|eapply tight_json, H]).
  unfold g_emplace_dynamic. destruct (g_dlayer g l q) as [d|] eqn:E; [rewrite (proj2 (HT _ _ _ E))|]; rewrite Hn; reflexivity.
Qed.
Print Assumptions C71_append_refuted.
Definition append_ok (g : Graph) : bool := match g_emplace_dynamic g AGENTS pfx_a 4 (base_at 0 0 4) true with Ok (b, _) => b | _ => false end.

(** The hypotheses are met: the sample graph (static and dynamic nodes, edges with attributes, a
    mesh), saved and loaded five times in both formats by two programs. *)
Fixpoint small_b (fsub : N -> N -> N) (g : Graph) (ts : list Trip) : bool :=
  match ts with
  | [] => true
  | t :: r => (match t with
               | TBinary p _ m => match save_binary (mkEnv (h_version header_current) fsub) p g m with Ok bs => len bs <? max_object | _ => true end
               | TJson _ _ => true end) &&
              match trip fsub g t with Ok g' => small_b fsub g' r | _ => true end
  end.
Lemma small_b_ok fsub ts : forall g, small_b fsub g ts = true -> small_files fsub g ts.
Proof.
  induction ts as [|t r IH]; intros g H; [exact I|]. cbn [small_b] in H. apply andb_true_iff in H as [H1 H2]. split.
  - destruct t as [p q m|q m]; [|exact I]. intros bs E. rewrite E in H1. apply N.ltb_lt, H1.
  - intros g' E. rewrite E in H2. apply IH, H2.
Qed.
Definition other : Program := program_with other_order.
Definition journey : list Trip := [TBinary lib other true; TJson lib true; TJson other true; TBinary other lib true; TBinary lib lib true].
Definition exact_b (a : NodeAttrs) : bool := match a with Attrs.ANode b => f64_b (v_x (a_pos b)) && f64_b (v_y (a_pos b)) && f64_b (v_z (a_pos b)) | _ => false end.
Lemma ex_exact x k t a : node_data ex_sender x = Some (k, t, a) -> json_exact a.
Proof.
  intros Hx. assert (K : forallb (fun xd => match snd xd with Some (_, _, a) => exact_b a | None => true end) (nodes_of ex_sender) = true) by (vm_compute; reflexivity).
  rewrite forallb_forall in K. specialize (K _ (nodes_of_in _ _ _ Hx)). cbn [snd] in K. clear Hx. destruct a as [b|s|o|r|p|d|g|k0]; [|discriminate K..]. unfold exact_b in K. rewrite !andb_true_iff in K.
  destruct K as [[K1 K2] K3]. split; [apply f64_b_ok, K1|]. split; [apply f64_b_ok, K2|apply f64_b_ok, K3].
Qed.
Lemma ex_mesh_exact : mesh_exact ex_mesh.
Proof. unfold mesh_exact. apply (bool_decide_eq_true_1 _). vm_compute. reflexivity. Qed.
Lemma ex_lossless : json_lossless ex_sender.
Proof.
  split; [|split; [exact ex_exact|intros m H; rewrite ex_sender_mesh in H; injection H as <-; exact ex_mesh_exact]].
  apply json_saveable_b_ok; [exact ex_sender_reachable|rewrite ex_sender_mesh; intros m [= <-]; exact ex_mesh_json|vm_compute; reflexivity].
Qed.
Lemma journey_programs : Forall trip_programs journey.
Proof.
  assert (L1 : program_of lib_order lib) by apply program_with_of, lib_order_ok. assert (L2 : program_of other_order other) by apply program_with_of, other_order_ok.
  pose proof (proj2 lib_order_ok) as A1. pose proof (proj2 other_order_ok) as A2.
  assert (N1 : (length lib_order <= 256)%nat) by (vm_compute; lia). assert (N2 : (length other_order <= 256)%nat) by (vm_compute; lia).
  revert L1 L2. unfold journey. generalize lib other. intros l o L1 L2.
  constructor; [exact (ex_intro _ lib_order (ex_intro _ other_order (conj L1 (conj L2 (conj A1 (conj A2 N1))))))|]. constructor; [exact (ex_intro _ lib_order (conj L1 A1))|].
  constructor; [exact (ex_intro _ other_order (conj L2 A2))|]. constructor; [exact (ex_intro _ other_order (ex_intro _ lib_order (conj L2 (conj L1 (conj A2 (conj A1 N2))))))|].
  constructor; [exact (ex_intro _ lib_order (ex_intro _ lib_order (conj L1 (conj L1 (conj A1 (conj A1 N1))))))|]. constructor.
Qed.
Lemma journey_small : small_files sub0 ex_sender journey.
Proof. apply small_b_ok. vm_compute. reflexivity. Qed.
Example C71_ex : reachable ex_sender /\ saveable ex_sender /\ json_lossless ex_sender /\ Forall trip_programs journey /\ small_files sub0 ex_sender journey /\
  existsb is_json journey = true /\ forallb keeps_mesh journey = true /\ g_mesh ex_sender = Some ex_mesh /\
  (match trips sub0 ex_sender journey with Ok g => bool_decide (g_num_nodes g false = 8%nat) && bool_decide (g_num_edges g = 8%nat) | _ => false end) = true.
Proof.
  split; [exact ex_sender_reachable|]. split; [apply C41_ex|]. split; [exact ex_lossless|]. split; [exact journey_programs|]. split; [exact journey_small|].
  split; [vm_compute; reflexivity|]. split; [vm_compute; reflexivity|]. split; [exact ex_sender_mesh|]. vm_compute. reflexivity.
Qed.

Example C71_ex_append : append_ok ex_sender = true /\
  (match trip sub0 ex_sender (TBinary lib other true) with Ok g => g_has_node g (prefix_make_id pfx_a 0) && negb (append_ok g) | _ => false end) = true.
Proof. split; vm_compute; reflexivity. Qed.
