(** C41 whole graphs round trip, C42 update buffers. *)
From Coq Require Import NArith ZArith Bool List Lia String.
From stdpp Require Import base list gmap.
From Verif.Model Require Import Types Mesh Attrs Node EdgeContainer SLayer DLayer Graph Binary Versioning AttrCodec Registry GraphCodec.
From Verif.Spec Require Import BinarySpec AttrSpec RegistrySpec ProgramSpec AbstractGraph GraphHistory GraphObs GraphFileSpec.
From Verif.Proof Require Import BinaryP GraphSim GraphRep GraphObsP CloneP FileP GraphCodecP TransferP.
From Verif.Properties Require Import P12_Files P13_Registry ExGraph.
Local Open Scope N_scope.

Lemma same_layers h g' : reachable h -> reachable g' -> g_layer_ids g' = g_layer_ids h -> forall l, g_has_layer g' l = g_has_layer h l.
Proof.
  intros Hh Hg E l. destruct (reachable_RepL h Hh) as [ah [HRh HIh]]. destruct (reachable_RepL g' Hg) as [a' [HRg HIg]].
  unfold g_has_layer. apply bool_decide_ext. pose proof (rp_layers _ _ HRh l) as H1. pose proof (rp_layers _ _ HRg l) as H2. rewrite HIh in H1. rewrite HIg, E in H2. tauto.
Qed.
Lemma empty_updatable g h : (forall x, node_data g x = None) -> (forall x, g_has_node g x = false) -> updatable g h.
Proof.
  intros Hn Hh. constructor.
  - intros x k t a k' t' a' H. rewrite Hn in H. discriminate.
  - intros x y k t a b _ _ H. rewrite Hn in H. discriminate.
  - intros x H. rewrite Hh in H. discriminate.
Qed.
Lemma init_empty g ids : Rep g (a_init ids) -> (forall x, node_data g x = None) /\ (forall x, g_has_node g x = false).
Proof.
  intros HR. split; intros x.
  - rewrite (obs_data _ _ HR). reflexivity.
  - destruct (g_has_node g x) eqn:E; [|reflexivity]. apply (obs_known _ _ HR) in E as [? E]. cbn in E. rewrite lookup_empty in E. discriminate.
Qed.

Section Files.
  Context (env : Env) (ks ks' : list Kind) (p q : Program).
  Hypothesis (He : current env) (Hp : program_of ks p) (Hq : program_of ks' q) (Hks : all_classes ks) (Hks' : all_classes ks')
    (Hlen : (length ks <= 256)%nat).
  Context (h : Graph) (im : bool).
  Hypothesis (Hh : reachable h) (HS : saveable h).

  Lemma into_empty g : reachable g -> Rep g (a_init (g_layer_ids h)) -> g_layer_ids g = g_layer_ids h -> g_mesh g = None ->
    exists g', transfer as_kept h g im = Ok g' /\ reachable g' /\ loaded_from h g' /\ g_mesh g' = if im then g_mesh h else None.
  Proof using Hh HS.
    intros Hr HR Hi Hm. destruct (init_empty _ _ HR) as [E1 E2]. destruct (reachable_RepL h Hh) as [ah HL].
    destruct (transfer_ok h ah HL HS as_kept g im Hr Hi (empty_updatable g h E1 E2)) as (g' & T & R & I' & N' & _ & X & M).
    exists g'. split; [exact T|]. split; [exact R|]. split.
    - split; [exact I'|]. split; [apply same_layers; assumption|]. split; [exact N'|]. apply X, E2.
    - rewrite M, Hm. destruct (g_mesh h); destruct im; reflexivity.
  Qed.
  Lemma fresh_graph : exists g, g_new (g_layer_ids h) = Ok g /\ reachable g /\ Rep g (a_init (g_layer_ids h)) /\ g_layer_ids g = g_layer_ids h /\ g_mesh g = None.
  Proof using Hh.
    pose proof (reachable_ids h Hh) as Hne. destruct (reachable_RepL h Hh) as [ah HL]. pose proof (RepL_ids_known h ah HL) as Hu.
    assert (Hn : exists g, g_new (g_layer_ids h) = Ok g) by (unfold g_new; destruct (g_layer_ids h); [contradiction|eauto]).
    destruct Hn as [g Hg]. exists g. split; [exact Hg|]. split; [eapply reach_new; eassumption|].
    split; [apply (new_RepL _ _ Hg Hu)|]. unfold g_new in Hg. destruct (g_layer_ids h); [contradiction|]. injection Hg as <-. auto.
  Qed.
  Lemma file_bytes : exists b0 b1, write_graph env p h im = Ok (b0 ++ b1) /\ Forall is_byte (b0 ++ b1) /\
    reads_back (cd_read c_u64s []) b0 (g_layer_ids h) /\ forall g g', transfer as_kept h g im = Ok g' -> reads_back (update_graph env q g) b1 g'.
  Proof using He Hp Hq Hks Hks' Hlen Hh HS.
    destruct (reachable_RepL h Hh) as [ah HL].
    exact (file_effect env He ks ks' p q Hp Hq Hks Hks' Hlen h im (saveable_fits h ah HL HS)).
  Qed.
End Files.

(** C41: every graph the format can hold is written by any program that has the library's
    attribute classes, and any other such program -- whatever order its classes were registered
    in -- reads the bytes, wherever they are in a buffer, as a graph with the same layers, nodes,
    timestamps, attributes, edges and (if requested) mesh. *)
Theorem C41_graph_round_trip : forall env ks ks' p q h im,
  current env -> program_of ks p -> program_of ks' q -> all_classes ks -> all_classes ks' -> (length ks <= 256)%nat ->
  reachable h -> saveable h ->
  exists bs g', write_graph env p h im = Ok bs /\ Forall is_byte bs /\ reads_back (read_graph env q) bs g' /\
    reachable g' /\ loaded_from h g' /\ g_mesh g' = if im then g_mesh h else None.
Proof.
  intros env ks ks' p q h im He Hp Hq Hks Hks' Hlen Hh HS.
  destruct (file_bytes env ks ks' p q He Hp Hq Hks Hks' Hlen h im Hh HS) as (b0 & b1 & W & B & R0 & R1).
  destruct (fresh_graph h Hh) as (g & Hg & Hr & HR & Hi & Hm).
  destruct (into_empty h im Hh HS g Hr HR Hi Hm) as (g' & T & Hr' & HL' & HM').
  exists (b0 ++ b1), g'. split; [exact W|]. split; [exact B|]. split; [|auto].
  unfold read_graph. eapply reads_bind; [exact R0|]. rewrite Hg. cbn [lift].
  apply (reads_bind (ret g) _ [] b1 g); [apply reads_ret|]. apply R1, T.
Qed.
Print Assumptions C41_graph_round_trip.
(** The same for files: what saveDsgBinary writes, loadDsgBinary accepts and loads. *)
Theorem C41_file_round_trip : forall fsub ks ks' p q h im,
  program_of ks p -> program_of ks' q -> all_classes ks -> all_classes ks' -> (length ks <= 256)%nat ->
  reachable h -> saveable h ->
  exists file g', save_binary (mkEnv (h_version header_current) fsub) p h im = Ok file /\ Forall is_byte file /\
    (len file < max_object -> exists n, load_binary fsub q file = Val g' n) /\
    reachable g' /\ loaded_from h g' /\ g_mesh g' = if im then g_mesh h else None.
Proof.
  intros fsub ks ks' p q h im Hp Hq Hks Hks' Hlen Hh HS.
  set (env := mkEnv (h_version header_current) fsub).
  destruct (C41_graph_round_trip env ks ks' p q h im eq_refl Hp Hq Hks Hks' Hlen Hh HS) as (bs & g' & W & B & R & Hr & HL & HM).
  destruct (header_round header_current) as (hb & Hhb & Bh & Rh).
  { split; [split; [reflexivity|repeat constructor]|]. repeat split. }
  exists (hb ++ (bs ++ [])), g'. split; [unfold save_binary; apply seq_cons; [exact Hhb|]; apply seq_cons; [exact W|reflexivity]|].
  rewrite app_nil_r. split; [apply Forall_app_2; assumption|]. split; [|auto].
  intros Hl. unfold load_binary, load_prologue. rewrite (Rh bs Hl).
  assert (Hc : check_compatibility (default header_legacy (Some header_current)) header_current = Ok tt) by (vm_compute; reflexivity).
  rewrite Hc. cbn [rbind]. change (default header_legacy (Some header_current)) with header_current.
  unfold len. rewrite Nat2N.id, drop_app. fold env. specialize (R [] []). cbn [app] in R. rewrite app_nil_r in R.
  eexists. apply R. unfold len in *. rewrite app_length in Hl. lia.
Qed.
Print Assumptions C41_file_round_trip.

(** C42: over the same layers, if the two graphs agree on where and when their common nodes
    are, applying the bytes of [h] to [g] gives [g] exactly the nodes, attributes and edges of
    [h]; the mesh is that of [h] if it has one and it was included. *)
Theorem C42_update_same_layers : forall env ks ks' p q h im g,
  current env -> program_of ks p -> program_of ks' q -> all_classes ks -> all_classes ks' -> (length ks <= 256)%nat ->
  reachable h -> saveable h -> reachable g -> g_layer_ids g = g_layer_ids h -> updatable g h ->
  exists bs g', write_graph env p h im = Ok bs /\ reads_back (update_from_buffer env q g) bs g' /\
    reachable g' /\ updated_from h g' /\
    g_mesh g' = match g_mesh h with Some m => if im then Some m else g_mesh g | None => g_mesh g end.
Proof.
  intros env ks ks' p q h im g He Hp Hq Hks Hks' Hlen Hh HS Hg Hi HU.
  destruct (file_bytes env ks ks' p q He Hp Hq Hks Hks' Hlen h im Hh HS) as (b0 & b1 & W & B & R0 & R1).
  destruct (reachable_RepL h Hh) as [ah HL].
  destruct (transfer_ok h ah HL HS as_kept g im Hg Hi HU) as (g' & T & Hr' & I' & N' & E' & _ & M').
  exists (b0 ++ b1), g'. split; [exact W|]. split.
  - unfold update_from_buffer. eapply reads_bind; [exact R0|]. cbv beta. rewrite bool_decide_true by exact Hi. apply R1, T.
  - split; [exact Hr'|]. split; [|exact M']. split; [exact I'|]. split; [apply same_layers; assumption|]. auto.
Qed.
Print Assumptions C42_update_same_layers.
(** Over different layers the receiver is reset first: nothing of it is left. *)
Theorem C42_update_other_layers : forall env ks ks' p q h im g,
  current env -> program_of ks p -> program_of ks' q -> all_classes ks -> all_classes ks' -> (length ks <= 256)%nat ->
  reachable h -> saveable h -> reachable g -> g_layer_ids g <> g_layer_ids h ->
  exists bs g', write_graph env p h im = Ok bs /\ reads_back (update_from_buffer env q g) bs g' /\
    reachable g' /\ loaded_from h g' /\ g_mesh g' = if im then g_mesh h else None.
Proof.
  intros env ks ks' p q h im g He Hp Hq Hks Hks' Hlen Hh HS Hg Hi.
  destruct (file_bytes env ks ks' p q He Hp Hq Hks Hks' Hlen h im Hh HS) as (b0 & b1 & W & B & R0 & R1).
  destruct (reachable_RepL h Hh) as [ah HL]. pose proof (RepL_ids_known h ah HL) as Hu. pose proof (reachable_ids h Hh) as Hne.
  destruct (into_empty h im Hh HS (g_reset g (g_layer_ids h))) as (g' & T & Hr' & HL' & HM').
  { apply reach_reset; assumption. } { apply (reset_RepL g _ Hu). } { reflexivity. } { reflexivity. }
  exists (b0 ++ b1), g'. split; [exact W|]. split; [|auto].
  unfold update_from_buffer. eapply reads_bind; [exact R0|]. cbv beta. rewrite bool_decide_false by exact Hi. apply R1, T.
Qed.
Print Assumptions C42_update_other_layers.

(* ------------------------------------------------------------------ *)
(** ** The conditions are met, and they are needed *)
Definition base_b (a : NodeAttrs) : bool :=
  match a with Attrs.ANode b => (v_x (a_pos b) <? 2 ^ 64) && (v_y (a_pos b) <? 2 ^ 64) && (v_z (a_pos b) <? 2 ^ 64) && (a_time b <? 2 ^ 64) | _ => false end.
Lemma base_b_ok a : base_b a = true -> attrs_ok a.
Proof.
  destruct a; try discriminate. unfold base_b. rewrite !andb_true_iff, !N.ltb_lt. intros [[[? ?] ?] ?]. split; [split; [|split]|]; assumption.
Qed.
Definition saveable_b (h : Graph) : bool :=
  (N.of_nat (length (g_layer_ids h)) <? 2 ^ 32) && forallb (fun l => l <? 2 ^ 64) (g_layer_ids h) &&
  forallb (fun xk => match node_data h (fst xk) with
    | Some (k, t, a) => (fst xk <? 2 ^ 64) && (lk_layer k <? 2 ^ 64) && base_b a &&
        match t with Some t => (- 2 ^ 63 <=? t)%Z && (t <? 2 ^ 63)%Z && lk_dynamic k | None => negb (lk_dynamic k) end &&
        (negb (lk_dynamic k) || bool_decide (lk_layer k ∈ g_layer_ids h))
    | None => true end) (map_to_list (g_lookup h)) &&
  forallb (fun e => ea_weight (e_info e) <? 2 ^ 64) (all_edges h) &&
  forallb (fun d => forallb (fun o => match o with Some _ => true | None => false end) (dl_nodes d)) (g_all_dlayers h).
Lemma saveable_b_ok h : reachable h -> (forall m, g_mesh h = Some m -> mesh_fits m) -> saveable_b h = true -> saveable h.
Proof.
  intros Hr Hm H. unfold saveable_b in H. rewrite !andb_true_iff, N.ltb_lt, !forallb_forall in H. destruct H as [[[[H1 H2] H3] H4] H5].
  destruct (reachable_RepL h Hr) as [ah [HR _]].
  assert (Hn : forall x k t a, node_data h x = Some (k, t, a) -> x < 2 ^ 64 /\ lk_layer k < 2 ^ 64 /\ attrs_ok a /\
     match t with Some t => (- 2 ^ 63 <= t < 2 ^ 63)%Z /\ lk_dynamic k = true | None => lk_dynamic k = false end /\ (lk_dynamic k = true -> lk_layer k ∈ g_layer_ids h)).
  { intros x k t a Hx. assert (Hk : exists k', g_lookup h !! x = Some k').
    { unfold node_data, layer_of, g_layer_for_node in Hx. destruct (g_lookup h !! x); [eauto|discriminate]. }
    destruct Hk as [k' Hk]. apply elem_of_map_to_list, elem_of_list_In in Hk. specialize (H3 _ Hk). cbn [fst] in H3. rewrite Hx in H3.
    rewrite !andb_true_iff, !N.ltb_lt in H3. destruct H3 as [[[[A1 A2] A3] A4] A5].
    split; [exact A1|]. split; [exact A2|]. split; [apply base_b_ok, A3|]. split.
    - destruct t as [t|]; [|apply negb_true_iff, A4]. rewrite !andb_true_iff, Z.leb_le, Z.ltb_lt in A4. tauto.
    - intros Hd. rewrite Hd in A5. cbn in A5. apply bool_decide_eq_true in A5. exact A5. }
  constructor.
  - split; [exact H1|]. apply List.Forall_forall. intros l Hl. apply N.ltb_lt, H2, Hl.
  - intros x k t a Hx. destruct (Hn _ _ _ _ Hx) as (A1 & A2 & A3 & A4 & _). split; [exact A1|]. split; [exact A2|]. split; [|exact A3].
    intros t' ->. apply A4.
  - intros u v e E. apply N.ltb_lt, H4. apply elem_of_list_In, (all_edges_in h ah HR). rewrite (obs_edge h ah HR) in E.
    destruct (rp_norm _ _ HR _ _ E) as [Hk _]. rewrite <- Hk. exact E.
  - exact Hm.
  - intros x k t a Hx Hd. destruct (Hn _ _ _ _ Hx) as (_ & _ & _ & A4 & _). destruct t; [|reflexivity]. destruct A4. congruence.
  - intros x k t a Hx Hd. destruct (Hn _ _ _ _ Hx) as (_ & _ & _ & _ & A5). auto.
  - intros l p d Hd Hin. assert (He : In d (g_all_dlayers h)) by (apply elem_of_list_In, all_dlayers_in; eauto).
    specialize (H5 d He). rewrite forallb_forall in H5. specialize (H5 None). apply elem_of_list_In in Hin. specialize (H5 Hin). discriminate.
Qed.
Definition updatable_b (g h : Graph) : bool :=
  forallb (fun xk => match node_data g (fst xk), node_data h (fst xk) with
    | Some (k, t, _), Some (k', t', _) => bool_decide (k' = k /\ t' = t)
    | Some _, None => no_foreign_b g (fst xk)
    | None, _ => true end) (map_to_list (g_lookup g)) &&
  forallb (fun xk => forallb (fun yk => match node_data h (fst xk), node_data g (fst yk) with
    | Some (k, t, _), Some (k', t', _) => negb (lk_dynamic k) || negb (bool_decide (k' = k /\ t' = t)) || (fst xk =? fst yk)
    | _, _ => true end) (map_to_list (g_lookup g))) (map_to_list (g_lookup h)).
Lemma looked_up g x d : node_data g x = Some d -> exists k, In (x, k) (map_to_list (g_lookup g)).
Proof.
  intros Hx. unfold node_data, layer_of, g_layer_for_node in Hx. destruct (g_lookup g !! x) as [k|] eqn:E; [|discriminate].
  exists k. apply elem_of_list_In, elem_of_map_to_list, E.
Qed.
Lemma updatable_b_ok g h : reachable g -> reachable h -> updatable_b g h = true -> updatable g h.
Proof.
  intros Hg Hh H. unfold updatable_b in H. rewrite andb_true_iff, !forallb_forall in H. destruct H as [H1 H2]. constructor.
  - intros x k t a k' t' a' E1 E2. destruct (looked_up _ _ _ E1) as [k0 Hk]. specialize (H1 _ Hk). cbn [fst] in H1. rewrite E1, E2 in H1.
    apply bool_decide_eq_true in H1. exact H1.
  - intros x y k t a b Hd E1 E2. destruct (looked_up _ _ _ E1) as [k1 K1]. destruct (looked_up _ _ _ E2) as [k2 K2].
    specialize (H2 _ K1). rewrite forallb_forall in H2. specialize (H2 _ K2). cbn [fst] in H2. rewrite E1, E2, Hd in H2.
    rewrite bool_decide_true in H2 by auto. cbn in H2. apply N.eqb_eq, H2.
  - intros x E1 E2. destruct (reachable_RepL g Hg) as [b [HRg _]]. destruct (reachable_RepL h Hh) as [a [HRh _]].
    apply (obs_known g b HRg) in E1 as [n Hn]. assert (En : node_data g x = Some (an_key n, an_time n, an_attrs n)) by (rewrite (obs_data g b HRg), Hn; reflexivity).
    assert (Eh : node_data h x = None).
    { rewrite (obs_data h a HRh). destruct (ag_nodes a !! x) eqn:Ea; [|reflexivity]. assert (K : g_has_node h x = true) by (apply (obs_known h a HRh); unfold a_known; eauto). congruence. }
    destruct (looked_up _ _ _ En) as [k Hk]. specialize (H1 _ Hk). cbn [fst] in H1. rewrite En, Eh in H1. apply no_foreign_b_ok, H1.
Qed.

(** The sender: the sample graph with a mesh.  The receiver: places 10 (other attributes), 13,
    14, the first agent pose, an edge that has to go and one with other attributes. *)
Definition ex_sender : Graph := match run_b ex_start (ex_ops ++ [GSetMesh (Some ex_mesh)]) with Some g => g | None => ex_start end.
Definition ex_receiver : Graph := match run_b ex_start
  [ GEmplace PLACES 13 (base_at 0 0 0); GEmplace PLACES 11 (base_at 9 9 9); GEmplace PLACES 12 (base_at 2 0 0); GEmplace ROOMS 22 (base_at 0 1 0);
    GEmplaceDyn AGENTS pfx_a 1 (base_at 7 7 7) true; GInsertEdge 12 11 (Some (mkEA true 3)); GInsertEdge 11 13 None; GInsertParentEdge 13 22 None ]
  with Some g => g | None => ex_start end.
Lemma ex_sender_reachable : reachable ex_sender. Proof. apply run_b_start. vm_compute. reflexivity. Qed.
Lemma ex_receiver_reachable : reachable ex_receiver. Proof. apply run_b_start. vm_compute. reflexivity. Qed.
Lemma ex_sender_mesh : g_mesh ex_sender = Some ex_mesh.
Proof. vm_compute. reflexivity. Qed.
Example C41_ex : reachable ex_sender /\ saveable ex_sender /\ g_num_nodes ex_sender false = 8%nat /\ g_num_edges ex_sender = 8%nat.
Proof.
  split; [exact ex_sender_reachable|]. split; [|vm_compute; auto].
  apply saveable_b_ok; [exact ex_sender_reachable| |vm_compute; reflexivity].
  rewrite ex_sender_mesh. intros m [= <-]. apply C45_ex.
Qed.
Example C42_ex : reachable ex_receiver /\ updatable ex_receiver ex_sender /\ g_layer_ids ex_receiver = g_layer_ids ex_sender /\
  g_has_node ex_receiver 13 = true /\ g_has_node ex_sender 13 = false /\
  (exists e, edge_at ex_receiver 11 12 = Some e /\ e_info e = mkEA true 3) /\ (exists e, edge_at ex_sender 11 12 = Some e /\ e_info e = ea_default).
Proof.
  split; [exact ex_receiver_reachable|]. split.
  { apply updatable_b_ok; [exact ex_receiver_reachable|exact ex_sender_reachable|]. vm_compute. reflexivity. }
  split; [vm_compute; reflexivity|]. split; [vm_compute; reflexivity|]. split; [vm_compute; reflexivity|].
  split; (eexists; split; [vm_compute; reflexivity|vm_compute; reflexivity]).
Qed.

Definition lib : Program := program_with lib_order.
Definition reload (h : Graph) : outcome Graph :=
  match write_graph ex_env lib h true with Ok bs => read_graph ex_env lib bs 0 | Throw => Fail Exception | UB => Fail Undefined end.
Definition update_with (g h : Graph) : outcome Graph :=
  match write_graph ex_env lib h true with Ok bs => update_from_buffer ex_env lib g bs 0 | Throw => Fail Exception | UB => Fail Undefined end.
Definition build (os : list gop) : Graph := match run_b ex_start os with Some g => g | None => ex_start end.

(** A dynamic layer whose LayerId is not that of a static layer is lost. *)
Definition dyn7 : Graph := build [GEmplaceDyn 7 pfx_a 1 (base_at 0 0 0) true].
Theorem C41_dynamic_layer_lost_refuted : reachable dyn7 /\ g_has_node dyn7 (agent 0) = true /\
  exists g n, reload dyn7 = Val g n /\ g_has_node g (agent 0) = false.
Proof.
  split; [apply run_b_start; vm_compute; reflexivity|]. split; [vm_compute; reflexivity|].
  assert (K : (match reload dyn7 with Val g _ => negb (g_has_node g (agent 0)) | _ => false end) = true) by (vm_compute; reflexivity).
  destruct (reload dyn7) as [g n|]; [|discriminate]. exists g, n. split; [reflexivity|]. apply negb_true_iff, K.
Qed.
Print Assumptions C41_dynamic_layer_lost_refuted.
(** A static node with a timestamp comes back as a dynamic node. *)
Definition stamped : Graph := build [GInsertNode PLACES 10 (Some 5%Z) (base_at 0 0 0)].
Theorem C41_static_timestamp_refuted : reachable stamped /\ layer_of stamped 10 = Some (key_static PLACES) /\
  exists g n, reload stamped = Val g n /\ layer_of g 10 = Some (key_dynamic PLACES 0).
Proof.
  split; [apply run_b_start; vm_compute; reflexivity|]. split; [vm_compute; reflexivity|].
  assert (K : (match reload stamped with Val g _ => bool_decide (layer_of g 10 = Some (key_dynamic PLACES 0)) | _ => false end) = true) by (vm_compute; reflexivity).
  destruct (reload stamped) as [g n|]; [|discriminate]. exists g, n. split; [reflexivity|]. apply bool_decide_eq_true in K. exact K.
Qed.
Print Assumptions C41_static_timestamp_refuted.
(** A graph from which a dynamic node was removed cannot be written: a null pointer is
    dereferenced. *)
Definition holed : Graph := build [GEmplaceDyn AGENTS pfx_a 1 (base_at 0 0 0) true; GEmplaceDyn AGENTS pfx_a 2 (base_at 0 0 0) true; GRemoveNode (agent 0)].
Theorem C41_removed_dynamic_node_refuted : reachable holed /\ g_has_node holed (agent 1) = true /\
  write_graph ex_env lib holed true = UB.
Proof. split; [apply run_b_start; vm_compute; reflexivity|]. split; vm_compute; reflexivity. Qed.
Print Assumptions C41_removed_dynamic_node_refuted.
(** A node that is in another layer at the receiver stays there. *)
Definition moved_s : Graph := build [GEmplace ROOMS 10 (base_at 0 0 0)].
Definition moved_r : Graph := build [GEmplace PLACES 10 (base_at 1 1 1)].
Theorem C42_moved_node_stays_refuted : reachable moved_s /\ reachable moved_r /\ g_layer_ids moved_r = g_layer_ids moved_s /\
  layer_of moved_s 10 = Some (key_static ROOMS) /\
  exists g n, update_with moved_r moved_s = Val g n /\ layer_of g 10 = Some (key_static PLACES).
Proof.
  split; [apply run_b_start; vm_compute; reflexivity|]. split; [apply run_b_start; vm_compute; reflexivity|]. split; [vm_compute; reflexivity|]. split; [vm_compute; reflexivity|].
  assert (K : (match update_with moved_r moved_s with Val g _ => bool_decide (layer_of g 10 = Some (key_static PLACES)) | _ => false end) = true) by (vm_compute; reflexivity).
  destruct (update_with moved_r moved_s) as [g n|]; [|discriminate]. exists g, n. split; [reflexivity|]. apply bool_decide_eq_true in K. exact K.
Qed.
Print Assumptions C42_moved_node_stays_refuted.
(** A receiver with a mesh keeps it when the sender has none. *)
Definition with_mesh : Graph := build [GSetMesh (Some ex_mesh)].
Theorem C42_mesh_stays_refuted : reachable with_mesh /\ g_mesh ex_start = None /\
  exists g n, update_with with_mesh ex_start = Val g n /\ g_mesh g = Some ex_mesh.
Proof.
  split; [apply run_b_start; vm_compute; reflexivity|]. split; [vm_compute; reflexivity|].
  assert (K : (match update_with with_mesh ex_start with Val g _ => match g_mesh g with Some m => mesh_eqb m ex_mesh | None => false end | _ => false end) = true) by (vm_compute; reflexivity).
  assert (K2 : (match update_with with_mesh ex_start with Val g _ => g_mesh g | _ => None end) = Some ex_mesh) by (vm_compute; reflexivity).
  destruct (update_with with_mesh ex_start) as [g n|]; [|discriminate]. exists g, n. split; [reflexivity|exact K2].
Qed.
Print Assumptions C42_mesh_stays_refuted.
