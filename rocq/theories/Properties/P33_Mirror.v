(** C63: a mirror kept by the change reports equals the graph. *)
From Coq Require Import NArith ZArith Bool List Lia.
From stdpp Require Import base list gmap fin_maps tactics.
From Verif.Model Require Import Types Mesh Attrs Node EdgeContainer SLayer DLayer Graph.
From Verif.Spec Require Import AbstractGraph GraphHistory GraphObs MirrorSpec.
From Verif.Proof Require Import Keys GraphRep GraphObsP QueryP StaleP2 MirrorP MirrorP2 MirrorP3 MirrorP4.
From Verif.Properties Require Import ExGraph P06_Stale.
Local Open Scope N_scope.

(** One span: the nodes (edges) of the graph after any allowed calls are those reported as new and
    those of the start that are not reported as removed. *)
Theorem C63_mirror_equals_graph : forall g0 os outs g1, reachable g0 -> allowed_run g0 os -> plain_run g0 os ->
  g_run g0 os = Some (outs, g1) -> none_lost g0 -> no_edge_lost g0 ->
  (forall x, g_has_node g1 x = true <->
     x ∈ fst (g_get_new_nodes g1 false) \/ (g_has_node g0 x = true /\ x ∉ fst (g_get_removed_nodes g1 false))) /\
  (forall u v, adjacent g1 u v <->
     edge_key u v ∈ fst (g_get_new_edges g1 false) \/ (adjacent g0 u v /\ edge_key u v ∉ fst (g_get_removed_edges g1 false))).
Proof.
  intros g0 os outs g1 Hr Ha Hp Hrun Hn He. destruct (reachable_RepL g0 Hr) as [a [HR _]].
  assert (Hr1 : reachable g1) by (eapply run_reachable; eassumption). destruct (reachable_RepL g1 Hr1) as [b [HR1 _]].
  pose proof (run_Inv g0 os g0 outs g1 Hr Ha Hp (Inv_start g0 a HR Hn He) Hrun) as HI. split.
  - exact (nodes_mirrored g0 g1 b HR1 HI).
  - assert (Hed : forall g c u v, Rep g c -> (its_edges g (edge_key u v) <-> adjacent g u v)).
    { intros g c u v HRc. split; [|intros H; exists u, v; auto]. intros (x & y & Hk & Hxy). apply (obs_adjacent g c HRc) in Hxy. apply (obs_adjacent g c HRc).
      unfold a_linked in *. rewrite Hk. exact Hxy. }
    intros u v. pose proof (edges_mirrored g0 g1 b HR1 HI (edge_key u v)) as H. unfold after_reports in H. rewrite (Hed g1 b u v HR1), (Hed g0 a u v HR) in H. exact H.
Qed.
Print Assumptions C63_mirror_equals_graph.

(** Any number of rounds, with the clearing reports a synchronisation uses. *)
Theorem C63_mirror_follows : forall g M E g' M' E', reachable g -> none_lost g -> no_edge_lost g ->
  (forall x, M x <-> its_nodes g x) -> (forall k, E k <-> its_edges g k) -> follows g M E g' M' E' ->
  (forall x, M' x <-> its_nodes g' x) /\ (forall k, E' k <-> its_edges g' k).
Proof. intros g M E g' M' E' Hr Hn He HM HE Hf. apply (follows_mirror g M E g' M' E' Hf Hr Hn He HM HE). Qed.
Print Assumptions C63_mirror_follows.

(** What clearing leaves in the removed report: no edges, and only nodes that were merged away. *)
Theorem C63_clearing_leaves_merged_nodes_only : forall g x, reachable g ->
  x ∈ fst (g_get_removed_nodes (snd (g_get_removed_nodes g true)) false) ->
  exists l s, g_layers g !! l = Some s /\ sl_check_node s x = NMerged.
Proof.
  intros g x Hr Hx. assert (Hr1 : reachable (snd (g_get_removed_nodes g true))) by exact (reach_step g (GRemovedNodes true) true _ Hr I eq_refl).
  destruct (reachable_RepL _ Hr1) as [a [HR _]]. apply (removed_iff _ a false x HR) in Hx as (c & j & -> & Hg). clear HR Hr1.
  unfold g_get_removed_nodes in Hg. set (fs := fun l => sl_get_removed_nodes l true) in Hg. set (fd := fun d => dl_get_removed_nodes d true) in Hg.
  pose proof (visit_lay fs (g_layers g)) as HL. pose proof (visit_dyn fd (g_dlayers g)) as HD.
  destruct (visit_static fs _) as [r1 ls], (visit_dynamic fd _) as [r2 ds]. cbn [snd] in *.
  destruct c as [l|l p| |]; cbn [rgone ns nid] in *.
  - cbn in Hg. rewrite HL in Hg. destruct (g_layers g !! l) as [s|] eqn:E; cbn in Hg; [|rewrite lookup_empty in Hg; destruct Hg; discriminate].
    exists l, s. split; [exact E|]. unfold sl_check_node. rewrite map_filter_lookup in Hg.
    destruct (sl_status s !! j) as [[]|]; cbn in Hg; try (rewrite option_guard_True in Hg by reflexivity); try (rewrite option_guard_False in Hg by discriminate); destruct Hg; try discriminate; reflexivity.
  - rewrite gd_bind in Hg. cbn in Hg. rewrite HD in Hg. destruct (g_dlayers g !! l ≫= _) as [s|]; cbn in Hg; [|rewrite lookup_empty in Hg; discriminate].
    rewrite map_filter_lookup in Hg. destruct (dl_status s !! j) as [[]|]; cbn in Hg; try (rewrite option_guard_True in Hg by reflexivity); try (rewrite option_guard_False in Hg by discriminate); discriminate.
  - rewrite lookup_empty in Hg; destruct Hg; discriminate.
  - rewrite lookup_empty in Hg; destruct Hg; discriminate.
Qed.
Print Assumptions C63_clearing_leaves_merged_nodes_only.

(** The case: synchronise the example graph, then remove, merge, re-create, append and rewire. *)
Definition prev_plain_b (g : Graph) (l : LayerId) (id : N) : bool :=
  g_has_node g id ||
  (forallb (fun x => negb (prefix_from_id (fst x) =? prefix_from_id id) || bool_decide (snd x = key_dynamic l (prefix_from_id id))) (map_to_list (g_lookup g)) &&
   (prefix_index id + 1 <? 2 ^ 32)).
Definition plain_b (g : Graph) (o : gop) : bool :=
  match o with
  | GClear => false
  | GNewNodes c | GRemovedNodes c | GNewEdges c | GRemovedEdges c => negb c
  | GEmplacePrev l id _ _ | GAddOrUpdateNode l id _ (Some _) => prev_plain_b g l id
  | _ => true
  end.
Fixpoint plain_run_b (g : Graph) (os : list gop) : bool :=
  match os with [] => true | o :: r => plain_b g o && plain_run_b (step_graph g (g_step g o)) r end.
Lemma prev_plain_b_ok g l id : prev_plain_b g l id = true -> prev_plain g l id.
Proof.
  unfold prev_plain_b, prev_plain. rewrite orb_true_iff, andb_true_iff, N.ltb_lt, forallb_forall. intros [H|[H1 H2]]; [auto|]. right. split; [|exact H2].
  intros x k Hx Hp. specialize (H1 _ (layer_of_elem _ _ _ Hx)). cbn [fst snd] in H1. rewrite Hp, N.eqb_refl in H1. cbn in H1. exact (proj1 (bool_decide_eq_true _) H1).
Qed.
Lemma plain_run_b_ok os : forall g, plain_run_b g os = true -> plain_run g os.
Proof.
  induction os as [|o r IH]; intros g; cbn [plain_run_b plain_run]; [intros _; exact I|]. rewrite andb_true_iff. intros [H1 H2]. split; [|apply IH, H2].
  destruct o; cbn in *; try exact I; try discriminate; try (apply prev_plain_b_ok, H1); try (apply negb_true_iff, H1). destruct t; [apply prev_plain_b_ok, H1|exact I].
Qed.
Definition none_lost_b (g : Graph) : bool :=
  forallb (fun x => negb (bool_decide (fst x ∈ fst (g_get_removed_nodes g false)))) (map_to_list (g_lookup g)).
Lemma none_lost_b_ok g : none_lost_b g = true -> none_lost g.
Proof.
  unfold none_lost_b. rewrite forallb_forall. intros H x Hx. apply known_iff in Hx as [k Hk]. specialize (H _ (layer_of_elem _ _ _ Hk)).
  cbn [fst] in H. apply negb_true_iff in H. exact (proj1 (bool_decide_eq_false _) H).
Qed.
Lemma no_removed_edges g : fst (g_get_removed_edges g false) = [] -> no_edge_lost g.
Proof. intros H k _. rewrite H. intros Hk. inversion Hk. Qed.
Definition cleared (g : Graph) : Graph :=
  snd (g_get_new_edges (snd (g_get_removed_edges (snd (g_get_new_nodes (snd (g_get_removed_nodes g true)) true)) true)) true).
Lemma cleared_reachable g : reachable g -> reachable (cleared g).
Proof.
  intros H. set (a1 := snd (g_get_removed_nodes g true)). set (a2 := snd (g_get_new_nodes a1 true)). set (a3 := snd (g_get_removed_edges a2 true)).
  exact (reach_step a3 (GNewEdges true) true _ (reach_step a2 (GRemovedEdges true) true a3 (reach_step a1 (GNewNodes true) true a2 (reach_step g (GRemovedNodes true) true a1 H I eq_refl) I eq_refl) I eq_refl) I eq_refl).
Qed.
Definition mirror_ops : list gop :=
  [ GRemoveNode 10; GMergeNodes 12 11; GEmplace PLACES 13 (base_at 4 0 0); GInsertEdge 13 11 None; GInsertParentEdge 13 21 None;
    GEmplace PLACES 10 (base_at 5 0 0); GRemoveEdge 11 20; GEmplaceDyn AGENTS pfx_a 4 (base_at 0 0 4) true; GRemoveNode (agent 1);
    GEmplacePrev AGENTS (agent 7) 9 (base_at 0 0 7); GMarkStale; GNewNodes false ].
Definition in_b {A} `{EqDecision A} (x : A) (l : list A) : bool := bool_decide (x ∈ l).
Lemma in_b_true {A} `{EqDecision A} (x : A) l : in_b x l = true -> x ∈ l. Proof. unfold in_b. apply bool_decide_eq_true. Qed.
Lemma in_b_false {A} `{EqDecision A} (x : A) l : negb (in_b x l) = true -> x ∉ l. Proof. unfold in_b. intros H. apply negb_true_iff in H. exact (proj1 (bool_decide_eq_false _) H). Qed.
Example C63_case :
  let g0 := cleared ex_graph in
  reachable g0 /\ none_lost g0 /\ no_edge_lost g0 /\ allowed_run g0 mirror_ops /\ plain_run g0 mirror_ops /\
  match g_run g0 mirror_ops with
  | Some (outs, g1) =>
      (outs, map (g_has_node g1) [10; 11; 12; 13; agent 1; agent 3; agent 7], map (fun x => in_b x (fst (g_get_new_nodes g1 false))) [10; 11; 12; 13; agent 1; agent 3; agent 7],
       map (fun x => in_b x (fst (g_get_removed_nodes g1 false))) [10; 11; 12; 13; agent 1; agent 3; agent 7])
  | None => ([], [], [], []) end =
  ([ABool true; ABool true; ABool true; ABool true; ABool true; ABool true; ABool true; ABool true; ABool true; ABool true; ABool true; ABool true],
   [true; true; false; true; false; true; true], [true; false; false; true; false; true; true], [false; false; true; false; true; false; false]).
Proof.
  cbv zeta. split; [apply cleared_reachable, ex_reachable|]. split; [apply none_lost_b_ok; vm_compute; reflexivity|].
  split; [apply no_removed_edges; vm_compute; reflexivity|]. split; [apply allowed_run_b_ok; vm_compute; reflexivity|].
  split; [apply plain_run_b_ok; vm_compute; reflexivity|]. vm_compute. reflexivity.
Qed.

(** The condition on lost ids is needed: MERGED is never cleared, so an id that was merged away and
    then re-created in another layer is reported as removed for ever, although it is a node. *)
Definition merged_ops : list gop := [GMergeNodes 10 11; GEmplace ROOMS 10 (base_at 0 0 0)].
Theorem C63_recreated_elsewhere_refuted : exists g x, reachable g /\ g_has_node g x = true /\
  x ∈ fst (g_get_removed_nodes g false) /\ x ∉ fst (g_get_new_nodes g false) /\
  x ∈ fst (g_get_removed_nodes (cleared g) false).
Proof.
  assert (H : match run_b ex_graph merged_ops with Some g => g_has_node (cleared g) 10 && in_b 10 (fst (g_get_removed_nodes (cleared g) false)) && negb (in_b 10 (fst (g_get_new_nodes (cleared g) false))) &&
     in_b 10 (fst (g_get_removed_nodes (cleared (cleared g)) false)) | None => false end = true) by (vm_compute; reflexivity).
  destruct (run_b ex_graph merged_ops) as [g|] eqn:E; [|discriminate]. exists (cleared g), 10. rewrite !andb_true_iff in H. destruct H as [[[H1 H2] H3] H4].
  split; [apply cleared_reachable; exact (run_b_reachable _ _ _ ex_reachable E)|]. split; [exact H1|]. split; [exact (in_b_true _ _ H2)|].
  split; [|exact (in_b_true _ _ H4)]. exact (in_b_false _ _ H3).
Qed.
Print Assumptions C63_recreated_elsewhere_refuted.

(** So is the one on emplacePrevDynamicNode: the slots it skips are reported as removed, with the
    ids of live nodes of another dynamic layer that uses the same prefix. *)
Definition skipping : gop := GEmplacePrev BUILDINGS (agent 7) 9 (base_at 0 0 7).
Theorem C63_skipped_slots_refuted : exists g o b g' x, reachable g /\ none_lost g /\ allowed g o /\ g_step g o = Ok (b, g') /\
  g_has_node g x = true /\ g_has_node g' x = true /\ x ∈ fst (g_get_removed_nodes g' false) /\ x ∉ fst (g_get_new_nodes g' false).
Proof.
  assert (H : match g_step (cleared ex_graph) skipping with Ok (_, g') => g_has_node g' (agent 1) && in_b (agent 1) (fst (g_get_removed_nodes g' false)) && negb (in_b (agent 1) (fst (g_get_new_nodes g' false))) | _ => false end = true)
    by (vm_compute; reflexivity).
  destruct (g_step (cleared ex_graph) skipping) as [[b g']| |] eqn:E; [|discriminate|discriminate]. rewrite !andb_true_iff in H. destruct H as [[H1 H2] H3].
  exists (cleared ex_graph), skipping, b, g', (agent 1). split; [apply cleared_reachable, ex_reachable|]. split; [apply none_lost_b_ok; vm_compute; reflexivity|].
  split; [apply allowed_b_ok; vm_compute; reflexivity|]. split; [exact E|]. split; [vm_compute; reflexivity|]. split; [exact H1|].
  split; [exact (in_b_true _ _ H2)|]. exact (in_b_false _ _ H3).
Qed.
Print Assumptions C63_skipped_slots_refuted.
