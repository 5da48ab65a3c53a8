(** C25: clone. *)
From Coq Require Import NArith ZArith Bool List Lia.
From stdpp Require Import base list gmap fin_maps.
From Verif.Model Require Import Types Mesh Attrs Node EdgeContainer SLayer DLayer Graph.
From Verif.Spec Require Import AbstractGraph GraphHistory GraphObs.
From Verif.Proof Require Import GraphRep GraphSim GraphObsP CloneP.
From Verif.Properties Require Import ExGraph P06_Stale.
Local Open Scope N_scope.

(** C25: clone never fails on a reachable graph; the copy has the same static layers, the same
    mesh, the same nodes (id, layer, attributes, and timestamp of dynamic nodes), exactly the same
    edges, and answers any later history of allowed calls the way the original does, ending in
    equal-looking graphs again.  Excluded from the later history are the calls that depend on how
    many slots a dynamic layer has used ([appends_slot], see the refutation below). *)
Theorem C25_clone_is_equal_and_behaves_the_same : forall g os outs g',
  reachable g -> allowed_run g os -> Forall (fun o => ~ appends_slot o) os -> g_run g os = Some (outs, g') ->
  exists c c', g_clone g = Ok c /\ reachable c /\ looks_like g c /\ g_mesh c = g_mesh g /\ g_layer_ids c = g_layer_ids g /\
    g_run c os = Some (outs, c') /\ looks_like g' c'.
Proof. exact clone_behaves. Qed.

(** The case: clone the example graph, then remove a room, merge two places, add a node on both. *)
Definition ex_later : list gop :=
  [GRemoveNode 20; GMergeNodes 11 10; GEmplace PLACES 13 (base_at 5 5 5); GInsertEdge 13 10 None; GRemoveNode (agent 1); GSetEdgeAttrs 10 12 (mkEA true 7)].
Example C25_case :
  reachable ex_graph /\ allowed_run ex_graph ex_later /\ Forall (fun o => ~ appends_slot o) ex_later /\
  match g_run ex_graph ex_later, g_clone ex_graph with
  | Some (outs, g'), Ok c =>
      outs = map ABool (repeat true 6) /\ g_num_nodes c false = 8%nat /\ g_num_edges c = 8%nat /\
      edge_at c 11 10 = Some (mkEdge 10 11 (mkEA true 5)) /\ node_data c (agent 1) = node_data ex_graph (agent 1) /\ g_num_nodes g' false = 6%nat
  | _, _ => False end.
Proof.
  split; [exact ex_reachable|]. split; [apply allowed_run_b_ok; vm_compute; reflexivity|].
  split; [repeat constructor; intros H; exact H|]. vm_compute. auto 10.
Qed.

(** Full equality of later behaviour is false: the clone forgets next_node_ of its dynamic layers,
    so emplaceNode, which appends to the original, is refused by the clone. *)
Theorem C25_emplace_after_clone_refuted :
  exists g c l p t at_, reachable g /\ g_clone g = Ok c /\ allowed g (GEmplaceDyn l p t at_ true) /\
    step_out (g_step g (GEmplaceDyn l p t at_ true)) = ABool true /\ step_out (g_step c (GEmplaceDyn l p t at_ true)) = ABool false.
Proof.
  assert (H : match g_clone ex_graph with Ok c =>
     match g_step c (GEmplaceDyn AGENTS pfx_a 9 (base_at 1 1 1) true) with Ok (false, _) => true | _ => false end | _ => false end = true) by (vm_compute; reflexivity).
  destruct (g_clone ex_graph) as [c| |] eqn:E; [|discriminate|discriminate].
  exists ex_graph, c, AGENTS, pfx_a, 9%Z, (base_at 1 1 1). split; [exact ex_reachable|]. split; [exact E|].
  split; [apply allowed_b_ok; vm_compute; reflexivity|]. split; [vm_compute; reflexivity|].
  destruct (g_step c _) as [[[] ?]| |]; [discriminate|reflexivity|discriminate|discriminate].
Qed.

(** Timestamps of static nodes are not copied. *)
Theorem C25_static_timestamps_refuted :
  exists g c x, reachable g /\ g_clone g = Ok c /\ node_data c x <> node_data g x.
Proof.
  pose (g := match run_b ex_start [GInsertNode PLACES 10 (Some 5%Z) (base_at 0 0 0)] with Some g => g | None => ex_start end).
  assert (H : match g_clone g with Ok c => match node_data c 10, node_data g 10 with Some (_, None, _), Some (_, Some _, _) => true | _, _ => false end | _ => false end = true) by (vm_compute; reflexivity).
  destruct (g_clone g) as [c| |] eqn:E; [|discriminate|discriminate].
  exists g, c, 10. split; [apply run_b_start; vm_compute; reflexivity|]. split; [exact E|].
  intros Heq. rewrite Heq in H. destruct (node_data g 10) as [[[? [?|]] ?]|]; discriminate.
Qed.
