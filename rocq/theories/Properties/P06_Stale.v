(** C07: the stale-edge sweep. *)
From Coq Require Import NArith ZArith Bool List Lia.
From stdpp Require Import base list gmap fin_maps.
From Verif.Model Require Import Types Mesh Attrs Node EdgeContainer SLayer DLayer Graph.
From Verif.Spec Require Import AbstractGraph GraphHistory GraphObs.
From Verif.Proof Require Import GraphRep GraphSim GraphObsP StaleP StaleP2.
From Verif.Properties Require Import ExGraph.
Local Open Scope N_scope.

(** C07: mark, run any allowed history that does not mark again, sweep.  The sweep never throws,
    touches no node, and for every pair of nodes: the edge is either removed or left exactly as it
    was; an edge that did not exist when marking survives; an edge that existed at marking time and
    throughout survives if some call of the history looked it up, and is removed otherwise. *)
Theorem C07_sweep_removes_exactly_untouched : forall g os outs g1,
  reachable g -> allowed_run (g_mark_stale g) os -> Forall (fun o => o <> GMarkStale) os ->
  g_run (g_mark_stale g) os = Some (outs, g1) ->
  exists g2, g_remove_all_stale g1 = Ok g2 /\ reachable g2 /\ same_nodes g1 g2 /\
  forall u v,
    (edge_at g2 u v = None \/ edge_at g2 u v = edge_at g1 u v) /\
    (~ adjacent g u v -> edge_at g2 u v = edge_at g1 u v) /\
    (always_adjacent (g_mark_stale g) os u v ->
       ((exists o, In o os /\ looks_up o u v) -> edge_at g2 u v = edge_at g1 u v /\ edge_at g2 u v <> None) /\
       (~ (exists o, In o os /\ looks_up o u v) -> edge_at g2 u v = None)).
Proof. exact stale_sweep. Qed.

(** The case: on the example graph look up 10 - 11 and the room edge 20 - 11, insert 20 - 21, sweep. *)
Definition ex_touch : list gop := [GFindEdge 11 10; GSetEdgeAttrs 20 11 (mkEA true 9); GInsertEdge 20 21 None].
Fixpoint allowed_run_b (g : Graph) (os : list gop) : bool :=
  match os with [] => true | o :: r => allowed_b g o && allowed_run_b (step_graph g (g_step g o)) r end.
Lemma allowed_run_b_ok os : forall g, allowed_run_b g os = true -> allowed_run g os.
Proof.
  induction os as [|o r IH]; intros g; cbn; [intros _; exact I|]. rewrite andb_true_iff. intros [H1 H2].
  split; [apply allowed_b_ok, H1|apply IH, H2].
Qed.
Definition swept (os : list gop) : option Graph :=
  match g_run (g_mark_stale ex_graph) os with
  | Some (_, g1) => match g_remove_all_stale g1 with Ok g2 => Some g2 | _ => None end
  | None => None end.
Definition edges_left (os : list gop) (ps : list (N * N)) : option (list bool) :=
  g ← swept os; Some (map (fun p => bool_decide (is_Some (edge_at g (fst p) (snd p)))) ps).
Example C07_case :
  reachable ex_graph /\ allowed_run (g_mark_stale ex_graph) ex_touch /\ Forall (fun o => o <> GMarkStale) ex_touch /\
  is_Some (g_run (g_mark_stale ex_graph) ex_touch) /\
  edges_left ex_touch [(10, 11); (11, 20); (20, 21); (11, 12); (10, 20); (12, 21); (agent 1, 10); (agent 0, agent 1)]
    = Some [true; true; true; false; false; false; false; false] /\
  edges_left [] [(10, 11); (11, 20); (20, 21)] = Some [false; false; false].
Proof.
  split; [exact ex_reachable|]. split; [apply allowed_run_b_ok; vm_compute; reflexivity|].
  split; [repeat constructor; discriminate|]. split; [|vm_compute; auto].
  assert (H : match g_run (g_mark_stale ex_graph) ex_touch with Some _ => true | None => false end = true) by (vm_compute; reflexivity).
  destruct (g_run _ _); [eauto|discriminate].
Qed.

(** The stronger reading "every edge inserted since marking survives" is false: an edge that is
    removed and inserted again after marking keeps its old flag, because insert does not reset it,
    and the sweep removes it. *)
Theorem C07_reinserted_edge_survives_refuted :
  exists g os outs g1 g2 u v, reachable g /\ allowed_run (g_mark_stale g) os /\ Forall (fun o => o <> GMarkStale) os /\
    g_run (g_mark_stale g) os = Some (outs, g1) /\ In (GInsertEdge u v None) os /\ is_Some (edge_at g1 u v) /\
    g_remove_all_stale g1 = Ok g2 /\ edge_at g2 u v = None.
Proof.
  set (os := [GRemoveEdge 10 11; GInsertEdge 10 11 None]).
  pose (r := g_run (g_mark_stale ex_graph) os).
  assert (Hr : match r with
    | Some (_, g1) => bool_decide (is_Some (edge_at g1 10 11)) &&
        match g_remove_all_stale g1 with Ok g2 => bool_decide (edge_at g2 10 11 = None) | _ => false end
    | None => false end = true) by (vm_compute; reflexivity).
  destruct r as [[outs g1]|] eqn:E; [|discriminate]. apply andb_true_iff in Hr as [H1 H2].
  destruct (g_remove_all_stale g1) as [g2| |] eqn:E2; [|discriminate|discriminate].
  exists ex_graph, os, outs, g1, g2, 10, 11. apply bool_decide_eq_true in H1, H2.
  split; [exact ex_reachable|]. split; [apply allowed_run_b_ok; vm_compute; reflexivity|].
  split; [repeat constructor; discriminate|]. split; [exact E|]. split; [right; left; reflexivity|]. auto.
Qed.
