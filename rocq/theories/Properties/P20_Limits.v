(** What the restrictions in [allowed] exclude: each of these calls on a graph built through the
    interface misbehaves, so the unrestricted forms of C16-C18, C20-C22 and C24 are false. *)
From Coq Require Import NArith ZArith Bool List Lia.
From stdpp Require Import base list gmap fin_maps.
From Verif.Model Require Import Types Mesh Attrs Node EdgeContainer SLayer DLayer Graph.
From Verif.Spec Require Import AbstractGraph GraphHistory GraphObs.
From Verif.Properties Require Import ExGraph P03_Graph.
Local Open Scope N_scope.

Lemma step_witness g o (b : bool) (P : Graph -> bool) :
  match g_step g o with Ok (b', g') => eqb b b' && P g' | _ => false end = true -> exists g', g_step g o = Ok (b, g') /\ P g' = true.
Proof.
  destruct (g_step g o) as [[b' g']| |]; [|discriminate|discriminate]. intros H. apply andb_true_iff in H as [H1 H2].
  apply eqb_prop in H1. subst b'. eauto.
Qed.
Definition adj_b (g : Graph) (u v : N) : bool := match g_has_edge g u v with Ok true => true | _ => false end.
Lemma adj_b_ok g u v : adj_b g u v = true -> adjacent g u v.
Proof. unfold adj_b, adjacent. destruct (g_has_edge g u v) as [[]| |]; congruence. Qed.
Definition not_adj_b (g : Graph) (u v : N) : bool := match g_has_edge g u v with Ok false => true | _ => false end.
Lemma not_adj_b_ok g u v : not_adj_b g u v = true -> g_has_edge g u v = Ok false.
Proof. unfold not_adj_b. destruct (g_has_edge g u v) as [[]| |]; congruence. Qed.
Definition in_b (g : Graph) (x : N) (k : LayerKey) : bool :=
  match layer_of g x with None => false | Some k' => bool_decide (k' = k) end.
Lemma in_b_ok g x k : in_b g x k = true -> layer_of g x = Some k.
Proof. unfold in_b. destruct (layer_of g x) as [k'|]; [|discriminate]. intros H. f_equal. exact (bool_decide_eq_true_1 _ H). Qed.
Definition has_sib_b (g : Graph) (x y : N) : bool := match node_at g x with Some n => bool_decide (y ∈ n_sib n) | None => false end.
Definition has_par_b (g : Graph) (x y : N) : bool := match node_at g x with Some n => bool_decide (y ∈ n_par n) | None => false end.

(** An object (layer 2, static) next to an agent pose (layer 2, dynamic): *)
Definition mixed_ops : list gop := ex_ops ++ [GEmplace OBJECTS 30 (base_at 5 5 5); GInsertEdge 30 (agent 1) None; GInsertEdge (agent 1) (agent 2) None].
Definition mixed : Graph := match run_b ex_start mixed_ops with Some g => g | None => ex_start end.
Lemma mixed_reachable : reachable mixed. Proof. apply run_b_start. vm_compute. reflexivity. Qed.


(** C16: a dynamic layer whose prefix has a sub-index (LayerPrefix(key, index)): the node is added and
    known, but getNode and findNode throw, because the slot is computed from all 56 low bits of the id. *)
Definition pfx_sub : N := prefix_of_key_idx 97 1.
Theorem C16_prefix_with_index_refuted : exists g o id g', reachable g /\ o = GEmplaceDyn AGENTS pfx_sub 1 (base_at 0 0 0) true /\
  id = prefix_make_id pfx_sub 0 /\ g_step g o = Ok (true, g') /\ g_has_node g' id = true /\ g_find_node g' id = Throw.
Proof.
  destruct (step_witness ex_start (GEmplaceDyn AGENTS pfx_sub 1 (base_at 0 0 0) true) true
    (fun g' => g_has_node g' (prefix_make_id pfx_sub 0) && match g_find_node g' (prefix_make_id pfx_sub 0) with Throw => true | _ => false end)) as (g' & E & H);
    [vm_compute; reflexivity|]. apply andb_true_iff in H as [H1 H2].
  exists ex_start, (GEmplaceDyn AGENTS pfx_sub 1 (base_at 0 0 0) true), (prefix_make_id pfx_sub 0), g'. split; [exact ex_start_reachable|].
  split; [reflexivity|]. split; [reflexivity|]. split; [exact E|]. split; [exact H1|].
  destruct (g_find_node g' (prefix_make_id pfx_sub 0)); congruence.
Qed.
Print Assumptions C16_prefix_with_index_refuted.

(** C20: insertParentEdge between two nodes of the same layer returns true (documented: false).  Both
    nodes then list each other as siblings and numEdges grows, but hasEdge stays false and the edge
    cannot be removed. *)
Theorem C20_same_layer_refuted : exists g g', reachable g /\ layer_of g 10 = Some (key_static PLACES) /\ layer_of g 12 = Some (key_static PLACES) /\
  g_step g (GInsertParentEdge 10 12 None) = Ok (true, g') /\
  g_num_edges g' = S (g_num_edges g) /\ g_has_edge g' 10 12 = Ok false /\
  (exists n, node_at g' 10 = Some n /\ 12 ∈ n_sib n) /\ (exists g2, g_step g' (GRemoveEdge 10 12) = Ok (false, g2)).
Proof.
  destruct (step_witness ex_graph (GInsertParentEdge 10 12 None) true
    (fun g' => (Nat.eqb (g_num_edges g') (S (g_num_edges ex_graph))) && not_adj_b g' 10 12 && has_sib_b g' 10 12 &&
               match g_step g' (GRemoveEdge 10 12) with Ok (false, _) => true | _ => false end)) as (g' & E & H); [vm_compute; reflexivity|].
  apply andb_true_iff in H as [H H4]. apply andb_true_iff in H as [H H3]. apply andb_true_iff in H as [H1 H2].
  exists ex_graph, g'. split; [exact ex_reachable|]. split; [apply in_b_ok; vm_compute; reflexivity|]. split; [apply in_b_ok; vm_compute; reflexivity|].
  split; [exact E|]. split; [apply Nat.eqb_eq, H1|]. split; [exact (not_adj_b_ok _ _ _ H2)|]. split.
  - unfold has_sib_b in H3. destruct (node_at g' 10) as [n|]; [|discriminate]. exists n. split; [reflexivity|]. exact (bool_decide_eq_true_1 _ H3).
  - destruct (g_step g' (GRemoveEdge 10 12)) as [[[] g2]| |]; [discriminate|eauto|discriminate|discriminate].
Qed.
Print Assumptions C20_same_layer_refuted.

(** C20: between partitions with the same LayerId (an object and an agent pose): no node becomes a
    child, yet the parents of the source are dropped. *)
Definition mixed_par : Graph := match run_b ex_start (ex_ops ++ [GEmplace OBJECTS 30 (base_at 5 5 5); GInsertParentEdge 30 11 None]) with Some g => g | None => ex_start end.
Theorem C20_same_layer_id_refuted : exists g g', reachable g /\ layer_of g 30 = Some (key_static OBJECTS) /\ layer_of g (agent 0) = Some (key_dynamic OBJECTS pfx_a) /\
  adjacent g 11 30 /\ g_step g (GInsertParentEdge 30 (agent 0) None) = Ok (true, g') /\ g_has_edge g' 11 30 = Ok false.
Proof.
  destruct (step_witness mixed_par (GInsertParentEdge 30 (agent 0) None) true (fun g' => not_adj_b g' 11 30)) as (g' & E & H); [vm_compute; reflexivity|].
  exists mixed_par, g'. split; [apply run_b_start; vm_compute; reflexivity|]. split; [apply in_b_ok; vm_compute; reflexivity|].
  split; [apply in_b_ok; vm_compute; reflexivity|]. split; [apply adj_b_ok; vm_compute; reflexivity|]. split; [exact E|exact (not_adj_b_ok _ _ _ H)].
Qed.
Print Assumptions C20_same_layer_id_refuted.

(** C18, C17: removeNode of an object that has an edge to an agent pose (same LayerId 2): the edge is
    still counted and the pose still lists the removed object as sibling. *)
Theorem C18_dangling_sibling_refuted : exists g g' n, reachable g /\ adjacent g 30 (agent 1) /\ layer_of g 30 = Some (key_static OBJECTS) /\
  g_step g (GRemoveNode 30) = Ok (true, g') /\ g_has_node g' 30 = false /\ node_at g' (agent 1) = Some n /\ 30 ∈ n_sib n /\
  g_num_edges g' = g_num_edges g.
Proof.
  destruct (step_witness mixed (GRemoveNode 30) true
    (fun g' => negb (g_has_node g' 30) && has_sib_b g' (agent 1) 30 && Nat.eqb (g_num_edges g') (g_num_edges mixed))) as (g' & E & H); [vm_compute; reflexivity|].
  apply andb_true_iff in H as [H H3]. apply andb_true_iff in H as [H1 H2]. unfold has_sib_b in H2. destruct (node_at g' (agent 1)) as [n|] eqn:En; [|discriminate].
  exists mixed, g', n. split; [exact mixed_reachable|]. split; [apply adj_b_ok; vm_compute; reflexivity|]. split; [apply in_b_ok; vm_compute; reflexivity|].
  split; [exact E|]. split; [apply negb_true_iff, H1|]. split; [exact En|]. split; [exact (bool_decide_eq_true_1 _ H2)|apply Nat.eqb_eq, H3].
Qed.
Print Assumptions C18_dangling_sibling_refuted.

(** C21: mergeNodes of two nodes of a dynamic layer throws. *)
Theorem C21_dynamic_merge_refuted : exists g, reachable g /\
  layer_of g (agent 1) = Some (key_dynamic AGENTS pfx_a) /\ layer_of g (agent 2) = Some (key_dynamic AGENTS pfx_a) /\
  g_step g (GMergeNodes (agent 1) (agent 2)) = Throw.
Proof.
  exists ex_graph. split; [exact ex_reachable|]. split; [apply in_b_ok; vm_compute; reflexivity|]. split; [apply in_b_ok; vm_compute; reflexivity|].
  assert (K : match g_step ex_graph (GMergeNodes (agent 1) (agent 2)) with Throw => true | _ => false end = true) by (vm_compute; reflexivity).
  destruct (g_step ex_graph (GMergeNodes (agent 1) (agent 2))); congruence.
Qed.
Print Assumptions C21_dynamic_merge_refuted.

(** C22: merging place 10 (below room 20) into place 12 (below room 21) gives 12 two parents, although
    every node had at most one before. *)
Theorem C22_merge_gives_two_parents_refuted : exists g g', reachable g /\ allowed g (GMergeNodes 10 12) /\ (forall x p q, is_parent_of g p x -> is_parent_of g q x -> p = q) /\
  g_step g (GMergeNodes 10 12) = Ok (true, g') /\ is_parent_of g' 20 12 /\ is_parent_of g' 21 12.
Proof.
  destruct (step_witness ex_graph (GMergeNodes 10 12) true
    (fun g' => adj_b g' 20 12 && adj_b g' 21 12 && in_b g' 20 (key_static ROOMS) && in_b g' 21 (key_static ROOMS) && in_b g' 12 (key_static PLACES))) as (g' & E & H); [vm_compute; reflexivity|].
  apply andb_true_iff in H as [H H5]. apply andb_true_iff in H as [H H4]. apply andb_true_iff in H as [H H3]. apply andb_true_iff in H as [H1 H2].
  exists ex_graph, g'. split; [exact ex_reachable|]. split; [apply allowed_b_ok; vm_compute; reflexivity|]. split; [apply C22_case|]. split; [exact E|].
  split; (split; [apply adj_b_ok; assumption|]); exists (key_static ROOMS), (key_static PLACES);
    (split; [apply in_b_ok; assumption|]); (split; [exact (in_b_ok _ _ _ H5)|vm_compute; reflexivity]).
Qed.
Print Assumptions C22_merge_gives_two_parents_refuted.

(** C24: if the dynamic layer has no static layer of the same LayerId, mergeNodes of two of its nodes
    dereferences a null pointer. *)
Definition lonely : Graph := match run_b ex_start [GEmplaceDyn 9 pfx_a 1 (base_at 0 0 0) true; GEmplaceDyn 9 pfx_a 2 (base_at 0 0 0) true] with Some g => g | None => ex_start end.
Theorem C24_dynamic_merge_crashes_refuted : exists g, reachable g /\ g_step g (GMergeNodes (agent 0) (agent 1)) = UB.
Proof.
  exists lonely. split; [apply run_b_start; vm_compute; reflexivity|].
  assert (K : match g_step lonely (GMergeNodes (agent 0) (agent 1)) with UB => true | _ => false end = true) by (vm_compute; reflexivity).
  destruct (g_step lonely (GMergeNodes (agent 0) (agent 1))); congruence.
Qed.
Print Assumptions C24_dynamic_merge_crashes_refuted.
