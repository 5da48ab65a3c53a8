(** C26: updateFromLayer. *)
From Coq Require Import NArith ZArith Bool List Lia.
From stdpp Require Import base list gmap fin_maps.
From Verif.Model Require Import Types Mesh Attrs Node EdgeContainer SLayer DLayer Graph.
From Verif.Spec Require Import AbstractGraph GraphHistory LayerLog GraphObs.
From Verif.Proof Require Import Keys SLayerP GraphRep GraphSim GraphObsP LayerRep UpdateP CloneP.
From Verif.Properties Require Import ExGraph.
Local Open Scope N_scope.
#[local] Arguments edge_key : simpl never.

(** C26: the call succeeds and empties the other layer.  Nodes: each node of the other layer is in
    the graph, on that layer, with the other layer's attributes; a node that was there keeps its
    time, a new one gets the other's; no other node changes.  Edges: an edge of the list between
    two different nodes of the layer is there with the listed attributes (an existing one keeps its
    direction); every other edge, in particular every link of an existing node, is as before.
    Status: exactly the new nodes become NEW.  The result is again a reachable graph, so all the
    consistency theorems apply to it. *)
Theorem C26_update_from_layer : forall g other edges,
  reachable g -> update_ok g other edges -> g_has_layer g (sl_id other) = true ->
  let lid := sl_id other in
  exists g', g_update_from_layer g other (Some edges) = Ok (true, g', sl_reset other) /\
    reachable g' /\ g_layer_ids g' = g_layer_ids g /\ g_mesh g' = g_mesh g /\
    (forall x, node_data g' x = match sl_find_node other x with
       | Some n => Some (key_static lid, match node_data g x with Some (_, t, _) => t | None => n_time n end, n_attrs n)
       | None => node_data g x end) /\
    (forall u v e, edges !! edge_key u v = Some e -> u <> v ->
       layer_of g' u = Some (key_static lid) -> layer_of g' v = Some (key_static lid) ->
       edge_at g' u v = Some (match edge_at g u v with
                              | Some old => mkEdge (e_src old) (e_tgt old) (e_info e)
                              | None => e end)) /\
    (forall u v, edges !! edge_key u v = None \/ u = v \/
       layer_of g' u <> Some (key_static lid) \/ layer_of g' v <> Some (key_static lid) ->
       edge_at g' u v = edge_at g u v) /\
    (exists l l', g_layers g !! lid = Some l /\ g_layers g' !! lid = Some l' /\
       forall x, sl_check_node l' x =
         if sl_has_node other x && negb (g_has_node g x) then NNew else sl_check_node l x).
Proof.
  intros g other edges Hr Hok HL lid. destruct (reachable_RepL g Hr) as [a HRL].
  pose proof (update_RepL g a other edges HRL Hok) as HU.
  unfold g_has_layer in HL. apply bool_decide_eq_true in HL as [L0 EL]. rewrite EL in HU.
  destruct HU as (L2 & lk & a' & E & HRL' & H1 & H2 & HN & HE & HS). fold lid in E, HRL', HN, HE.
  destruct HRL as [HR HI]. destruct HRL' as [HR' HI'].
  assert (Hr' : reachable (put g lid L2 lk)) by (eapply reach_update; eassumption).
  exists (put g lid L2 lk). split; [exact E|]. split; [exact Hr'|]. split; [reflexivity|]. split; [reflexivity|].
  split; [|split; [|split]].
  - intros x. rewrite (obs_data _ _ HR' x), (obs_data _ _ HR x), HN. unfold sl_find_node.
    destruct (sl_nodes other !! x) as [n|]; [|reflexivity]. cbn. unfold an_data; cbn. destruct (ag_nodes a !! x); reflexivity.
  - intros u v e He Hne Hu Hv. rewrite (obs_edge _ _ HR'), (obs_edge _ _ HR), HE, He.
    destruct Hok as (_ & _ & Hm & _). pose proof (Hm _ _ He) as Hk.
    rewrite (obs_layer _ _ HR') in Hu, Hv. rewrite decide_True; [reflexivity|].
    apply edge_key_inj in Hk as [[E1 E2]|[E1 E2]]; unfold listed_in; rewrite <- E1, <- E2; auto.
  - intros u v Hc. rewrite (obs_edge _ _ HR'), (obs_edge _ _ HR), HE.
    destruct (edges !! edge_key u v) as [e|] eqn:He; [|reflexivity].
    destruct Hok as (_ & _ & Hm & _). pose proof (Hm _ _ He) as Hk.
    rewrite !(obs_layer _ _ HR') in Hc. rewrite decide_False; [reflexivity|]. intros (I1 & I2 & I3).
    apply edge_key_inj in Hk as [[E1 E2]|[E1 E2]]; rewrite <- E1, <- E2 in *; destruct Hc as [Hc|[Hc|[Hc|Hc]]]; congruence.
  - exists L0, L2. split; [exact EL|]. split; [apply put_layer|]. intros x. unfold sl_check_node. rewrite HS.
    unfold sl_has_node, g_has_node.
    destruct (decide (is_Some (sl_nodes other !! x) /\ g_lookup g !! x = None)) as [[Ho Hx]|Hn].
    + rewrite (bool_decide_true _ Ho). rewrite bool_decide_false; [reflexivity|]. rewrite Hx. intros [? [=]].
    + destruct (bool_decide (is_Some (sl_nodes other !! x))) eqn:B1; [|reflexivity].
      destruct (bool_decide (is_Some (g_lookup g !! x))) eqn:B2; [reflexivity|]. exfalso. apply Hn.
      split; [exact (bool_decide_eq_true_1 _ B1)|]. apply eq_None_not_Some. exact (bool_decide_eq_false_1 _ B2).
Qed.
Print Assumptions C26_update_from_layer.

(** C26: the usual call, with the edges of the other layer: its conditions are met and every edge of
    the other layer is in the graph with its attributes. *)
Theorem C26_update_with_own_edges : forall g lid other,
  reachable g -> layer_reachable lid other -> g_has_layer g lid = true ->
  (forall x, sl_has_node other x = true -> layer_of g x = None \/ layer_of g x = Some (key_static lid)) ->
  update_ok g other (ec_edges (sl_edges other)) /\
  exists g', g_update_from_layer g other (Some (ec_edges (sl_edges other))) = Ok (true, g', sl_reset other) /\
    reachable g' /\
    forall u v e, fst (sl_find_edge other u v) = Some e ->
      edge_at g' u v = Some (match edge_at g u v with
                             | Some old => mkEdge (e_src old) (e_tgt old) (e_info e)
                             | None => e end).
Proof.
  intros g lid other Hr Ho HL Hkn. pose proof (reachable_alone lid other Ho) as [Oid Owf Ocl Ofl].
  assert (Hok : update_ok g other (ec_edges (sl_edges other))).
  { split; [rewrite Oid; exact Ho|]. split; [rewrite Oid; exact Hkn|]. split; [apply (slw_ec _ Owf)|]. eauto. }
  split; [exact Hok|]. rewrite <- Oid in HL.
  destruct (C26_update_from_layer g other _ Hr Hok HL) as (g' & E & Hr' & _ & _ & HN & HE & _).
  exists g'. split; [exact E|]. split; [exact Hr'|]. intros u v e He. cbn in He. unfold ec_find in He.
  destruct (slw_ends _ Owf _ _ He) as (Hne & [nu Hu] & [nv Hv]). pose proof (ecw_key _ (slw_ec _ Owf) _ _ He) as Hk.
  assert (Hl : forall x n, sl_nodes other !! x = Some n -> layer_of g' x = Some (key_static (sl_id other))).
  { intros x n Hx. specialize (HN x). unfold sl_find_node in HN. rewrite Hx in HN.
    unfold node_data in HN at 1. destruct (layer_of g' x), (node_at g' x); congruence. }
  apply HE; [exact He| | |].
  - intros ->. symmetry in Hk. apply edge_key_self in Hk as [? ?]. congruence.
  - apply edge_key_inj in Hk as [[-> _]|[-> _]]; eauto.
  - apply edge_key_inj in Hk as [[_ ->]|[_ ->]]; eauto.
Qed.
Print Assumptions C26_update_with_own_edges.

(** C26: a layer the graph does not have: nothing happens, the other layer is left alone. *)
Theorem C26_update_missing_layer : forall g other edges, g_has_layer g (sl_id other) = false ->
  g_update_from_layer g other edges = Ok (false, g, other).
Proof.
  intros g other edges H. unfold g_update_from_layer, g_has_layer in *. apply bool_decide_eq_false in H.
  apply eq_None_not_Some in H. rewrite H. reflexivity.
Qed.
Print Assumptions C26_update_missing_layer.

(** The case: places 11 (known, moved), 13 and 14 (new); edges 11 - 13 and 13 - 14. *)
Definition ex_other : SLayer := snd (sl_run (sl_new PLACES)
  [ LEmplace 11 (base_at 7 7 7); LInsertNode (Some (13, PLACES, Some 5%Z, base_at 3 0 0)); LEmplace 14 (base_at 4 0 0);
    LInsertEdge 11 13 (Some (mkEA true 2)); LInsertEdge 13 14 None ]).
Lemma ex_other_reachable : layer_reachable PLACES ex_other. Proof. eexists. reflexivity. Qed.
Definition own (l : SLayer) : gmap EdgeKey Edge := ec_edges (sl_edges l).
Definition ex_updated : option (Graph * SLayer) :=
  match g_update_from_layer ex_graph ex_other (Some (own ex_other)) with
  | Ok (true, g, o) => Some (g, o) | _ => None end.
Definition all_in (g : Graph) (lid : LayerId) (o : SLayer) : bool :=
  forallb (fun x => match layer_of g (fst x) with None => true | Some k => bool_decide (k = key_static lid) end) (map_to_list (sl_nodes o)).
Lemma all_in_ok g lid o : all_in g lid o = true -> forall x, sl_has_node o x = true ->
  layer_of g x = None \/ layer_of g x = Some (key_static lid).
Proof.
  unfold all_in. rewrite forallb_forall. intros H x Hx. apply sl_has_node_true in Hx as [n Hn].
  specialize (H (x, n)). cbn [fst] in H. destruct (layer_of g x) as [k|]; [right|left; reflexivity].
  f_equal. assert (K : bool_decide (k = key_static lid) = true) by (apply H, elem_of_list_In, elem_of_map_to_list, Hn).
  exact (bool_decide_eq_true_1 _ K).
Qed.
Example C26_case :
  reachable ex_graph /\ layer_reachable PLACES ex_other /\ g_has_layer ex_graph PLACES = true /\
  update_ok ex_graph ex_other (own ex_other) /\
  (g ← ex_updated; Some (map (fun p => bool_decide (is_Some (edge_at (fst g) (fst p) (snd p)))) [(10, 11); (11, 13); (13, 14); (10, 13); (20, 11)],
      map (fun x => match node_data (fst g) x with Some (_, t, at_) => Some (t, attrs_position at_) | None => None end) [11; 13; 14; 15],
      sl_num_nodes (snd g)))
  = Some ([true; true; true; false; true],
      [Some (None, mkVec3 7 7 7); Some (Some 5%Z, mkVec3 3 0 0); Some (None, mkVec3 4 0 0); None], 0%nat).
Proof.
  assert (H : all_in ex_graph PLACES ex_other = true) by (vm_compute; reflexivity).
  assert (HL : g_has_layer ex_graph PLACES = true) by (vm_compute; reflexivity).
  split; [exact ex_reachable|]. split; [exact ex_other_reachable|]. split; [exact HL|]. split.
  - exact (proj1 (C26_update_with_own_edges ex_graph PLACES ex_other ex_reachable ex_other_reachable HL (all_in_ok _ _ _ H))).
  - vm_compute. reflexivity.
Qed.

(** Without the edge list the nodes keep the sibling sets of the other layer: node 13 then claims a
    sibling 14 it has no edge with. *)
Theorem C26_update_without_edges_refuted : exists g other g' other' n,
  reachable g /\ layer_reachable (sl_id other) other /\
  (forall x, sl_has_node other x = true -> layer_of g x = None \/ layer_of g x = Some (key_static (sl_id other))) /\
  g_update_from_layer g other None = Ok (true, g', other') /\
  node_at g' 13 = Some n /\ 14 ∈ n_sib n /\ g_has_edge g' 13 14 = Ok false.
Proof.
  destruct (g_update_from_layer ex_graph ex_other None) as [[[b g'] o']| |] eqn:E.
  2,3: exfalso; assert (H : match g_update_from_layer ex_graph ex_other None with Ok _ => true | _ => false end = true)
         by (vm_compute; reflexivity); rewrite E in H; discriminate.
  assert (H : match g_update_from_layer ex_graph ex_other None with
      | Ok (b, g', _) => b && match node_at g' 13 with Some n => bool_decide (14 ∈ n_sib n) | None => false end
                         && match g_has_edge g' 13 14 with Ok false => true | _ => false end
      | _ => false end = true) by (vm_compute; reflexivity).
  rewrite E in H. apply andb_true_iff in H as [H H3]. apply andb_true_iff in H as [H1 H2].
  destruct (node_at g' 13) as [n|] eqn:En; [|discriminate]. apply bool_decide_eq_true in H2.
  destruct b; [|discriminate]. exists ex_graph, ex_other, g', o', n.
  split; [exact ex_reachable|]. split; [exact ex_other_reachable|].
  split; [apply all_in_ok; vm_compute; reflexivity|]. split; [exact E|]. split; [exact En|]. split; [exact H2|].
  destruct (g_has_edge g' 13 14) as [[]| |]; congruence.
Qed.
Print Assumptions C26_update_without_edges_refuted.

(** A node of the other layer that the graph holds in another layer ends up in both: room 20
    updated as a place. *)
Definition ex_thief : SLayer := snd (sl_run (sl_new PLACES) [LEmplace 20 (base_at 9 9 9)]).
Theorem C26_update_moves_foreign_node_refuted : exists g other edges g' other',
  reachable g /\ layer_reachable (sl_id other) other /\ layer_of g 20 = Some (key_static ROOMS) /\
  g_update_from_layer g other (Some edges) = Ok (true, g', other') /\
  stored_in g' (key_static ROOMS) 20 /\ stored_in g' (key_static PLACES) 20.
Proof.
  destruct (g_update_from_layer ex_graph ex_thief (Some ∅)) as [[[b g'] o']| |] eqn:E.
  2,3: exfalso; assert (H : match g_update_from_layer ex_graph ex_thief (Some ∅) with Ok _ => true | _ => false end = true)
         by (vm_compute; reflexivity); rewrite E in H; discriminate.
  assert (H : match g_update_from_layer ex_graph ex_thief (Some ∅) with
      | Ok (b, g', _) => b && match g_layers g' !! ROOMS with Some s => sl_has_node s 20 | None => false end
                         && match g_layers g' !! PLACES with Some s => sl_has_node s 20 | None => false end
      | _ => false end = true) by (vm_compute; reflexivity).
  rewrite E in H. apply andb_true_iff in H as [H H3]. apply andb_true_iff in H as [H1 H2].
  destruct b; [|discriminate]. exists ex_graph, ex_thief, ∅, g', o'.
  split; [exact ex_reachable|]. split; [eexists; reflexivity|].
  split; [apply (bool_decide_unpack (layer_of ex_graph 20 = Some (key_static ROOMS))); vm_compute; exact I|].
  split; [exact E|]. unfold stored_in. cbn [lk_dynamic key_static lk_layer lk_prefix].
  destruct (g_layers g' !! ROOMS) as [s|]; [|discriminate]. destruct (g_layers g' !! PLACES) as [s'|]; [|discriminate].
  split; (split; [reflexivity|]); eauto.
Qed.
Print Assumptions C26_update_moves_foreign_node_refuted.
