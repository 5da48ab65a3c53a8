(** Effects of the node calls, read off the abstract graph. *)
From Coq Require Import NArith ZArith Bool List Lia.
From stdpp Require Import base list gmap fin_maps tactics.
From Verif.Model Require Import Types Mesh Attrs Node EdgeContainer SLayer DLayer Graph.
From Verif.Spec Require Import AbstractGraph GraphHistory GraphObs.
From Verif.Proof Require Import Arith Keys SLayerP SLayerMerge DLayerP DLayerOps GraphRep GraphEdges GraphAttrs GraphNodes GraphRemove GraphMerge GraphSim GraphObsP GraphProps.
Local Open Scope N_scope.

Lemma a_known_key a x : a_known a x <-> is_Some (a_key a x).
Proof. unfold a_known, a_key. rewrite is_Some_fmap_iff. reflexivity. Qed.

(** *** removeNode *)
Lemma remove_node_effect g n : reachable g -> allowed g (GRemoveNode n) ->
  exists b g', g_remove_node g n = Ok (b, g') /\ reachable g' /\ b = g_has_node g n /\
  (b = false -> same_nodes g g' /\ same_edges g g') /\
  (b = true ->
    g_has_node g' n = false /\
    (forall x, x <> n -> node_data g' x = node_data g x) /\
    (forall u v, u = n \/ v = n -> ~ adjacent g' u v /\ edge_at g' u v = None) /\
    (forall x nx, node_at g' x = Some nx -> n ∉ n_par nx /\ n ∉ n_sib nx /\ n ∉ n_chd nx) /\
    (forall u v, u <> n -> v <> n ->
       (edge_at g' u v = edge_at g u v /\
        ~ (edge_at g u v = None /\ exists p q, reconnects g n p q /\ same_pair u v p q)) \/
       (edge_at g u v = None /\ exists p q, reconnects g n p q /\ same_pair u v p q /\
          edge_at g' u v = Some (mkEdge p q ea_default)))).
Proof.
  intros Hr Ha. step_tac Hr Ha a HR H.
  destruct (g_remove_node g n) as [[b g']| |] eqn:Eg; [|destruct H as [H _]; cbn in H; discriminate|contradiction].
  destruct H as (Hb & [HR' _] & Hr'). cbn in Hb, HR'. exists b, g'. split; [reflexivity|]. split; [assumption|].
  unfold a_remove_node in *. pose proof (obs_known g a HR n) as Hkn.
  destruct (decide (a_known a n)) as [Hk|Hk]; cbn in Hb, HR'; injection Hb as <-.
  2:{ split; [symmetry; apply not_true_iff_false; tauto|]. split; [|discriminate]. intros _.
      split; [eapply obs_same_nodes; eauto|eapply obs_same_edges; eauto]. }
  split; [symmetry; tauto|]. split; [discriminate|]. intros _.
  set (a' := mkAG _ _ _ _) in HR'.
  assert (Hn1 : ag_nodes (a_chain a n) = ag_nodes a).
  { unfold a_chain. destruct (a_key a n); [|reflexivity]. destruct (decide _); [|reflexivity]. unfold a_insert_edge. destruct (decide _); reflexivity. }
  assert (Hedge : forall u v, edge_at g' u v = if decide (u = n \/ v = n) then None else ag_edges (a_chain a n) !! edge_key u v).
  { intros u v. rewrite (obs_edge g' _ HR'). cbn. rewrite lookup_edges_without.
    pose proof (touches_edge_key n u v) as Ht. change (touches n (edge_key u v)) with (key_touches n (edge_key u v)) in Ht.
    assert (Hnn : u = n \/ v = n <-> n = u \/ n = v) by (split; intros [->| ->]; auto). rewrite <- Hnn in Ht.
    destruct (decide (key_touches n (edge_key u v))), (decide (u = n \/ v = n)); tauto. }
  split.
  { apply not_true_iff_false. rewrite (obs_known g' _ HR'). unfold a_known; cbn. rewrite lookup_delete. intros [? ?]; discriminate. }
  split.
  { intros x Hx. rewrite (obs_data g' _ HR'), (obs_data g a HR). cbn. rewrite lookup_delete_ne, Hn1 by congruence. reflexivity. }
  assert (Hnone : forall u v, u = n \/ v = n -> edge_at g' u v = None).
  { intros u v Huv. rewrite Hedge, decide_True by assumption. reflexivity. }
  assert (Hnadj : forall u v, u = n \/ v = n -> ~ adjacent g' u v).
  { intros u v Huv Hadj. apply (edges_symmetric g' u v Hr') in Hadj. rewrite (Hnone u v Huv) in Hadj. destruct Hadj; discriminate. }
  split.
  { intros u v Huv. split; [apply Hnadj|apply Hnone]; assumption. }
  split.
  { intros x nx Hx.
    assert (Hl : forall r, n ∉ get_link r nx).
    { intros r Hin. apply (obs_link g' _ HR' x nx r n Hx) in Hin as [Hl _].
      apply (obs_adjacent g' _ HR') in Hl. eapply Hnadj; [right; reflexivity|exact Hl]. }
    split; [apply (Hl RParent)|]. split; [apply (Hl RSib)|apply (Hl RChild)]. }
  intros u v Hu Hv. rewrite Hedge, decide_False by tauto.
  set (p := chain_prev n). set (q := chain_next n).
  assert (Hrec : forall p' q', reconnects g n p' q' <-> p' = p /\ q' = q /\ exists k, a_key a n = Some k /\
      (lk_dynamic k = true /\ a_key a p = Some k /\ a_key a q = Some k /\ a_linked a n p /\ a_linked a n q)).
  { intros p' q'. unfold reconnects. setoid_rewrite (obs_layer g a HR). setoid_rewrite (obs_adjacent g a HR). split.
    - intros (k & H1 & H2 & H3 & H4 & Hp & Hq & H5 & H6). change p' with p' in Hp. assert (p' = p) by exact Hp. assert (q' = q) by exact Hq. subst p' q'.
      split; [reflexivity|]. split; [reflexivity|]. exists k. auto 10.
    - intros (-> & -> & k & H2 & H1 & H3 & H4 & H5 & H6). exists k. split; [assumption|]. split; [assumption|]. split; [assumption|].
      split; [assumption|]. split; [reflexivity|]. split; [reflexivity|]. auto. }
  rewrite !(obs_edge g a HR).
  unfold a_chain. fold p q. destruct (a_key a n) as [k|] eqn:Ek.
  2:{ left. split; [reflexivity|]. intros (_ & p' & q' & Hre & _). apply Hrec in Hre as (_ & _ & ? & ? & _). discriminate. }
  destruct (decide _) as [Hd|Hd].
  2:{ left. split; [reflexivity|]. intros (_ & p' & q' & Hre & _). apply Hrec in Hre as (_ & _ & k' & [= <-] & ?). contradiction. }
  unfold a_insert_edge. destruct (decide _) as [Hi|Hi]; cbn [snd a_add_edge a_with_edges ag_edges].
  - destruct (decide (edge_key u v = edge_key p q)) as [He|He].
    + right. rewrite He. split; [apply eq_None_not_Some; apply Hi|]. exists p, q. split; [apply Hrec; eauto 10|].
      split; [apply same_pair_key, He|]. rewrite lookup_insert. reflexivity.
    + left. rewrite lookup_insert_ne by congruence. split; [reflexivity|]. intros (_ & p' & q' & Hre & Hsp).
      apply Hrec in Hre as (-> & -> & _). apply same_pair_key in Hsp. contradiction.
  - left. split; [reflexivity|]. intros (Hno & p' & q' & Hre & Hsp). apply Hrec in Hre as (-> & -> & _). apply same_pair_key in Hsp.
    apply Hi. rewrite Hsp in Hno. destruct Hd as (Hdy & Hp & Hq & Hlp & _).
    assert (Hpq : p <> q).
    { intros Hpq. assert (Hnlt : n < two64).
      { eapply (Rep_id_small g a n k HR); [rewrite (rp_lookup _ _ HR); exact Ek|exact Hdy]. }
      unfold p, q, chain_prev, chain_next in Hpq. rewrite two64_eq in *.
      assert (H1 : (n + (18446744073709551616 - 1)) mod 18446744073709551616 = if n =? 0 then 18446744073709551615 else n - 1).
      { destruct (N.eqb_spec n 0) as [->|Hn0]; [reflexivity|].
        replace (n + (18446744073709551616 - 1)) with (n - 1 + 1 * 18446744073709551616) by lia.
        rewrite N.mod_add by lia. apply N.mod_small. lia. }
      assert (H2 : (n + 1) mod 18446744073709551616 = if n =? 18446744073709551615 then 0 else n + 1).
      { destruct (N.eqb_spec n 18446744073709551615) as [->|Hn0]; [reflexivity|]. apply N.mod_small. lia. }
      rewrite H1, H2 in Hpq. destruct (N.eqb_spec n 0), (N.eqb_spec n 18446744073709551615); lia. }
    split; [exact Hpq|]. split; [apply a_known_key; rewrite Hp; eauto|]. split; [apply a_known_key; rewrite Hq; eauto|].
    unfold a_linked. rewrite Hno. intros [? ?]; discriminate.
Qed.

(** *** mergeNodes *)
Lemma merge_nodes_effect g f t : reachable g -> allowed g (GMergeNodes f t) ->
  exists b g', g_merge_nodes g f t = Ok (b, g') /\ reachable g' /\
  (b = true <-> f <> t /\ exists k, layer_of g f = Some k /\ layer_of g t = Some k) /\
  (b = false -> same_nodes g g' /\ same_edges g g') /\
  (b = true ->
    g_has_node g' f = false /\
    (forall x, x <> f -> node_data g' x = node_data g x) /\
    (forall u v, u = f \/ v = f -> ~ adjacent g' u v /\ edge_at g' u v = None) /\
    (forall x nx, node_at g' x = Some nx -> f ∉ n_par nx /\ f ∉ n_sib nx /\ f ∉ n_chd nx) /\
    (forall v, v <> f -> v <> t -> edge_at g' t v =
        match edge_at g t v with Some e => Some e | None => (fun e => mkEdge t v (e_info e)) <$> edge_at g f v end) /\
    (forall u v, u <> f -> v <> f -> u <> t -> v <> t -> edge_at g' u v = edge_at g u v)).
Proof.
  intros Hr Ha. step_tac Hr Ha a HR H.
  destruct (g_merge_nodes g f t) as [[b g']| |] eqn:Eg; [|destruct H as [H _]; cbn in H; discriminate|contradiction].
  destruct H as (Hb & [HR' _] & Hr'). cbn in Hb, HR'. exists b, g'. split; [reflexivity|]. split; [assumption|].
  setoid_rewrite (obs_layer g a HR). unfold a_merge_nodes in *.
  destruct (a_key a f) as [kf|] eqn:Ef.
  2:{ cbn in Hb, HR'. injection Hb as <-. split; [split; [discriminate|intros (_ & ? & ? & _); discriminate]|]. split; [|discriminate].
      intros _. split; [eapply obs_same_nodes; eauto|eapply obs_same_edges; eauto]. }
  destruct (a_key a t) as [kt|] eqn:Et.
  2:{ cbn in Hb, HR'. injection Hb as <-. split; [split; [discriminate|intros (_ & ? & _ & ?); discriminate]|]. split; [|discriminate].
      intros _. split; [eapply obs_same_nodes; eauto|eapply obs_same_edges; eauto]. }
  destruct (decide _) as [[Hne <-]|Hd]; cbn in Hb, HR'; injection Hb as <-.
  2:{ split; [split; [discriminate|intros (? & ? & [= <-] & [= <-]); tauto]|]. split; [|discriminate].
      intros _. split; [eapply obs_same_nodes; eauto|eapply obs_same_edges; eauto]. }
  split; [split; eauto|]. split; [discriminate|]. intros _.
  pose proof (Rep_em_wf g a HR) as Hwf.
  assert (Hnone : forall u v, u = f \/ v = f -> edge_at g' u v = None).
  { intros u v Huv. rewrite (obs_edge g' _ HR'). cbn. apply (lookup_merge_edges_touch f t); [assumption..|].
    apply touches_edge_key. destruct Huv; auto. }
  assert (Hnadj : forall u v, u = f \/ v = f -> ~ adjacent g' u v).
  { intros u v Huv Hadj. apply (edges_symmetric g' u v Hr') in Hadj. rewrite (Hnone u v Huv) in Hadj. destruct Hadj; discriminate. }
  split.
  { apply not_true_iff_false. rewrite (obs_known g' _ HR'). unfold a_known; cbn. rewrite lookup_delete. intros [? ?]; discriminate. }
  split.
  { intros x Hx. rewrite (obs_data g' _ HR'), (obs_data g a HR). cbn. rewrite lookup_delete_ne by congruence. reflexivity. }
  split.
  { intros u v Huv. split; [apply Hnadj|apply Hnone]; assumption. }
  split.
  { intros x nx Hx.
    assert (Hl : forall r, f ∉ get_link r nx).
    { intros r Hin. apply (obs_link g' _ HR' x nx r f Hx) in Hin as [Hl _].
      apply (obs_adjacent g' _ HR') in Hl. eapply Hnadj; [right; reflexivity|exact Hl]. }
    split; [apply (Hl RParent)|]. split; [apply (Hl RSib)|apply (Hl RChild)]. }
  split.
  - intros v Hvf Hvt. rewrite !(obs_edge g' _ HR'), !(obs_edge g a HR). cbn. rewrite edges_merged_eq, lookup_merge_eq by auto.
    destruct (ag_edges a !! edge_key t v); [reflexivity|]. rewrite decide_False, decide_True by congruence. reflexivity.
  - intros u v Huf Hvf Hut Hvt. rewrite !(obs_edge g' _ HR'), !(obs_edge g a HR). cbn. rewrite edges_merged_eq, lookup_merge_eq by auto.
    destruct (ag_edges a !! edge_key u v); [reflexivity|]. destruct (decide (u = v)); [reflexivity|]. rewrite !decide_False by congruence. reflexivity.
Qed.

(** *** Adding nodes and setting attributes *)
Lemma obs_added g g' a a' id n : Rep g a -> Rep g' a' -> ~ a_known a id -> ag_nodes a' = <[id := n]> (ag_nodes a) ->
  node_added g g' id (an_data n).
Proof.
  intros HR HR' Hk Hn. split; [|split].
  - apply not_true_iff_false. rewrite (obs_known g a HR). exact Hk.
  - rewrite (obs_data g' a' HR'), Hn, lookup_insert. reflexivity.
  - intros x Hx. rewrite (obs_data g' a' HR'), (obs_data g a HR), Hn, lookup_insert_ne by congruence. reflexivity.
Qed.

Lemma emplace_effect g l id at_ : reachable g ->
  let '(b, g') := g_emplace_node g l id at_ in
  reachable g' /\ same_edges g g' /\
  (b = true <-> g_has_node g id = false /\ g_has_layer g l = true) /\
  (b = false -> same_nodes g g') /\ (b = true -> node_added g g' id (key_static l, None, at_)).
Proof.
  intros Hr. assert (Ha : allowed g (GEmplace l id at_)) by exact I. step_tac Hr Ha a HR H.
  destruct (g_emplace_node g l id at_) as [b g']. destruct H as (Hb & [HR' _] & Hr'). cbn in Hb, HR'. split; [assumption|].
  assert (Hl : g_has_layer g l = true <-> l ∈ ag_layers a) by (unfold g_has_layer; rewrite bool_decide_eq_true; apply (rp_layers _ _ HR)).
  pose proof (obs_known g a HR id) as Hk. rewrite Hl, <- not_true_iff_false, Hk.
  unfold a_emplace in *. destruct (decide (a_known a id)) as [Hd|Hd]; [|destruct (decide (l ∈ ag_layers a)) as [Hd2|Hd2]]; cbn in Hb, HR'; injection Hb as <-.
  - split; [eapply obs_same_edges; eauto|]. split; [split; [discriminate|tauto]|]. split; [|discriminate]. intros _. eapply obs_same_nodes; eauto.
  - split; [eapply obs_same_edges; eauto|]. split; [tauto|]. split; [discriminate|]. intros _. apply (obs_added g g' a _ id (mkAN (key_static l) None at_) HR HR' Hd). reflexivity.
  - split; [eapply obs_same_edges; eauto|]. split; [split; [discriminate|tauto]|]. split; [|discriminate]. intros _. eapply obs_same_nodes; eauto.
Qed.

Lemma set_attrs_effect g id at_ : reachable g ->
  exists b g', g_set_node_attributes g id at_ = Ok (b, g') /\ reachable g' /\ same_edges g g' /\ b = g_has_node g id /\
  (forall x, node_data g' x = if decide (x = id)
     then (fun d : LayerKey * option Z * NodeAttrs => (fst d, at_)) <$> node_data g x else node_data g x).
Proof.
  intros Hr. assert (Ha : allowed g (GSetNodeAttrs id at_)) by exact I. step_tac Hr Ha a HR H.
  destruct (g_set_node_attributes g id at_) as [[b g']| |]; [|destruct H as [H _]; cbn in H; discriminate|contradiction].
  destruct H as (Hb & [HR' _] & Hr'). cbn in Hb, HR'. exists b, g'. split; [reflexivity|]. split; [assumption|].
  pose proof (obs_known g a HR id) as Hk. unfold a_known in Hk. unfold a_set_node_attrs in *.
  destruct (ag_nodes a !! id) as [n|] eqn:En; cbn in Hb, HR'; injection Hb as <-.
  - split; [eapply obs_same_edges; eauto|]. split; [symmetry; apply Hk; eauto|]. intros x.
    rewrite (obs_data g' _ HR'), (obs_data g a HR). cbn. destruct (decide (x = id)) as [->|Hne].
    + rewrite lookup_insert, En. reflexivity.
    + rewrite lookup_insert_ne by congruence. reflexivity.
  - split; [eapply obs_same_edges; eauto|]. split; [symmetry; apply not_true_iff_false; rewrite Hk; intros [? ?]; discriminate|].
    intros x. rewrite (obs_data g' _ HR'), (obs_data g a HR). destruct (decide (x = id)) as [->|Hne]; [|reflexivity]. rewrite En. reflexivity.
Qed.

Lemma set_edge_attrs_effect g u v i : reachable g ->
  (g_has_node g u = true -> g_has_node g v = true ->
   exists b g', g_set_edge_attributes g u v i = Ok (b, g') /\ reachable g' /\ same_nodes g g' /\ (b = true <-> adjacent g u v) /\
   forall x y, edge_at g' x y = if decide (same_pair x y u v)
     then (fun e => mkEdge (e_src e) (e_tgt e) i) <$> edge_at g x y else edge_at g x y) /\
  (g_has_node g u = false \/ g_has_node g v = false -> g_set_edge_attributes g u v i = Throw).
Proof.
  intros Hr. assert (Ha : allowed g (GSetEdgeAttrs u v i)) by exact I. step_tac Hr Ha a HR H. cbn [a_step] in H.
  rewrite <- !not_true_iff_false, !(obs_known g a HR). setoid_rewrite (obs_adjacent g a HR). unfold a_set_edge_attrs in H.
  destruct (decide (a_known a u /\ a_known a v)) as [[Hu Hv]|Hd].
  - split; [|tauto]. intros _ _.
    destruct (g_set_edge_attributes g u v i) as [[b g']| |]; [|destruct (ag_edges a !! edge_key u v); destruct H; discriminate|contradiction].
    destruct H as (Hb & [HR' _] & Hr'). exists b, g'. split; [reflexivity|]. split; [assumption|]. unfold a_linked.
    destruct (ag_edges a !! edge_key u v) as [e|] eqn:Ee; cbn in Hb, HR'; injection Hb as <-.
    + split; [eapply obs_same_nodes; eauto|]. split; [split; eauto|]. intros x y. rewrite (obs_edge g' _ HR'), (obs_edge g a HR). cbn.
      destruct (decide (same_pair x y u v)) as [Hp|Hp].
      * apply same_pair_key in Hp. rewrite Hp, lookup_insert, Ee. reflexivity.
      * apply lookup_insert_ne. intros Hk. apply Hp, same_pair_key. auto.
    + split; [eapply obs_same_nodes; eauto|]. split; [split; [discriminate|intros [? ?]; discriminate]|].
      intros x y. rewrite (obs_edge g' _ HR'), (obs_edge g a HR). destruct (decide (same_pair x y u v)) as [Hp|Hp]; [|reflexivity].
      apply same_pair_key in Hp. rewrite Hp, Ee. reflexivity.
  - split; [tauto|]. intros _. destruct (g_set_edge_attributes g u v i) as [[b g']| |]; [destruct H; discriminate|reflexivity|contradiction].
Qed.

(** *** No crash, and the only exceptions *)
Lemma calls_safe g o : reachable g -> allowed g o ->
  (exists b g', g_step g o = Ok (b, g') /\ reachable g') \/
  (g_step g o = Throw /\ exists u v, (g_has_node g u = false \/ g_has_node g v = false) /\
     (o = GFindEdge u v \/ exists i, o = GSetEdgeAttrs u v i)).
Proof.
  intros Hr Ha. destruct (reachable_step g o Hr Ha) as (a & [HR _] & H).
  destruct (g_step g o) as [[b g']| |] eqn:Eg; [left; exists b, g'; tauto| |contradiction].
  right. split; [reflexivity|]. destruct H as [H _].
  destruct o; try discriminate; cbn [a_step] in H.
  - unfold a_add_or_update_edge in H. destruct (decide (a_linked a u v)) as [Hl|Hl].
    + destruct (Rep_linked_known g a u v HR Hl) as (_ & ku & kv & Hu & Hv). unfold a_set_edge_attrs in H.
      rewrite decide_True in H by (split; apply (Rep_known g a _ HR); eauto). destruct (ag_edges a !! edge_key u v); discriminate.
    + destruct (a_insert_edge a u v (Some i)). discriminate.
  - exists u, v. rewrite <- !not_true_iff_false, !(obs_known g a HR). unfold a_set_edge_attrs in H. destruct (decide _) as [Hd|Hd].
    + destruct (ag_edges a !! edge_key u v); discriminate.
    + split; [destruct (decide (a_known a u)), (decide (a_known a v)); tauto|]. eauto.
  - exists u, v. rewrite <- !not_true_iff_false, !(obs_known g a HR). destruct (decide _) as [Hd|Hd]; [discriminate|].
    split; [destruct (decide (a_known a u)), (decide (a_known a v)); tauto|]. eauto.
Qed.
