(** The graph properties, read off the abstract graph. *)
From Coq Require Import NArith ZArith Bool List Lia.
From stdpp Require Import base list gmap fin_maps tactics.
From Verif.Model Require Import Types Mesh Attrs Node EdgeContainer SLayer DLayer Graph.
From Verif.Spec Require Import AbstractGraph GraphHistory GraphObs.
From Verif.Proof Require Import Arith Keys SLayerP SLayerMerge DLayerP DLayerOps GraphRep GraphEdges GraphAttrs GraphNodes GraphRemove GraphMerge GraphSim GraphObsP.
Local Open Scope N_scope.

Lemma same_pair_key u v x y : same_pair u v x y <-> edge_key u v = edge_key x y.
Proof.
  unfold same_pair. split.
  - intros [[-> ->]|[-> ->]]; [reflexivity|apply edge_key_comm].
  - intros H. apply edge_key_inj in H. tauto.
Qed.

Lemma edges_symmetric g u v : reachable g ->
  g_has_edge g u v = g_has_edge g v u /\ edge_at g u v = edge_at g v u /\
  (adjacent g u v <-> is_Some (edge_at g u v)) /\
  (forall e, edge_at g u v = Some e -> u <> v /\ same_pair (e_src e) (e_tgt e) u v).
Proof.
  intros Hr. destruct (reachable_RepL g Hr) as [a [HR _]].
  rewrite !(obs_has_edge g a HR), !(obs_edge g a HR), (obs_adjacent g a HR), (edge_key_comm v u).
  split; [|split; [reflexivity|split; [reflexivity|]]].
  - f_equal. apply bool_decide_ext, a_linked_comm.
  - intros e He. destruct (Rep_linked_known g a u v HR (ex_intro _ e He)) as [Hne _]. split; [assumption|].
    destruct (rp_norm _ _ HR _ _ He) as [Hk _]. apply same_pair_key. congruence.
Qed.

Lemma node_storage g x : reachable g ->
  (g_has_node g x = true <-> exists n, g_get_node g x = Ok n) /\
  (forall n, g_get_node g x = Ok n -> n_id n = x /\ exists k, layer_of g x = Some k /\ n_layer n = lk_layer k) /\
  (forall k, stored_in g k x <-> layer_of g x = Some k).
Proof.
  intros Hr. destruct (reachable_RepL g Hr) as [a [HR _]].
  assert (Hg : forall n, g_get_node g x = Ok n <-> node_at g x = Some n).
  { intros n. unfold g_get_node, node_at. destruct (obs_find_ok g a HR x) as [o ->]. destruct o; cbn; split; congruence. }
  pose proof (obs_node g a HR x) as Hn. split; [|split].
  - rewrite (obs_known g a HR). setoid_rewrite Hg. destruct (node_at g x) as [n|].
    + destruct Hn as (k & Hk & _). split; [eauto|]. intros _. unfold a_known, a_key in *. destruct (ag_nodes a !! x); [eauto|discriminate].
    + split; [|intros [? ?]; discriminate]. intros [an Han]. unfold a_key in Hn. rewrite Han in Hn. discriminate.
  - intros n. rewrite Hg. intros H. rewrite H in Hn. destruct Hn as (k & Hk & _ & Hid & Hl). split; [assumption|].
    exists k. rewrite (obs_layer g a HR). auto.
  - intros k. apply (obs_stored g a HR).
Qed.

Lemma links_mirror g u v nu nv ku kv : reachable g -> node_at g u = Some nu -> node_at g v = Some nv ->
  layer_of g u = Some ku -> layer_of g v = Some kv ->
  (v ∈ n_chd nu <-> adjacent g u v /\ lk_layer kv < lk_layer ku) /\
  (u ∈ n_par nv <-> adjacent g u v /\ lk_layer kv < lk_layer ku) /\
  (v ∈ n_sib nu <-> adjacent g u v /\ lk_layer kv = lk_layer ku).
Proof.
  intros Hr Hu Hv Hku Hkv. destruct (reachable_RepL g Hr) as [a [HR _]].
  rewrite (obs_layer g a HR) in Hku, Hkv.
  rewrite (obs_adjacent g a HR).
  pose proof (obs_link g a HR u nu RChild v Hu) as H1. pose proof (obs_link g a HR v nv RParent u Hv) as H2.
  pose proof (obs_link g a HR u nu RSib v Hu) as H3. cbn in H1, H2, H3. unfold a_related in *. rewrite Hku, Hkv in *.
  rewrite H1, H2, H3, (a_linked_comm a v u). split; [|split]; split.
  - intros (? & ? & ? & [= <-] & [= <-] & Hrel). apply rel_child in Hrel. auto.
  - intros [? ?]. split; [assumption|]. exists ku, kv. rewrite rel_child. auto.
  - intros (? & ? & ? & [= <-] & [= <-] & Hrel). apply rel_parent in Hrel. auto.
  - intros [? ?]. split; [assumption|]. exists kv, ku. rewrite rel_parent. auto.
  - intros (? & ? & ? & [= <-] & [= <-] & Hrel). apply rel_sym_sib in Hrel. auto.
  - intros [? ?]. split; [assumption|]. exists ku, kv. rewrite rel_sym_sib. auto.
Qed.

Lemma links_known g u nu v : reachable g -> node_at g u = Some nu ->
  v ∈ n_chd nu \/ v ∈ n_par nu \/ v ∈ n_sib nu -> g_has_node g v = true.
Proof.
  intros Hr Hu H. destruct (reachable_RepL g Hr) as [a [HR _]]. apply (obs_known g a HR).
  assert (Hex : exists r, v ∈ get_link r nu) by (destruct H as [?|[?|?]]; [exists RChild|exists RParent|exists RSib]; assumption).
  destruct Hex as [r Hl]. apply (obs_link g a HR u nu r v Hu) in Hl as (_ & ? & ? & _ & Hk & _).
  unfold a_known, a_key in *. destruct (ag_nodes a !! v); [eauto|discriminate].
Qed.

Lemma edge_ends g u v : reachable g -> adjacent g u v -> u <> v /\ g_has_node g u = true /\ g_has_node g v = true.
Proof.
  intros Hr H. destruct (reachable_RepL g Hr) as [a [HR _]]. rewrite (obs_adjacent g a HR) in H.
  rewrite !(obs_known g a HR), <- !(Rep_known g a _ HR).
  destruct (Rep_linked_known g a u v HR H) as (Hne & ? & ? & ? & ?). split; [assumption|]. split; eauto.
Qed.

(** *** Effects of the calls *)
Ltac step_tac Hr Ha a HR H :=
  match type of Ha with allowed ?g ?o =>
    destruct (reachable_step g o Hr Ha) as (a & [HR _] & H); cbn [g_step] in H
  end.

Lemma obs_same_nodes g g' a a' : Rep g a -> Rep g' a' -> ag_nodes a' = ag_nodes a -> same_nodes g g'.
Proof. intros HR HR' H x. rewrite (obs_data g a HR), (obs_data g' a' HR'), H. reflexivity. Qed.
Lemma obs_same_edges g g' a a' : Rep g a -> Rep g' a' -> ag_edges a' = ag_edges a -> same_edges g g'.
Proof. intros HR HR' H u v. rewrite (obs_edge g a HR), (obs_edge g' a' HR'), H. reflexivity. Qed.

Lemma insert_edge_effect g u v i : reachable g ->
  exists b g', g_insert_edge g u v i = Ok (b, g') /\ reachable g' /\ same_nodes g g' /\
  (b = true <-> u <> v /\ g_has_node g u = true /\ g_has_node g v = true /\ ~ adjacent g u v) /\
  (b = false -> same_edges g g') /\
  (b = true -> forall x y, edge_at g' x y =
     if decide (same_pair x y u v) then Some (mkEdge u v (default ea_default i)) else edge_at g x y).
Proof.
  intros Hr. assert (Ha : allowed g (GInsertEdge u v i)) by exact I. step_tac Hr Ha a HR H.
  destruct (g_insert_edge g u v i) as [[b g']| |]; [|destruct H; discriminate|contradiction].
  destruct H as (Hb & [HR' _] & Hr'). cbn in Hb, HR'. exists b, g'. split; [reflexivity|]. split; [assumption|].
  rewrite !(obs_known g a HR), (obs_adjacent g a HR). unfold a_insert_edge in *.
  destruct (decide _) as [Hd|Hd]; cbn in Hb, HR'; injection Hb as <-.
  - split; [eapply obs_same_nodes; eauto|]. split; [tauto|]. split; [discriminate|]. intros _ x y.
    rewrite (obs_edge g' _ HR'), (obs_edge g a HR). cbn. destruct (decide (same_pair x y u v)) as [Hp|Hp].
    + apply same_pair_key in Hp. rewrite Hp. apply lookup_insert.
    + apply lookup_insert_ne. intros Hk. apply Hp, same_pair_key. auto.
  - split; [eapply obs_same_nodes; eauto|]. split; [split; [discriminate|tauto]|]. split; [|discriminate].
    intros _. eapply obs_same_edges; eauto.
Qed.

Lemma remove_edge_effect g u v : reachable g ->
  exists b g', g_remove_edge g u v = Ok (b, g') /\ reachable g' /\ same_nodes g g' /\
  (b = true <-> adjacent g u v) /\
  (forall x y, edge_at g' x y = if decide (same_pair x y u v) then None else edge_at g x y).
Proof.
  intros Hr. assert (Ha : allowed g (GRemoveEdge u v)) by exact I. step_tac Hr Ha a HR H.
  destruct (g_remove_edge g u v) as [[b g']| |]; [|destruct H; discriminate|contradiction].
  destruct H as (Hb & [HR' _] & Hr'). cbn in Hb, HR'. exists b, g'. split; [reflexivity|]. split; [assumption|].
  rewrite (obs_adjacent g a HR). unfold a_remove_edge in *.
  destruct (decide _) as [Hd|Hd]; cbn in Hb, HR'; injection Hb as <-.
  - split; [eapply obs_same_nodes; eauto|]. split; [tauto|]. intros x y.
    rewrite (obs_edge g' _ HR'), (obs_edge g a HR). cbn. destruct (decide (same_pair x y u v)) as [Hp|Hp].
    + apply same_pair_key in Hp. rewrite Hp. apply lookup_delete.
    + apply lookup_delete_ne. intros Hk. apply Hp, same_pair_key. auto.
  - split; [eapply obs_same_nodes; eauto|]. split; [split; [discriminate|tauto]|].
    intros x y. rewrite (obs_edge g' _ HR'), (obs_edge g a HR). destruct (decide _) as [Hp|]; [|reflexivity].
    apply same_pair_key in Hp. rewrite Hp. apply eq_None_not_Some. exact Hd.
Qed.

Lemma lookup_without_parents a c k : edges_without_parents a c !! k =
  if is_parent_edge a c k then None else ag_edges a !! k.
Proof.
  unfold edges_without_parents. destruct (is_parent_edge a c k) eqn:E.
  - apply map_filter_lookup_None. right. intros x Hx. cbn. congruence.
  - destruct (ag_edges a !! k) as [e|] eqn:Ek.
    + apply map_filter_lookup_Some. auto.
    + apply map_filter_lookup_None. auto.
Qed.

Lemma insert_parent_edge_effect g u v i : reachable g -> allowed g (GInsertParentEdge u v i) ->
  exists b g', g_insert_parent_edge g u v i = Ok (b, g') /\ reachable g' /\ same_nodes g g' /\
  (b = true <-> g_has_node g u = true /\ g_has_node g v = true /\ ~ adjacent g u v) /\
  (b = false -> same_edges g g') /\
  (b = true -> edge_at g' u v = Some (mkEdge u v (default ea_default i)) /\
    forall c p kc kp, same_pair c p u v -> layer_of g c = Some kc -> layer_of g p = Some kp -> lk_layer kc < lk_layer kp ->
      (forall q, is_parent_of g' q c <-> q = p) /\
      (forall x y, ~ same_pair x y u v ->
         edge_at g' x y = edge_at g x y \/
         (edge_at g' x y = None /\ exists q, same_pair x y c q /\ is_parent_of g q c))).
Proof.
  intros Hr Ha. step_tac Hr Ha a HR H.
  pose proof (allowed_clean g a HR _ Ha) as Hcl. cbn in Hcl.
  destruct (g_insert_parent_edge g u v i) as [[b g']| |] eqn:Eg; [|destruct H as [H _]; cbn in H; discriminate|contradiction].
  destruct H as (Hb & [HR' _] & Hr'). cbn in Hb, HR'. exists b, g'. split; [reflexivity|]. split; [assumption|].
  rewrite !(obs_known g a HR), (obs_adjacent g a HR).
  assert (Hkn : forall x, a_known a x <-> is_Some (a_key a x)).
  { intros x. unfold a_known, a_key. rewrite is_Some_fmap_iff. reflexivity. }
  rewrite !Hkn. unfold a_insert_parent_edge in *.
  destruct (a_key a u) as [ku|] eqn:Eu.
  2:{ cbn in Hb, HR'. injection Hb as <-. split; [eapply obs_same_nodes; eauto|]. split; [split; [discriminate|intros ([? ?] & _); discriminate]|].
      split; [|discriminate]. intros _. eapply obs_same_edges; eauto. }
  destruct (a_key a v) as [kv|] eqn:Ev.
  2:{ cbn in Hb, HR'. injection Hb as <-. split; [eapply obs_same_nodes; eauto|]. split; [split; [discriminate|intros (_ & [? ?] & _); discriminate]|].
      split; [|discriminate]. intros _. eapply obs_same_edges; eauto. }
  destruct (decide (a_linked a u v)) as [Hl|Hl]; cbn in Hb, HR'; injection Hb as <-.
  { split; [eapply obs_same_nodes; eauto|]. split; [split; [discriminate|tauto]|]. split; [|discriminate].
    intros _. eapply obs_same_edges; eauto. }
  split; [eapply obs_same_nodes; eauto|]. split; [split; eauto|]. split; [discriminate|]. intros _.
  set (c0 := match rel ku kv with RChild => v | _ => u end) in *.
  assert (Hedge : forall x y, edge_at g' x y = if decide (same_pair x y u v) then Some (mkEdge u v (default ea_default i))
                  else if is_parent_edge a c0 (edge_key x y) then None else edge_at g x y).
  { intros x y. rewrite (obs_edge g' _ HR'), (obs_edge g a HR). cbn. destruct (decide (same_pair x y u v)) as [Hp|Hp].
    - apply same_pair_key in Hp. rewrite Hp. apply lookup_insert.
    - rewrite lookup_insert_ne; [apply lookup_without_parents|]. intros Hk. apply Hp, same_pair_key. auto. }
  split.
  { rewrite Hedge, decide_True; [reflexivity|]. left. auto. }
  intros c p kc kp Hcp Hkc Hkp Hlt. rewrite (obs_layer g a HR) in Hkc, Hkp.
  assert (Hc0 : c0 = c).
  { unfold c0. destruct Hcp as [[-> ->]|[-> ->]].
    - rewrite Eu in Hkc. rewrite Ev in Hkp. injection Hkc as <-. injection Hkp as <-.
      destruct (rel ku kv) eqn:E; try reflexivity. apply rel_child in E. lia.
    - rewrite Ev in Hkc. rewrite Eu in Hkp. injection Hkc as <-. injection Hkp as <-.
      destruct (rel ku kv) eqn:E; try reflexivity.
      + apply rel_parent in E. lia.
      + apply rel_sym_sib in E. lia. }
  rewrite Hc0 in *. clear c0 Hc0.
  assert (Hkeys : forall x, a_key (a_add_edge (a_with_edges a (edges_without_parents a c)) u v (default ea_default i)) x = a_key a x) by reflexivity.
  split.
  - intros q. rewrite (obs_parent_of g' _ HR'). unfold a_related. rewrite !Hkeys. unfold a_linked. rewrite <- (obs_edge g' _ HR'), Hedge.
    destruct (decide (same_pair c q u v)) as [Hp|Hp].
    + assert (q = p).
      { apply same_pair_key in Hp, Hcp. rewrite <- Hcp in Hp. apply edge_key_eq_l in Hp. assumption. }
      subst q. split; [reflexivity|]. intros _. split; [eauto|]. exists kc, kp. rewrite rel_parent. auto.
    + split; [|intros ->; contradiction].
      intros ([e He] & kc' & kq & Hkc' & Hkq & Hrel). exfalso.
      destruct (is_parent_edge a c (edge_key c q)) eqn:Ep; [discriminate|].
      rewrite (obs_edge g a HR) in He.
      rewrite (is_parent_edge_key g a c q HR (ex_intro _ e He)) in Ep. rewrite !(rp_lookup _ _ HR), Hkc', Hkq, Hrel in Ep. discriminate.
  - intros x y Hp. rewrite Hedge, decide_False by assumption.
    destruct (is_parent_edge a c (edge_key x y)) eqn:Ep; [|auto].
    unfold is_parent_edge in Ep. apply andb_prop in Ep as [Ht Ep]. apply bool_decide_eq_true in Ht.
    assert (exists q, edge_key x y = edge_key c q) as [q Hq].
    { change (touches c (edge_key x y)) in Ht. apply touches_other in Ht as (t & Ht & _). eauto. }
    destruct (edge_at g x y) as [e|] eqn:Ee; [|auto].
    right. split; [reflexivity|]. exists q. split; [apply same_pair_key, Hq|]. rewrite (obs_parent_of g a HR).
    split.
    + unfold a_linked. rewrite <- Hq, <- (obs_edge g a HR). eauto.
    + rewrite Hq in Ep. assert (key_other c (edge_key c q) = q) as Ho by apply other_end_key. rewrite Ho in Ep.
      rewrite Hkc in *. destruct (a_key a q) as [kq|]; [|discriminate]. exists kc, kq. split; [reflexivity|]. split; [reflexivity|].
      destruct (rel kc kq); congruence.
Qed.
