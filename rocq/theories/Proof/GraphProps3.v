(** Dynamic appends, single parents and whole histories. *)
From Coq Require Import NArith ZArith Bool List Lia.
From stdpp Require Import base list gmap fin_maps tactics.
From Verif.Model Require Import Types Mesh Attrs Node EdgeContainer SLayer DLayer Graph.
From Verif.Spec Require Import AbstractGraph GraphHistory GraphObs.
From Verif.Proof Require Import Arith Keys SLayerP SLayerMerge DLayerP DLayerOps GraphRep GraphEdges GraphAttrs GraphNodes GraphRemove GraphMerge GraphSim GraphObsP GraphProps GraphProps2.
Local Open Scope N_scope.

Lemma obs_time_used g a l p t : Rep g a ->
  (a_time_used a l p t <-> exists x at_, node_data g x = Some (key_dynamic l p, Some t, at_)).
Proof.
  intros HR. unfold a_time_used, map_Exists. split.
  - intros (x & n & Hn & Hk & Ht). exists x, (an_attrs n). rewrite (obs_data g a HR), Hn. cbn. unfold an_data. congruence.
  - intros (x & at_ & Hx). rewrite (obs_data g a HR) in Hx. apply fmap_Some in Hx as (n & Hn & Hd).
    exists x, n. split; [assumption|]. unfold an_data in Hd. split; congruence.
Qed.

Lemma emplace_dyn_effect g l p t at_ ae : reachable g -> allowed g (GEmplaceDyn l p t at_ ae) ->
  let k := num_slots g l p in
  let id := prefix_make_id p k in
  exists b g', g_emplace_dynamic g l p t at_ ae = Ok (b, g') /\ reachable g' /\
  (b = true <-> g_has_node g id = false /\ forall x at', node_data g x <> Some (key_dynamic l p, Some t, at')) /\
  (b = false -> same_nodes g g' /\ same_edges g g') /\
  (b = true ->
     node_added g g' id (key_dynamic l p, Some t, at_) /\ num_slots g' l p = k + 1 /\
     let prev := prefix_make_id p (k - 1) in
     let chained := ae = true /\ 0 < k /\ layer_of g prev = Some (key_dynamic l p) in
     (chained -> forall u v, edge_at g' u v = if decide (same_pair u v prev id) then Some (mkEdge prev id ea_default) else edge_at g u v) /\
     (~ chained -> same_edges g g')).
Proof.
  intros Hr Ha k id. pose proof Ha as Ha0. step_tac Hr Ha a HR H.
  destruct Ha0 as [Hda Hsz]. destruct Hda as (Hl & Hp & Hsub).
  destruct (g_emplace_dynamic g l p t at_ ae) as [[b g']| |] eqn:Eg; [|destruct H as [H _]; cbn in H; discriminate|contradiction].
  destruct H as (Hb & [HR' _] & Hr'). cbn in Hb, HR'. exists b, g'. split; [reflexivity|]. split; [assumption|].
  unfold a_emplace_dyn in *.
  assert (Hdef : default (0, 0) (ag_dyn a !! (l, p)) = (k, k)).
  { rewrite (rp_dyn _ _ HR). unfold dinfo, k, num_slots. destruct (g_dlayer g l p) as [d|] eqn:Ed; [|reflexivity]. cbn.
    destruct (Hsz d eq_refl) as [-> _]. reflexivity. }
  assert (Hk32 : k < two32).
  { unfold k, num_slots. destruct (g_dlayer g l p) as [d|] eqn:Ed; [apply (Hsz d eq_refl)|reflexivity]. }
  rewrite Hdef in Hb, HR'. change (prefix_make_id p k) with id in Hb, HR'.
  assert (Hc1 : ag_nodes (snd (a_create_dyn a l p)) = ag_nodes a /\ ag_edges (snd (a_create_dyn a l p)) = ag_edges a).
  { unfold a_create_dyn. destruct (ag_dyn a !! (l, p)); auto. }
  destruct Hc1 as [Hc1 Hc2].
  assert (Htu : a_time_used (snd (a_create_dyn a l p)) l p t <-> exists x at', node_data g x = Some (key_dynamic l p, Some t, at')).
  { rewrite <- (obs_time_used g a l p t HR). unfold a_time_used. rewrite Hc1. reflexivity. }
  rewrite <- not_true_iff_false, (obs_known g a HR).
  destruct (decide (a_known a id)) as [Hk|Hk].
  { cbn in Hb, HR'. injection Hb as <-. split; [split; [discriminate|tauto]|]. split; [|discriminate].
    intros _. split; [eapply obs_same_nodes; eauto|eapply obs_same_edges; eauto]. }
  destruct (decide (a_time_used _ l p t)) as [Hu|Hu].
  { cbn in Hb, HR'. injection Hb as <-. split.
    - split; [discriminate|]. intros [_ Hno]. apply Htu in Hu as (x & at' & Hx). exfalso. exact (Hno _ _ Hx).
    - split; [|discriminate]. intros _. split; [eapply obs_same_nodes; eauto|eapply obs_same_edges; eauto]. }
  cbn in Hb, HR'. injection Hb as <-.
  split.
  { split; [|reflexivity]. intros _. split; [assumption|]. intros x at' Hx. apply Hu, Htu. eauto. }
  split; [discriminate|]. intros _.
  set (a2 := a_with_dyn _ _) in HR'. set (prev := prefix_make_id p (k - 1)) in *.
  assert (Hn2 : ag_nodes a2 = <[id := mkAN (key_dynamic l p) (Some t) at_]> (ag_nodes a)) by (unfold a2; cbn; rewrite Hc1; reflexivity).
  assert (He2 : ag_edges a2 = ag_edges a) by (unfold a2; cbn; exact Hc2).
  assert (Hk2 : forall x, a_key a2 x = if decide (x = id) then Some (key_dynamic l p) else a_key a x).
  { intros x. unfold a_key. rewrite Hn2. destruct (decide (x = id)) as [->|Hne]; [rewrite lookup_insert; reflexivity|rewrite lookup_insert_ne by congruence; reflexivity]. }
  assert (Hpi : 0 < k -> prev <> id).
  { intros H0 Heq. unfold prev, id in Heq. apply (make_id_inj p Hp) in Heq; [lia|lia|exact Hk32]. }
  assert (Hnodes : forall a3, (a3 = a2 \/ a3 = snd (a_insert_edge a2 prev id None)) -> ag_nodes a3 = ag_nodes a2 /\ ag_dyn a3 = ag_dyn a2).
  { intros a3 [->| ->]; [auto|]. unfold a_insert_edge. clear HR'. destruct (decide _); split; reflexivity. }
  set (a3 := if decide _ then _ else _) in HR'.
  assert (Ha3 : a3 = a2 \/ a3 = snd (a_insert_edge a2 prev id None)) by (unfold a3; destruct (decide _); auto).
  destruct (Hnodes a3 Ha3) as [Hn3 Hd3]. split.
  { apply (obs_added g g' a a3 id (mkAN (key_dynamic l p) (Some t) at_) HR HR' Hk). congruence. }
  split.
  { pose proof (rp_dyn _ _ HR' l p) as Hd. rewrite Hd3 in Hd. unfold a2 in Hd. cbn in Hd. rewrite lookup_insert in Hd.
    unfold dinfo in Hd. unfold num_slots. destruct (g_dlayer g' l p); [|discriminate]. cbn in Hd. congruence. }
  assert (Hprev : a_key a2 prev = Some (key_dynamic l p) /\ 0 < k <-> layer_of g prev = Some (key_dynamic l p) /\ 0 < k).
  { rewrite (obs_layer g a HR), Hk2. split; intros [H1 H2]; (split; [|assumption]); specialize (Hpi H2).
    - rewrite decide_False in H1 by assumption. assumption.
    - rewrite decide_False by assumption. assumption. }
  split.
  - intros (Hae & H0 & Hpk) u v. rewrite (obs_edge g' a3 HR'), (obs_edge g a HR). unfold a3.
    rewrite decide_True by tauto. unfold a_insert_edge. rewrite decide_True.
    + change (ag_edges (snd (true, a_add_edge a2 prev id (default ea_default None)))) with (<[edge_key prev id := mkEdge prev id ea_default]> (ag_edges a2)). rewrite He2. destruct (decide (same_pair u v prev id)) as [Hsp|Hsp].
      * apply same_pair_key in Hsp. rewrite Hsp. apply lookup_insert.
      * apply lookup_insert_ne. intros Hkk. apply Hsp, same_pair_key. auto.
    + split; [auto|]. split; [apply a_known_key; rewrite (proj1 (proj2 Hprev (conj Hpk H0))); eauto|].
      split; [apply a_known_key; rewrite Hk2, decide_True by reflexivity; eauto|].
      unfold a_linked. rewrite He2. intros Hlk. destruct (Rep_linked_known g a prev id HR Hlk) as (_ & ? & ? & _ & Hx).
      apply Hk, (Rep_known g a id HR). eauto.
  - intros Hnc. eapply (obs_same_edges g g' a a3); eauto. unfold a3. rewrite decide_False; [exact He2|]. tauto.
Qed.

(** *** At most one parent *)
Lemma related_mono g a a' : Rep g a ->
  (forall x k, a_key a x = Some k -> a_key a' x = Some k \/ a_key a' x = None) ->
  (forall u v, a_linked a' u v -> a_linked a u v \/
     exists k k', a_key a' u = Some k /\ a_key a' v = Some k' /\ lk_layer k = lk_layer k') ->
  forall x p, a_related a' RParent x p -> a_related a RParent x p.
Proof.
  intros HR H1 H2 x p (Hl & kx & kp & Hkx & Hkp & Hrel).
  destruct (H2 _ _ Hl) as [Hl'|(k & k' & Hk & Hk' & Heq)].
  - split; [assumption|]. destruct (Rep_linked_known g a x p HR Hl') as (_ & k1 & k2 & J1 & J2).
    rewrite (rp_lookup _ _ HR) in J1, J2. exists k1, k2. split; [assumption|]. split; [assumption|].
    destruct (H1 _ _ J1), (H1 _ _ J2); congruence.
  - rewrite Hkx in Hk. rewrite Hkp in Hk'. injection Hk as <-. injection Hk' as <-. apply rel_parent in Hrel. lia.
Qed.

Lemma one_parent_step g o b g' : reachable g -> allowed g o -> keeps_one_parent g o -> one_parent g ->
  g_step g o = Ok (b, g') -> one_parent g'.
Proof.
  intros Hr Ha Hk1 H1 Hs. destruct (reachable_step g o Hr Ha) as (a & [HR HL] & H). rewrite Hs in H.
  destruct H as (Hb & [HR' _] & Hr'). clear Hb.
  assert (Hmono : (forall x k, a_key a x = Some k -> a_key (snd (a_step a o)) x = Some k \/ a_key (snd (a_step a o)) x = None) ->
     (forall u v, a_linked (snd (a_step a o)) u v -> a_linked a u v \/
       exists k k', a_key (snd (a_step a o)) u = Some k /\ a_key (snd (a_step a o)) v = Some k' /\ lk_layer k = lk_layer k') -> one_parent g').
  { intros M1 M2 x p q Hp Hq. apply (H1 x p q); apply (obs_parent_of g a HR); apply (related_mono g a _ HR M1 M2); apply (obs_parent_of g' _ HR'); assumption. }
  clear HL.
  assert (Hcd : forall l p, ag_nodes (snd (a_create_dyn a l p)) = ag_nodes a /\ ag_edges (snd (a_create_dyn a l p)) = ag_edges a).
  { intros l p. unfold a_create_dyn. destruct (ag_dyn a !! (l, p)); auto. }
  assert (Hadd : forall a' id n, ~ a_known a id -> ag_nodes a' = <[id := n]> (ag_nodes a) ->
     forall x k, a_key a x = Some k -> a_key a' x = Some k \/ a_key a' x = None).
  { intros a' id n Hn Ha' x k Hx. left. unfold a_key in *. rewrite Ha', lookup_insert_ne; [assumption|]. intros ->.
    apply Hn, a_known_key. unfold a_key. eauto. }
  assert (Hsame : forall a', ag_nodes a' = ag_nodes a -> forall x k, a_key a x = Some k -> a_key a' x = Some k \/ a_key a' x = None).
  { intros a' Ha' x k Hx. left. unfold a_key in *. congruence. }
  assert (Hset : forall id at_ a', a' = snd (a_set_node_attrs a id at_) ->
     (forall x k, a_key a x = Some k -> a_key a' x = Some k \/ a_key a' x = None) /\ ag_edges a' = ag_edges a).
  { intros id at_ a' ->. unfold a_set_node_attrs. destruct (ag_nodes a !! id) as [n|] eqn:En; [|auto]. split; [|reflexivity].
    intros x k Hx. left. unfold a_key in *. cbn. destruct (decide (x = id)) as [->|Hne].
    - rewrite lookup_insert. rewrite En in Hx. exact Hx.
    - rewrite lookup_insert_ne by congruence. assumption. }
  assert (Hprev : forall l id t at_ a', a' = snd (a_emplace_prev a l id t at_) ->
     (forall x k, a_key a x = Some k -> a_key a' x = Some k \/ a_key a' x = None) /\ ag_edges a' = ag_edges a).
  { intros l id t at_ a' ->. unfold a_emplace_prev. destruct (decide (a_known a id)) as [Hd|Hd]; [auto|].
    destruct (Hcd l (prefix_from_id id)) as [C1 C2]. destruct (default _ _). split; [|exact C2].
    eapply Hadd; [exact Hd|]. cbn. rewrite C1. reflexivity. }
  assert (Hemp : forall l id t at_ a', a' = snd (a_emplace a l id t at_) ->
     (forall x k, a_key a x = Some k -> a_key a' x = Some k \/ a_key a' x = None) /\ ag_edges a' = ag_edges a).
  { intros l id t at_ a' ->. unfold a_emplace. destruct (decide (a_known a id)) as [Hd|Hd]; [auto|]. destruct (decide _); [|auto].
    split; [|reflexivity]. eapply Hadd; [exact Hd|]. reflexivity. }
  assert (Hfin : (forall x k, a_key a x = Some k -> a_key (snd (a_step a o)) x = Some k \/ a_key (snd (a_step a o)) x = None) /\
     ag_edges (snd (a_step a o)) = ag_edges a -> one_parent g').
  { intros [M1 M2]. apply Hmono; [exact M1|]. intros u v Hl. left. unfold a_linked in *. congruence. }
  destruct o; cbn [a_step ab snd] in *; try (apply Hfin; eauto; fail).
  - (* dynamic append *)
    destruct (emplace_dyn_effect g l p t a0 add_edge Hr Ha) as (b' & g'' & He & _ & _ & Hf & Ht). cbn [g_step] in Hs. rewrite Hs in He. injection He as <- <-.
    assert (Heff : same_edges g g' \/ exists prev id, layer_of g' prev = Some (key_dynamic l p) /\ layer_of g' id = Some (key_dynamic l p) /\
       forall u v, edge_at g' u v = if decide (same_pair u v prev id) then Some (mkEdge prev id ea_default) else edge_at g u v).
    { destruct b; [|left; apply Hf; reflexivity]. destruct (Ht eq_refl) as (Hna & _ & Hc & Hnc). destruct Hna as (Hn0 & Hna & Hns).
      assert (Hlay : forall x d, node_data g' x = Some d -> layer_of g' x = Some (fst (fst d))).
      { intros x d Hx. unfold node_data in Hx. destruct (layer_of g' x), (node_at g' x); try discriminate. injection Hx as <-. reflexivity. }
      destruct (decide (add_edge = true /\ 0 < num_slots g l p /\ layer_of g (prefix_make_id p (num_slots g l p - 1)) = Some (key_dynamic l p))) as [Hd|Hd].
      - right. exists (prefix_make_id p (num_slots g l p - 1)), (prefix_make_id p (num_slots g l p)).
        split; [|split; [exact (Hlay _ _ Hna)|apply Hc, Hd]].
        destruct Hd as (_ & _ & Hd). assert (Hpn : g_has_node g (prefix_make_id p (num_slots g l p - 1)) = true).
        { apply (obs_known g a HR), a_known_key. rewrite <- (obs_layer g a HR), Hd. eauto. }
        assert (Hpi : prefix_make_id p (num_slots g l p - 1) <> prefix_make_id p (num_slots g l p)) by congruence.
        specialize (Hns _ Hpi). unfold node_data in Hns. rewrite Hd in Hns.
        pose proof (obs_node g a HR (prefix_make_id p (num_slots g l p - 1))) as Hon.
        destruct (node_at g (prefix_make_id p (num_slots g l p - 1))); [|rewrite <- (obs_layer g a HR) in Hon; congruence].
        destruct (layer_of g' (prefix_make_id p (num_slots g l p - 1))), (node_at g' (prefix_make_id p (num_slots g l p - 1))); congruence.
      - left. apply Hnc, Hd. }
    apply Hmono.
    + unfold a_emplace_dyn. destruct (default _ _) as [nx sl]. destruct (Hcd l p) as [C1 C2].
      destruct (decide (a_known a _)) as [Hd|Hd]; [auto|]. destruct (decide (a_time_used _ _ _ _)) as [Hd2|Hd2]; [apply Hsame; exact C1|].
      cbn [snd]. set (a2 := a_with_dyn _ _).
      assert (Hn2 : ag_nodes a2 = <[prefix_make_id p nx := mkAN (key_dynamic l p) (Some t) a0]> (ag_nodes a)) by (unfold a2; cbn; rewrite C1; reflexivity).
      destruct (decide _); [|eapply Hadd; eassumption].
      assert (Hn3 : forall u v i, ag_nodes (snd (a_insert_edge a2 u v i)) = ag_nodes a2) by (intros; unfold a_insert_edge; destruct (decide _); reflexivity).
      eapply Hadd; [exact Hd|]. rewrite Hn3. exact Hn2.
    + intros u v Hl. unfold a_linked in *. rewrite <- (obs_edge g' _ HR') in Hl. rewrite <- (obs_edge g a HR).
      destruct Heff as [Hse|(prev & id & K1 & K2 & Hed)].
      * left. rewrite <- Hse. exact Hl.
      * rewrite Hed in Hl. destruct (decide (same_pair u v prev id)) as [Hsp|Hsp]; [|left; exact Hl].
        right. rewrite <- !(obs_layer g' _ HR'). exists (key_dynamic l p), (key_dynamic l p). destruct Hsp as [[-> ->]|[-> ->]]; auto.
  - apply Hfin. destruct (Hcd l p) as [C1 C2]. split; [apply Hsame; exact C1|exact C2].
  - apply Hfin. unfold a_add_or_update_node. destruct (decide (l ∈ ag_layers a)); [|auto]. destruct (decide (a_known a id)); [eapply Hset; reflexivity|].
    destruct t; [eapply Hprev; reflexivity|eapply Hemp; reflexivity].
  - (* insertEdge *)
    apply Hmono.
    + apply Hsame. unfold a_insert_edge. destruct (decide _); reflexivity.
    + intros x y. unfold a_insert_edge. destruct (decide _) as [Hd|Hd]; [|auto]. cbn. unfold a_linked; cbn.
      destruct (decide (edge_key x y = edge_key u v)) as [He|He].
      * intros _. right. destruct Hd as (_ & Hu & Hv & _). apply a_known_key in Hu as [ku Hu], Hv as [kv Hv].
        assert (lk_layer ku = lk_layer kv) by (apply Hk1; rewrite (obs_layer g a HR); assumption).
        apply edge_key_inj in He as [[-> ->]|[-> ->]]; [exists ku, kv|exists kv, ku]; auto.
      * rewrite lookup_insert_ne by congruence. auto.
  - (* insertParentEdge *)
    destruct (insert_parent_edge_effect g u v i Hr Ha) as (b' & g'' & He & _ & Hsn & Hbt & Hf & Ht).
    cbn [g_step] in Hs. rewrite Hs in He. injection He as <- <-.
    assert (Hlay : forall x, layer_of g' x = layer_of g x).
    { intros x. rewrite (obs_layer g' _ HR'), (obs_layer g a HR). unfold a_insert_parent_edge.
      destruct (a_key a u), (a_key a v); try reflexivity. destruct (decide _); reflexivity. }
    assert (Hpar : forall x p, is_parent_of g' p x -> edge_at g' p x = edge_at g p x -> is_parent_of g p x).
    { intros x p (Hadj & kp & kx & Hkp & Hkx & Hlt) Hee. split; [|exists kp, kx; rewrite <- !Hlay; auto].
      apply (edges_symmetric g p x Hr). rewrite <- Hee. apply (edges_symmetric g' p x Hr'). assumption. }
    destruct b.
    2:{ intros x p q Hp Hq. apply (H1 x p q); apply Hpar; auto; apply Hf; reflexivity. }
    destruct (proj1 Hbt eq_refl) as (Hu & Hv & _). apply (obs_known g a HR) in Hu, Hv. apply a_known_key in Hu as [ku Hu], Hv as [kv Hv].
    rewrite <- (obs_layer g a HR) in Hu, Hv. cbn in Ha. pose proof (Ha ku kv Hu Hv) as Hne.
    destruct (Ht eq_refl) as [_ Hcp].
    assert (Hex : exists c p kc kp, same_pair c p u v /\ layer_of g c = Some kc /\ layer_of g p = Some kp /\ lk_layer kc < lk_layer kp).
    { destruct (N.lt_ge_cases (lk_layer ku) (lk_layer kv)); [exists u, v, ku, kv|exists v, u, kv, ku]; unfold same_pair; repeat split; auto; lia. }
    destruct Hex as (c & p0 & kc & kp & Hsp & Hkc & Hkp & Hlt). destruct (Hcp c p0 kc kp Hsp Hkc Hkp Hlt) as [Honly Hoth].
    intros x p q Hp Hq. destruct (decide (x = c)) as [->|Hxc].
    { apply Honly in Hp, Hq. congruence. }
    assert (Hback : forall p, is_parent_of g' p x -> is_parent_of g p x).
    { intros p1 Hp1. apply Hpar; [exact Hp1|]. destruct (decide (same_pair p1 x u v)) as [Hs1|Hs1].
      - exfalso. apply same_pair_key in Hs1, Hsp. rewrite <- Hsp in Hs1. apply edge_key_inj in Hs1 as [[-> ->]|[-> ->]]; [|contradiction].
        destruct Hp1 as (_ & k1 & k2 & J1 & J2 & J3). rewrite Hlay in J1, J2. assert (k1 = kc) by congruence. assert (k2 = kp) by congruence. subst. lia.
      - destruct (Hoth p1 x Hs1) as [?|[Hno (q1 & Hq1 & Hpq)]]; [assumption|].
        exfalso. destruct Hp1 as [Hadj _]. apply (edges_symmetric g' p1 x Hr') in Hadj. rewrite Hno in Hadj. destruct Hadj; discriminate. }
    apply (H1 x p q); auto.
  - (* addOrUpdateEdge *)
    assert (HS : forall a', a' = snd (a_set_edge_attrs a u v i) -> ag_nodes a' = ag_nodes a /\ forall x y, a_linked a' x y -> a_linked a x y).
    { intros a' ->. unfold a_set_edge_attrs. destruct (decide _); [|auto]. destruct (ag_edges a !! edge_key u v) as [e|] eqn:Ee; [|auto].
      split; [reflexivity|]. intros x y. unfold a_linked; cbn. destruct (decide (edge_key x y = edge_key u v)) as [->|Hne].
      - rewrite Ee. eauto.
      - rewrite lookup_insert_ne by congruence. auto. }
    apply Hmono; unfold a_add_or_update_edge.
    + destruct (decide _); [apply Hsame, (HS _ eq_refl)|]. unfold a_insert_edge. destruct (decide _); cbn; apply Hsame; reflexivity.
    + intros x y. destruct (decide _); [left; eapply HS; [reflexivity|eassumption]|]. unfold a_insert_edge. destruct (decide _) as [Hd|Hd]; cbn; [|auto].
      unfold a_linked; cbn. destruct (decide (edge_key x y = edge_key u v)) as [He|He].
      * intros _. right. destruct Hd as (_ & Hu & Hv & _). apply a_known_key in Hu as [ku Hu], Hv as [kv Hv].
        assert (lk_layer ku = lk_layer kv) by (apply Hk1; rewrite (obs_layer g a HR); assumption).
        apply edge_key_inj in He as [[-> ->]|[-> ->]]; [exists ku, kv|exists kv, ku]; auto.
      * rewrite lookup_insert_ne by congruence. auto.
  - (* setEdgeAttributes *)
    apply Hmono; unfold a_set_edge_attrs; (destruct (decide _); [|auto]); destruct (ag_edges a !! edge_key u v) as [e|] eqn:Ee; auto.
    intros x y. unfold a_linked; cbn. destruct (decide (edge_key x y = edge_key u v)) as [->|Hne].
    + rewrite Ee. eauto.
    + rewrite lookup_insert_ne by congruence. auto.
  - (* removeEdge *)
    apply Hmono; unfold a_remove_edge; (destruct (decide _); [|auto]).
    + apply Hsame. reflexivity.
    + intros x y. unfold a_linked; cbn. intros Hl. left. destruct Hl as [e He]. apply lookup_delete_Some in He as [_ He]. eauto.
  - (* removeNode *)
    assert (Hch : ag_nodes (a_chain a n) = ag_nodes a /\ forall x y, a_linked (a_chain a n) x y -> a_linked a x y \/
       exists k, a_key a x = Some k /\ a_key a y = Some k /\ x <> n /\ y <> n).
    { unfold a_chain. destruct (a_key a n) as [k|] eqn:Ek; [|auto]. destruct (decide _) as [(Hdy & Kp & Kq & Lp & Lq)|]; [|auto].
      unfold a_insert_edge. destruct (decide _); [|auto]. split; [reflexivity|]. intros x y. unfold a_linked; cbn.
      destruct (decide (edge_key x y = edge_key (chain_prev n) (chain_next n))) as [He|He].
      - intros _. right. exists k. assert (chain_prev n <> n) by (apply (Rep_linked_known g a _ _ HR) in Lp as [? _]; congruence).
        assert (chain_next n <> n) by (apply (Rep_linked_known g a _ _ HR) in Lq as [? _]; congruence).
        apply edge_key_inj in He as [[-> ->]|[-> ->]]; auto.
      - rewrite lookup_insert_ne by congruence. auto. }
    destruct Hch as [Hc1 Hc2]. unfold a_remove_node in *. destruct (decide (a_known a n)); [|apply Hfin; auto].
    cbn in *. apply Hmono.
    + intros x k Hx. unfold a_key in *; cbn. rewrite Hc1. destruct (decide (x = n)) as [->|Hne]; [right; rewrite lookup_delete; reflexivity|].
      left. rewrite lookup_delete_ne by congruence. exact Hx.
    + intros x y Hl. unfold a_linked in Hl; cbn in Hl. rewrite lookup_edges_without in Hl. destruct (decide _); [destruct Hl; discriminate|].
      apply Hc2 in Hl as [?|(k & Hx & Hy & Hxn & Hyn)]; [auto|]. right. exists k, k. unfold a_key in *; cbn. rewrite Hc1.
      rewrite !lookup_delete_ne by congruence. auto.
  - (* mergeNodes *)
    destruct (merge_nodes_effect g from to Hr Ha) as (b' & g'' & He & _ & Hbt & Hf & Ht).
    cbn [g_step] in Hs. rewrite Hs in He. injection He as <- <-.
    assert (Hlay : forall x k, layer_of g' x = Some k -> layer_of g x = Some k).
    { intros x k. rewrite (obs_layer g' _ HR'), (obs_layer g a HR). unfold a_merge_nodes.
      destruct (a_key a from), (a_key a to); auto. destruct (decide _); auto. cbn. unfold a_key; cbn.
      destruct (decide (x = from)) as [->|Hne]; [rewrite lookup_delete; discriminate|rewrite lookup_delete_ne by congruence; auto]. }
    assert (Hadj' : forall x y, adjacent g' x y <-> is_Some (edge_at g' x y)) by (intros; apply (edges_symmetric g' x y Hr')).
    assert (Hadj : forall x y, adjacent g x y <-> is_Some (edge_at g x y)) by (intros; apply (edges_symmetric g x y Hr)).
    assert (Hsym' : forall x y, edge_at g' x y = edge_at g' y x) by (intros; apply (edges_symmetric g' _ _ Hr')).
    assert (Hsym : forall x y, edge_at g x y = edge_at g y x) by (intros; apply (edges_symmetric g _ _ Hr)).
    destruct b.
    2:{ destruct (Hf eq_refl) as [_ Hse]. intros x p q (Hp & kp & kx & P1 & P2 & P3) (Hq & kq & kx' & Q1 & Q2 & Q3).
        apply (H1 x p q); (split; [apply Hadj; rewrite <- Hse; apply Hadj'; assumption|]); eauto 10. }
    destruct (Ht eq_refl) as (Hgone & Hdat & Hnf & _ & Hto & Hrest). destruct (proj1 Hbt eq_refl) as (Hft & k0 & Kf & Kt).
    assert (Hback : forall x p, is_parent_of g' p x -> p <> from /\ x <> from /\
        (is_parent_of g p x \/ (p = to /\ is_parent_of g from x) \/ (x = to /\ is_parent_of g p from))).
    { intros x p (Hp & kp & kx & P1 & P2 & P3). apply Hlay in P1, P2.
      assert (Hpf : p <> from) by (intros ->; apply (Hnf from x); auto).
      assert (Hxf : x <> from) by (intros ->; apply (Hnf p from); auto).
      split; [exact Hpf|]. split; [exact Hxf|].
      apply Hadj' in Hp. destruct (decide (p = to)) as [->|Hpt].
      - assert (Hxt : x <> to) by (intros ->; rewrite P1 in P2; injection P2 as ->; lia).
        rewrite (Hto x Hxf Hxt) in Hp. destruct (edge_at g to x) eqn:E1.
        + left. split; [apply Hadj; rewrite E1; eauto|]. exists kp, kx. auto.
        + right; left. split; [reflexivity|]. split; [apply Hadj; destruct (edge_at g from x); [eauto|destruct Hp; discriminate]|].
          exists kp, kx. assert (kp = k0) by congruence. subst. auto.
      - destruct (decide (x = to)) as [->|Hxt].
        + rewrite Hsym', (Hto p Hpf Hpt) in Hp. destruct (edge_at g to p) eqn:E1.
          * left. split; [apply Hadj; rewrite Hsym, E1; eauto|]. exists kp, kx. auto.
          * right; right. split; [reflexivity|]. split; [apply Hadj; rewrite Hsym; destruct (edge_at g from p); [eauto|destruct Hp; discriminate]|].
            exists kp, kx. assert (kx = k0) by congruence. subst. auto.
        + left. rewrite (Hrest p x Hpf Hxf Hpt Hxt) in Hp. split; [apply Hadj; exact Hp|]. exists kp, kx. auto. }
    assert (Hdistinct : forall x p q, is_parent_of g p x -> is_parent_of g q x -> p = q) by exact H1.
    intros x p q Hp Hq. destruct (Hback x p Hp) as (Hpf & Hxf & Bp). destruct (Hback x q Hq) as (Hqf & _ & Bq).
    cbn in Hk1.
    destruct Bp as [Bp|[[Ep Bp]|[Ep Bp]]], Bq as [Bq|[[Eq Bq]|[Eq Bq]]]; subst.
    + eauto.
    + exfalso. apply Hpf. eauto.
    + symmetry. eauto.
    + exfalso. apply Hqf. symmetry. eauto.
    + reflexivity.
    + exfalso. destruct Bp as (_ & ? & ? & J1 & J2 & J3). rewrite Kf in J1. rewrite Kt in J2. injection J1 as <-. injection J2 as <-. lia.
    + eauto.
    + exfalso. destruct Bq as (_ & ? & ? & J1 & J2 & J3). rewrite Kf in J1. rewrite Kt in J2. injection J1 as <-. injection J2 as <-. lia.
    + eauto.
  - apply Hfin. destruct (decide _); cbn; auto.
  - apply Hmono.
    + intros x k _. right. unfold a_key. cbn. rewrite lookup_empty. reflexivity.
    + intros u v [e He]. cbn in He. rewrite lookup_empty in He. discriminate.
Qed.

(** *** Histories *)
Lemma history_agrees os : forall g a, RepL g a -> reachable g -> allowed_run g os ->
  exists g', g_run g os = Some (fst (a_run a os), g') /\ reachable g' /\ RepL g' (snd (a_run a os)).
Proof.
  induction os as [|o r IH]; intros g a HR Hr Ha; cbn [g_run a_run fst snd].
  - exists g. auto.
  - destruct Ha as [Ho Hos]. pose proof (allowed_clean g a (proj1 HR) o Ho) as Hc.
    pose proof (step_sim g a o HR Hc) as Hs. pose proof (step_RepL g a o HR Hc) as HR'.
    destruct (a_step a o) as [b a'] eqn:Ea. cbn [snd fst] in *.
    destruct (g_step g o) as [[b' g']| |] eqn:Eg; cbn in Hs; [| |contradiction].
    + destruct Hs as [-> _]. cbn [step_graph step_out] in *.
      destruct (IH g' a' HR' (reach_step g o b' g' Hr Ho Eg) Hos) as (g'' & Hrun & Hr'' & HR''). rewrite Hrun.
      destruct (a_run a' r) as [bs a'']. cbn in *. exists g''. auto.
    + destruct Hs as [-> ->]. cbn [step_graph step_out] in *. destruct (IH g a HR Hr Hos) as (g'' & Hrun & Hr'' & HR''). rewrite Hrun.
      destruct (a_run a r) as [bs a'']. cbn in *. exists g''. auto.
Qed.

Lemma history_spec ids g os : g_new ids = Ok g -> UNKNOWN_LAYER ∉ ids -> allowed_run g os ->
  exists g', g_run g os = Some (fst (a_run (a_init ids) os), g') /\ reachable g' /\
  let a' := snd (a_run (a_init ids) os) in
  (forall x, node_data g' x = (fun n => (an_key n, an_time n, an_attrs n)) <$> ag_nodes a' !! x) /\
  (forall u v, edge_at g' u v = ag_edges a' !! edge_key u v).
Proof.
  intros Hg Hu Ha. destruct (history_agrees os g (a_init ids) (new_RepL ids g Hg Hu) (reach_new ids g Hg Hu) Ha) as (g' & Hrun & Hr & [HR _]).
  exists g'. split; [exact Hrun|]. split; [exact Hr|]. split; [apply (obs_data g' _ HR)|apply (obs_edge g' _ HR)].
Qed.
