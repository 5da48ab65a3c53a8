(** The stale sweep after a marked history. *)
From Coq Require Import NArith ZArith Bool List Lia.
From stdpp Require Import base list gmap fin_maps tactics.
From Verif.Model Require Import Types Mesh Attrs Node EdgeContainer SLayer DLayer Graph.
From Verif.Spec Require Import AbstractGraph GraphHistory GraphObs.
From Verif.Proof Require Import Arith Keys SLayerP SLayerMerge DLayerP DLayerOps GraphRep GraphEdges GraphAttrs GraphNodes GraphRemove GraphMerge GraphSim GraphObsP StaleP.
Local Open Scope N_scope.

Definition g_cont (g : Graph) (c : cid) : option EC :=
  match c with
  | CSt l => sl_edges <$> g_layers g !! l
  | CDy l p => dl_edges <$> g_dlayer g l p
  | CIn => Some (g_inter g)
  | CDin => Some (g_dinter g)
  end.
Definition key_cid (k : LayerKey) : cid := if lk_dynamic k then CDy (lk_layer k) (lk_prefix k) else CSt (lk_layer k).
Definition cont (g : Graph) (u v : N) : option cid :=
  match g_lookup g !! u, g_lookup g !! v with
  | Some ku, Some kv => Some (if decide (ku = kv) then key_cid ku else if pair_dyn ku kv then CDin else CIn)
  | _, _ => None
  end.
Lemma cont_comm g u v : cont g u v = cont g v u.
Proof.
  unfold cont. destruct (g_lookup g !! u) as [ku|], (g_lookup g !! v) as [kv|]; try reflexivity.
  rewrite pair_dyn_comm. destruct (decide (ku = kv)) as [->|H1], (decide _) as [H2|H2]; try reflexivity; congruence.
Qed.
Lemma cont_key g u v x y : edge_key u v = edge_key x y -> cont g u v = cont g x y.
Proof. intros H. apply edge_key_inj in H as [[-> ->]|[-> ->]]; [reflexivity|apply cont_comm]. Qed.

(** A recorded edge is an abstract edge recorded in the right container. *)
Lemma cont_edge g a c e k x : Rep g a -> g_cont g c = Some e -> ec_edges e !! k = Some x ->
  k = edge_key (e_src x) (e_tgt x) /\ a_linked a (e_src x) (e_tgt x) /\ cont g (e_src x) (e_tgt x) = Some c.
Proof.
  intros HR Hc Hx.
  assert (Hpart : forall kk L, canon kk -> g_part g kk = Some L -> sl_edges L = e -> key_cid kk = c ->
    k = edge_key (e_src x) (e_tgt x) /\ a_linked a (e_src x) (e_tgt x) /\ cont g (e_src x) (e_tgt x) = Some c).
  { intros kk L Hk HL <- Hcid. destruct (rp_part _ _ HR kk L Hk HL) as (Hwf & _ & _).
    pose proof (ecw_key _ (slw_ec _ Hwf) _ _ Hx) as Hn.
    destruct (slw_ends _ Hwf _ _ Hx) as (_ & [n1 H1] & [n2 H2]).
    assert (L1 : g_lookup g !! e_src x = Some kk) by (apply (rp_home _ _ HR _ _ Hk); eauto).
    assert (L2 : g_lookup g !! e_tgt x = Some kk) by (apply (rp_home _ _ HR _ _ Hk); eauto).
    split; [exact Hn|]. split.
    - unfold a_linked. rewrite (Rep_part_edge g a kk L _ _ HR Hk HL L1 L2), <- Hn. eauto.
    - unfold cont. rewrite L1, L2. rewrite decide_True by reflexivity. congruence. }
  assert (Hinter : forall dyn, e = g_ec g dyn -> c = (if dyn then CDin else CIn) ->
    k = edge_key (e_src x) (e_tgt x) /\ a_linked a (e_src x) (e_tgt x) /\ cont g (e_src x) (e_tgt x) = Some c).
  { intros dyn -> ->. pose proof (ecw_key _ (rp_ec _ _ HR dyn) _ _ Hx) as Hn.
    destruct (rp_inter _ _ HR _ _ _ Hx) as (ku & kv & H1 & H2 & Hne & Hd). split; [exact Hn|]. split.
    - unfold a_linked. rewrite (Rep_pair_edge g a _ _ _ _ HR H1 H2 Hne), Hd, <- Hn. eauto.
    - unfold cont. rewrite H1, H2, decide_False by assumption. rewrite Hd. reflexivity. }
  destruct c as [l|l p| |]; cbn in Hc.
  - destruct (g_layers g !! l) as [s|] eqn:E; [|discriminate]. injection Hc as <-.
    apply (Hpart (key_static l) s); [auto|exact E|reflexivity|reflexivity].
  - destruct (g_dlayer g l p) as [d|] eqn:E; [|discriminate]. injection Hc as <-.
    apply (Hpart (key_dynamic l p) (dl_view d)); [auto| |reflexivity|reflexivity]. unfold g_part. cbn. rewrite E. reflexivity.
  - injection Hc as <-. apply (Hinter false); reflexivity.
  - injection Hc as <-. apply (Hinter true); reflexivity.
Qed.
Lemma cont_linked g a u v : Rep g a -> a_linked a u v ->
  exists c e, cont g u v = Some c /\ g_cont g c = Some e /\ is_Some (ec_edges e !! edge_key u v).
Proof.
  intros HR Hl. destruct (Rep_linked_known _ _ _ _ HR Hl) as (_ & ku & kv & Hu & Hv). unfold cont. rewrite Hu, Hv.
  destruct (decide (ku = kv)) as [<-|Hne].
  - pose proof (rp_canon _ _ HR _ _ Hu) as Hk. destruct (proj1 (rp_home _ _ HR u ku Hk) Hu) as (L & HL & _).
    unfold a_linked in Hl. rewrite (Rep_part_edge g a ku L u v HR Hk HL Hu Hv) in Hl.
    exists (key_cid ku), (sl_edges L). split; [reflexivity|]. split; [|exact Hl].
    unfold g_part in HL. unfold key_cid. destruct (lk_dynamic ku); cbn.
    + destruct (g_dlayer g _ _); [|discriminate]. injection HL as <-. reflexivity.
    + rewrite HL. reflexivity.
  - unfold a_linked in Hl. rewrite (Rep_pair_edge g a u v ku kv HR Hu Hv Hne) in Hl.
    destruct (pair_dyn ku kv); [exists CDin, (g_dinter g)|exists CIn, (g_inter g)]; auto.
Qed.

Lemma g_stale_cont g c : g_stale g c = match g_cont g c with Some e => ec_stale e | None => ∅ end.
Proof. destruct c; cbn; try reflexivity; [destruct (g_layers g !! l)|destruct (g_dlayer g l p)]; reflexivity. Qed.

(** Marking. *)
Lemma mark_cont g c : g_cont (g_mark_stale g) c = ec_set_stale <$> g_cont g c.
Proof.
  destruct c; cbn; try reflexivity.
  - rewrite lookup_fmap. destruct (g_layers g !! l); reflexivity.
  - unfold g_dlayer. cbn. rewrite lookup_fmap. destruct (g_dlayers g !! l) as [m|]; cbn; [|reflexivity].
    rewrite lookup_fmap. destruct (m !! p); reflexivity.
Qed.
Lemma mark_lookup g : g_lookup (g_mark_stale g) = g_lookup g. Proof. reflexivity. Qed.
Lemma mark_flag g a c u v : Rep g a ->
  (g_stale (g_mark_stale g) c !! edge_key u v = Some true <-> a_linked a u v /\ cont g u v = Some c).
Proof.
  intros HR. rewrite g_stale_cont, mark_cont. split.
  - destruct (g_cont g c) as [e|] eqn:Ec; cbn; [|rewrite lookup_empty; discriminate].
    rewrite lookup_fmap. destruct (ec_edges e !! edge_key u v) as [x|] eqn:Ex; [|discriminate]. intros _.
    destruct (cont_edge g a c e _ _ HR Ec Ex) as (Hk & Hl & Hc). rewrite (cont_key _ _ _ _ _ Hk). unfold a_linked. rewrite Hk. auto.
  - intros [Hl Hc]. destruct (cont_linked g a u v HR Hl) as (c' & e & Hc' & He & Hin).
    assert (c' = c) as -> by congruence. rewrite He. cbn. rewrite lookup_fmap. destruct Hin as [x ->]. reflexivity.
Qed.

(** A call that finds the edge clears its flag. *)
#[global] Instance looks_up_dec o u v : Decision (looks_up o u v). Proof. destruct o; cbn; apply _. Defined.

Lemma touch_clears e s t : is_Some (ec_edges e !! edge_key s t) -> ec_stale (ec_touch e s t) !! edge_key s t = Some false.
Proof. intros [x Hx]. unfold ec_touch. rewrite Hx. cbn. apply lookup_insert. Qed.
Lemma put_cont g k b : (match b with BS _ => lk_dynamic k = false | BD _ => lk_dynamic k = true end) ->
  g_cont (g_put_layer g k b) (key_cid k) = Some (bl_edges b).
Proof.
  unfold key_cid. destruct b; cbn; intros ->; cbn.
  - rewrite lookup_insert. reflexivity.
  - rewrite g_dlayer_set, decide_True by auto. reflexivity.
Qed.
Lemma pair_cont g ku kv e : g_cont (g_with_pair_ec g ku kv e) (if pair_dyn ku kv then CDin else CIn) = Some e.
Proof. unfold g_with_pair_ec, pair_dyn. destruct (_ || _); reflexivity. Qed.
Lemma bl_edges_with b e : bl_edges (bl_with_edges b e) = e. Proof. destruct b; reflexivity. Qed.

Lemma lookup_clears g a (b : bool) g' o x y u v : Rep g a ->
  (o = GFindEdge x y \/ (exists i, o = GSetEdgeAttrs x y i) \/ (exists i, o = GAddOrUpdateEdge x y i)) -> edge_key x y = edge_key u v ->
  a_linked a u v -> g_step g o = Ok (b, g') ->
  exists c, cont g u v = Some c /\ g_stale g' c !! edge_key u v = Some false.
Proof.
  intros HR Ho Hk Hl. unfold a_linked in Hl. rewrite <- Hk in *. rewrite <- (cont_key g _ _ _ _ Hk). clear Hk u v.
  assert (Hlk : a_linked a x y) by exact Hl.
  destruct (Rep_linked_known _ _ _ _ HR Hlk) as (_ & ku & kv & Hu & Hv).
  pose proof (rp_canon _ _ HR _ _ Hu) as Hcu. pose proof (rp_canon _ _ HR _ _ Hv) as Hcv.
  destruct (cont_linked g a x y HR Hlk) as (c & e & Hc & He & Hin).
  assert (Hset : forall i, g_set_edge_attributes g x y i = Ok (b, g') -> exists c, cont g x y = Some c /\ g_stale g' c !! edge_key x y = Some false).
  { intros i. unfold g_set_edge_attributes. rewrite Hu, Hv. cbn [at_ rbind]. unfold cont in *. rewrite Hu, Hv in *.
    destruct (key_eqb ku kv) eqn:Ek.
    - apply key_eqb_true in Ek; [|assumption|assumption]. subst kv. rewrite decide_True in * by reflexivity. injection Hc as <-.
      pose proof (g_layer_at_part g ku) as HA. destruct (g_part g ku) as [L|] eqn:EL.
      2:{ exfalso. destruct (proj1 (rp_home _ _ HR x ku Hcu) Hu) as (L' & HL' & _). congruence. }
      destruct HA as (bl & -> & Hbv & Hkind). cbn [rbind].
      assert (Hbe : bl_edges bl = e).
      { unfold key_cid in He. destruct bl; destruct Hkind as [Hd Hx]; rewrite Hd in He; cbn in *; rewrite Hx in He; cbn in He; try congruence. }
      unfold ec_find. rewrite Hbe. destruct (ec_edges e !! edge_key x y) as [ed|] eqn:Eed; [|destruct Hin; discriminate].
      intros [= _ <-]. eexists. split; [reflexivity|].
      rewrite g_stale_cont, put_cont, bl_edges_with by (destruct bl; cbn; tauto).
      cbn. rewrite touch_clears by (rewrite Eed; eauto). reflexivity.
    - apply key_eqb_false in Ek; [|assumption|assumption]. rewrite decide_False in * by assumption. injection Hc as <-.
      assert (Hbe : g_pair_ec g ku kv = e).
      { rewrite g_pair_ec_eq. unfold g_ec. destruct (pair_dyn ku kv); cbn in He; congruence. }
      unfold ec_find. rewrite Hbe. destruct (ec_edges e !! edge_key x y) as [ed|] eqn:Eed; [|destruct Hin; discriminate].
      intros [= _ <-]. eexists. split; [reflexivity|].
      rewrite g_stale_cont, pair_cont. cbn. rewrite touch_clears by (rewrite Eed; eauto). reflexivity. }
  destruct Ho as [->|[[i ->]|[i ->]]]; cbn [g_step].
  - unfold g_find_edge. rewrite Hu, Hv. cbn [at_ rbind]. unfold cont in *. rewrite Hu, Hv in *.
    destruct (key_eqb ku kv) eqn:Ek.
    + apply key_eqb_true in Ek; [|assumption|assumption]. subst kv. rewrite decide_True in * by reflexivity. injection Hc as <-.
      pose proof (g_layer_at_part g ku) as HA. destruct (g_part g ku) as [L|] eqn:EL.
      2:{ exfalso. destruct (proj1 (rp_home _ _ HR x ku Hcu) Hu) as (L' & HL' & _). congruence. }
      destruct HA as (bl & -> & Hbv & Hkind). cbn [rbind].
      assert (Hbe : bl_edges bl = e).
      { unfold key_cid in He. destruct bl; destruct Hkind as [Hd Hx]; rewrite Hd in He; cbn in *; rewrite Hx in He; cbn in He; try congruence. }
      intros [= _ <-]. eexists. split; [reflexivity|].
      rewrite g_stale_cont, put_cont, bl_edges_with by (destruct bl; cbn; tauto). rewrite Hbe. apply touch_clears, Hin.
    + apply key_eqb_false in Ek; [|assumption|assumption]. rewrite decide_False in * by assumption. injection Hc as <-.
      assert (Hbe : g_pair_ec g ku kv = e).
      { rewrite g_pair_ec_eq. unfold g_ec. destruct (pair_dyn ku kv); cbn in He; congruence. }
      cbn [rbind]. intros [= _ <-]. eexists. split; [reflexivity|].
      rewrite g_stale_cont, pair_cont, Hbe. apply touch_clears, Hin.
  - apply Hset.
  - unfold g_add_or_update_edge. rewrite (obs_has_edge g a HR). cbn [rbind]. rewrite bool_decide_true by exact Hlk. apply Hset.
Qed.

(** A node that stays keeps its partition. *)
Lemma a_step_key a o x k k' : a_key a x = Some k -> a_key (snd (a_step a o)) x = Some k' -> k' = k.
Proof.
  assert (Hsame : forall a', ag_nodes a' = ag_nodes a -> a_key a x = Some k -> a_key a' x = Some k' -> k' = k).
  { intros a' H. unfold a_key. rewrite H. congruence. }
  assert (Hins : forall id n a', (ag_nodes a !! id = None \/ exists n0, ag_nodes a !! id = Some n0 /\ an_key n0 = an_key n) ->
     ag_nodes a' = <[id := n]> (ag_nodes a) -> a_key a x = Some k -> a_key a' x = Some k' -> k' = k).
  { intros id n a' H E. unfold a_key. rewrite E. destruct (decide (x = id)) as [->|Hne].
    - rewrite lookup_insert. cbn. destruct H as [H|(n0 & H & Hn)]; rewrite H; cbn; [discriminate|]. congruence.
    - rewrite lookup_insert_ne by congruence. congruence. }
  assert (Hdel : forall n a', ag_nodes a' = delete n (ag_nodes a) -> a_key a x = Some k -> a_key a' x = Some k' -> k' = k).
  { intros n a' E. unfold a_key. rewrite E. destruct (decide (x = n)) as [->|Hne]; [rewrite lookup_delete; discriminate|].
    rewrite lookup_delete_ne by congruence. congruence. }
  assert (Hunk : forall id, ~ a_known a id -> ag_nodes a !! id = None).
  { intros id H. apply eq_None_not_Some. exact H. }
  assert (Hem : forall l id t at_, a_key a x = Some k -> a_key (snd (a_emplace a l id t at_)) x = Some k' -> k' = k).
  { intros l id t at_. unfold a_emplace. destruct (decide _) as [|Hn]; [apply Hsame; reflexivity|]. destruct (decide _); [|apply Hsame; reflexivity].
    eapply Hins; [left; apply Hunk, Hn|reflexivity]. }
  assert (Hcd : forall l p, ag_nodes (snd (a_create_dyn a l p)) = ag_nodes a).
  { intros l p. unfold a_create_dyn. destruct (ag_dyn a !! (l, p)); reflexivity. }
  assert (Hie : forall a0 u v i, ag_nodes (snd (a_insert_edge a0 u v i)) = ag_nodes a0).
  { intros a0 u v i. unfold a_insert_edge. destruct (decide _); reflexivity. }
  assert (Hpv : forall l id t at_, a_key a x = Some k -> a_key (snd (a_emplace_prev a l id t at_)) x = Some k' -> k' = k).
  { intros l id t at_. unfold a_emplace_prev. destruct (decide _) as [|Hn]; [apply Hsame; reflexivity|].
    destruct (default _ _) as [nx sl]. eapply Hins; [left; apply Hunk, Hn|]. cbn. rewrite Hcd. reflexivity. }
  assert (Hsn : forall id at_, a_key a x = Some k -> a_key (snd (a_set_node_attrs a id at_)) x = Some k' -> k' = k).
  { intros id at_. unfold a_set_node_attrs. destruct (ag_nodes a !! id) as [n0|] eqn:E; [|apply Hsame; reflexivity].
    eapply Hins; [right; exists n0; split; [exact E|]|reflexivity]. reflexivity. }
  assert (Hse : forall u v i, ag_nodes (snd (a_set_edge_attrs a u v i)) = ag_nodes a).
  { intros u v i. unfold a_set_edge_attrs. destruct (decide _); [destruct (ag_edges a !! _)|]; reflexivity. }
  destruct o; cbn [a_step ab snd].
  - apply Hem.
  - apply Hem.
  - unfold a_emplace_dyn. destruct (default _ _) as [nx sl]. destruct (decide _) as [|Hn]; [apply Hsame; reflexivity|].
    destruct (decide _); [apply Hsame, Hcd|]. cbn [snd].
    eapply Hins; [left; apply Hunk, Hn|]. destruct (decide _); [rewrite Hie|]; cbn; rewrite Hcd; reflexivity.
  - apply Hpv.
  - apply Hsame, Hcd.
  - unfold a_add_or_update_node. destruct (decide _); [|apply Hsame; reflexivity]. destruct (decide _); [apply Hsn|]. destruct t; [apply Hpv|apply Hem].
  - apply Hsn.
  - apply Hsame, Hie.
  - unfold a_insert_parent_edge. destruct (a_key a u); [|apply Hsame; reflexivity]. destruct (a_key a v); [|apply Hsame; reflexivity].
    destruct (decide _); apply Hsame; reflexivity.
  - apply Hsame. unfold a_add_or_update_edge. destruct (decide _); [apply Hse|]. pose proof (Hie a u v (Some i)) as H. destruct (a_insert_edge a u v (Some i)). exact H.
  - apply Hsame, Hse.
  - apply Hsame. unfold a_remove_edge. destruct (decide _); reflexivity.
  - unfold a_remove_node. destruct (decide _); [|apply Hsame; reflexivity]. cbn [snd]. eapply Hdel. cbn. f_equal.
    unfold a_chain. destruct (a_key a n); [|reflexivity]. destruct (decide _); [apply Hie|reflexivity].
  - unfold a_merge_nodes. destruct (a_key a from); [|apply Hsame; reflexivity]. destruct (a_key a to); [|apply Hsame; reflexivity].
    destruct (decide _); [eapply Hdel; reflexivity|apply Hsame; reflexivity].
  - destruct (decide _); apply Hsame; reflexivity.
  - apply Hsame; reflexivity.
  - apply Hsame; reflexivity.
  - apply Hsame; reflexivity.
  - apply Hsame; reflexivity.
  - apply Hsame; reflexivity.
  - apply Hsame; reflexivity.
  - unfold a_key. cbn. rewrite lookup_empty. discriminate.
Qed.

(** *** Along a history *)
Definition flagged (g : Graph) (u v : N) : Prop := exists c, g_stale g c !! edge_key u v = Some true.

Lemma Forall_cons2 {A} (P : A -> Prop) x l : Forall P (x :: l) <-> P x /\ Forall P l.
Proof. split; [intros H; inversion H; auto|intros [H1 H2]; constructor; assumption]. Qed.

Lemma run_no_flag os : forall g u v, Forall (fun o => o <> GMarkStale) os -> ~ flagged g u v ->
  forall outs g', g_run g os = Some (outs, g') -> ~ flagged g' u v.
Proof.
  induction os as [|o r IH]; intros g u v Hm Hf outs g'; cbn; [intros [= _ <-]; exact Hf|].
  inversion Hm as [|? ? Hm1 Hm2]; subst. pose proof (step_SR g o Hm1) as HS.
  destruct (g_step g o) as [[b g1]| |]; cbn in *; [| |discriminate].
  - destruct (g_run g1 r) as [[bs g2]|] eqn:E; [|discriminate]. intros [= _ <-]. eapply IH; [exact Hm2| |exact E].
    intros [c Hc]. destruct (HS c (edge_key u v)) as [H|[_ H]]; [|contradiction]. apply Hf. exists c. congruence.
  - destruct (g_run g r) as [[bs g2]|] eqn:E; [|discriminate]. intros [= _ <-]. eapply IH; [exact Hm2|exact Hf|exact E].
Qed.

Lemma run_reachable os : forall g outs g', reachable g -> allowed_run g os -> g_run g os = Some (outs, g') -> reachable g'.
Proof.
  induction os as [|o r IH]; intros g outs g' Hr Ha; cbn; [intros [= _ <-]; exact Hr|]. destruct Ha as [Ha1 Ha2].
  destruct (g_step g o) as [[b g1]| |] eqn:Es; cbn in *; [| |discriminate].
  - destruct (g_run g1 r) as [[bs g2]|] eqn:E; [|discriminate]. intros [= _ <-]. eapply IH; [|exact Ha2|exact E]. econstructor; eassumption.
  - destruct (g_run g r) as [[bs g2]|] eqn:E; [|discriminate]. intros [= _ <-]. eapply IH; eassumption.
Qed.

Lemma run_flag os : forall g u v c, reachable g -> allowed_run g os -> Forall (fun o => o <> GMarkStale) os ->
  always_adjacent g os u v -> cont g u v = Some c ->
  (forall c', g_stale g c' !! edge_key u v = Some true -> c' = c) ->
  forall outs g', g_run g os = Some (outs, g') ->
  (flagged g' u v <-> flagged g u v /\ Forall (fun o => ~ looks_up o u v) os).
Proof.
  induction os as [|o r IH]; intros g u v c Hr Ha Hm Had Hc Hone outs g'; cbn.
  { intros [= _ <-]. split; [intros H; split; [exact H|constructor]|tauto]. }
  destruct Ha as [Ha1 Ha2]. destruct Had as [Had1 Had2]. inversion Hm as [|? ? Hm1 Hm2]; subst.
  destruct (reachable_step g o Hr Ha1) as (a & [HR _] & Hstep).
  apply (obs_adjacent g a HR) in Had1 as Hl.
  destruct (Rep_linked_known _ _ _ _ HR Hl) as (Huv & ku & kv & Hu & Hv).
  pose proof (step_SR g o Hm1) as HS.
  destruct (g_step g o) as [[b g1]| |] eqn:Es; cbn in *; [| |discriminate].
  - destruct Hstep as (_ & [HR1 _] & Hr1).
    destruct (g_run g1 r) as [[bs g2]|] eqn:E; [|discriminate]. intros [= _ <-].
    assert (Had' : adjacent g1 u v) by (destruct r; apply Had2).
    apply (obs_adjacent g1 _ HR1) in Had' as Hl1.
    destruct (Rep_linked_known _ _ _ _ HR1 Hl1) as (_ & ku1 & kv1 & Hu1 & Hv1).
    assert (Hc1 : cont g1 u v = Some c).
    { rewrite <- Hc. unfold cont. rewrite Hu, Hv, Hu1, Hv1.
      assert (ku1 = ku) as ->. { eapply a_step_key; [|rewrite <- (rp_lookup _ _ HR1); exact Hu1]. rewrite <- (rp_lookup _ _ HR). exact Hu. }
      assert (kv1 = kv) as ->. { eapply a_step_key; [|rewrite <- (rp_lookup _ _ HR1); exact Hv1]. rewrite <- (rp_lookup _ _ HR). exact Hv. }
      reflexivity. }
    (* what the touch set says about this pair *)
    assert (Hts : touch_set g o (edge_key u v) -> looks_up o u v).
    { assert (Hpk : forall x y, edge_key u v = edge_key x y -> same_pair x y u v).
      { intros x y H. apply edge_key_inj in H. unfold same_pair. destruct H as [[-> ->]|[-> ->]]; auto. }
      destruct o; cbn; try contradiction; try (apply Hpk).
      - intros [(Hne & kf & kt & Ef & Et & Ek) Ht]. exfalso. cbn in HR1.
        assert (Hft : from = u \/ from = v) by (apply touches_edge_key; exact Ht).
        apply (key_eqb_true _ _ (rp_canon _ _ HR _ _ Ef) (rp_canon _ _ HR _ _ Et)) in Ek. subst kt.
        rewrite (rp_lookup _ _ HR) in Ef, Et.
        unfold a_merge_nodes in HR1. rewrite Ef, Et in HR1. rewrite decide_True in HR1 by auto. cbn in HR1.
        pose proof (rp_lookup _ _ HR1 from) as Hx. unfold a_key in Hx. cbn in Hx. rewrite lookup_delete in Hx. destruct Hft; subst; cbn in Hx; congruence.
      - intros _. exfalso. cbn in HR1. unfold a_linked in Hl1. cbn in Hl1. rewrite lookup_empty in Hl1. destruct Hl1; discriminate. }
    assert (Hone1 : forall c', g_stale g1 c' !! edge_key u v = Some true -> c' = c).
    { intros c' H. destruct (HS c' (edge_key u v)) as [H1|[_ H1]]; [|contradiction]. apply Hone. congruence. }
    rewrite (IH g1 u v c Hr1 Ha2 Hm2 Had2 Hc1 Hone1 _ _ E). rewrite Forall_cons2.
    destruct (decide (looks_up o u v)) as [Hlu|Hlu].
    + assert (Hno : ~ flagged g1 u v).
      { assert (Hcl : exists c0, cont g u v = Some c0 /\ g_stale g1 c0 !! edge_key u v = Some false).
        { assert (Hpk : forall x y, same_pair x y u v -> edge_key x y = edge_key u v).
          { intros x y [[-> ->]|[-> ->]]; [reflexivity|apply edge_key_comm]. }
          destruct o; cbn in Hlu; try contradiction; (eapply lookup_clears; [exact HR| |exact (Hpk _ _ Hlu)|exact Hl|exact Es]); eauto 6. }
        destruct Hcl as (c0 & Hc0 & Hf0). intros [c' Hc']. pose proof (Hone1 _ Hc') as ->. congruence. }
      tauto.
    + assert (Hsame : flagged g1 u v <-> flagged g u v).
      { unfold flagged. split; intros [c' H]; exists c'; destruct (HS c' (edge_key u v)) as [H1|[H1 _]]; try congruence; exfalso; auto. }
      tauto.
  - destruct (g_run g r) as [[bs g2]|] eqn:E; [|discriminate]. intros [= _ <-]. rewrite (IH g u v c Hr Ha2 Hm2 Had2 Hc Hone _ _ E).
    rewrite Forall_cons2. destruct Hstep as [Hth _].
    assert (Hno : ~ looks_up o u v).
    { assert (Hpk : forall x y, same_pair x y u v -> a_known a x /\ a_known a y).
      { intros x y Hp. 
        assert (Hku : a_known a u) by (apply (Rep_known _ _ _ HR); eauto). assert (Hkv : a_known a v) by (apply (Rep_known _ _ _ HR); eauto).
        destruct Hp as [[-> ->]|[-> ->]]; auto. }
      intros Hlu. destruct o; cbn in Hlu; try contradiction; cbn [a_step] in Hth.
      - unfold a_add_or_update_edge in Hth. destruct (decide _).
        + unfold a_set_edge_attrs in Hth. rewrite decide_True in Hth by auto. destruct (ag_edges a !! _); discriminate.
        + destruct (a_insert_edge a u0 v0 (Some i)); discriminate.
      - unfold a_set_edge_attrs in Hth. rewrite decide_True in Hth by auto. destruct (ag_edges a !! _); discriminate.
      - rewrite decide_True in Hth by auto. discriminate. }
    tauto.
Qed.

(** *** The sweep *)
Lemma remove_stale_ok ks : forall g, reachable g -> exists g', g_remove_stale g ks = Ok g' /\ reachable g' /\
  same_nodes g g' /\ forall u v, edge_at g' u v = if decide (edge_key u v ∈ map (fun k : EdgeKey => edge_key (fst k) (snd k)) ks) then None else edge_at g u v.
Proof.
  induction ks as [|k r IH]; intros g Hr.
  - exists g. split; [reflexivity|]. split; [exact Hr|]. split; [intros x; reflexivity|]. intros u v. cbn. destruct (decide _) as [H|H]; [inversion H|reflexivity].
  - destruct (reachable_step g (GRemoveEdge (fst k) (snd k)) Hr I) as (a & [HR _] & Hs). cbn [g_step a_step] in Hs.
    unfold g_remove_stale. cbn [rfold]. destruct (g_remove_edge g (fst k) (snd k)) as [[b g1]| |] eqn:E.
    + destruct Hs as (_ & [HR1 _] & Hr1). cbn [rbind ab snd] in *. destruct (IH g1 Hr1) as (g' & Hg' & Hr' & Hn & He).
      exists g'. split; [exact Hg'|]. split; [exact Hr'|].
      assert (Hn1 : ag_nodes (snd (a_remove_edge a (fst k) (snd k))) = ag_nodes a) by (unfold a_remove_edge; destruct (decide _); reflexivity).
      assert (He1 : forall u v, edge_at g1 u v = if decide (edge_key u v = edge_key (fst k) (snd k)) then None else edge_at g u v).
      { intros u v. rewrite (obs_edge g1 _ HR1), (obs_edge g _ HR). unfold a_remove_edge. destruct (decide (a_linked a _ _)) as [Hl|Hl]; cbn.
        - destruct (decide _) as [->|Hne]; [apply lookup_delete|apply lookup_delete_ne; congruence].
        - destruct (decide _) as [->|Hne]; [|reflexivity]. apply eq_None_not_Some. exact Hl. }
      split.
      * intros x. rewrite Hn, (obs_data g1 _ HR1), (obs_data g _ HR), Hn1. reflexivity.
      * intros u v. rewrite He, He1. cbn [map]. destruct (decide (edge_key u v ∈ map _ r)) as [Hi|Hi].
        { rewrite decide_True by (right; exact Hi). reflexivity. }
        destruct (decide (edge_key u v = _)) as [Hi2|Hi2].
        { rewrite decide_True by (rewrite Hi2; left). reflexivity. }
        rewrite decide_False; [reflexivity|]. rewrite elem_of_cons. tauto.
    + destruct Hs as [Hs _]. cbn in Hs. discriminate.
    + destruct Hs.
Qed.

Lemma in_stale_keys c k : k ∈ stale_keys c <-> ec_stale c !! k = Some true.
Proof.
  unfold stale_keys. rewrite elem_of_keys_with. split.
  - intros (x & Hx & Hb). congruence.
  - intros H. eauto.
Qed.

Lemma sweep_ok g : reachable g ->
  (forall c k, g_stale g c !! k = Some true -> k = edge_key (fst k) (snd k)) ->
  exists g', g_remove_all_stale g = Ok g' /\ reachable g' /\ same_nodes g g' /\
  forall u v, (flagged g u v \/ ~ flagged g u v) /\ (flagged g u v -> edge_at g' u v = None) /\ (~ flagged g u v -> edge_at g' u v = edge_at g u v).
Proof.
  intros Hr Hnorm. unfold g_remove_all_stale.
  set (k1 := concat _). set (k2 := concat (map _ (g_all_dlayers g))). set (k3 := stale_keys (g_inter g)). set (k4 := stale_keys (g_dinter g)).
  destruct (remove_stale_ok k1 g Hr) as (g1 & -> & Hr1 & Hn1 & He1). cbn [rbind].
  destruct (remove_stale_ok k2 g1 Hr1) as (g2 & -> & Hr2 & Hn2 & He2). cbn [rbind].
  destruct (remove_stale_ok k3 g2 Hr2) as (g3 & -> & Hr3 & Hn3 & He3). cbn [rbind].
  destruct (remove_stale_ok k4 g3 Hr3) as (g4 & -> & Hr4 & Hn4 & He4).
  exists g4. split; [reflexivity|]. split; [exact Hr4|]. split; [intros x; rewrite Hn4, Hn3, Hn2; apply Hn1|].
  assert (Hall : forall u v, flagged g u v <-> edge_key u v ∈ k1 ++ k2 ++ k3 ++ k4).
  { intros u v. unfold flagged. rewrite !elem_of_app. split.
    - intros [c Hc]. destruct c as [l|l p| |]; cbn in Hc.
      + left. destruct (g_layers g !! l) as [s|] eqn:E; [|rewrite lookup_empty in Hc; discriminate]. unfold k1.
        apply elem_of_list_In, in_concat. exists (stale_keys (sl_edges s)). split; [|apply elem_of_list_In, in_stale_keys, Hc].
        apply in_map_iff. exists (l, s). split; [reflexivity|]. apply elem_of_list_In, elem_of_map_to_list, E.
      + right. left. destruct (g_dlayer g l p) as [d|] eqn:E; [|rewrite lookup_empty in Hc; discriminate]. unfold k2.
        apply elem_of_list_In, in_concat. exists (stale_keys (dl_edges d)). split; [|apply elem_of_list_In, in_stale_keys, Hc].
        apply in_map_iff. exists d. split; [reflexivity|]. unfold g_all_dlayers. unfold g_dlayer in E. destruct (g_dlayers g !! l) as [m|] eqn:Em; [|discriminate].
        apply in_concat. exists (map snd (map_to_list m)). split.
        * apply in_map_iff. exists (l, m). split; [reflexivity|]. apply elem_of_list_In, elem_of_map_to_list, Em.
        * apply in_map_iff. exists (p, d). split; [reflexivity|]. apply elem_of_list_In, elem_of_map_to_list, E.
      + right. right. left. apply in_stale_keys, Hc.
      + right. right. right. apply in_stale_keys, Hc.
    - intros [H|[H|[H|H]]].
      + apply elem_of_list_In, in_concat in H as (x & Hx & Hk). apply in_map_iff in Hx as ([l s] & <- & Hl).
        apply elem_of_list_In, elem_of_map_to_list in Hl. apply elem_of_list_In, in_stale_keys in Hk. exists (CSt l). cbn. rewrite Hl. exact Hk.
      + apply elem_of_list_In, in_concat in H as (x & Hx & Hk). apply in_map_iff in Hx as (d & <- & Hl).
        apply in_concat in Hl as (y & Hy & Hd). apply in_map_iff in Hy as ([l m] & <- & Hm). apply in_map_iff in Hd as ([p d'] & <- & Hd).
        apply elem_of_list_In, elem_of_map_to_list in Hm. apply elem_of_list_In, elem_of_map_to_list in Hd.
        apply elem_of_list_In, in_stale_keys in Hk. exists (CDy l p). cbn. unfold g_dlayer. rewrite Hm. cbn in Hd. rewrite Hd. exact Hk.
      + exists CIn. apply in_stale_keys, H.
      + exists CDin. apply in_stale_keys, H. }
  assert (Hid : forall ks, (forall k, k ∈ ks -> k = edge_key (fst k) (snd k)) -> map (fun k : EdgeKey => edge_key (fst k) (snd k)) ks = ks).
  { intros ks H. induction ks as [|k r IH]; [reflexivity|]. cbn. rewrite IH by (intros; apply H; right; assumption). f_equal. symmetry. apply H. left. }
  assert (Hnk : forall k, k ∈ k1 ++ k2 ++ k3 ++ k4 -> k = edge_key (fst k) (snd k)).
  { intros k Hk. rewrite !elem_of_app in Hk. destruct Hk as [H|[H|[H|H]]].
    - apply elem_of_list_In, in_concat in H as (x & Hx & Hk). apply in_map_iff in Hx as ([l s] & <- & Hl).
      apply elem_of_list_In, elem_of_map_to_list in Hl. apply elem_of_list_In, in_stale_keys in Hk. apply (Hnorm (CSt l)). cbn. rewrite Hl. exact Hk.
    - apply elem_of_list_In, in_concat in H as (x & Hx & Hk). apply in_map_iff in Hx as (d & <- & Hl).
      apply in_concat in Hl as (y & Hy & Hd). apply in_map_iff in Hy as ([l m] & <- & Hm). apply in_map_iff in Hd as ([p d'] & <- & Hd).
      apply elem_of_list_In, elem_of_map_to_list in Hm. apply elem_of_list_In, elem_of_map_to_list in Hd.
      apply elem_of_list_In, in_stale_keys in Hk. apply (Hnorm (CDy l p)). cbn. unfold g_dlayer. rewrite Hm. cbn in Hd. rewrite Hd. exact Hk.
    - apply in_stale_keys in H. apply (Hnorm CIn), H.
    - apply in_stale_keys in H. apply (Hnorm CDin), H. }
  intros u v. specialize (He1 u v). specialize (He2 u v). specialize (He3 u v). specialize (He4 u v).
  rewrite Hid in He1 by (intros; apply Hnk; rewrite !elem_of_app; auto).
  rewrite Hid in He2 by (intros; apply Hnk; rewrite !elem_of_app; auto).
  rewrite Hid in He3 by (intros; apply Hnk; rewrite !elem_of_app; auto).
  rewrite Hid in He4 by (intros; apply Hnk; rewrite !elem_of_app; auto).
  split; [rewrite Hall; destruct (decide (edge_key u v ∈ k1 ++ k2 ++ k3 ++ k4)); auto|].
  rewrite Hall, !elem_of_app. rewrite He4, He3, He2, He1. clear -k1.
  split; intros H; repeat (destruct (decide _)); try reflexivity; tauto.
Qed.

(** Flags are set only by marking, on existing edges, so only for ordered pairs. *)
Lemma run_flag_norm os : forall g, Forall (fun o => o <> GMarkStale) os ->
  (forall c k, g_stale g c !! k = Some true -> k = edge_key (fst k) (snd k)) ->
  forall outs g', g_run g os = Some (outs, g') -> forall c k, g_stale g' c !! k = Some true -> k = edge_key (fst k) (snd k).
Proof.
  induction os as [|o r IH]; intros g Hm Hf outs g'; cbn; [intros [= _ <-]; exact Hf|].
  inversion Hm as [|? ? Hm1 Hm2]; subst. pose proof (step_SR g o Hm1) as HS.
  destruct (g_step g o) as [[b g1]| |]; cbn in *; [| |discriminate].
  - destruct (g_run g1 r) as [[bs g2]|] eqn:E; [|discriminate]. intros [= _ <-]. eapply (IH g1); [exact Hm2| |exact E].
    intros c k Hc. destruct (HS c k) as [H|[_ H]]; [|contradiction]. apply (Hf c k). exact (eq_trans (eq_sym H) Hc).
  - destruct (g_run g r) as [[bs g2]|] eqn:E; [|discriminate]. intros [= _ <-]. eapply IH; [exact Hm2|exact Hf|exact E].
Qed.
Lemma mark_flag_norm g a : Rep g a -> forall c k, g_stale (g_mark_stale g) c !! k = Some true -> k = edge_key (fst k) (snd k).
Proof.
  intros HR c k. rewrite g_stale_cont, mark_cont. destruct (g_cont g c) as [e|] eqn:Ec; cbn; [|rewrite lookup_empty; discriminate].
  rewrite lookup_fmap. destruct (ec_edges e !! k) as [x|] eqn:Ex; [|discriminate]. intros _.
  destruct (cont_edge g a c e _ _ HR Ec Ex) as (-> & _). symmetry. apply edge_key_norm.
Qed.

Theorem stale_sweep g os outs g1 : reachable g -> allowed_run (g_mark_stale g) os ->
  Forall (fun o => o <> GMarkStale) os -> g_run (g_mark_stale g) os = Some (outs, g1) ->
  exists g2, g_remove_all_stale g1 = Ok g2 /\ reachable g2 /\ same_nodes g1 g2 /\
  forall u v,
    (edge_at g2 u v = None \/ edge_at g2 u v = edge_at g1 u v) /\
    (~ adjacent g u v -> edge_at g2 u v = edge_at g1 u v) /\
    (always_adjacent (g_mark_stale g) os u v ->
       ((exists o, In o os /\ looks_up o u v) -> edge_at g2 u v = edge_at g1 u v /\ edge_at g2 u v <> None) /\
       (~ (exists o, In o os /\ looks_up o u v) -> edge_at g2 u v = None)).
Proof.
  intros Hr Ha Hm Hrun. destruct (reachable_step g GMarkStale Hr I) as (a & [HR _] & _ & [HR0 _] & Hr0). cbn in HR0, Hr0.
  pose proof (run_reachable _ _ _ _ Hr0 Ha Hrun) as Hr1.
  destruct (sweep_ok g1 Hr1 (run_flag_norm _ _ Hm (mark_flag_norm g a HR) _ _ Hrun)) as (g2 & Hg2 & Hr2 & Hn & He).
  exists g2. split; [exact Hg2|]. split; [exact Hr2|]. split; [exact Hn|]. intros u v. destruct (He u v) as (Hdec & He1 & He2).
  split; [destruct Hdec; auto|]. split.
  - intros Hna. apply He2. eapply run_no_flag; [exact Hm| |exact Hrun]. intros [c Hc]. apply (mark_flag g a c u v HR) in Hc as [Hc _].
    apply Hna, (obs_adjacent g a HR), Hc.
  - intros Hal.
    assert (Had : adjacent (g_mark_stale g) u v) by (destruct os; apply Hal).
    apply (obs_adjacent _ _ HR0) in Had. destruct (cont_linked g a u v HR Had) as (c & e & Hc & _ & _).
    assert (Hfl : flagged (g_mark_stale g) u v) by (exists c; apply (mark_flag g a c u v HR); auto).
    pose proof (run_flag os _ u v c Hr0 Ha Hm Hal) as HF.
    assert (Hc0 : cont (g_mark_stale g) u v = Some c) by exact Hc.
    specialize (HF Hc0). assert (Hone : forall c', g_stale (g_mark_stale g) c' !! edge_key u v = Some true -> c' = c).
    { intros c' H. apply (mark_flag g a c' u v HR) in H as [_ H]. congruence. }
    specialize (HF Hone _ _ Hrun). split.
    + intros (o & Ho & Hl). assert (Hnf : ~ flagged g1 u v).
      { intros H. apply HF in H as [_ H]. rewrite List.Forall_forall in H. exact (H o Ho Hl). }
      rewrite (He2 Hnf). split; [reflexivity|].
      assert (Hend : adjacent g1 u v).
      { clear -Hal Hrun. revert outs g1 Hal Hrun. generalize (g_mark_stale g). induction os as [|o r IH]; intros g0 outs g1; cbn.
        - intros [H _] [= _ <-]. exact H.
        - intros [_ H]. destruct (g_step g0 o) as [[b g2]| |]; cbn in *; [| |discriminate].
          + destruct (g_run g2 r) as [[bs g3]|] eqn:E; [|discriminate]. intros [= _ <-]. eapply IH; eassumption.
          + destruct (g_run g0 r) as [[bs g3]|] eqn:E; [|discriminate]. intros [= _ <-]. eapply IH; eassumption. }
      destruct (reachable_RepL g1 Hr1) as [a1 [HR1 _]]. apply (obs_adjacent _ _ HR1) in Hend. rewrite (obs_edge _ _ HR1).
      destruct Hend as [? ->]. discriminate.
    + intros Hno. apply He1, HF. split; [exact Hfl|]. apply List.Forall_forall. intros o Ho Hl. apply Hno. eauto.
Qed.
