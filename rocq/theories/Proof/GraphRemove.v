(** Simulation of removeNode. *)
From Coq Require Import NArith ZArith Bool List Lia.
From stdpp Require Import base list gmap fin_maps tactics.
From Verif.Model Require Import Types Mesh Attrs Node EdgeContainer SLayer DLayer Graph.
From Verif.Spec Require Import AbstractGraph GraphHistory.
From Verif.Proof Require Import Arith Keys SLayerP SLayerMerge DLayerP DLayerOps GraphRep GraphEdges GraphAttrs GraphNodes.
Local Open Scope N_scope.

Lemma lookup_edges_without n m k : edges_without n m !! k = if decide (key_touches n k) then None else m !! k.
Proof. exact (lookup_drop_edges n m k). Qed.

Lemma Rep_drop_node g g' a x k L L' :
  Rep g a -> g_lookup g !! x = Some k -> g_part g k = Some L ->
  (forall v, a_linked a x v -> g_lookup g !! v = Some k) ->
  part_set k L' g g' -> sl_id L' = sl_id L ->
  (forall y, sl_nodes L' !! y = if decide (y = x) then None else del_sib x <$> sl_nodes L !! y) ->
  ec_edges (sl_edges L') = edges_without x (ec_edges (sl_edges L)) -> sl_wf L' ->
  g_lookup g' = delete x (g_lookup g) ->
  (forall l, is_Some (g_layers g' !! l) <-> is_Some (g_layers g !! l)) ->
  (forall l p, dinfo g' l p = dinfo g l p) -> DInv g' -> (forall dyn, g_ec g' dyn = g_ec g dyn) ->
  Rep g' (mkAG (ag_layers a) (ag_dyn a) (delete x (ag_nodes a)) (edges_without x (ag_edges a))).
Proof.
  intros HR Hx HL Hin HP Hid Hnodes Hedges Hwf Hlk Hlay Hdi HD HE.
  pose proof (rp_canon _ _ HR _ _ Hx) as Hk. destruct (rp_part _ _ HR _ _ Hk HL) as (Hwf0 & Hid0 & Hun).
  split; cbn.
  - intros l. rewrite Hlay. apply HR.
  - intros l p. rewrite Hdi. apply HR.
  - exact HD.
  - intros k0 L0 Hk0. rewrite (HP k0 Hk0). destruct (decide (k0 = k)) as [->|].
    + intros [= <-]. split; [assumption|]. rewrite Hid. auto.
    + apply HR. assumption.
  - intros y. unfold a_key; cbn. rewrite Hlk. destruct (decide (x = y)) as [<-|Hne].
    + rewrite !lookup_delete. reflexivity.
    + rewrite !lookup_delete_ne by assumption. apply HR.
  - intros y k0. rewrite Hlk, lookup_delete_Some. intros [_ H]. eapply HR; eassumption.
  - intros y k0 Hk0. rewrite (HP k0 Hk0), Hlk. destruct (decide (y = x)) as [->|Hne].
    + rewrite lookup_delete. split; [discriminate|]. intros (L0 & HL0 & Hs). exfalso.
      destruct (decide (k0 = k)) as [->|Hne].
      * injection HL0 as <-. rewrite Hnodes, decide_True in Hs by reflexivity. destruct Hs; discriminate.
      * assert (g_lookup g !! x = Some k0) by (apply (rp_home _ _ HR _ _ Hk0); eauto). congruence.
    + rewrite lookup_delete_ne by congruence. rewrite (rp_home _ _ HR _ _ Hk0). destruct (decide (k0 = k)) as [->|].
      * rewrite HL. split; intros (L0 & [= <-] & Hs); eexists; (split; [reflexivity|]).
        -- rewrite Hnodes, decide_False by assumption. apply is_Some_fmap_iff. exact Hs.
        -- rewrite Hnodes, decide_False in Hs by assumption. apply is_Some_fmap_iff in Hs. exact Hs.
      * reflexivity.
  - intros y k0 L0 n0 Hk0. rewrite (HP k0 Hk0). destruct (decide (k0 = k)) as [->|Hne].
    + intros [= <-]. rewrite Hnodes. destruct (decide (y = x)) as [->|Hyx]; [discriminate|].
      rewrite fmap_Some. intros (n & Hn & ->). destruct (rp_node _ _ HR _ _ _ _ Hk HL Hn) as [Habs Hlinks].
      assert (Hy : g_lookup g !! y = Some k) by (apply (rp_home _ _ HR _ _ Hk); eauto).
      split; cbn.
      * rewrite lookup_delete_ne by congruence. exact Habs.
      * intros r v. change (del_sib x n) with (del_link RSib x n). rewrite elem_del_link, Hlinks. unfold a_linked; cbn.
        rewrite lookup_edges_without, Hlk. split.
        -- intros (Hnot & Hl & kv & Hkv & Hr). assert (Hvx : v <> x).
           { intros ->. apply Hnot. split; [|reflexivity]. assert (kv = k) as -> by congruence. rewrite rel_refl in Hr. assumption. }
           split.
           ++ rewrite decide_False; [exact Hl|]. intros Ht. apply (touches_edge_key x y v) in Ht as [?|?]; congruence.
           ++ exists kv. rewrite lookup_delete_ne by congruence. auto.
        -- intros (Hl & kv & Hkv & Hr). apply lookup_delete_Some in Hkv as [Hvx Hkv].
           split; [intros [_ ?]; congruence|]. split; [|eauto].
           destruct (decide _); [destruct Hl; discriminate|exact Hl].
    + intros HL0 Hn0. destruct (rp_node _ _ HR _ _ _ _ Hk0 HL0 Hn0) as [Habs Hlinks].
      assert (Hy : g_lookup g !! y = Some k0) by (apply (rp_home _ _ HR _ _ Hk0); eauto).
      assert (Hyx : y <> x) by congruence.
      split; cbn.
      * rewrite lookup_delete_ne by congruence. exact Habs.
      * intros r v. rewrite Hlinks. unfold a_linked; cbn. rewrite lookup_edges_without, Hlk. split.
        -- intros (Hl & kv & Hkv & Hr). assert (Hvx : v <> x).
           { intros ->. apply a_linked_comm, Hin in Hl. congruence. }
           split.
           ++ rewrite decide_False; [exact Hl|]. intros Ht. apply (touches_edge_key x y v) in Ht as [?|?]; congruence.
           ++ exists kv. rewrite lookup_delete_ne by congruence. auto.
        -- intros (Hl & kv & Hkv & Hr). apply lookup_delete_Some in Hkv as [Hvx Hkv]. split; [|eauto].
           destruct (decide _); [destruct Hl; discriminate|exact Hl].
  - intros k0 e. rewrite lookup_edges_without. destruct (decide _); [discriminate|]. apply HR.
  - intros u v. rewrite lookup_edges_without, (rp_edge _ _ HR). unfold g_edge_at. rewrite Hlk.
    destruct (decide (key_touches x (edge_key u v))) as [Ht|Ht].
    + apply (touches_edge_key x u v) in Ht as [<-|<-]; rewrite lookup_delete; [reflexivity|].
      destruct (delete x (g_lookup g) !! u); reflexivity.
    + assert (u <> x /\ v <> x) as [Hu Hv].
      { split; intros ->; apply Ht, (touches_edge_key x _ _); auto. }
      rewrite !lookup_delete_ne by congruence.
      destruct (g_lookup g !! u) as [ku|] eqn:Eu; [|reflexivity]. destruct (g_lookup g !! v) as [kv|] eqn:Ev; [|reflexivity].
      destruct (decide (ku = kv)) as [->|].
      * rewrite (HP kv (rp_canon _ _ HR _ _ Ev)). destruct (decide (kv = k)) as [->|]; [|reflexivity].
        rewrite HL, Hedges, lookup_edges_without, decide_False by assumption. reflexivity.
      * rewrite HE. reflexivity.
  - intros dyn. rewrite HE. apply HR.
  - intros dyn k0 e. rewrite HE. intros He. destruct (rp_inter _ _ HR _ _ _ He) as (ku & kv & Hu & Hv & Hne & Hpd).
    pose proof (ecw_key _ (rp_ec _ _ HR dyn) _ _ He) as Hkey.
    assert (Hl : a_linked a (e_src e) (e_tgt e)).
    { unfold a_linked. rewrite (Rep_pair_edge g a _ _ ku kv HR Hu Hv Hne), Hpd, <- Hkey. eauto. }
    assert (e_src e <> x) by (intros Heq; rewrite Heq in *; apply Hin in Hl; congruence).
    assert (e_tgt e <> x) by (intros Heq; rewrite Heq in *; apply a_linked_comm, Hin in Hl; congruence).
    exists ku, kv. rewrite Hlk. rewrite !lookup_delete_ne by congruence. auto.
Qed.

(** Removing inter-layer edges one by one. *)
Lemma remove_inter_loop ts x k : forall g a, Rep g a -> g_lookup g !! x = Some k -> NoDup ts ->
  (forall t, t ∈ ts -> a_linked a x t /\ exists kt, g_lookup g !! t = Some kt /\ kt <> k) ->
  exists g', rfold (fun g t => g_remove_interlayer g x t) ts g = Ok g' /\ g_frame g g' /\
    Rep g' (a_with_edges a (del_edges x ts (ag_edges a))).
Proof.
  induction ts as [|t r IH]; intros g a HR Hx Hnd Hts; cbn.
  - exists g. split; [reflexivity|]. split; [apply g_frame_refl|]. destruct a; exact HR.
  - apply list.NoDup_cons in Hnd as [Hnin Hnd].
    destruct (Hts t) as (Hl & kt & Hkt & Hne); [left|].
    unfold g_remove_interlayer at 1. rewrite Hx, Hkt. cbn [at_ rbind].
    destruct (remove_interlayer_keys_ok g a x t k kt HR Hx Hkt) as (g1 & -> & HF1 & HR1); [congruence|assumption|]. cbn [rbind].
    destruct (IH g1 _ HR1) as (g2 & Hg2 & HF2 & HR2); [rewrite (gf_lookup _ _ HF1); assumption|assumption| |].
    + intros v Hv. destruct (Hts v) as (Hlv & kv & Hkv & Hnev); [right; assumption|].
      rewrite (gf_lookup _ _ HF1). split; [|eauto]. unfold a_linked; cbn. apply is_Some_delete. split; [|exact Hlv].
      rewrite edge_key_eq_l. intros ->. contradiction.
    + exists g2. split; [exact Hg2|]. split; [eapply g_frame_trans; eassumption|]. exact HR2.
Qed.

(** Dropping the removed edges again is the same as dropping all of them. *)
Lemma edges_without_del x ts m : edges_without x (del_edges x ts m) = edges_without x m.
Proof.
  apply map_eq. intros k. rewrite !lookup_edges_without. destruct (decide _) as [|Hn]; [reflexivity|].
  rewrite lookup_del_edges, decide_False; [reflexivity|]. intros He. apply list.Exists_exists in He as (t & _ & ->).
  apply Hn, (touches_edge_key x x t). auto.
Qed.

(** The chain repair. *)
Lemma chain_step g a x k L n : Rep g a -> g_lookup g !! x = Some k -> lk_dynamic k = true ->
  g_part g k = Some L -> sl_nodes L !! x = Some n ->
  exists b L1 g1, chain_repair L x n = Ok (b, L1) /\ sl_id L1 = sl_id L /\
    part_set k L1 g g1 /\ g_frame g g1 /\ DInv g1 /\ (forall dyn, g_ec g1 dyn = g_ec g dyn) /\ Rep g1 (a_chain a x).
Proof.
  intros HR Hx Hdyn HL Hn. pose proof (rp_canon _ _ HR _ _ Hx) as Hk.
  pose proof (Rep_id_small g a x k HR Hx Hdyn) as Hsm.
  assert (Hin : forall v, g_lookup g !! v = Some k <-> is_Some (sl_nodes L !! v)).
  { intros v. rewrite (rp_home _ _ HR _ _ Hk), HL. split; [intros (? & [= <-] & ?); assumption|eauto]. }
  pose proof (rp_node _ _ HR _ _ _ _ Hk HL Hn) as Hok.
  assert (Hsib : forall v, g_lookup g !! v = Some k -> (v ∈ n_sib n <-> a_linked a x v)).
  { intros v Hv. rewrite (no_links _ _ _ _ _ Hok RSib v : v ∈ n_sib n <-> _). split; [tauto|]. intros Hl. split; [assumption|].
    exists k. split; [assumption|apply rel_refl]. }
  unfold chain_repair, a_chain. rewrite <- !(rp_lookup _ _ HR), Hx.
  change (chain_prev x) with (id_prev x). change (chain_next x) with (id_next x).
  assert (Hself : exists g1, part_set k L g g1 /\ g_frame g g1 /\ DInv g1 /\ (forall dyn, g_ec g1 dyn = g_ec g dyn) /\ Rep g1 a).
  { exists g. split; [|split; [apply g_frame_refl|split; [apply HR|split; [reflexivity|assumption]]]].
    intros k' Hk'. destruct (decide (k' = k)) as [->|]; auto. }
  assert (Hcond : (is_Some (sl_nodes L !! id_prev x) /\ id_prev x ∈ n_sib n /\
                   is_Some (sl_nodes L !! id_next x) /\ id_next x ∈ n_sib n) <->
                  (lk_dynamic k = true /\ g_lookup g !! id_prev x = Some k /\ g_lookup g !! id_next x = Some k /\
                   a_linked a x (id_prev x) /\ a_linked a x (id_next x))).
  { rewrite <- (Hin (id_prev x)), <- (Hin (id_next x)). split.
    - intros (Hp & Hp' & Hq & Hq'). apply (Hsib _ Hp) in Hp'. apply (Hsib _ Hq) in Hq'. tauto.
    - intros (_ & Hp & Hq & Hp' & Hq'). apply (Hsib _ Hp) in Hp'. apply (Hsib _ Hq) in Hq'. tauto. }
  destruct (decide (lk_dynamic k = true /\ g_lookup g !! id_prev x = Some k /\ g_lookup g !! id_next x = Some k /\
                   a_linked a x (id_prev x) /\ a_linked a x (id_next x))) as [Hl|Hl].
  2:{ rewrite bool_decide_false by tauto. destruct Hself as (g1 & ? & ? & ? & ? & ?).
      exists false, L, g1. split; [reflexivity|]. split; [reflexivity|]. auto. }
  rewrite bool_decide_true by tauto. destruct Hl as (_ & Hp & Hq & Hlp & Hlq).
  destruct (g_layer_at_some g k L HL) as (b & Hb & HbL).
  destruct (bl_insert_sim g a k b (id_prev x) (id_next x) None HR Hp Hq Hb) as (r & l & b' & H1 & H2 & H3 & H4 & H5).
  rewrite HbL in H1. 
  destruct (g_put_layer_ok g k b b' (rp_dinv _ _ HR) Hk Hb H4) as (P1 & P2 & P3 & P4). rewrite H3 in P1.
  exists r, l, (g_put_layer g k b'). split; [assumption|].
  assert (Hsim : Rep (g_put_layer g k b') (snd (a_insert_edge a (id_prev x) (id_next x) None)) /\ sl_id l = sl_id L).
  { unfold a_insert_edge. destruct (decide (sl_can_insert L (id_prev x) (id_next x))) as [Hc|Hc].
    - rewrite (sl_insert_edge_ok _ _ _ _ Hc) in H1. injection H1 as <- <-. split; [|reflexivity].
      rewrite decide_True.
      + cbn [snd]. eapply (Rep_add_intra g _ a _ _ k L None); eassumption.
      + destruct Hc as (Hne & Hno & _). split; [assumption|]. split; [apply (Rep_known _ _ _ HR); eauto|].
        split; [apply (Rep_known _ _ _ HR); eauto|]. unfold a_linked. rewrite (Rep_part_edge g a k L _ _ HR Hk HL Hp Hq), Hno.
        intros [? ?]; discriminate.
    - rewrite (sl_insert_edge_noop _ _ _ _ Hc) in H1. injection H1 as <- <-. split; [|reflexivity].
      rewrite H5, (g_put_layer_same g k b Hk Hb) by reflexivity.
      rewrite decide_False; [assumption|]. intros (Hne & _ & _ & Hnl). apply Hc. split; [assumption|].
      split; [|split; apply Hin; assumption]. rewrite <- (Rep_part_edge g a k L _ _ HR Hk HL Hp Hq).
      apply eq_None_not_Some. exact Hnl. }
  destruct Hsim as [Hsim Hsid]. auto 10.
Qed.

Lemma forget_lookup x m y : forget x m !! y = if decide (y = x) then None else del_sib x <$> m !! y.
Proof.
  unfold forget. destruct (decide (y = x)) as [->|Hne].
  - apply lookup_delete.
  - rewrite lookup_delete_ne by congruence. apply lookup_fmap.
Qed.

(** Removing the node from its layer, when all its edges are inside the layer. *)
Lemma layer_remove_ok g a x k : Rep g a -> g_lookup g !! x = Some k ->
  (forall v, a_linked a x v -> g_lookup g !! v = Some k) ->
  exists b r b', g_layer_at g k = Ok b /\ bl_remove_node b x = Ok (r, b') /\
    Rep (g_with_lookup (g_put_layer g k b') (delete x (g_lookup (g_put_layer g k b'))))
      (mkAG (ag_layers a) (ag_dyn a) (delete x (ag_nodes a)) (edges_without x (ag_edges (a_chain a x)))).
Proof.
  intros HR Hx Hin. destruct (Rep_home _ _ _ _ HR Hx) as (Hk & _ & L & n & HL & Hn & Hwf & Hid & Hok).
  destruct (g_layer_at_some g k L HL) as (b & Hb & HbL). exists b.
  destruct (g_layer_at_inv g k b Hk Hb) as [_ Hkind]. destruct b as [l|d].
  - cbn in HbL. subst l. destruct Hkind as [Hst Hlay]. cbn in Hlay.
    destruct (sl_remove_node_ok L x n Hwf Hn) as (L' & E1 & E2 & E3 & E4 & E5 & _).
    cbn [bl_remove_node]. rewrite E1. cbn [rbind]. exists true, (BS L'). split; [assumption|]. split; [reflexivity|].
    assert (Hch : a_chain a x = a).
    { unfold a_chain. rewrite <- (rp_lookup _ _ HR), Hx. rewrite decide_False; [reflexivity|]. intros [? _]. congruence. }
    rewrite Hch. cbn [g_put_layer].
    assert (Hkey : k = key_static (lk_layer k)) by (destruct k; unfold canon in *; cbn in *; subst; rewrite Hk; reflexivity).
    eapply (Rep_drop_node g _ a x k L L' HR Hx HL Hin); try assumption; try reflexivity.
    + rewrite Hkey at 1. exact (g_part_set_layer g (lk_layer k) L').
    + intros y. rewrite E4. apply forget_lookup.
    + intros l0. cbn. destruct (decide (lk_layer k = l0)) as [<-|].
      * rewrite lookup_insert, Hlay. split; eauto.
      * rewrite lookup_insert_ne by assumption. reflexivity.
    + exact (rp_dinv _ _ HR).
  - cbn in HbL. destruct Hkind as [Hst Hd].
    destruct (rp_dinv _ _ HR _ _ _ Hd) as (Hc & Hi & Hp & Hsub). rewrite <- HbL in *.
    destruct (chain_step g a x k _ n HR Hx Hst HL Hn) as (r1 & L1 & g1 & C1 & C2 & C3 & C4 & C5 & C6 & C7).
    destruct (dl_remove_node_ok d x n (conj Hc Hwf) Hn) as (r0 & L0 & d' & t & D1 & D2 & D3 & D4 & D5 & D6 & D7 & D8 & D9 & _).
    rewrite C1 in D1. injection D1 as <- <-.
    cbn [bl_remove_node]. rewrite D2. cbn [rbind]. exists true, (BD d'). split; [assumption|]. split; [reflexivity|].
    assert (Hkey : k = key_dynamic (lk_layer k) (lk_prefix k)) by (destruct k; cbn in *; subst; reflexivity).
    assert (Hx1 : g_lookup g1 !! x = Some k) by (rewrite (gf_lookup _ _ C4); assumption).
    assert (HL1 : g_part g1 k = Some L1) by (rewrite (C3 k Hk); destruct (decide _); [reflexivity|contradiction]).
    cbn [g_put_layer].
    assert (Hab : ag_layers (a_chain a x) = ag_layers a /\ ag_dyn (a_chain a x) = ag_dyn a /\ ag_nodes (a_chain a x) = ag_nodes a).
    { unfold a_chain. destruct (a_key a x); [|auto]. destruct (decide _); [|auto]. unfold a_insert_edge. destruct (decide _); auto. }
    destruct Hab as (A1 & A2 & A3). rewrite <- A1, <- A2, <- A3.
    eapply (Rep_drop_node g1 _ (a_chain a x) x k L1 (dl_view d') C7 Hx1 HL1).
    + intros v Hl. rewrite (gf_lookup _ _ C4). revert Hl. unfold a_chain. rewrite <- (rp_lookup _ _ HR), Hx.
      destruct (decide _) as [Hcond|]; [|apply Hin]. unfold a_insert_edge. destruct (decide _); cbn [snd]; [|apply Hin].
      unfold a_linked at 1; cbn. rewrite is_Some_insert. intros [Heq|Hl]; [|apply Hin, Hl].
      pose proof (Rep_id_small g a x k HR Hx Hst) as Hsm.
      apply edge_key_inj in Heq as [[Heq _]|[_ Heq]]; exfalso.
      * exact (id_prev_ne x Hsm Heq).
      * exact (id_next_ne x Hsm Heq).
    + intros k' Hk'. change (g_part (g_with_lookup ?g0 ?l0) k') with (g_part g0 k').
      rewrite (C3 k' Hk'). rewrite (g_part_set_dlayer g (lk_layer k) (lk_prefix k) d' k' Hk'). rewrite <- Hkey.
      destruct (decide (k' = k)); reflexivity.
    + rewrite C2. cbn. assumption.
    + intros y. cbn [dl_view sl_nodes]. rewrite D4. apply forget_lookup.
    + cbn. exact D5.
    + apply D3.
    + cbn. rewrite (gf_lookup _ _ C4). reflexivity.
    + intros l0. cbn. symmetry. apply (gf_layers _ _ C4).
    + intros l0 p0. rewrite (gf_dinfo _ _ C4). unfold dinfo.
      change (g_dlayer (g_with_lookup ?g0 ?l1) l0 p0) with (g_dlayer g0 l0 p0). rewrite g_dlayer_set.
      destruct (decide _) as [[-> ->]|]; [|reflexivity]. rewrite Hd. cbn. rewrite D8, D9. reflexivity.
    + exact (DInv_set g (lk_layer k) (lk_prefix k) d' (rp_dinv _ _ HR) (proj1 D3) (eq_trans D6 Hi) (eq_trans D7 Hp) Hsub).
    + intros dyn. rewrite C6. destruct dyn; reflexivity.
Qed.

Lemma remove_node_sim g a x : Rep g a -> clean a (GRemoveNode x) ->
  sim a (g_remove_node g x) (ab (a_remove_node a x)).
Proof.
  intros HR Hclean. unfold g_remove_node, a_remove_node.
  destruct (g_lookup g !! x) as [k|] eqn:Hx.
  2:{ rewrite decide_False; [cbn; auto|]. intros H. apply (Rep_known _ _ _ HR) in H as [? ?]. congruence. }
  rewrite decide_True by (apply (Rep_known _ _ _ HR); eauto).
  destruct (Rep_node_ptr g a x k HR Hx) as (L & n & HL & Hn & -> & Hok). cbn [rbind deref].
  destruct (remove_inter_loop (elements (n_chd n)) x k g a HR Hx (NoDup_elements _)) as (g1 & -> & HF1 & HR1).
  { intros t Ht. apply elem_of_elements in Ht. apply (no_links _ _ _ _ _ Hok RChild t) in Ht as (Hl & kt & Hkt & Hr).
    split; [assumption|]. exists kt. split; [assumption|]. intros ->. rewrite rel_refl in Hr. discriminate. }
  cbn [rbind].
  assert (Hx1 : g_lookup g1 !! x = Some k) by (rewrite (gf_lookup _ _ HF1); assumption).
  destruct (Rep_node_ptr g1 _ x k HR1 Hx1) as (L1 & n1 & HL1 & Hn1 & -> & Hok1). cbn [rbind deref].
  destruct (remove_inter_loop (elements (n_par n1)) x k g1 _ HR1 Hx1 (NoDup_elements _)) as (g2 & -> & HF2 & HR2).
  { intros t Ht. apply elem_of_elements in Ht. apply (no_links _ _ _ _ _ Hok1 RParent t) in Ht as (Hl & kt & Hkt & Hr).
    split; [assumption|]. exists kt. split; [assumption|]. intros ->. rewrite rel_refl in Hr. discriminate. }
  cbn [rbind].
  assert (Hlk2 : g_lookup g2 = g_lookup g) by (rewrite (gf_lookup _ _ HF2); apply HF1).
  assert (Hx2 : g_lookup g2 !! x = Some k) by (rewrite Hlk2; assumption).
  cbn [ag_edges a_with_edges] in HR2.
  set (E1 := del_edges x (elements (n_chd n)) (ag_edges a)) in *.
  set (E2 := del_edges x (elements (n_par n1)) E1) in *.
  change (a_with_edges (a_with_edges a E1) E2) with (a_with_edges a E2) in HR2.
  (* an edge of x survives iff it stays in the partition of x *)
  assert (HE1 : forall v, is_Some (E1 !! edge_key x v) <-> is_Some (ag_edges a !! edge_key x v) /\ v ∉ n_chd n).
  { intros v. unfold E1. rewrite lookup_del_edges. destruct (decide _) as [He|He].
    - apply list.Exists_exists in He as (t & Ht & Heq). apply (proj1 (edge_key_eq_l x v t)) in Heq. subst t. apply elem_of_elements in Ht.
      split; [intros [? ?]; discriminate|tauto].
    - split; [|tauto]. intros Hs. split; [assumption|]. intros Hv. apply He, list.Exists_exists. exists v.
      split; [apply elem_of_elements; assumption|reflexivity]. }
  assert (HE2 : forall v, is_Some (E2 !! edge_key x v) <-> is_Some (ag_edges a !! edge_key x v) /\ g_lookup g !! v = Some k).
  { intros v. unfold E2. rewrite lookup_del_edges. destruct (decide _) as [He|He].
    - apply list.Exists_exists in He as (t & Ht & Heq). apply (proj1 (edge_key_eq_l x v t)) in Heq. subst t. apply elem_of_elements in Ht.
      apply (no_links _ _ _ _ _ Hok1 RParent v) in Ht as (_ & kt & Hkt & Hr). rewrite (gf_lookup _ _ HF1) in Hkt.
      split; [intros [? ?]; discriminate|]. intros [_ Hv]. assert (kt = k) as -> by congruence. rewrite rel_refl in Hr. discriminate.
    - rewrite HE1. split.
      + intros [Hl Hnc]. split; [exact Hl|].
        destruct (Rep_linked_known _ _ _ _ HR Hl) as (_ & kx & kv & _ & Hkv).
        destruct (rel k kv) eqn:Er.
        * exfalso. apply Hnc. apply (no_links _ _ _ _ _ Hok RChild v). eauto.
        * exfalso. apply He, list.Exists_exists. exists v. split; [|reflexivity]. apply elem_of_elements.
          apply (no_links _ _ _ _ _ Hok1 RParent v). rewrite (gf_lookup _ _ HF1). split; [|eauto]. apply HE1. auto.
        * rewrite Hkv. f_equal. eapply Hclean; try eassumption; rewrite <- (rp_lookup _ _ HR); assumption.
      + intros [Hl Hv]. split; [exact Hl|]. intros Hc.
        apply (no_links _ _ _ _ _ Hok RChild v) in Hc as (_ & kt & Hkt & Hr).
        assert (kt = k) as -> by congruence. rewrite rel_refl in Hr. discriminate. }
  assert (HEo : forall k0, ~ key_touches x k0 -> E2 !! k0 = ag_edges a !! k0).
  { intros k0 Hk0. unfold E2, E1. rewrite !lookup_del_edges.
    assert (Hno : forall ts, ~ Exists (fun t => k0 = edge_key x t) ts).
    { intros ts He. apply list.Exists_exists in He as (t & _ & ->). apply Hk0, (touches_edge_key x x t). auto. }
    rewrite !decide_False by apply Hno. reflexivity. }
  destruct (layer_remove_ok g2 (a_with_edges a E2) x k HR2 Hx2) as (b & r & b' & -> & Hrm & HR3).
  { intros v Hl. rewrite Hlk2. apply HE2. exact Hl. }
  cbn [rbind]. rewrite Hrm. cbn [rbind ab fst snd sim]. split; [reflexivity|].
  assert (Hch : ag_layers (a_chain a x) = ag_layers a /\ ag_dyn (a_chain a x) = ag_dyn a /\ ag_nodes (a_chain a x) = ag_nodes a).
  { unfold a_chain. destruct (a_key a x); [|auto]. destruct (decide _); [|auto]. unfold a_insert_edge. destruct (decide _); auto. }
  destruct Hch as (-> & -> & ->). cbn [ag_layers ag_dyn ag_nodes a_with_edges] in HR3.
  assert (Heq : edges_without x (ag_edges (a_chain (a_with_edges a E2) x)) = edges_without x (ag_edges (a_chain a x))).
  { assert (Hbase : forall m, (forall k0, ~ key_touches x k0 -> m !! k0 = ag_edges a !! k0) -> forall k0, edges_without x m !! k0 = edges_without x (ag_edges a) !! k0).
    { intros m Hm k0. rewrite !lookup_edges_without. destruct (decide _); [reflexivity|]. apply Hm. assumption. }
    unfold a_chain. change (a_key (a_with_edges a E2)) with (a_key a). rewrite <- !(rp_lookup _ _ HR), Hx.
    destruct (decide (lk_dynamic k = true /\ g_lookup g !! chain_prev x = Some k /\ g_lookup g !! chain_next x = Some k)) as [Hc|Hc].
    2:{ rewrite !decide_False by tauto. apply map_eq, Hbase, HEo. }
    destruct Hc as (Hd & Hpk & Hqk).
    assert (Hlp : forall v, g_lookup g !! v = Some k -> (a_linked (a_with_edges a E2) x v <-> a_linked a x v)).
    { intros v Hv. unfold a_linked; cbn. rewrite HE2. tauto. }
    destruct (decide (a_linked a x (chain_prev x) /\ a_linked a x (chain_next x))) as [Hll|Hll].
    2:{ rewrite (decide_False (P := _ /\ _ /\ _ /\ a_linked (a_with_edges a E2) _ _ /\ _)) by (rewrite (Hlp _ Hpk), (Hlp _ Hqk); tauto).
        rewrite decide_False by tauto. apply map_eq, Hbase, HEo. }
    rewrite (decide_True (P := _ /\ _ /\ _ /\ a_linked (a_with_edges a E2) _ _ /\ _)) by (rewrite (Hlp _ Hpk), (Hlp _ Hqk); tauto).
    rewrite decide_True by tauto.
    pose proof (Rep_id_small g a x k HR Hx Hd) as Hsm.
    pose proof (id_prev_ne x Hsm) as Np. pose proof (id_next_ne x Hsm) as Nq.
    change (chain_prev x) with (id_prev x) in *. change (chain_next x) with (id_next x) in *.
    assert (Hnt : ~ key_touches x (edge_key (id_prev x) (id_next x))).
    { intros Ht. apply (touches_edge_key x _ _) in Ht as [?|?]; congruence. }
    unfold a_insert_edge. change (a_known (a_with_edges a E2)) with (a_known a).
    assert (Hlpq : a_linked (a_with_edges a E2) (id_prev x) (id_next x) <-> a_linked a (id_prev x) (id_next x)).
    { unfold a_linked; cbn. rewrite HEo by assumption. reflexivity. }
    destruct (decide (id_prev x <> id_next x /\ a_known a (id_prev x) /\ a_known a (id_next x) /\ ~ a_linked a (id_prev x) (id_next x))) as [Hi|Hi].
    - rewrite decide_True by (rewrite Hlpq; assumption). cbn. apply map_eq. intros k0. rewrite !lookup_edges_without.
      destruct (decide _) as [|Hn0]; [reflexivity|]. destruct (decide (k0 = edge_key (id_prev x) (id_next x))) as [->|].
      + rewrite !lookup_insert. reflexivity.
      + rewrite !lookup_insert_ne by congruence. apply HEo. assumption.
    - rewrite decide_False by (rewrite Hlpq; assumption). cbn. apply map_eq, Hbase, HEo. }
  rewrite Heq in HR3. exact HR3.
Qed.
