(** The static layer refines the layer log. *)
From Coq Require Import NArith ZArith Bool List Lia.
From stdpp Require Import base list gmap fin_maps tactics.
From Verif.Model Require Import Types Mesh Attrs Node EdgeContainer SLayer.
From Verif.Spec Require Import EdgeLog LayerLog.
From Verif.Proof Require Import Keys EdgeLogP SLayerP SLayerMerge.
Local Open Scope N_scope.

#[local] Arguments edge_key : simpl never.

(** *** Neighbours in an edge map *)
Lemma elem_at_node n m k : k ∈ at_node n m <-> is_Some (m !! k) /\ touches n k.
Proof.
  unfold at_node, touches. rewrite elem_of_dom. split.
  - intros [e He]. apply map_filter_lookup_Some in He as [He Ht]. eauto.
  - intros [[e He] Ht]. exists e. apply map_filter_lookup_Some. auto.
Qed.

Lemma opposite_key n t : opposite n (edge_key n t) = t.
Proof. unfold opposite, edge_key; cbn. destruct (decide (N.min n t = n)); lia. Qed.

Lemma elem_nbrs n m v : em_wf m -> (v ∈ nbrs n m <-> is_Some (m !! edge_key n v)).
Proof.
  intros Hm. unfold nbrs. rewrite elem_of_map. split.
  - intros (k & -> & Hk). apply elem_at_node in Hk as [Hk Ht].
    destruct (em_touch m n k Hm Hk Ht) as (t & -> & _ & _). rewrite opposite_key. exact Hk.
  - intros Hv. exists (edge_key n v). rewrite opposite_key. split; [reflexivity|].
    apply elem_at_node. split; [assumption|]. apply touches_edge_key. auto.
Qed.

Lemma elem_movers from to m v : em_wf m ->
  (v ∈ movers from to m <-> is_Some (m !! edge_key from v) /\ v <> to /\ m !! edge_key to v = None).
Proof.
  intros Hm. unfold movers. rewrite elem_of_difference, elem_of_union, elem_of_singleton, !elem_nbrs by assumption.
  rewrite eq_None_not_Some. tauto.
Qed.

Lemma el_drop_edges n c : em_wf (el_edges c) -> el_edges (el_drop n c) = drop_edges n (el_edges c).
Proof.
  intros Hm. apply map_eq. intros k. rewrite lookup_drop_edges. cbn.
  destruct (decide (touches n k)) as [Ht|Ht].
  - apply map_filter_lookup_None. right. intros e He Hn. apply Hn. apply elem_at_node. eauto.
  - destruct (el_edges c !! k) as [e|] eqn:E.
    + apply map_filter_lookup_Some. split; [assumption|]. cbn. rewrite elem_at_node. tauto.
    + apply map_filter_lookup_None. auto.
Qed.

Lemma el_redirect_edges from to c : em_wf (el_edges c) -> from <> to ->
  el_edges (el_redirect from to c) = merge_edges from to (el_edges c).
Proof.
  intros Hm Hft. set (m := el_edges c) in *.
  unfold el_redirect. cbn [el_edges]. fold m.
  set (mv := omap _ _).
  assert (Hself : m !! edge_key from from = None) by (apply em_wf_self; assumption).
  assert (Hmv : forall k e, (k, e) ∈ mv <-> exists t e0, k = edge_key to t /\ e = mkEdge to t (e_info e0) /\
             m !! edge_key from t = Some e0 /\ t <> to /\ m !! edge_key to t = None).
  { intros k e. unfold mv. rewrite elem_of_list_omap. split.
    - intros (t & Hin & Hs). apply elem_of_elements, elem_movers in Hin as (Ha & Hb & Hc); [|assumption].
      apply fmap_Some in Hs as (e0 & He0 & Heq). inversion Heq; subst. eauto 10.
    - intros (t & e0 & -> & -> & He0 & Ht & Hn). exists t. rewrite He0. cbn. split; [|reflexivity].
      apply elem_of_elements, elem_movers; eauto. }
  assert (Hnd : NoDup mv.*1).
  { unfold mv. generalize (NoDup_elements (movers from to m)). generalize (elements (movers from to m)).
    intros ts Hts. induction Hts as [|t ts Hin Hts IH]; [constructor|].
    cbn. destruct (m !! edge_key from t) as [e0|]; cbn; [|exact IH].
    constructor; [|exact IH]. intros Hx. apply elem_of_list_fmap in Hx as ([k e] & Hk & Hx). cbn in Hk. subst k.
    apply elem_of_list_omap in Hx as (t' & Ht' & Hs).
    destruct (m !! edge_key from t'); [|discriminate]. cbn in Hs. injection Hs as Hs1 Hs2 _.
    assert (edge_key to t' = edge_key to t) as Heq by (unfold edge_key; congruence).
    apply edge_key_eq_l in Heq. subst. contradiction. }
  apply map_eq. intros k.
  assert (Hfilt : forall kk : EdgeKey, filter (fun kv : EdgeKey * Edge => kv.1 ∉ at_node from m) m !! kk = drop_edges from m !! kk).
  { intros kk. exact (f_equal (fun z => z !! kk) (el_drop_edges from c Hm)). }
  destruct ((list_to_map mv : gmap EdgeKey Edge) !! k) as [e|] eqn:E.
  - rewrite (lookup_union_Some_l _ _ _ _ E).
    apply elem_of_list_to_map in E; [|exact Hnd]. apply Hmv in E as (t & e0 & -> & -> & He0 & Ht & Hn).
    rewrite lookup_merge_edges_new; try assumption.
    + rewrite He0. reflexivity.
    + intros ->. congruence.
  - rewrite lookup_union_r by assumption. rewrite Hfilt, lookup_drop_edges.
    assert (HE : forall t e0, m !! edge_key from t = Some e0 -> t <> to -> m !! edge_key to t = None -> k <> edge_key to t).
    { intros t e0 H1 H2 H3 ->. apply not_elem_of_list_to_map in E. apply E. apply elem_of_list_fmap.
      exists (edge_key to t, mkEdge to t (e_info e0)). split; [reflexivity|]. apply Hmv. eauto 10. }
    destruct (decide (touches from k)) as [Htc|Htc].
    + rewrite lookup_merge_edges_touch by assumption. reflexivity.
    + destruct (m !! k) as [e|] eqn:Ek.
      * symmetry. apply lookup_merge_edges_keep; assumption.
      * destruct (decide (k = edge_key to (other_end to k) /\ other_end to k <> to /\ other_end to k <> from)) as [(Hk & H1 & H2)|Hbad].
        -- set (t := other_end to k) in *. rewrite Hk in Ek |- *. rewrite lookup_merge_edges_new by assumption.
           destruct (m !! edge_key from t) as [e0|] eqn:Ef; [|reflexivity]. exfalso. eapply HE; eassumption.
        -- symmetry. apply lookup_merge_edges_none; try assumption.
           intros t Ht1 Ht2 Hk. apply Hbad. rewrite Hk, other_end_key. auto.
Qed.

(** *** Statuses of the edges after the loops *)
Lemma sl_remove_loop_status n ts l l' :
  sl_wf l -> rfold (fun l t => let! (_, l') := sl_remove_edge l n t in Ok l') ts l = Ok l' ->
  (forall t, t ∈ ts -> is_Some (ec_edges (sl_edges l) !! edge_key n t) -> ec_status (sl_edges l') !! edge_key n t = Some EDeleted) /\
  (forall k, (forall t, t ∈ ts -> is_Some (ec_edges (sl_edges l) !! edge_key n t) -> k <> edge_key n t) ->
     ec_status (sl_edges l') !! k = ec_status (sl_edges l) !! k).
Proof.
  revert l. induction ts as [|t ts IH]; intros l Hwf H.
  - cbn in H. injection H as <-. split; [intros t Ht; inversion Ht|reflexivity].
  - cbn in H. destruct (ec_edges (sl_edges l) !! edge_key n t) as [e|] eqn:E.
    + rewrite sl_remove_edge_ok in H by eauto. cbn in H.
      assert (Hwf' : sl_wf (sl_removed l n t)) by (apply sl_wf_remove_edge; eauto).
      destruct (IH _ Hwf' H) as [H1 H2].
      assert (Hed : forall t', is_Some (ec_edges (sl_edges (sl_removed l n t)) !! edge_key n t') <->
                t' <> t /\ is_Some (ec_edges (sl_edges l) !! edge_key n t')).
      { intros t'. cbn. rewrite is_Some_delete, edge_key_eq_l. split; intros [? ?]; auto. }
      assert (Hdt : ec_status (sl_edges l') !! edge_key n t = Some EDeleted).
      { rewrite H2.
        - cbn. apply lookup_insert.
        - intros t' _ Hs Heq. apply edge_key_eq_l in Heq. apply Hed in Hs as [Hs _]. congruence. }
      split.
      * intros t' Ht' Hs. destruct (decide (t' = t)) as [->|Hne]; [exact Hdt|].
        apply elem_of_cons in Ht' as [->|Ht']; [contradiction|]. apply H1; [assumption|]. apply Hed. auto.
      * intros k Hk. rewrite H2.
        -- cbn. apply lookup_insert_ne. intros <-. eapply Hk; [left|eauto|reflexivity].
        -- intros t' Ht' Hs. apply Hed in Hs as [_ Hs]. apply Hk; [right; assumption|assumption].
    + rewrite sl_remove_edge_noop in H by assumption. cbn in H.
      destruct (IH _ Hwf H) as [H1 H2]. split.
      * intros t' Ht' Hs. apply elem_of_cons in Ht' as [->|Ht']; [rewrite E in Hs; destruct Hs; discriminate|auto].
      * intros k Hk. apply H2. intros t' Ht'. apply Hk. right. assumption.
Qed.

Lemma sl_merge_loop_status from to ts l l' (E : EdgeKey -> option Edge) :
  (forall k, E k = ec_edges (sl_edges l) !! k) ->
  sl_wf l -> from <> to -> is_Some (sl_nodes l !! from) -> is_Some (sl_nodes l !! to) ->
  rfold (fun l t => let! (_, l') := sl_rewire_edge l from t to t in Ok l') ts l = Ok l' ->
  (forall t, t ∈ ts -> is_Some (E (edge_key from t)) -> ec_status (sl_edges l') !! edge_key from t = Some EDeleted) /\
  (forall t, t ∈ ts -> is_Some (E (edge_key from t)) -> t <> to -> E (edge_key to t) = None ->
     ec_status (sl_edges l') !! edge_key to t = Some ENew) /\
  (forall k, (forall t, t ∈ ts -> is_Some (E (edge_key from t)) -> k <> edge_key from t /\
                (t <> to -> E (edge_key to t) = None -> k <> edge_key to t)) ->
     ec_status (sl_edges l') !! k = ec_status (sl_edges l) !! k).
Proof.
  intros HE Hwf Hft. revert l E HE Hwf. induction ts as [|t ts IH]; intros l E HE Hwf Hf Hto H.
  - cbn in H. injection H as <-. split; [intros t Ht; inversion Ht|]. split; [intros t Ht; inversion Ht|reflexivity].
  - cbn in H. destruct (ec_edges (sl_edges l) !! edge_key from t) as [e|] eqn:Ee.
    2: { rewrite sl_rewire_noop in H by auto. cbn in H.
      destruct (IH _ E HE Hwf Hf Hto H) as (H1 & H2 & H3). split; [|split].
      - intros t' Ht' Hs. apply elem_of_cons in Ht' as [->|Ht']; [rewrite HE, Ee in Hs; destruct Hs; discriminate|auto].
      - intros t' Ht' Hs. apply elem_of_cons in Ht' as [->|Ht']; [rewrite HE, Ee in Hs; destruct Hs; discriminate|auto].
      - intros k Hk. apply H3. intros t' Ht'. apply Hk. right. assumption. }
    destruct (sl_edge_key l from t Hwf ltac:(eauto)) as (Hfne & _ & Htn).
    destruct (decide (to = t \/ is_Some (ec_edges (sl_edges l) !! edge_key to t))) as [Hd|Hd].
    + rewrite sl_rewire_drop in H; eauto; [|intros [? _]; congruence]. cbn in H.
      assert (Hwf' : sl_wf (sl_removed l from t)) by (apply sl_wf_remove_edge; eauto).
      pose proof (sl_relinked_removed l from t Hwf ltac:(eauto)) as Hrel.
      assert (exists Er, forall k, Er k = ec_edges (sl_edges (sl_removed l from t)) !! k) as [Er HEr] by (eexists; reflexivity).
      destruct (IH _ Er HEr Hwf') as (H1 & H2 & H3);
        [apply (slr_dom _ _ Hrel), Hf|apply (slr_dom _ _ Hrel), Hto|exact H|].
      assert (Hed : forall k, Er k = if decide (k = edge_key from t) then None else E k).
      { intros k. rewrite HEr, HE. cbn. destruct (decide (k = edge_key from t)) as [->|Hne]; [apply lookup_delete|apply lookup_delete_ne; congruence]. }
      assert (Hst : forall k, ec_status (sl_edges (sl_removed l from t)) !! k = if decide (k = edge_key from t) then Some EDeleted else ec_status (sl_edges l) !! k).
      { intros k. cbn. destruct (decide (k = edge_key from t)) as [->|Hne]; [apply lookup_insert|apply lookup_insert_ne; congruence]. }
      assert (HsE : forall k, is_Some (Er k) -> is_Some (E k)).
      { intros k. rewrite Hed. destruct (decide _); [intros [? ?]; discriminate|auto]. }
      assert (HnE : forall t', t' <> t \/ t' = t -> E (edge_key to t') = None -> Er (edge_key to t') = None).
      { intros t' _ Hn. rewrite Hed. destruct (decide _); auto. }
      assert (HnE' : forall t', t' <> from -> Er (edge_key to t') = None -> E (edge_key to t') = None).
      { intros t' Hf' Hn. rewrite Hed in Hn. destruct (decide (edge_key to t' = edge_key from t)) as [Heq|]; [|exact Hn].
        apply edge_key_inj in Heq as [[? ?]|[? ?]]; congruence. }
      assert (Hnf : forall t', is_Some (Er (edge_key from t')) -> t' <> from).
      { intros t' Hs. apply HsE in Hs. rewrite HE in Hs. apply (sl_edge_key l from t' Hwf) in Hs as [Hs _]. congruence. }
      split; [|split].
      * intros t' Ht' Hs. destruct (decide (t' = t)) as [->|Hne].
        -- rewrite H3.
           ++ rewrite Hst. apply decide_True. reflexivity.
           ++ intros t'' _ Hs''. split.
              ** intros Heq. rewrite Heq in Hed. specialize (Hed (edge_key from t'')).
                 rewrite decide_True in Hed by reflexivity. rewrite Hed in Hs''. destruct Hs''; discriminate.
              ** intros Hne'' _ Heq. apply edge_key_inj in Heq as [[? ?]|[? ?]]; [congruence|].
                 subst t''. apply Hnf in Hs''. congruence.
        -- apply elem_of_cons in Ht' as [->|Ht']; [contradiction|].
           apply H1; [assumption|]. rewrite Hed. rewrite decide_False; [assumption|].
           rewrite edge_key_eq_l. congruence.
      * intros t' Ht' Hs Hto' Hn. apply elem_of_cons in Ht' as [->|Ht'].
        { destruct Hd as [?|Hd]; [congruence|]. rewrite HE in Hn. rewrite Hn in Hd. destruct Hd; discriminate. }
        destruct (decide (t' = t)) as [->|Hne].
        { destruct Hd as [?|Hd]; [congruence|]. rewrite HE in Hn. rewrite Hn in Hd. destruct Hd; discriminate. }
        apply H2; auto.
        rewrite Hed. rewrite decide_False; [assumption|]. rewrite edge_key_eq_l. congruence.
      * intros k Hk. rewrite H3.
        -- rewrite Hst. rewrite decide_False; [reflexivity|].
           destruct (Hk t) as [Hk' _]; [left|rewrite HE; eauto|exact Hk'].
        -- intros t' Ht' Hs. destruct (Hk t') as [Hk1 Hk2]; [right; assumption|apply HsE; assumption|].
           split; [assumption|]. intros Ha Hb. apply Hk2; [assumption|]. apply HnE'; [|assumption]. apply Hnf, Hs.
    + assert (Hnone : ec_edges (sl_edges l) !! edge_key to t = None).
      { apply eq_None_not_Some. tauto. }
      destruct (sl_rewire_move l from t to t e Hwf Ee Hto Htn) as (l1 & Hr & Hwf' & Hrel & Hed0 & Hst0); [tauto|assumption|].
      rewrite Hr in H. cbn in H.
      assert (exists Er, forall k, Er k = ec_edges (sl_edges l1) !! k) as [Er HEr] by (eexists; reflexivity).
      destruct (IH _ Er HEr Hwf') as (H1 & H2 & H3);
        [apply (slr_dom _ _ Hrel), Hf|apply (slr_dom _ _ Hrel), Hto|exact H|].
      assert (Hkne : edge_key to t <> edge_key from t) by (rewrite edge_key_eq_r; congruence).
      assert (Hed : forall k, Er k = if decide (k = edge_key to t) then Some (mkEdge to t (e_info e)) else if decide (k = edge_key from t) then None else E k).
      { intros k. rewrite HEr, HE, Hed0. destruct (decide (k = edge_key to t)) as [->|Hne]; [apply lookup_insert|].
        rewrite lookup_insert_ne by congruence.
        destruct (decide (k = edge_key from t)) as [->|Hne']; [apply lookup_delete|apply lookup_delete_ne; congruence]. }
      assert (Hst : forall k, ec_status (sl_edges l1) !! k = if decide (k = edge_key to t) then Some ENew else if decide (k = edge_key from t) then Some EDeleted else ec_status (sl_edges l) !! k).
      { intros k. rewrite Hst0. destruct (decide (k = edge_key to t)) as [->|Hne]; [apply lookup_insert|].
        rewrite lookup_insert_ne by congruence.
        destruct (decide (k = edge_key from t)) as [->|Hne']; [apply lookup_insert|apply lookup_insert_ne; congruence]. }
      assert (Hft' : forall t', is_Some (Er (edge_key from t')) -> t' <> from /\ t' <> t /\ is_Some (E (edge_key from t'))).
      { intros t' Hs. assert (t' <> from) by (rewrite HEr in Hs; apply (sl_edge_key l1 from t' Hwf') in Hs as [Hs _]; congruence).
        rewrite Hed in Hs.
        destruct (decide (edge_key from t' = edge_key to t)) as [Heq|].
        { apply edge_key_inj in Heq as [[? ?]|[? ?]]; congruence. }
        destruct (decide (edge_key from t' = edge_key from t)) as [|Hn]; [destruct Hs; discriminate|].
        rewrite edge_key_eq_l in Hn. auto. }
      assert (Hto' : forall t', t' <> t -> t' <> from -> Er (edge_key to t') = E (edge_key to t')).
      { intros t' Hx Hy. rewrite Hed. rewrite decide_False by (rewrite edge_key_eq_l; congruence).
        apply decide_False. intros Heq. apply edge_key_inj in Heq as [[? ?]|[? ?]]; congruence. }
      split; [|split].
      * intros t' Ht' Hs. destruct (decide (t' = t)) as [->|Hne].
        -- rewrite H3.
           ++ rewrite Hst. rewrite decide_False by congruence. apply decide_True. reflexivity.
           ++ intros t'' _ Hs''. apply Hft' in Hs'' as (Ha & Hb & Hc). split.
              ** rewrite edge_key_eq_l. congruence.
              ** intros _ _ Heq. apply edge_key_inj in Heq as [[? ?]|[? ?]]; congruence.
        -- apply elem_of_cons in Ht' as [->|Ht']; [contradiction|].
           apply H1; [assumption|]. rewrite Hed.
           assert (t' <> from) by (rewrite HE in Hs; apply (sl_edge_key l from t' Hwf) in Hs as [Hs _]; congruence).
           rewrite decide_False; [rewrite decide_False; [assumption|rewrite edge_key_eq_l; congruence]|].
           intros Heq. apply edge_key_inj in Heq as [[? ?]|[? ?]]; congruence.
      * intros t' Ht' Hs Hton Hn. destruct (decide (t' = t)) as [->|Hne].
        -- rewrite H3.
           ++ rewrite Hst. apply decide_True. reflexivity.
           ++ intros t'' _ Hs''. apply Hft' in Hs'' as (Ha & Hb & Hc). split.
              ** intros Heq. apply edge_key_inj in Heq as [[? ?]|[? ?]]; congruence.
              ** intros _ _. rewrite edge_key_eq_l. congruence.
        -- apply elem_of_cons in Ht' as [->|Ht']; [contradiction|].
           assert (t' <> from) by (rewrite HE in Hs; apply (sl_edge_key l from t' Hwf) in Hs as [Hs _]; congruence).
           apply H2; auto.
           ++ rewrite Hed.
              rewrite decide_False; [rewrite decide_False; [assumption|rewrite edge_key_eq_l; congruence]|].
              intros Heq. apply edge_key_inj in Heq as [[? ?]|[? ?]]; congruence.
           ++ rewrite Hto' by assumption. assumption.
      * intros k Hk. destruct (Hk t) as [Hk1 Hk2]; [left|rewrite HE; eauto|]. rewrite H3.
        -- rewrite Hst. rewrite decide_False by (apply Hk2; [intros ->; apply Hd; auto|rewrite HE; assumption]). apply decide_False. assumption.
        -- intros t' Ht' Hs. apply Hft' in Hs as (Ha & Hb & Hc).
           destruct (Hk t') as [Hk3 Hk4]; [right; assumption|assumption|]. split; [assumption|].
           intros Hx Hy. apply Hk4; [assumption|]. rewrite <- Hto' by assumption. exact Hy.
Qed.
