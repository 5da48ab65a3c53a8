(** Step-by-step refinement of the layer log by the static layer. *)
From Coq Require Import NArith ZArith Bool List Lia.
From stdpp Require Import base list gmap fin_maps tactics.
From Verif.Model Require Import Types Mesh Attrs Node EdgeContainer SLayer.
From Verif.Spec Require Import EdgeLog LayerLog.
From Verif.Proof Require Import Keys EdgeLogP SLayerP SLayerMerge LayerLogP.
Local Open Scope N_scope.

#[local] Arguments edge_key : simpl never.

Record LR (lid : LayerId) (l : SLayer) (c : LLog) : Prop := {
  lr_id : sl_id l = lid;
  lr_wf : sl_wf l;
  lr_closed : sl_closed l;
  lr_log : el_rep (sl_edges l) (ll_log c);
  lr_node : forall n, (fun nd => (n_time nd, n_attrs nd)) <$> sl_nodes l !! n = ll_nodes c !! n;
  lr_new : forall n, n ∈ ll_new c <-> sl_status l !! n = Some NNew;
  lr_del : forall n, n ∈ ll_del c <-> sl_status l !! n = Some NDeleted;
  lr_mrg : forall n, n ∈ ll_mrg c <-> sl_status l !! n = Some NMerged }.

Lemma LR_init lid : LR lid (sl_new lid) ll_init.
Proof.
  split; cbn; try reflexivity.
  - apply sl_wf_new.
  - apply sl_closed_new.
  - apply (el_rep_init ec_empty).
  - intros n. rewrite lookup_empty. split; [set_solver|discriminate].
  - intros n. rewrite lookup_empty. split; [set_solver|discriminate].
  - intros n. rewrite lookup_empty. split; [set_solver|discriminate].
Qed.

Lemma LR_reset lid l : sl_id l = lid -> LR lid (sl_reset l) ll_init.
Proof.
  intros Hid. split; cbn; try reflexivity; try exact Hid.
  - split; cbn; try apply ec_wf_reset; intros *; rewrite ?lookup_empty; try discriminate.
    split; [intros [? ?]; discriminate | intros (? & ? & _); discriminate].
  - intros u nu v. cbn. rewrite lookup_empty. discriminate.
  - apply (el_rep_init (sl_edges l)).
  - intros n. rewrite lookup_empty. split; [set_solver|discriminate].
  - intros n. rewrite lookup_empty. split; [set_solver|discriminate].
  - intros n. rewrite lookup_empty. split; [set_solver|discriminate].
Qed.

Section Step.
Context (lid : LayerId) (l : SLayer) (c : LLog) (HR : LR lid l c).

Lemma LR_edges : ec_edges (sl_edges l) = el_edges (ll_log c).
Proof. apply (er_edges _ _ (lr_log _ _ _ HR)). Qed.
Lemma LR_em : em_wf (el_edges (ll_log c)).
Proof. rewrite <- LR_edges. apply sl_em_wf, HR. Qed.

Lemma LR_has n : is_Some (sl_nodes l !! n) <-> n ∈ dom (ll_nodes c).
Proof. rewrite elem_of_dom, <- (lr_node _ _ _ HR), is_Some_fmap_iff. reflexivity. Qed.
Lemma LR_has_b n : sl_has_node l n = ll_has c n.
Proof. unfold sl_has_node, ll_has. apply bool_decide_ext, LR_has. Qed.
Lemma LR_has_true n : ll_has c n = true <-> is_Some (sl_nodes l !! n).
Proof. rewrite <- LR_has_b. apply sl_has_node_true. Qed.
Lemma LR_has_false n : ll_has c n = false <-> sl_nodes l !! n = None.
Proof. rewrite <- LR_has_b. apply sl_has_node_false. Qed.

Lemma LR_sib n nd : sl_nodes l !! n = Some nd -> n_sib nd = nbrs n (el_edges (ll_log c)).
Proof.
  intros Hn. apply set_eq. intros v. rewrite elem_nbrs by apply LR_em. rewrite <- LR_edges.
  split.
  - intros Hv. pose proof (lr_closed _ _ _ HR _ _ _ Hn Hv) as Hs.
    apply (slw_adj _ (lr_wf _ _ _ HR) _ _ _ Hn Hs). exact Hv.
  - intros He. destruct (sl_edge_key _ _ _ (lr_wf _ _ _ HR) He) as (_ & _ & Hs).
    apply (slw_adj _ (lr_wf _ _ _ HR) _ _ _ Hn Hs). exact He.
Qed.

Lemma LR_view n : node_view <$> sl_nodes l !! n = ll_view lid c n.
Proof.
  unfold ll_view. rewrite <- (lr_node _ _ _ HR). destruct (sl_nodes l !! n) as [nd|] eqn:E; [|reflexivity].
  cbn. unfold node_view. rewrite (LR_sib _ _ E). destruct (slw_node _ (lr_wf _ _ _ HR) _ _ E) as [_ ->].
  rewrite (lr_id _ _ _ HR). reflexivity.
Qed.

Lemma LR_status n : sl_check_node l n = ll_status c n.
Proof.
  unfold sl_check_node, ll_status.
  pose proof (slw_status _ (lr_wf _ _ _ HR) n) as Hst. rewrite LR_has in Hst.
  pose proof (lr_new _ _ _ HR n). pose proof (lr_del _ _ _ HR n). pose proof (lr_mrg _ _ _ HR n).
  pose proof (slw_status_ok _ (lr_wf _ _ _ HR) n) as Hok.
  destruct (sl_status l !! n) as [s|] eqn:E.
  - destruct s.
    + rewrite decide_True by tauto. reflexivity.
    + rewrite decide_False by (rewrite H; congruence).
      rewrite decide_True; [reflexivity|]. apply Hst. exists NVisible. split; [reflexivity|right; reflexivity].
    + rewrite decide_False by (rewrite H; congruence).
      rewrite decide_False. 2: { rewrite Hst. intros (s & [= <-] & [?|?]); discriminate. }
      rewrite decide_False by (rewrite H0; congruence). rewrite decide_True by tauto. reflexivity.
    + rewrite decide_False by (rewrite H; congruence).
      rewrite decide_False. 2: { rewrite Hst. intros (s & [= <-] & [?|?]); discriminate. }
      rewrite decide_True by tauto. reflexivity.
    + exfalso. apply (Hok _ eq_refl). reflexivity.
  - rewrite decide_False by (rewrite H; congruence).
    rewrite decide_False. 2: { rewrite Hst. intros (s & ? & _). discriminate. }
    rewrite decide_False by (rewrite H0; congruence). rewrite decide_False by (rewrite H1; congruence). reflexivity.
Qed.

Lemma LR_size : size (sl_nodes l) = size (ll_nodes c).
Proof.
  assert (Hm : ll_nodes c = (fun nd => (n_time nd, n_attrs nd)) <$> sl_nodes l).
  { apply map_eq. intros n. rewrite lookup_fmap. symmetry. apply (lr_node _ _ _ HR). }
  rewrite Hm, map_size_fmap. reflexivity.
Qed.

(** Changing only edges and links. *)
Lemma LR_relinked l' e :
  sl_wf l' -> sl_relinked l l' -> el_rep (sl_edges l') e -> LR lid l' (ll_with_log c e).
Proof.
  intros Hwf Hrel He. destruct Hrel as [R1 R2 R3 R4]. destruct HR as [A1 A2 A3 A4 A5 A6 A7 A8].
  split; cbn; rewrite ?R1, ?R2; auto.
  - intros u nu v Hu Hv. apply R3.
    assert (Hs : is_Some (sl_nodes l !! u)) by (apply R3; eauto). destruct Hs as [nd Hnd].
    destruct (R4 _ _ Hnd) as (nd' & Hnd' & _ & Hsib).
    destruct (sl_nodes l !! v) as [nv|] eqn:Ev; [eauto|].
    assert (nd' = nu) by congruence. subst nd'. apply Hsib in Hv; [|exact Ev].
    rewrite <- Ev. apply (A3 _ _ _ Hnd Hv).
  - intros n. rewrite <- A5. destruct (sl_nodes l !! n) as [nd|] eqn:E.
    + destruct (R4 _ _ E) as (nd' & -> & (_ & _ & E1 & E2 & _) & _). cbn. congruence.
    + assert (sl_nodes l' !! n = None) as ->; [|reflexivity].
      apply eq_None_not_Some. rewrite R3. apply eq_None_not_Some. exact E.
Qed.

Lemma LR_insert_edge s t i : sl_can_insert l s t ->
  LR lid (sl_inserted l s t i) (ll_with_log c (el_insert (ll_log c) s t (default ea_default i))).
Proof.
  intros H. apply LR_relinked.
  - apply sl_wf_insert_edge; [apply HR|assumption].
  - apply sl_relinked_inserted. assumption.
  - cbn. apply el_rep_insert, HR.
Qed.

Lemma LR_remove_edge s t : is_Some (ec_edges (sl_edges l) !! edge_key s t) ->
  LR lid (sl_removed l s t) (ll_with_log c (el_remove (ll_log c) (edge_key s t))).
Proof.
  intros H. apply LR_relinked.
  - apply sl_wf_remove_edge; [apply HR|assumption].
  - apply sl_relinked_removed; [apply HR|assumption].
  - cbn. apply el_rep_remove; [apply HR|apply edge_key_norm].
Qed.

Lemma LR_add n x nd st : sl_nodes l !! n = None -> n_id nd = n -> n_layer nd = lid -> n_sib nd = ∅ ->
  (n_time nd, n_attrs nd) = x -> st = <[n := NNew]> (sl_status l) ->
  LR lid (mkSL (sl_id l) (<[n := nd]> (sl_nodes l)) st (sl_edges l)) (ll_add c n x).
Proof.
  intros Hn Hid Hlay Hsib Hx ->. pose proof (lr_wf _ _ _ HR) as [W1 W2 W3 W4 W5 W6].
  pose proof (lr_closed _ _ _ HR) as HC. destruct HR as [A1 A2 A3 A4 A5 A6 A7 A8].
  assert (Hnoe : forall v, ec_edges (sl_edges l) !! edge_key n v = None).
  { intros v. apply eq_None_not_Some. intros He. apply (sl_edge_key _ _ _ A2) in He as (_ & He & _).
    rewrite Hn in He. destruct He; discriminate. }
  split; cbn; auto.
  - split; cbn.
    + intros id n0. rewrite lookup_insert_Some. intros [[<- <-]|[_ H]]; [split; congruence|auto].
    + exact W2.
    + intros k e He. destruct (W3 _ _ He) as (? & ? & ?). split; [assumption|].
      rewrite !lookup_insert_is_Some. split; [destruct (decide (n = e_src e)); auto|destruct (decide (n = e_tgt e)); auto].
    + intros u v nu. rewrite lookup_insert_Some. intros [[<- <-]|[Hu Hnu]] Hv.
      * rewrite Hsib, Hnoe. split; [set_solver|intros [? ?]; discriminate].
      * destruct (decide (n = v)) as [<-|Hv'].
        -- rewrite edge_key_comm, Hnoe. split; [|intros [? ?]; discriminate].
           intros Hin. apply (HC _ _ _ Hnu) in Hin. rewrite Hn in Hin. destruct Hin; discriminate.
        -- rewrite lookup_insert_ne in Hv by assumption. apply (W4 _ _ _ Hnu Hv).
    + intros id. destruct (decide (n = id)) as [<-|Hne].
      * rewrite !lookup_insert. split; [|eauto]. intros _. exists NNew. split; [reflexivity|left; reflexivity].
      * rewrite !lookup_insert_ne by assumption. apply W5.
    + intros id s. rewrite lookup_insert_Some. intros [[_ <-]|[_ H]]; [discriminate|eauto].
  - intros u nu v. cbn. rewrite lookup_insert_Some. intros [[<- <-]|[Hu Hnu]] Hv; [rewrite Hsib in Hv; set_solver|].
    rewrite lookup_insert_is_Some. destruct (decide (n = v)); [auto|]. right. split; [assumption|]. eapply HC; eassumption.
  - intros m. destruct (decide (n = m)) as [<-|Hne]; [rewrite !lookup_insert; cbn; congruence|].
    rewrite !lookup_insert_ne by assumption. apply A5.
  - intros m. rewrite elem_of_union, elem_of_singleton, A6. destruct (decide (n = m)) as [<-|Hne].
    + rewrite lookup_insert. tauto.
    + rewrite lookup_insert_ne by assumption. split; [intros [?|?]; [congruence|assumption]|auto].
  - intros m. rewrite elem_of_difference, elem_of_singleton, A7. destruct (decide (n = m)) as [<-|Hne].
    + rewrite lookup_insert. split; [tauto|discriminate].
    + rewrite lookup_insert_ne by assumption. split; [tauto|split; congruence].
  - intros m. rewrite elem_of_difference, elem_of_singleton, A8. destruct (decide (n = m)) as [<-|Hne].
    + rewrite lookup_insert. split; [tauto|discriminate].
    + rewrite lookup_insert_ne by assumption. split; [tauto|split; congruence].
Qed.

(** Changing only statuses, keeping exactly the present nodes live. *)
Lemma LR_restatus st nw dl mg :
  (forall n, is_Some (sl_nodes l !! n) <-> exists s, st !! n = Some s /\ n_live s) ->
  (forall n s, st !! n = Some s -> s <> NNonexistent) ->
  (forall n, n ∈ nw <-> st !! n = Some NNew) -> (forall n, n ∈ dl <-> st !! n = Some NDeleted) ->
  (forall n, n ∈ mg <-> st !! n = Some NMerged) ->
  LR lid (sl_with_status l st) (mkLL (ll_nodes c) (ll_log c) nw dl mg).
Proof.
  intros H1 H2 H3 H4 H5. destruct HR as [A1 A2 A3 A4 A5 A6 A7 A8].
  split; cbn; auto. destruct A2 as [W1 W2 W3 W4 W5 W6]. split; cbn; auto.
Qed.

Lemma LR_emplace_again n : is_Some (sl_nodes l !! n) ->
  LR lid (sl_with_status l (<[n := NNew]> (sl_status l)))
         (mkLL (ll_nodes c) (ll_log c) ({[n]} ∪ ll_new c) (ll_del c) (ll_mrg c)).
Proof.
  intros Hn. pose proof (lr_wf _ _ _ HR) as [W1 W2 W3 W4 W5 W6].
  assert (Hlive : exists s, sl_status l !! n = Some s /\ n_live s) by (apply W5, Hn).
  apply LR_restatus.
  - intros id. destruct (decide (n = id)) as [<-|Hne].
    + rewrite lookup_insert. split; [|auto]. intros _. exists NNew. split; [reflexivity|left; reflexivity].
    + rewrite lookup_insert_ne by assumption. apply W5.
  - intros id s. rewrite lookup_insert_Some. intros [[_ <-]|[_ H]]; [discriminate|eauto].
  - intros m. rewrite elem_of_union, elem_of_singleton, (lr_new _ _ _ HR). destruct (decide (n = m)) as [<-|Hne].
    + rewrite lookup_insert. tauto.
    + rewrite lookup_insert_ne by assumption. split; [intros [?|?]; [congruence|assumption]|auto].
  - intros m. rewrite (lr_del _ _ _ HR). destruct (decide (n = m)) as [<-|Hne].
    + rewrite lookup_insert. split; [|discriminate]. intros H. destruct Hlive as (s & Hs & [->| ->]); congruence.
    + rewrite lookup_insert_ne by assumption. reflexivity.
  - intros m. rewrite (lr_mrg _ _ _ HR). destruct (decide (n = m)) as [<-|Hne].
    + rewrite lookup_insert. split; [|discriminate]. intros H. destruct Hlive as (s & Hs & [->| ->]); congruence.
    + rewrite lookup_insert_ne by assumption. reflexivity.
Qed.

Lemma LR_set_attrs n nd a : sl_nodes l !! n = Some nd ->
  LR lid (sl_with_nodes l (<[n := set_attrs a nd]> (sl_nodes l)))
         (mkLL (alter (fun x => (fst x, a)) n (ll_nodes c)) (ll_log c) (ll_new c) (ll_del c) (ll_mrg c)).
Proof.
  intros Hn. destruct HR as [A1 A2 A3 A4 A5 A6 A7 A8]. destruct A2 as [W1 W2 W3 W4 W5 W6].
  assert (Hdom : forall x, is_Some (<[n := set_attrs a nd]> (sl_nodes l) !! x) <-> is_Some (sl_nodes l !! x)).
  { intros x. destruct (decide (n = x)) as [<-|Hne]; [rewrite lookup_insert, Hn; split; eauto|].
    rewrite lookup_insert_ne by assumption. reflexivity. }
  split; cbn; auto.
  - split; cbn; auto.
    + intros id n0. rewrite lookup_insert_Some. intros [[<- <-]|[_ H]]; [cbn|]; auto.
    + intros k e He. rewrite !Hdom. eauto.
    + intros u v nu Hu. rewrite Hdom. revert Hu. rewrite lookup_insert_Some. intros [[<- <-]|[_ H]]; cbn; eauto.
    + intros id. rewrite Hdom. apply W5.
  - intros u nu v. cbn. rewrite Hdom, lookup_insert_Some. intros [[<- <-]|[_ H]]; cbn; eauto.
  - intros m. destruct (decide (n = m)) as [<-|Hne].
    + rewrite lookup_insert, lookup_alter, <- A5, Hn. reflexivity.
    + rewrite lookup_insert_ne, lookup_alter_ne by assumption. apply A5.
Qed.

Lemma LR_remove_node n nd : sl_nodes l !! n = Some nd ->
  exists l', sl_remove_node l n = Ok (true, l') /\
    LR lid l' (mkLL (delete n (ll_nodes c)) (el_drop n (ll_log c)) (ll_new c ∖ {[n]}) ({[n]} ∪ ll_del c) (ll_mrg c)).
Proof.
  intros Hn. pose proof (lr_wf _ _ _ HR) as Hwf.
  destruct (sl_remove_node_ok l n nd Hwf Hn) as (l' & Hok & Hwf' & Hid & Hnodes & Hedges & Hst).
  exists l'. split; [exact Hok|].
  assert (Hlog : el_rep (sl_edges l') (el_drop n (ll_log c))).
  { unfold sl_remove_node in Hok. rewrite Hn in Hok.
    destruct (rfold _ _ _) as [l1| |] eqn:Ef; [|discriminate|discriminate]. cbn in Hok.
    apply (sl_remove_loop_status n _ l l1 Hwf) in Ef as [S1 S2].
    assert (Hec : sl_edges l' = sl_edges l1) by (injection Hok as <-; reflexivity).
    assert (HT : forall k, k ∈ at_node n (el_edges (ll_log c)) <-> exists t, t ∈ elements (n_sib nd) /\
                is_Some (ec_edges (sl_edges l) !! edge_key n t) /\ k = edge_key n t).
    { intros k. rewrite elem_at_node, <- LR_edges. split.
      - intros [Hk Ht]. destruct (em_touch _ n k (sl_em_wf _ Hwf) Hk Ht) as (t & -> & _). exists t.
        split; [|auto]. apply elem_of_elements. rewrite (LR_sib _ _ Hn), elem_nbrs by apply LR_em.
        rewrite <- LR_edges. exact Hk.
      - intros (t & _ & Hk & ->). split; [assumption|]. apply touches_edge_key. auto. }
    assert (Hin : forall k, k ∈ at_node n (el_edges (ll_log c)) -> ec_status (sl_edges l') !! k = Some EDeleted).
    { intros k Hk. apply HT in Hk as (t & Ht & Hk & ->). rewrite Hec. apply S1; assumption. }
    assert (Hout : forall k, k ∉ at_node n (el_edges (ll_log c)) -> ec_status (sl_edges l') !! k = ec_status (sl_edges l) !! k).
    { intros k Hk. rewrite Hec. apply S2. intros t Ht Hs ->. apply Hk, HT. eauto. }
    pose proof (lr_log _ _ _ HR) as [L1 L2 L3 L4].
    split.
    - apply Hwf'.
    - rewrite Hedges, el_drop_edges by apply LR_em. rewrite LR_edges. reflexivity.
    - intros k. cbn. rewrite elem_of_difference, L3. destruct (decide (k ∈ at_node n (el_edges (ll_log c)))) as [Hk|Hk].
      + rewrite (Hin _ Hk). split; [tauto|discriminate].
      + rewrite (Hout _ Hk). tauto.
    - intros k. cbn. rewrite elem_of_union, L4. destruct (decide (k ∈ at_node n (el_edges (ll_log c)))) as [Hk|Hk].
      + rewrite (Hin _ Hk). tauto.
      + rewrite (Hout _ Hk). tauto. }
  destruct HR as [A1 A2 A3 A4 A5 A6 A7 A8].
  assert (Hlk : forall x, sl_nodes l' !! x = if decide (x = n) then None else del_sib n <$> sl_nodes l !! x).
  { intros x. rewrite Hnodes. unfold forget. destruct (decide (x = n)) as [->|Hne]; [apply lookup_delete|].
    rewrite lookup_delete_ne by congruence. apply lookup_fmap. }
  split; cbn; auto.
  - congruence.
  - intros u nu v Hu Hv. rewrite Hlk in Hu. destruct (decide (u = n)); [discriminate|].
    apply fmap_Some in Hu as (n1 & Hn1 & ->). cbn in Hv. apply elem_of_difference in Hv as [Hv Hvn].
    rewrite elem_of_singleton in Hvn. rewrite Hlk. destruct (decide (v = n)); [contradiction|].
    apply is_Some_fmap_iff. eapply A3; eassumption.
  - intros x. rewrite Hlk. destruct (decide (x = n)) as [->|Hne]; [rewrite lookup_delete; reflexivity|].
    rewrite lookup_delete_ne by congruence. rewrite <- A5. destruct (sl_nodes l !! x); reflexivity.
  - intros m. rewrite Hst, elem_of_difference, elem_of_singleton, A6. destruct (decide (n = m)) as [<-|Hne].
    + rewrite lookup_insert. split; [tauto|discriminate].
    + rewrite lookup_insert_ne by assumption. split; [tauto|split; congruence].
  - intros m. rewrite Hst, elem_of_union, elem_of_singleton, A7. destruct (decide (n = m)) as [<-|Hne].
    + rewrite lookup_insert. tauto.
    + rewrite lookup_insert_ne by assumption. split; [intros [?|?]; [congruence|assumption]|auto].
  - intros m. rewrite Hst, A8. destruct (decide (n = m)) as [<-|Hne].
    + rewrite lookup_insert. split; [|discriminate]. intros Hm.
      assert (Hs : is_Some (sl_nodes l !! n)) by eauto. apply (slw_status _ A2) in Hs as (s & Hs & [->| ->]); congruence.
    + rewrite lookup_insert_ne by assumption. reflexivity.
Qed.

Lemma LR_merge_nodes f t nf : f <> t -> sl_nodes l !! f = Some nf -> is_Some (sl_nodes l !! t) ->
  exists l', sl_merge_nodes l f t = Ok (true, l') /\
    LR lid l' (mkLL (delete f (ll_nodes c)) (el_redirect f t (ll_log c)) (ll_new c ∖ {[f]}) (ll_del c) ({[f]} ∪ ll_mrg c)).
Proof.
  intros Hne Hf Ht. pose proof (lr_wf _ _ _ HR) as Hwf.
  destruct (sl_merge_nodes_ok l f t nf Hwf Hne Hf Ht) as (l' & Hok & Hwf' & Hid & Hst & Hedges & Hnone & Hdom & Hnd).
  exists l'. split; [exact Hok|].
  pose proof LR_em as Hem. pose proof LR_edges as Hed.
  assert (Hlog : el_rep (sl_edges l') (el_redirect f t (ll_log c))).
  { unfold sl_merge_nodes in Hok.
    rewrite (proj2 (sl_has_node_true l f)), (proj2 (sl_has_node_true l t)) in Hok by eauto. cbn in Hok.
    rewrite (proj2 (N.eqb_neq f t) Hne) in Hok. unfold at_ in Hok. rewrite Hf in Hok. cbn in Hok.
    destruct (rfold _ _ _) as [l1| |] eqn:Ef; [|discriminate|discriminate]. cbn in Hok.
    assert (HfS : is_Some (sl_nodes l !! f)) by eauto.
    apply (sl_merge_loop_status f t _ l l1 (fun k => ec_edges (sl_edges l) !! k) (fun _ => eq_refl) Hwf Hne HfS Ht) in Ef as (S1 & S2 & S3).
    assert (Hec : sl_edges l' = sl_edges l1) by (injection Hok as <-; reflexivity).
    assert (Hsib : forall v, v ∈ elements (n_sib nf) <-> is_Some (ec_edges (sl_edges l) !! edge_key f v)).
    { intros v. rewrite elem_of_elements, (LR_sib _ _ Hf), elem_nbrs by assumption. rewrite Hed. reflexivity. }
    set (T := at_node f (el_edges (ll_log c))). set (I := (set_map (edge_key t) (movers f t (el_edges (ll_log c))) : gset EdgeKey)).
    assert (HT : forall k, k ∈ T <-> exists v, is_Some (ec_edges (sl_edges l) !! edge_key f v) /\ k = edge_key f v).
    { intros k. unfold T. rewrite elem_at_node, <- Hed. split.
      - intros [Hk Htc]. destruct (em_touch _ f k (sl_em_wf _ Hwf) Hk Htc) as (v & -> & _). eauto.
      - intros (v & Hk & ->). split; [assumption|]. apply touches_edge_key. auto. }
    assert (HI : forall k, k ∈ I <-> exists v, k = edge_key t v /\ is_Some (ec_edges (sl_edges l) !! edge_key f v) /\ v <> t /\
                  ec_edges (sl_edges l) !! edge_key t v = None).
    { intros k. unfold I. rewrite elem_of_map. setoid_rewrite elem_movers; [|assumption]. rewrite <- Hed. reflexivity. }
    assert (HinI : forall k, k ∈ I -> ec_status (sl_edges l') !! k = Some ENew).
    { intros k Hk. apply HI in Hk as (v & -> & Hk & Hv & Hn). rewrite Hec. apply S2; auto. apply Hsib, Hk. }
    assert (HinT : forall k, k ∈ T -> ec_status (sl_edges l') !! k = Some EDeleted).
    { intros k Hk. apply HT in Hk as (v & Hk & ->). rewrite Hec. apply S1; auto. apply Hsib, Hk. }
    assert (Hout : forall k, k ∉ T -> k ∉ I -> ec_status (sl_edges l') !! k = ec_status (sl_edges l) !! k).
    { intros k HkT HkI. rewrite Hec. apply S3. intros v _ Hs. split.
      - intros ->. apply HkT, HT. eauto.
      - intros Hv Hn ->. apply HkI, HI. eauto 10. }
    pose proof (lr_log _ _ _ HR) as [L1 L2 L3 L4].
    split.
    - apply Hwf'.
    - rewrite Hedges, el_redirect_edges by assumption. rewrite Hed. reflexivity.
    - intros k. cbn [el_redirect el_fresh]. fold T I. rewrite elem_of_union, elem_of_difference, L3.
      destruct (decide (k ∈ I)) as [Hk|Hk]; [rewrite (HinI _ Hk); tauto|].
      destruct (decide (k ∈ T)) as [Hk'|Hk']; [rewrite (HinT _ Hk'); split; [tauto|discriminate]|].
      rewrite (Hout _ Hk' Hk). tauto.
    - intros k. cbn [el_redirect el_gone]. fold T I. rewrite elem_of_difference, elem_of_union, L4.
      destruct (decide (k ∈ I)) as [Hk|Hk]; [rewrite (HinI _ Hk); split; [tauto|discriminate]|].
      destruct (decide (k ∈ T)) as [Hk'|Hk']; [rewrite (HinT _ Hk'); tauto|].
      rewrite (Hout _ Hk' Hk). tauto. }
  destruct HR as [A1 A2 A3 A4 A5 A6 A7 A8].
  split; cbn; auto.
  - congruence.
  - intros u nu v Hu Hv. destruct (decide (u = f)) as [->|Huf]; [congruence|].
    assert (Hs : is_Some (sl_nodes l !! u)) by (apply Hdom; eauto). destruct Hs as [nd Hnd0].
    destruct (Hnd _ _ Huf Hnd0) as (nd' & Hnd' & _ & Hnf & Hsib).
    assert (nd' = nu) by congruence. subst nd'.
    destruct (decide (v = f)) as [->|Hvf]; [contradiction|]. apply Hdom; [assumption|].
    destruct (sl_nodes l !! v) as [nv|] eqn:Ev; [eauto|]. apply Hsib in Hv; [|assumption].
    rewrite <- Ev. apply (A3 _ _ _ Hnd0 Hv).
  - intros x. destruct (decide (x = f)) as [->|Hx]; [rewrite Hnone, lookup_delete; reflexivity|].
    rewrite lookup_delete_ne by congruence. rewrite <- A5. destruct (sl_nodes l !! x) as [nd|] eqn:E.
    + destruct (Hnd _ _ Hx E) as (nd' & -> & (_ & _ & E1 & E2 & _) & _). cbn. congruence.
    + assert (sl_nodes l' !! x = None) as ->; [|reflexivity].
      apply eq_None_not_Some. rewrite Hdom by assumption. apply eq_None_not_Some. exact E.
  - intros m. rewrite Hst, elem_of_difference, elem_of_singleton, A6. destruct (decide (f = m)) as [<-|Hm].
    + rewrite lookup_insert. split; [tauto|discriminate].
    + rewrite lookup_insert_ne by assumption. split; [tauto|split; congruence].
  - intros m. rewrite Hst, A7. destruct (decide (f = m)) as [<-|Hm].
    + rewrite lookup_insert. split; [|discriminate]. intros Hm.
      assert (Hs : is_Some (sl_nodes l !! f)) by eauto. apply (slw_status _ A2) in Hs as (s & Hs & [->| ->]); congruence.
    + rewrite lookup_insert_ne by assumption. reflexivity.
  - intros m. rewrite Hst, elem_of_union, elem_of_singleton, A8. destruct (decide (f = m)) as [<-|Hm].
    + rewrite lookup_insert. tauto.
    + rewrite lookup_insert_ne by assumption. split; [intros [?|?]; [congruence|assumption]|auto].
Qed.

Lemma LR_edge_b s t : sl_has_edge l s t = bool_decide (is_Some (ll_edge c s t)).
Proof. unfold sl_has_edge, ec_contains, ll_edge. rewrite LR_edges. reflexivity. Qed.

Lemma LR_ext l' : sl_id l' = sl_id l -> sl_nodes l' = sl_nodes l -> sl_status l' = sl_status l ->
  ec_edges (sl_edges l') = ec_edges (sl_edges l) -> ec_status (sl_edges l') = ec_status (sl_edges l) -> LR lid l' c.
Proof.
  intros E1 E2 E3 E4 E5. destruct HR as [A1 A2 A3 A4 A5 A6 A7 A8].
  split; unfold sl_closed; rewrite ?E1, ?E2, ?E3; auto.
  - eapply sl_wf_ext; [..|exact A2]; congruence.
  - eapply el_rep_ext; [..|exact A4]; congruence.
Qed.

Lemma LR_with_edges ec e : el_rep ec e -> ec_edges ec = ec_edges (sl_edges l) ->
  LR lid (sl_with_edges l ec) (ll_with_log c e).
Proof.
  intros He Hed. apply LR_relinked; [|split; cbn; try reflexivity; intros x nd Hnd; exists nd|exact He].
  - destruct (lr_wf _ _ _ HR) as [W1 W2 W3 W4 W5 W6]. split; cbn; rewrite ?Hed; auto. apply He.
  - split; [assumption|]. split; [apply same_but_sib_refl|reflexivity].
Qed.

Theorem LR_step o :
  lout_agree (fst (sl_step l o)) (fst (ll_step lid c o)) /\ LR lid (snd (sl_step l o)) (snd (ll_step lid c o)).
Proof.
  destruct o; cbn [sl_step ll_step].
  - (* emplace *)
    unfold sl_emplace_node. destruct (sl_nodes l !! id) as [nd|] eqn:E.
    + rewrite (proj2 (LR_has_true id)) by eauto. split; [reflexivity|]. apply LR_emplace_again. eauto.
    + rewrite (proj2 (LR_has_false id)) by assumption. split; [reflexivity|].
      apply LR_add; auto. cbn. apply HR.
  - (* insertNode *)
    destruct x as [[[[n l0] t] a]|]; [|split; [reflexivity|exact HR]]. cbn [fmap option_fmap option_map sl_insert_node node_new n_layer n_id].
    rewrite LR_has_b, (lr_id _ _ _ HR).
    destruct (N.eqb_spec l0 lid) as [->|Hne]; cbn.
    + rewrite bool_decide_eq_true_2 by reflexivity. destruct (ll_has c n) eqn:En; cbn; [split; [reflexivity|exact HR]|].
      split; [reflexivity|]. rewrite <- (lr_id _ _ _ HR) at 2. apply LR_add; auto. apply LR_has_false. assumption.
    + rewrite bool_decide_eq_false_2 by assumption. split; [reflexivity|exact HR].
  - (* insertEdge *)
    destruct (decide (sl_can_insert l s t)) as [H|H].
    + rewrite sl_insert_edge_ok by assumption. pose proof H as (H1 & H2 & H3 & H4).
      rewrite (proj2 (LR_has_true s)), (proj2 (LR_has_true t)) by assumption. cbn.
      rewrite (bool_decide_eq_false_2 (s = t)) by assumption.
      rewrite bool_decide_eq_false_2. 2: { unfold ll_edge. rewrite <- LR_edges, H2. intros [? ?]; discriminate. }
      cbn. split; [reflexivity|]. apply LR_insert_edge. assumption.
    + rewrite sl_insert_edge_noop by assumption.
      assert (ll_has c s && ll_has c t && negb (bool_decide (s = t)) && negb (bool_decide (is_Some (ll_edge c s t))) = false) as ->.
      { apply not_true_is_false. rewrite !andb_true_iff, !negb_true_iff, !LR_has_true, !bool_decide_eq_false.
        unfold ll_edge. rewrite <- LR_edges, <- eq_None_not_Some. unfold sl_can_insert in H. tauto. }
      split; [reflexivity|exact HR].
  - (* removeEdge *)
    destruct (ec_edges (sl_edges l) !! edge_key s t) as [e|] eqn:E.
    + rewrite sl_remove_edge_ok; [|apply HR|eauto].
      rewrite bool_decide_eq_true_2 by (unfold ll_edge; rewrite <- LR_edges; eauto).
      split; [reflexivity|]. apply LR_remove_edge. eauto.
    + rewrite sl_remove_edge_noop by assumption.
      rewrite bool_decide_eq_false_2. 2: { unfold ll_edge. rewrite <- LR_edges, E. intros [? ?]; discriminate. }
      split; [reflexivity|exact HR].
  - (* rewireEdge *)
    assert (HE : ll_edge c s t = ec_edges (sl_edges l) !! edge_key s t) by (unfold ll_edge; rewrite LR_edges; reflexivity).
    rewrite HE. destruct (ec_edges (sl_edges l) !! edge_key s t) as [e|] eqn:E.
    2: { rewrite sl_rewire_noop by auto. split; [reflexivity|exact HR]. }
    destruct (ll_has c ns && ll_has c nt && negb (bool_decide (s = ns /\ t = nt))) eqn:Eg.
    2: { rewrite sl_rewire_noop; [split; [reflexivity|exact HR]|]. right.
      destruct (ll_has c ns) eqn:E1; [|left; apply LR_has_false; assumption].
      destruct (ll_has c nt) eqn:E2; [|right; left; apply LR_has_false; assumption].
      right. right. cbn in Eg. apply negb_false_iff, bool_decide_eq_true in Eg. exact Eg. }
    rewrite !andb_true_iff, negb_true_iff, !LR_has_true, bool_decide_eq_false in Eg. destruct Eg as [[G1 G2] G3].
    destruct (bool_decide (ns = nt) || bool_decide (is_Some (ll_edge c ns nt))) eqn:Eh.
    + rewrite sl_rewire_drop; [|apply HR|eauto|assumption|assumption|assumption|].
      * split; [reflexivity|]. apply LR_remove_edge. eauto.
      * rewrite orb_true_iff, !bool_decide_eq_true in Eh. unfold ll_edge in Eh. rewrite <- LR_edges in Eh. exact Eh.
    + rewrite orb_false_iff, !bool_decide_eq_false in Eh. unfold ll_edge in Eh. rewrite <- LR_edges in Eh. destruct Eh as [Eh1 Eh2].
      apply eq_None_not_Some in Eh2.
      destruct (sl_rewire_move l s t ns nt e (lr_wf _ _ _ HR) E G1 G2 Eh1 Eh2) as (l' & Hr & Hwf' & Hrel & Hed & Hst).
      rewrite Hr. split; [reflexivity|]. apply LR_relinked; auto.
      refine (el_rep_ext _ _ _ _ _ (el_rep_insert _ _ ns nt (Some (e_info e)) (el_rep_remove _ _ (edge_key s t) (ec_stale (sl_edges l)) (lr_log _ _ _ HR) (edge_key_norm _ _)))).
      * rewrite ec_insert_edges_new; [|cbn; rewrite lookup_delete_ne by congruence; assumption]. cbn. symmetry. exact Hed.
      * unfold ec_insert. cbn. symmetry. exact Hst.
  - (* removeNode *)
    destruct (sl_nodes l !! n) as [nd|] eqn:E.
    + destruct (LR_remove_node n nd E) as (l' & Hr & HR'). rewrite Hr, (proj2 (LR_has_true n)) by eauto.
      split; [reflexivity|exact HR'].
    + rewrite sl_remove_node_noop, (proj2 (LR_has_false n)) by assumption. split; [reflexivity|exact HR].
  - (* mergeNodes *)
    destruct (ll_has c from && ll_has c to && negb (bool_decide (from = to))) eqn:Eg.
    + rewrite !andb_true_iff, negb_true_iff, !LR_has_true, bool_decide_eq_false in Eg. destruct Eg as [[[nf G1] G2] G3].
      destruct (LR_merge_nodes from to nf G3 G1 G2) as (l' & Hr & HR'). rewrite Hr. split; [reflexivity|exact HR'].
    + rewrite sl_merge_nodes_noop; [split; [reflexivity|exact HR]|].
      destruct (ll_has c from) eqn:E1; [|left; apply LR_has_false; assumption].
      destruct (ll_has c to) eqn:E2; [|right; left; apply LR_has_false; assumption].
      right. right. cbn in Eg. apply negb_false_iff, bool_decide_eq_true in Eg. exact Eg.
  - (* set attributes *)
    unfold sl_find_node. destruct (sl_nodes l !! n) as [nd|] eqn:E.
    + rewrite (proj2 (LR_has_true n)) by eauto. split; [reflexivity|]. apply LR_set_attrs. assumption.
    + rewrite (proj2 (LR_has_false n)) by assumption. split; [reflexivity|].
      rewrite alter_id; [destruct c; exact HR|].
      intros x Hx. rewrite <- (lr_node _ _ _ HR), E in Hx. discriminate.
  - split; [apply LR_has_b|exact HR].
  - split; [apply LR_status|exact HR].
  - split; [apply LR_view|exact HR].
  - unfold sl_get_position, at_. rewrite <- (lr_node _ _ _ HR). destruct (sl_nodes l !! n); cbn; auto.
  - split; [apply LR_edge_b|exact HR].
  - cbn. split; [unfold ec_find, ll_edge; rewrite LR_edges; reflexivity|].
    apply LR_ext; try reflexivity; cbn; [apply ec_touch_edges|apply ec_touch_status].
  - split; [apply LR_size|exact HR].
  - split; [|exact HR]. cbn. unfold sl_num_edges, ec_size. rewrite LR_edges. reflexivity.
  - (* getNewNodes *)
    unfold sl_get_new_nodes. split.
    + cbn. split; [apply NoDup_keys_with|]. intros k. rewrite elem_of_keys_with, (lr_new _ _ _ HR). split.
      * intros (s & Hs & Hp). destruct s; try discriminate. exact Hs.
      * intros Hs. eauto.
    + destruct clear; cbn; [|exact HR]. pose proof (lr_wf _ _ _ HR) as [W1 W2 W3 W4 W5 W6]. apply LR_restatus.
      * intros n. rewrite W5, lookup_fmap. split.
        -- intros (s & Hs & Hl). exists NVisible. rewrite Hs. cbn. split; [destruct Hl as [->| ->]; reflexivity|right; reflexivity].
        -- intros (s & Hs & Hl). apply fmap_Some in Hs as (s0 & Hs0 & ->). exists s0. split; [assumption|].
           destruct s0; cbn in Hl; try (left; reflexivity); exact Hl.
      * intros n s Hs. rewrite lookup_fmap in Hs. apply fmap_Some in Hs as (s0 & Hs0 & ->). specialize (W6 _ _ Hs0). destruct s0; cbn; congruence.
      * intros n. rewrite lookup_fmap, fmap_Some. split; [set_solver|]. intros (s0 & _ & Hs). destruct s0; discriminate.
      * intros n. rewrite (lr_del _ _ _ HR), lookup_fmap, fmap_Some. split; [eauto|]. intros (s0 & H0 & Hs). destruct s0; try discriminate. exact H0.
      * intros n. rewrite (lr_mrg _ _ _ HR), lookup_fmap, fmap_Some. split; [eauto|]. intros (s0 & H0 & Hs). destruct s0; try discriminate. exact H0.
  - (* getRemovedNodes *)
    unfold sl_get_removed_nodes. split.
    + cbn. split; [apply NoDup_keys_with|]. intros k. rewrite elem_of_keys_with, elem_of_union, (lr_del _ _ _ HR), (lr_mrg _ _ _ HR). split.
      * intros (s & Hs & Hp). destruct s; try discriminate; auto.
      * intros [Hs|Hs]; eauto.
    + destruct clear; cbn; [|exact HR]. pose proof (lr_wf _ _ _ HR) as [W1 W2 W3 W4 W5 W6].
      assert (HF : forall n s, filter (fun kv : N * NodeStatus => n_is_deleted kv.2 = false) (sl_status l) !! n = Some s <->
                    sl_status l !! n = Some s /\ s <> NDeleted).
      { intros n s. rewrite map_filter_lookup_Some. cbn. destruct s; cbn; intuition congruence. }
      apply LR_restatus.
      * intros n. rewrite W5. setoid_rewrite HF. split; intros (s & Hs & Hl); exists s; [|tauto].
        split; [split; [assumption|]|assumption]. destruct Hl as [->| ->]; discriminate.
      * intros n s Hs. apply HF in Hs as [Hs _]. eauto.
      * intros n. rewrite HF, (lr_new _ _ _ HR). intuition congruence.
      * intros n. rewrite HF. split; [set_solver|]. intros [_ H]; congruence.
      * intros n. rewrite HF, (lr_mrg _ _ _ HR). intuition congruence.
  - (* getNewEdges *)
    unfold sl_get_new_edges.
    destruct (el_step_ok (sl_edges l) (ll_log c) (CGetNew clear) (lr_log _ _ _ HR)) as [Ho Hr].
    cbn in Ho, Hr. split; [exact Ho|]. cbn. destruct clear; [apply LR_with_edges; [exact Hr|reflexivity]|].
    apply LR_ext; reflexivity.
  - unfold sl_get_removed_edges.
    destruct (el_step_ok (sl_edges l) (ll_log c) (CGetRemoved clear) (lr_log _ _ _ HR)) as [Ho Hr].
    cbn in Ho, Hr. split; [exact Ho|]. cbn. destruct clear; [apply LR_with_edges; [exact Hr|reflexivity]|].
    apply LR_ext; reflexivity.
  - (* reset *)
    cbn. split; [exact I|]. apply LR_reset, HR.
Qed.
End Step.

Theorem LR_run lid os : forall l c, LR lid l c ->
  Forall2 lout_agree (fst (sl_run l os)) (fst (ll_run lid c os)) /\ LR lid (snd (sl_run l os)) (snd (ll_run lid c os)).
Proof.
  induction os as [|o r IH]; intros l c HR; cbn [sl_run ll_run].
  - split; [constructor|exact HR].
  - destruct (LR_step lid l c HR o) as [Ho HR'].
    destruct (sl_step l o) as [x l'], (ll_step lid c o) as [y c']. cbn [fst snd] in *.
    destruct (IH _ _ HR') as [Hos HR'']. destruct (sl_run l' r), (ll_run lid c' r). cbn [fst snd] in *.
    split; [constructor; assumption|assumption].
Qed.

Theorem layer_history lid os :
  Forall2 lout_agree (fst (sl_run (sl_new lid) os)) (fst (ll_run lid ll_init os)).
Proof. apply LR_run, LR_init. Qed.
