(** rewireEdge and mergeNodes on a static layer. *)
From Coq Require Import NArith ZArith Bool List Lia.
From stdpp Require Import base list gmap fin_maps tactics.
From Verif.Model Require Import Types Mesh Attrs Node EdgeContainer SLayer.
From Verif.Proof Require Import Keys SLayerP.
Local Open Scope N_scope.

(** Nodes equal up to their sibling set. *)
Definition same_but_sib (a b : Node) : Prop :=
  n_id a = n_id b /\ n_layer a = n_layer b /\ n_time a = n_time b /\ n_attrs a = n_attrs b /\
  n_par a = n_par b /\ n_chd a = n_chd b.
Lemma same_but_sib_refl a : same_but_sib a a.
Proof. repeat split. Qed.
Lemma same_but_sib_trans a b c : same_but_sib a b -> same_but_sib b c -> same_but_sib a c.
Proof. unfold same_but_sib. intuition congruence. Qed.

(** [l'] differs from [l] only in its edges and in siblings inside the layer. *)
Record sl_relinked (l l' : SLayer) : Prop := {
  slr_id : sl_id l' = sl_id l;
  slr_status : sl_status l' = sl_status l;
  slr_dom : forall x, is_Some (sl_nodes l' !! x) <-> is_Some (sl_nodes l !! x);
  slr_node : forall x nd, sl_nodes l !! x = Some nd -> exists nd', sl_nodes l' !! x = Some nd' /\
    same_but_sib nd nd' /\ forall v, sl_nodes l !! v = None -> (v ∈ n_sib nd' <-> v ∈ n_sib nd)
}.

Lemma sl_relinked_refl l : sl_relinked l l.
Proof. split; auto. intros x nd H. exists nd. split; [assumption|]. split; [apply same_but_sib_refl|reflexivity]. Qed.

Lemma sl_relinked_trans l1 l2 l3 : sl_relinked l1 l2 -> sl_relinked l2 l3 -> sl_relinked l1 l3.
Proof.
  intros [A1 A2 A3 A4] [B1 B2 B3 B4]. split; [congruence|congruence|intros; rewrite B3; apply A3|].
  intros x nd H. destruct (A4 _ _ H) as (nd2 & H2 & S2 & F2). destruct (B4 _ _ H2) as (nd3 & H3 & S3 & F3).
  exists nd3. split; [assumption|]. split; [eapply same_but_sib_trans; eassumption|].
  intros v Hv. rewrite F3, F2; [reflexivity|assumption|].
  apply eq_None_not_Some. rewrite A3. apply eq_None_not_Some. exact Hv.
Qed.

Lemma sl_relinked_inserted l s t i : sl_can_insert l s t -> sl_relinked l (sl_inserted l s t i).
Proof.
  intros (Hne & _ & Hs & Ht). split; cbn; auto.
  - intros x. rewrite lookup_link_sib by assumption. apply is_Some_fmap_iff.
  - intros x nd H. rewrite lookup_link_sib, H by assumption. cbn.
    eexists; split; [reflexivity|].
    destruct (decide (x = s)); [|destruct (decide (x = t))]; (split; [repeat split|]); cbn;
      intros v Hv; try reflexivity; rewrite elem_of_union, elem_of_singleton;
      (split; [intros [->|?]; [|assumption]|auto]).
    + rewrite Hv in Ht. destruct Ht; discriminate.
    + rewrite Hv in Hs. destruct Hs; discriminate.
Qed.

Lemma sl_relinked_removed l s t :
  sl_wf l -> is_Some (ec_edges (sl_edges l) !! edge_key s t) -> sl_relinked l (sl_removed l s t).
Proof.
  intros Hwf He. destruct (sl_edge_key _ _ _ Hwf He) as (Hne & Hs & Ht). split; cbn; auto.
  - intros x. rewrite lookup_unlink_sib by assumption. apply is_Some_fmap_iff.
  - intros x nd H. rewrite lookup_unlink_sib, H by assumption. cbn.
    eexists; split; [reflexivity|].
    destruct (decide (x = s)); [|destruct (decide (x = t))]; (split; [repeat split|]); cbn;
      intros v Hv; try reflexivity; rewrite elem_of_difference, elem_of_singleton;
      (split; [tauto|intros Hin; split; [assumption|]]); intros ->.
    + rewrite Hv in Ht. destruct Ht; discriminate.
    + rewrite Hv in Hs. destruct Hs; discriminate.
Qed.

Lemma sl_wf_ext l l' :
  sl_id l = sl_id l' -> sl_nodes l = sl_nodes l' -> sl_status l = sl_status l' ->
  ec_edges (sl_edges l) = ec_edges (sl_edges l') -> ec_status (sl_edges l) = ec_status (sl_edges l') ->
  sl_wf l -> sl_wf l'.
Proof.
  intros E1 E2 E3 E4 E5 [H1 H2 H3 H4 H5 H6].
  split; rewrite <- ?E1, <- ?E2, <- ?E3, <- ?E4; auto. eapply ec_wf_ext; eassumption.
Qed.

(** *** rewireEdge: the four outcomes *)
Lemma sl_rewire_move l s t ns nt e :
  sl_wf l -> ec_edges (sl_edges l) !! edge_key s t = Some e ->
  is_Some (sl_nodes l !! ns) -> is_Some (sl_nodes l !! nt) -> ns <> nt ->
  ec_edges (sl_edges l) !! edge_key ns nt = None ->
  exists l', sl_rewire_edge l s t ns nt = Ok (true, l') /\ sl_wf l' /\ sl_relinked l l' /\
    ec_edges (sl_edges l') =
      <[edge_key ns nt := mkEdge ns nt (e_info e)]> (delete (edge_key s t) (ec_edges (sl_edges l))) /\
    ec_status (sl_edges l') =
      <[edge_key ns nt := ENew]> (<[edge_key s t := EDeleted]> (ec_status (sl_edges l))).
Proof.
  intros Hwf He [nns Hns] [nnt Hnt] Hne Hno.
  assert (Hs : is_Some (ec_edges (sl_edges l) !! edge_key s t)) by eauto.
  destruct (sl_edge_key _ _ _ Hwf Hs) as (Hst & [nds Hnds] & [ndt Hndt]).
  unfold sl_rewire_edge, sl_has_edge.
  rewrite (proj2 (ec_contains_true _ _ _) Hs). cbn [negb].
  rewrite (proj2 (sl_has_node_true l ns)), (proj2 (sl_has_node_true l nt)) by eauto. cbn [negb orb].
  assert (Hdiff : (s =? ns) && (t =? nt) = false).
  { apply andb_false_iff. destruct (N.eqb_spec s ns) as [->|]; [|auto].
    destruct (N.eqb_spec t nt) as [->|]; [|auto]. congruence. }
  rewrite Hdiff. destruct (N.eqb_spec ns nt); [contradiction|].
  rewrite (proj2 (ec_contains_false _ _ _) Hno). cbn [orb].
  destruct (ec_rewire_ok _ _ _ _ _ _ (slw_ec _ Hwf) He Hno) as (c' & Hc & Hcwf & Hce & Hcs).
  rewrite Hc. cbn [rbind].
  erewrite (sl_upd_ok _ s); [|cbn; exact Hnds]. cbn [rbind].
  erewrite (sl_upd_ok _ t); [|cbn; rewrite lookup_alter_ne by congruence; exact Hndt]. cbn [rbind].
  change (alter (del_sib s) t _) with (unlink_sib s t (sl_nodes l)).
  destruct (unlink_sib s t (sl_nodes l) !! ns) as [n1|] eqn:E1.
  2: { rewrite lookup_unlink_sib, Hns in E1 by assumption. discriminate. }
  erewrite (sl_upd_ok _ ns); [|cbn; exact E1]. cbn [rbind].
  destruct (unlink_sib s t (sl_nodes l) !! nt) as [n2|] eqn:E2.
  2: { rewrite lookup_unlink_sib, Hnt in E2 by assumption. discriminate. }
  erewrite (sl_upd_ok _ nt); [|cbn; rewrite lookup_alter_ne by congruence; exact E2]. cbn [rbind].
  eexists. split; [reflexivity|].
  set (l2 := sl_inserted (sl_removed l s t) ns nt (Some (e_info e))).
  assert (Hcan : sl_can_insert (sl_removed l s t) ns nt).
  { repeat split; cbn.
    - assumption.
    - rewrite lookup_delete_ne; [assumption|]. intros Heq. congruence.
    - rewrite E1. eauto.
    - rewrite E2. eauto. }
  assert (Hed : ec_edges (sl_edges l2) = ec_edges c').
  { rewrite Hce. unfold l2, sl_inserted; cbn [sl_edges].
    rewrite ec_insert_edges_new; [reflexivity|]. apply Hcan. }
  assert (Hse : ec_status (sl_edges l2) = ec_status c').
  { rewrite Hcs. reflexivity. }
  split; [|split].
  - apply (sl_wf_ext l2); try reflexivity; try assumption.
    apply sl_wf_insert_edge; [|assumption]. apply sl_wf_remove_edge; assumption.
  - eapply sl_relinked_trans; [apply sl_relinked_removed; eassumption|].
    pose proof (sl_relinked_inserted _ _ _ (Some (e_info e)) Hcan) as [A B C D].
    split; cbn in *; assumption.
  - cbn. auto.
Qed.

Lemma sl_rewire_drop l s t ns nt :
  sl_wf l -> is_Some (ec_edges (sl_edges l) !! edge_key s t) ->
  is_Some (sl_nodes l !! ns) -> is_Some (sl_nodes l !! nt) ->
  ~ (s = ns /\ t = nt) ->
  (ns = nt \/ is_Some (ec_edges (sl_edges l) !! edge_key ns nt)) ->
  sl_rewire_edge l s t ns nt = Ok (true, sl_removed l s t).
Proof.
  intros Hwf Hs Hns Hnt Hdiff Hor. unfold sl_rewire_edge, sl_has_edge.
  rewrite (proj2 (ec_contains_true _ _ _) Hs). cbn [negb].
  rewrite (proj2 (sl_has_node_true l ns)), (proj2 (sl_has_node_true l nt)) by eauto. cbn [negb orb].
  assert (Hd : (s =? ns) && (t =? nt) = false).
  { apply andb_false_iff. destruct (N.eqb_spec s ns) as [->|]; [|auto].
    destruct (N.eqb_spec t nt) as [->|]; [|auto]. tauto. }
  rewrite Hd.
  assert (Ho : (ns =? nt) || ec_contains (sl_edges l) ns nt = true).
  { apply orb_true_iff. destruct Hor as [->|Hor]; [left; apply N.eqb_refl|right].
    apply ec_contains_true. exact Hor. }
  rewrite Ho, (sl_remove_edge_ok _ _ _ Hwf Hs). reflexivity.
Qed.

Lemma sl_rewire_noop l s t ns nt :
  ec_edges (sl_edges l) !! edge_key s t = None \/ sl_nodes l !! ns = None \/ sl_nodes l !! nt = None \/
  (s = ns /\ t = nt) ->
  sl_rewire_edge l s t ns nt = Ok (false, l).
Proof.
  intros H. unfold sl_rewire_edge, sl_has_edge.
  destruct (ec_contains (sl_edges l) s t) eqn:E1; [|reflexivity]. cbn.
  destruct (sl_has_node l ns) eqn:E2; [|reflexivity].
  destruct (sl_has_node l nt) eqn:E3; [|reflexivity]. cbn.
  destruct ((s =? ns) && (t =? nt)) eqn:E4; [reflexivity|]. exfalso.
  apply ec_contains_true in E1 as [? E1]. apply sl_has_node_true in E2 as [? E2], E3 as [? E3].
  destruct H as [?|[?|[?|[-> ->]]]]; try congruence. rewrite !N.eqb_refl in E4. discriminate.
Qed.

(** *** Redirecting the edges of [from] to [to] *)
Definition other_end (n : N) (k : EdgeKey) : N := if fst k =? n then snd k else fst k.

(** Specification of the edge set after a merge: edges not touching [from] are kept;
    every edge (from,t) with t <> to becomes (to,t) unless that already exists. *)
Definition merge_edges (from to : N) (m : gmap EdgeKey Edge) : gmap EdgeKey Edge :=
  drop_edges from m ∪
  list_to_map (omap (fun kv : EdgeKey * Edge =>
      if decide (touches from (fst kv)) then
        let t := other_end from (fst kv) in
        if decide (t = to) then None else Some (edge_key to t, mkEdge to t (e_info (snd kv)))
      else None) (map_to_list m)).

Lemma other_end_key n t : other_end n (edge_key n t) = t.
Proof. unfold other_end, edge_key; cbn. destruct (N.eqb_spec (N.min n t) n); lia. Qed.

(** Keys are normalised and no self edges: the facts needed about an edge map. *)
Record em_wf (m : gmap EdgeKey Edge) : Prop := {
  emw_key : forall k e, m !! k = Some e -> k = edge_key (e_src e) (e_tgt e);
  emw_ne : forall k e, m !! k = Some e -> e_src e <> e_tgt e }.

Lemma em_wf_self m u : em_wf m -> m !! edge_key u u = None.
Proof.
  intros [A B]. destruct (m !! edge_key u u) as [e|] eqn:E; [|reflexivity].
  pose proof (A _ _ E) as H. apply B in E. symmetry in H. apply edge_key_self in H as [? ?]. congruence.
Qed.

Lemma em_touch m n k : em_wf m -> is_Some (m !! k) -> touches n k ->
  exists t, k = edge_key n t /\ t <> n /\ other_end n k = t.
Proof.
  intros Hm [e He] Ht. pose proof (emw_key _ Hm _ _ He) as Hk.
  pose proof Ht as Ht'. rewrite Hk in Ht'. apply touches_other in Ht' as (t & Ht' & _).
  exists t. rewrite Hk. split; [assumption|]. rewrite Ht', other_end_key. split; [|reflexivity].
  intros ->. rewrite Hk, Ht', (em_wf_self m n Hm) in He. discriminate.
Qed.

Lemma lookup_merge_edges_touch from to m k : em_wf m -> from <> to -> touches from k -> merge_edges from to m !! k = None.
Proof.
  intros Hm Hne Ht. unfold merge_edges. rewrite lookup_union_None, lookup_drop_edges.
  destruct (decide (touches from k)); [|contradiction]. split; [reflexivity|].
  apply not_elem_of_list_to_map_1. intros Hin. apply elem_of_list_fmap in Hin as ([k' e'] & Hk & Hin).
  apply elem_of_list_omap in Hin as ([k0 e0] & Hin0 & Hsome). cbn in *.
  destruct (decide (touches from k0)) as [Ht0|]; [|discriminate].
  destruct (decide (other_end from k0 = to)) as [|Hoe]; [discriminate|].
  injection Hsome as <- <-. subst k.
  apply touches_edge_key in Ht as [?|Ht]; [contradiction|].
  apply elem_of_map_to_list in Hin0.
  destruct (em_touch m from k0 Hm) as (t0 & ? & Htn & Hot); [eauto|assumption|]. congruence.
Qed.

Lemma lookup_merge_edges_keep from to m k e : ~ touches from k -> m !! k = Some e -> merge_edges from to m !! k = Some e.
Proof.
  intros Ht He. unfold merge_edges. apply lookup_union_Some_l. rewrite lookup_drop_edges.
  destruct (decide (touches from k)); [contradiction|assumption].
Qed.

Lemma lookup_merge_edges_new from to m t :
  em_wf m -> from <> to -> t <> to -> t <> from -> m !! edge_key to t = None ->
  merge_edges from to m !! edge_key to t = (fun e => mkEdge to t (e_info e)) <$> m !! edge_key from t.
Proof.
  intros Hm Hne Htt Htf Hno. unfold merge_edges.
  assert (Hnt : ~ touches from (edge_key to t)) by (rewrite touches_edge_key; intros [?|?]; congruence).
  rewrite lookup_union_r.
  2: { rewrite lookup_drop_edges. destruct (decide (touches from (edge_key to t))); [contradiction|assumption]. }
  set (f := fun kv : EdgeKey * Edge => _).
  assert (Huniq : forall k e k' e', (k, e) ∈ omap f (map_to_list m) -> (k', e') ∈ omap f (map_to_list m) ->
            k = k' -> e = e').
  { intros k e k' e' Hin Hin' <-.
    apply elem_of_list_omap in Hin as ([k0 e0] & Hin0 & Hs0).
    apply elem_of_list_omap in Hin' as ([k1 e1] & Hin1 & Hs1).
    unfold f in *; cbn in *.
    apply elem_of_map_to_list in Hin0, Hin1.
    destruct (decide (touches from k0)) as [T0|]; [|discriminate].
    destruct (decide (touches from k1)) as [T1|]; [|discriminate].
    destruct (decide (other_end from k0 = to)); [discriminate|].
    destruct (decide (other_end from k1 = to)); [discriminate|].
    destruct (em_touch m from k0 Hm) as (t0 & Hk0 & _ & Ho0); [eauto|assumption|].
    destruct (em_touch m from k1 Hm) as (t1 & Hk1 & _ & Ho1); [eauto|assumption|].
    rewrite Ho0 in *. rewrite Ho1 in *. injection Hs0 as Ha Hb. injection Hs1 as Hc Hd.
    rewrite <- Ha in Hc. apply edge_key_eq_l in Hc. subst. congruence. }
  destruct (m !! edge_key from t) as [e|] eqn:E; cbn.
  - apply elem_of_list_to_map_1'.
    + intros y Hin. symmetry. eapply Huniq; [exact Hin| |reflexivity].
      apply elem_of_list_omap. exists (edge_key from t, e). split; [apply elem_of_map_to_list; assumption|].
      unfold f; cbn. destruct (decide (touches from (edge_key from t))) as [|Hc].
      * rewrite other_end_key. destruct (decide (t = to)); [contradiction|]. reflexivity.
      * exfalso. apply Hc, touches_edge_key. auto.
    + apply elem_of_list_omap. exists (edge_key from t, e). split; [apply elem_of_map_to_list; assumption|].
      unfold f; cbn. destruct (decide (touches from (edge_key from t))) as [|Hc].
      * rewrite other_end_key. destruct (decide (t = to)); [contradiction|]. reflexivity.
      * exfalso. apply Hc, touches_edge_key. auto.
  - apply not_elem_of_list_to_map_1. intros Hin. apply elem_of_list_fmap in Hin as ([k' e'] & Hk & Hin).
    apply elem_of_list_omap in Hin as ([k0 e0] & Hin0 & Hsome). cbn in *. subst k'.
    apply elem_of_map_to_list in Hin0.
    unfold f in Hsome; cbn in Hsome.
    destruct (decide (touches from k0)) as [T0|]; [|discriminate].
    destruct (em_touch m from k0 Hm) as (t0 & Hk0 & _ & Ho0); [eauto|assumption|].
    rewrite Ho0 in Hsome. destruct (decide (t0 = to)); [discriminate|].
    assert (Ha : edge_key to t0 = edge_key to t) by congruence. apply edge_key_eq_l in Ha. subst. congruence.
Qed.

Lemma lookup_merge_edges_other from to m k :
  ~ touches from k -> ~ touches to k -> merge_edges from to m !! k = m !! k.
Proof.
  intros Hf Ht. destruct (m !! k) as [e|] eqn:E.
  - apply lookup_merge_edges_keep; assumption.
  - unfold merge_edges. apply lookup_union_None. split.
    + rewrite lookup_drop_edges. destruct (decide (touches from k)); [contradiction|assumption].
    + apply not_elem_of_list_to_map_1. intros Hin. apply elem_of_list_fmap in Hin as ([k' e'] & Hk & Hin).
      apply elem_of_list_omap in Hin as ([k0 e0] & Hin0 & Hsome). cbn in *. subst k'.
      destruct (decide (touches from k0)); [|discriminate].
      destruct (decide (other_end from k0 = to)); [discriminate|]. injection Hsome as <- <-.
      apply Ht, touches_edge_key. auto.
Qed.

(** No edge at an un-normalised key or self key. *)
Lemma lookup_merge_edges_none from to m k :
  em_wf m -> from <> to -> ~ touches from k -> m !! k = None ->
  (forall t, t <> to -> t <> from -> k <> edge_key to t) -> merge_edges from to m !! k = None.
Proof.
  intros Hm Hne Hf E Hk'. unfold merge_edges. apply lookup_union_None. split.
  - rewrite lookup_drop_edges. destruct (decide (touches from k)); [contradiction|assumption].
  - apply not_elem_of_list_to_map_1. intros Hin. apply elem_of_list_fmap in Hin as ([k' e'] & Hk & Hin).
    apply elem_of_list_omap in Hin as ([k0 e0] & Hin0 & Hsome). cbn in *. subst k'.
    destruct (decide (touches from k0)); [|discriminate].
    destruct (decide (other_end from k0 = to)); [discriminate|]. injection Hsome as <- <-.
    apply elem_of_map_to_list in Hin0.
    destruct (em_touch m from k0 Hm) as (t0 & ? & Htn & Ho0); [eauto|assumption|].
    eapply Hk'; [..|reflexivity]; congruence.
Qed.

(** Extensionality principle for [merge_edges]. *)
Lemma merge_edges_ext from to m m' :
  em_wf m -> em_wf m' -> from <> to ->
  (forall k, ~ touches from k -> ~ touches to k -> m !! k = m' !! k) ->
  (forall t, t <> from -> t <> to ->
     match m !! edge_key to t with
     | Some e => Some e
     | None => (fun e => mkEdge to t (e_info e)) <$> m !! edge_key from t end =
     match m' !! edge_key to t with
     | Some e => Some e
     | None => (fun e => mkEdge to t (e_info e)) <$> m' !! edge_key from t end) ->
  merge_edges from to m = merge_edges from to m'.
Proof.
  intros Hm Hm' Hne Ho Hto. apply map_eq. intros k.
  destruct (decide (touches from k)) as [Hf|Hf].
  { rewrite !lookup_merge_edges_touch by assumption. reflexivity. }
  destruct (decide (touches to k)) as [Ht|Ht].
  2: { rewrite !lookup_merge_edges_other by assumption. auto. }
  destruct (decide (k = edge_key to (other_end to k) /\ other_end to k <> to /\ other_end to k <> from)) as [(Hk & H1 & H2)|Hbad].
  - set (t := other_end to k) in *. rewrite Hk. specialize (Hto t H2 H1).
    assert (Hnf : ~ touches from (edge_key to t)) by (rewrite <- Hk; assumption).
    assert (forall mm, em_wf mm -> merge_edges from to mm !! edge_key to t =
       match mm !! edge_key to t with Some e => Some e
       | None => (fun e => mkEdge to t (e_info e)) <$> mm !! edge_key from t end) as Hgen.
    { intros mm Hmm. destruct (mm !! edge_key to t) eqn:E.
      - apply lookup_merge_edges_keep; assumption.
      - apply lookup_merge_edges_new; assumption. }
    rewrite (Hgen m Hm), (Hgen m' Hm'). exact Hto.
  - assert (Hnone : forall mm, em_wf mm -> merge_edges from to mm !! k = None).
    { intros mm Hmm. assert (E : mm !! k = None).
      { destruct (mm !! k) eqn:E; [|reflexivity]. exfalso. apply Hbad.
        destruct (em_touch mm to k Hmm) as (t & Hk & Htn & Hot); [eauto|assumption|].
        rewrite Hot. repeat split; [assumption|assumption|]. intros ->. apply Hf. rewrite Hk.
        apply touches_edge_key. auto. }
      apply lookup_merge_edges_none; try assumption.
      intros t Ht1 Ht2 Hk. apply Hbad. rewrite Hk, other_end_key. auto. }
    rewrite !Hnone by assumption. reflexivity.
Qed.

Lemma merge_edges_no_touch from to m : em_wf m -> from <> to ->
  (forall t, m !! edge_key from t = None) -> merge_edges from to m = m.
Proof.
  intros Hm Hne Hno. apply map_eq. intros k.
  destruct (m !! k) as [e|] eqn:E.
  - destruct (decide (touches from k)) as [Ht|Ht].
    + destruct (em_touch m from k Hm) as (t & -> & _); [eauto|assumption|]. rewrite Hno in E. discriminate.
    + apply lookup_merge_edges_keep; assumption.
  - destruct (decide (touches from k)); [apply lookup_merge_edges_touch; assumption|].
    destruct (decide (k = edge_key to (other_end to k) /\ other_end to k <> to /\ other_end to k <> from)) as [(Hk & H1 & H2)|Hbad].
    + rewrite Hk. rewrite lookup_merge_edges_new; try assumption; [rewrite Hno; reflexivity|rewrite <- Hk; assumption].
    + apply lookup_merge_edges_none; try assumption.
      intros t Ht1 Ht2 Hk. apply Hbad. rewrite Hk, other_end_key. auto.
Qed.

Lemma sl_em_wf l : sl_wf l -> em_wf (ec_edges (sl_edges l)).
Proof.
  intros H. split.
  - intros k e He. apply (ecw_key _ (slw_ec _ H) _ _ He).
  - intros k e He. apply (slw_ends _ H _ _ He).
Qed.

(** *** The rewiring loop of mergeNodes *)
Lemma sl_merge_loop from to ts l :
  sl_wf l -> from <> to -> is_Some (sl_nodes l !! from) -> is_Some (sl_nodes l !! to) ->
  exists l', rfold (fun l t => let! (_, l') := sl_rewire_edge l from t to t in Ok l') ts l = Ok l' /\
    sl_wf l' /\ sl_relinked l l' /\
    merge_edges from to (ec_edges (sl_edges l')) = merge_edges from to (ec_edges (sl_edges l)) /\
    (forall t, t ∈ ts -> ec_edges (sl_edges l') !! edge_key from t = None) /\
    (forall t, is_Some (ec_edges (sl_edges l') !! edge_key from t) -> is_Some (ec_edges (sl_edges l) !! edge_key from t)).
Proof.
  intros Hwf Hne Hfrom Hto. revert l Hwf Hfrom Hto. induction ts as [|t ts IH]; intros l Hwf Hfrom Hto.
  - exists l. cbn. split; [reflexivity|]. split; [assumption|]. split; [apply sl_relinked_refl|].
    split; [reflexivity|]. split; [|auto]. intros t Ht. inversion Ht.
  - cbn [rfold].
    assert (Hstep : exists r l1, sl_rewire_edge l from t to t = Ok (r, l1) /\ sl_wf l1 /\ sl_relinked l l1 /\
       merge_edges from to (ec_edges (sl_edges l1)) = merge_edges from to (ec_edges (sl_edges l)) /\
       ec_edges (sl_edges l1) !! edge_key from t = None /\
       (forall t', is_Some (ec_edges (sl_edges l1) !! edge_key from t') -> is_Some (ec_edges (sl_edges l) !! edge_key from t'))).
    { destruct (ec_edges (sl_edges l) !! edge_key from t) as [e|] eqn:E.
      2: { exists false, l. rewrite sl_rewire_noop by auto. split; [reflexivity|]. split; [assumption|].
           split; [apply sl_relinked_refl|]. auto. }
      assert (Hse : is_Some (ec_edges (sl_edges l) !! edge_key from t)) by eauto.
      destruct (sl_edge_key _ _ _ Hwf Hse) as (Hft & _ & Ht).
      destruct (decide (to = t \/ is_Some (ec_edges (sl_edges l) !! edge_key to t))) as [Hor|Hor].
      - exists true, (sl_removed l from t).
        rewrite sl_rewire_drop by (auto; intros [? _]; congruence).
        split; [reflexivity|]. split; [apply sl_wf_remove_edge; assumption|].
        split; [apply sl_relinked_removed; assumption|]. cbn.
        split.
        + apply merge_edges_ext.
          * apply (sl_em_wf _ (sl_wf_remove_edge _ _ _ Hwf Hse)).
          * apply sl_em_wf, Hwf.
          * assumption.
          * intros k Hf _. rewrite lookup_delete_ne; [reflexivity|]. intros <-. apply Hf, touches_edge_key. auto.
          * intros t' Ht1 Ht2. rewrite lookup_delete_ne by (rewrite edge_key_inj; intros [[? ?]|[? ?]]; congruence).
            destruct (ec_edges (sl_edges l) !! edge_key to t') eqn:E2; [reflexivity|].
            destruct (decide (t = t')) as [->|Htt].
            -- destruct Hor as [->|[? ?]]; congruence.
            -- rewrite lookup_delete_ne by (rewrite edge_key_eq_l; assumption). reflexivity.
        + split; [apply lookup_delete|]. intros t'. rewrite is_Some_delete. tauto.
      - assert (Htt : to <> t) by tauto.
        assert (Hnone : ec_edges (sl_edges l) !! edge_key to t = None) by (apply eq_None_not_Some; tauto).
        destruct (sl_rewire_move l from t to t e Hwf E Hto Ht Htt Hnone) as (l1 & Hr & Hwf1 & Hrel & Hed & _).
        exists true, l1. split; [assumption|]. split; [assumption|]. split; [assumption|].
        split; [|split].
        + apply merge_edges_ext.
          * apply sl_em_wf, Hwf1.
          * apply sl_em_wf, Hwf.
          * assumption.
          * intros k Hf Hk. rewrite Hed, lookup_insert_ne, lookup_delete_ne; [reflexivity| |];
              intros <-; [apply Hf|apply Hk]; apply touches_edge_key; auto.
          * intros t' Ht1 Ht2. rewrite Hed. destruct (decide (t = t')) as [->|Htt'].
            -- rewrite lookup_insert. rewrite Hnone, E. reflexivity.
            -- rewrite lookup_insert_ne by (rewrite edge_key_eq_l; assumption).
               rewrite lookup_delete_ne by (rewrite edge_key_inj; intros [[? ?]|[? ?]]; congruence).
               destruct (ec_edges (sl_edges l) !! edge_key to t'); [reflexivity|].
               rewrite lookup_insert_ne by (rewrite edge_key_inj; intros [[? ?]|[? ?]]; congruence).
               rewrite lookup_delete_ne by (rewrite edge_key_eq_l; assumption). reflexivity.
        + rewrite Hed, lookup_insert_ne by (rewrite edge_key_inj; intros [[? ?]|[? ?]]; congruence).
          apply lookup_delete.
        + intros t'. rewrite Hed. rewrite is_Some_insert, is_Some_delete.
          intros [Hk|[_ ?]]; [|assumption]. apply edge_key_inj in Hk as [[? ?]|[? ?]]; congruence. }
    destruct Hstep as (r & l1 & Hr & Hwf1 & Hrel1 & Hm1 & Hg1 & Hs1).
    rewrite Hr. cbn [rbind].
    destruct (IH l1 Hwf1) as (l' & Hf & Hwf' & Hrel & Hm & Hg & Hs).
    { apply (slr_dom _ _ Hrel1). assumption. }
    { apply (slr_dom _ _ Hrel1). assumption. }
    exists l'. split; [exact Hf|]. split; [assumption|].
    split; [eapply sl_relinked_trans; eassumption|].
    split; [congruence|]. split; [|auto].
    intros t' Ht'. apply elem_of_cons in Ht' as [->|Ht']; [|auto].
    destruct (ec_edges (sl_edges l') !! edge_key from t) eqn:E; [|reflexivity].
    assert (Hx : is_Some (ec_edges (sl_edges l') !! edge_key from t)) by eauto.
    apply Hs in Hx as [? ?]. congruence.
Qed.

(** Exact effect of mergeNodes. *)
Lemma sl_merge_nodes_ok l from to nf :
  sl_wf l -> from <> to -> sl_nodes l !! from = Some nf -> is_Some (sl_nodes l !! to) ->
  exists l', sl_merge_nodes l from to = Ok (true, l') /\ sl_wf l' /\
    sl_id l' = sl_id l /\
    sl_status l' = <[from := NMerged]> (sl_status l) /\
    ec_edges (sl_edges l') = merge_edges from to (ec_edges (sl_edges l)) /\
    sl_nodes l' !! from = None /\
    (forall x, x <> from -> (is_Some (sl_nodes l' !! x) <-> is_Some (sl_nodes l !! x))) /\
    (forall x nd, x <> from -> sl_nodes l !! x = Some nd -> exists nd', sl_nodes l' !! x = Some nd' /\
       same_but_sib nd nd' /\ from ∉ n_sib nd' /\
       forall v, sl_nodes l !! v = None -> (v ∈ n_sib nd' <-> v ∈ n_sib nd)).
Proof.
  intros Hwf Hne Hnf Hto. unfold sl_merge_nodes.
  rewrite (proj2 (sl_has_node_true l from)), (proj2 (sl_has_node_true l to)) by eauto. cbn [negb orb].
  destruct (N.eqb_spec from to); [contradiction|]. rewrite Hnf. cbn [at_ rbind].
  destruct (sl_merge_loop from to (elements (n_sib nf)) l Hwf Hne) as (l1 & Hf & Hwf1 & Hrel & Hm & Hg & Hs); [eauto|assumption|].
  rewrite Hf. cbn [rbind]. eexists. split; [reflexivity|].
  assert (Hnone : forall t, ec_edges (sl_edges l1) !! edge_key from t = None).
  { intros t. destruct (ec_edges (sl_edges l1) !! edge_key from t) eqn:E; [|reflexivity].
    assert (Hx : is_Some (ec_edges (sl_edges l) !! edge_key from t)) by (apply Hs; eauto).
    destruct (sl_edge_key _ _ _ Hwf Hx) as (_ & _ & Ht).
    apply (slw_adj _ Hwf _ _ _ Hnf Ht) in Hx.
    rewrite Hg in E; [discriminate|]. apply elem_of_elements. exact Hx. }
  assert (Hedges : ec_edges (sl_edges l1) = merge_edges from to (ec_edges (sl_edges l))).
  { rewrite <- Hm. symmetry. apply merge_edges_no_touch; auto. apply sl_em_wf, Hwf1. }
  destruct Hrel as [R1 R2 R3 R4].
  assert (Hnotin : forall x nd', sl_nodes l1 !! x = Some nd' -> from ∉ n_sib nd').
  { intros x nd' Hx Hin. apply (slw_adj _ Hwf1 _ _ _ Hx) in Hin; [|apply R3; eauto].
    rewrite edge_key_comm, Hnone in Hin. destruct Hin; discriminate. }
  split.
  - destruct Hwf1 as [H1 H2 H3 H4 H5 H6]. split; cbn.
    + intros id n0. rewrite lookup_delete_Some. intros [_ H]; auto.
    + exact H2.
    + intros k e He. destruct (H3 _ _ He) as (? & ? & ?). split; [assumption|].
      pose proof (ecw_key _ H2 _ _ He) as Hk.
      assert (e_src e <> from /\ e_tgt e <> from) as [? ?].
      { rewrite Hk in He. split; intros Heq; subst from.
        - rewrite Hnone in He. discriminate.
        - rewrite edge_key_comm, Hnone in He. discriminate. }
      rewrite !lookup_delete_ne by congruence. auto.
    + intros u v nu. rewrite lookup_delete_Some. intros [Hu Hnu] Hv.
      apply (H4 _ _ _ Hnu). destruct (decide (from = v)) as [->|]; [rewrite lookup_delete in Hv; destruct Hv; discriminate|].
      rewrite lookup_delete_ne in Hv by assumption. exact Hv.
    + intros id. destruct (decide (from = id)) as [->|Hne'].
      * rewrite lookup_delete, lookup_insert. split; [intros [? ?]; discriminate|].
        intros (s & [= <-] & [?|?]); discriminate.
      * rewrite lookup_delete_ne, lookup_insert_ne by assumption. apply H5.
    + intros id s. rewrite lookup_insert_Some. intros [[_ <-]|[_ ?]]; [discriminate|eauto].
  - cbn. split; [assumption|]. split; [congruence|]. split; [assumption|].
    split; [apply lookup_delete|]. split.
    + intros x Hx. rewrite lookup_delete_ne by congruence. apply R3.
    + intros x nd Hx Hnd. rewrite lookup_delete_ne by congruence.
      destruct (R4 _ _ Hnd) as (nd' & Hnd' & Hsame & Hfor). exists nd'. eauto.
Qed.

Lemma sl_merge_nodes_noop l from to :
  sl_nodes l !! from = None \/ sl_nodes l !! to = None \/ from = to ->
  sl_merge_nodes l from to = Ok (false, l).
Proof.
  intros H. unfold sl_merge_nodes.
  destruct (sl_has_node l from) eqn:E1; [|reflexivity].
  destruct (sl_has_node l to) eqn:E2; [|reflexivity]. cbn.
  destruct (N.eqb_spec from to) as [|Hne]; [reflexivity|]. exfalso.
  apply sl_has_node_true in E1 as [? E1], E2 as [? E2]. destruct H as [?|[?|?]]; congruence.
Qed.
