(** Invariant and exact effects of the static layer operations. *)
From Coq Require Import NArith ZArith Bool List Lia.
From stdpp Require Import base list gmap fin_maps tactics.
From Verif.Model Require Import Types Mesh Attrs Node EdgeContainer SLayer.
From Verif.Proof Require Import Keys.
Local Open Scope N_scope.

Definition n_live (s : NodeStatus) : Prop := s = NNew \/ s = NVisible.

(** Siblings that are not nodes of this layer are allowed here: the graph records edges
    between different partitions of the same LayerId in the same set. *)
Record sl_wf (l : SLayer) : Prop := {
  slw_node : forall id n, sl_nodes l !! id = Some n -> n_id n = id /\ n_layer n = sl_id l;
  slw_ec : ec_wf (sl_edges l);
  slw_ends : forall k e, ec_edges (sl_edges l) !! k = Some e ->
    e_src e <> e_tgt e /\ is_Some (sl_nodes l !! e_src e) /\ is_Some (sl_nodes l !! e_tgt e);
  slw_adj : forall u v nu, sl_nodes l !! u = Some nu -> is_Some (sl_nodes l !! v) ->
    (v ∈ n_sib nu <-> is_Some (ec_edges (sl_edges l) !! edge_key u v));
  slw_status : forall id, is_Some (sl_nodes l !! id) <-> exists s, sl_status l !! id = Some s /\ n_live s;
  slw_status_ok : forall id s, sl_status l !! id = Some s -> s <> NNonexistent
}.

(** All siblings live in the layer. *)
Definition sl_closed (l : SLayer) : Prop :=
  forall u nu v, sl_nodes l !! u = Some nu -> v ∈ n_sib nu -> is_Some (sl_nodes l !! v).

Lemma sl_wf_new id : sl_wf (sl_new id).
Proof.
  split; cbn; try apply ec_wf_empty; intros *; rewrite ?lookup_empty; try discriminate.
  split; [intros [? ?]; discriminate | intros (? & ? & _); discriminate].
Qed.
Lemma sl_closed_new id : sl_closed (sl_new id).
Proof. intros u nu v. cbn. rewrite lookup_empty. discriminate. Qed.

Lemma sl_has_node_true l id : sl_has_node l id = true <-> is_Some (sl_nodes l !! id).
Proof. apply bool_decide_eq_true. Qed.
Lemma sl_has_node_false l id : sl_has_node l id = false <-> sl_nodes l !! id = None.
Proof. unfold sl_has_node. rewrite bool_decide_eq_false, eq_None_not_Some. reflexivity. Qed.

Lemma sl_edge_key l u v : sl_wf l -> is_Some (ec_edges (sl_edges l) !! edge_key u v) ->
  u <> v /\ is_Some (sl_nodes l !! u) /\ is_Some (sl_nodes l !! v).
Proof.
  intros Hwf [e He]. pose proof (ecw_key _ (slw_ec _ Hwf) _ _ He) as Hk.
  destruct (slw_ends _ Hwf _ _ He) as (Hne & Hs & Ht).
  apply edge_key_inj in Hk as [[-> ->]|[-> ->]]; auto.
Qed.

Lemma sl_upd_ok l id f n : sl_nodes l !! id = Some n ->
  sl_upd l id f = Ok (sl_with_nodes l (alter f id (sl_nodes l))).
Proof.
  intros H. unfold sl_upd. rewrite H. do 2 f_equal.
  apply map_eq. intros i. destruct (decide (i = id)) as [->|Hne].
  - rewrite lookup_insert, lookup_alter, H. reflexivity.
  - rewrite lookup_insert_ne, lookup_alter_ne by congruence. reflexivity.
Qed.

(** Adding / removing a sibling pair, as a map transformation. *)
Definition link_sib (u v : N) (m : gmap N Node) : gmap N Node := alter (add_sib u) v (alter (add_sib v) u m).
Definition unlink_sib (u v : N) (m : gmap N Node) : gmap N Node := alter (del_sib u) v (alter (del_sib v) u m).

Lemma lookup_link_sib u v m x : u <> v ->
  link_sib u v m !! x =
    (fun n => if decide (x = u) then add_sib v n else if decide (x = v) then add_sib u n else n) <$> m !! x.
Proof.
  intros Hne. unfold link_sib.
  destruct (decide (x = v)) as [->|Hv].
  - rewrite lookup_alter, lookup_alter_ne by congruence.
    destruct (decide (v = u)); [congruence|]. reflexivity.
  - rewrite lookup_alter_ne by congruence. destruct (decide (x = u)) as [->|Hu].
    + rewrite lookup_alter. reflexivity.
    + rewrite lookup_alter_ne by congruence. rewrite option_fmap_id. reflexivity.
Qed.
Lemma lookup_unlink_sib u v m x : u <> v ->
  unlink_sib u v m !! x =
    (fun n => if decide (x = u) then del_sib v n else if decide (x = v) then del_sib u n else n) <$> m !! x.
Proof.
  intros Hne. unfold unlink_sib.
  destruct (decide (x = v)) as [->|Hv].
  - rewrite lookup_alter, lookup_alter_ne by congruence.
    destruct (decide (v = u)); [congruence|]. reflexivity.
  - rewrite lookup_alter_ne by congruence. destruct (decide (x = u)) as [->|Hu].
    + rewrite lookup_alter. reflexivity.
    + rewrite lookup_alter_ne by congruence. rewrite option_fmap_id. reflexivity.
Qed.

Lemma is_Some_fmap_iff {A B} (f : A -> B) o : is_Some (f <$> o) <-> is_Some o.
Proof. apply fmap_is_Some. Qed.

(** *** Edge insertion *)
Definition sl_can_insert (l : SLayer) (s t : N) : Prop :=
  s <> t /\ ec_edges (sl_edges l) !! edge_key s t = None /\
  is_Some (sl_nodes l !! s) /\ is_Some (sl_nodes l !! t).

Definition sl_inserted (l : SLayer) (s t : N) (i : option EdgeAttrs) : SLayer :=
  mkSL (sl_id l) (link_sib s t (sl_nodes l)) (sl_status l) (ec_insert (sl_edges l) s t i).

Lemma sl_insert_edge_ok l s t i : sl_can_insert l s t ->
  sl_insert_edge l s t i = Ok (true, sl_inserted l s t i).
Proof.
  intros (Hne & Hno & [ns Hs] & [nt Ht]). unfold sl_insert_edge.
  destruct (N.eqb_spec s t); [congruence|].
  unfold sl_has_edge. rewrite (proj2 (ec_contains_false _ _ _) Hno).
  rewrite (proj2 (sl_has_node_true l s)), (proj2 (sl_has_node_true l t)) by eauto. cbn.
  rewrite (sl_upd_ok _ _ _ _ Hs). cbn.
  erewrite sl_upd_ok. 2: { cbn. rewrite lookup_alter_ne by congruence. exact Ht. }
  reflexivity.
Qed.

Lemma sl_insert_edge_noop l s t i : ~ sl_can_insert l s t ->
  sl_insert_edge l s t i = Ok (false, l).
Proof.
  intros H. unfold sl_insert_edge.
  destruct (N.eqb_spec s t); [reflexivity|].
  destruct (sl_has_edge l s t) eqn:E1; [reflexivity|].
  destruct (sl_has_node l s) eqn:E2; [|reflexivity].
  destruct (sl_has_node l t) eqn:E3; [|reflexivity].
  exfalso. apply H. unfold sl_has_edge in E1.
  apply ec_contains_false in E1. apply sl_has_node_true in E2, E3. repeat split; assumption.
Qed.

#[global] Instance sl_can_insert_dec l s t : Decision (sl_can_insert l s t).
Proof. unfold sl_can_insert. apply _. Defined.

Lemma is_Some_insert {A} (m : gmap EdgeKey A) k e k' :
  is_Some (<[k := e]> m !! k') <-> k = k' \/ is_Some (m !! k').
Proof.
  destruct (decide (k = k')) as [->|Hne].
  - rewrite lookup_insert. split; eauto.
  - rewrite lookup_insert_ne by assumption. split; [auto|intros [?|?]; [contradiction|assumption]].
Qed.
Lemma is_Some_delete {A} (m : gmap EdgeKey A) k k' :
  is_Some (delete k m !! k') <-> k <> k' /\ is_Some (m !! k').
Proof.
  destruct (decide (k = k')) as [->|Hne].
  - rewrite lookup_delete. split; [intros [? ?]; discriminate|intros [? _]; contradiction].
  - rewrite lookup_delete_ne by assumption. tauto.
Qed.

Lemma sl_wf_insert_edge l s t i : sl_wf l -> sl_can_insert l s t -> sl_wf (sl_inserted l s t i).
Proof.
  intros [H1 H2 H3 H4 H5 H6] (Hne & Hno & Hs & Ht). unfold sl_inserted. split; cbn.
  - intros id n. rewrite lookup_link_sib by assumption. rewrite fmap_Some.
    intros (n0 & Hn0 & ->). destruct (H1 _ _ Hn0).
    destruct (decide (id = s)); [|destruct (decide (id = t))]; cbn; auto.
  - apply ec_wf_insert, H2.
  - intros k e. rewrite !lookup_link_sib by assumption. rewrite !is_Some_fmap_iff.
    rewrite ec_insert_edges_new by assumption.
    rewrite lookup_insert_Some. intros [[_ <-]|[_ He]]; cbn; [auto|eauto].
  - intros u v nu. rewrite !lookup_link_sib by assumption. rewrite is_Some_fmap_iff.
    rewrite fmap_Some. intros (n0 & Hn0 & ->) Hv.
    rewrite ec_insert_edges_new by assumption.
    rewrite is_Some_insert, <- (H4 _ _ _ Hn0 Hv), edge_key_inj.
    destruct (decide (u = s)) as [->|Hu]; [|destruct (decide (u = t)) as [->|Hu']]; cbn.
    + rewrite elem_of_union, elem_of_singleton. split; [intros [->|?]; auto|].
      intros [[[_ ->]|[-> ->]]|?]; auto; contradiction.
    + rewrite elem_of_union, elem_of_singleton. split; [intros [->|?]; auto|].
      intros [[[? ?]|[? ?]]|?]; subst; auto; contradiction.
    + split; [auto|]. intros [[[? ?]|[? ?]]|?]; subst; auto; contradiction.
  - intros id. rewrite lookup_link_sib by assumption. rewrite is_Some_fmap_iff. apply H5.
  - exact H6.
Qed.

(** *** Edge removal *)
Definition sl_removed (l : SLayer) (s t : N) : SLayer :=
  mkSL (sl_id l) (unlink_sib s t (sl_nodes l)) (sl_status l)
    (mkEC (delete (edge_key s t) (ec_edges (sl_edges l)))
          (<[edge_key s t := EDeleted]> (ec_status (sl_edges l))) (ec_stale (sl_edges l))).

Lemma sl_remove_edge_ok l s t : sl_wf l -> is_Some (ec_edges (sl_edges l) !! edge_key s t) ->
  sl_remove_edge l s t = Ok (true, sl_removed l s t).
Proof.
  intros Hwf He. destruct (sl_edge_key _ _ _ Hwf He) as (Hne & [ns Hs] & [nt Ht]).
  unfold sl_remove_edge, sl_has_edge. rewrite (proj2 (ec_contains_true _ _ _) He). cbn.
  rewrite (sl_upd_ok _ _ _ _ Hs). cbn.
  erewrite sl_upd_ok. 2: { cbn. rewrite lookup_alter_ne by congruence. exact Ht. }
  cbn. rewrite ec_remove_ok; [reflexivity|apply slw_ec, Hwf|exact He].
Qed.

Lemma sl_remove_edge_noop l s t : ec_edges (sl_edges l) !! edge_key s t = None ->
  sl_remove_edge l s t = Ok (false, l).
Proof.
  intros He. unfold sl_remove_edge, sl_has_edge. rewrite (proj2 (ec_contains_false _ _ _) He). reflexivity.
Qed.

Lemma sl_wf_remove_edge l s t : sl_wf l -> is_Some (ec_edges (sl_edges l) !! edge_key s t) ->
  sl_wf (sl_removed l s t).
Proof.
  intros Hwf He. destruct (sl_edge_key _ _ _ Hwf He) as (Hne & Hs & Ht).
  destruct Hwf as [H1 H2 H3 H4 H5 H6]. unfold sl_removed. split; cbn.
  - intros id n. rewrite lookup_unlink_sib by assumption. rewrite fmap_Some.
    intros (n0 & Hn0 & ->). destruct (H1 _ _ Hn0).
    destruct (decide (id = s)); [|destruct (decide (id = t))]; cbn; auto.
  - apply ec_wf_remove; [apply H2|apply edge_key_norm].
  - intros k e. rewrite !lookup_unlink_sib by assumption. rewrite !is_Some_fmap_iff.
    rewrite lookup_delete_Some. intros [_ He']; eauto.
  - intros u v nu. rewrite !lookup_unlink_sib by assumption. rewrite is_Some_fmap_iff.
    rewrite fmap_Some. intros (n0 & Hn0 & ->) Hv.
    rewrite is_Some_delete, <- (H4 _ _ _ Hn0 Hv), edge_key_inj.
    destruct (decide (u = s)) as [->|Hu]; [|destruct (decide (u = t)) as [->|Hu']]; cbn.
    + rewrite elem_of_difference, elem_of_singleton. split.
      * intros [? ?]. split; [|assumption]. intros [[_ ->]|[-> ->]]; contradiction.
      * intros [Hn ?]. split; [assumption|]. intros ->. apply Hn. auto.
    + rewrite elem_of_difference, elem_of_singleton. split.
      * intros [? ?]. split; [|assumption]. intros [[? ?]|[? ?]]; subst; contradiction.
      * intros [Hn ?]. split; [assumption|]. intros ->. apply Hn. auto.
    + split; [|tauto]. intros ?. split; [|assumption]. intros [[? ?]|[? ?]]; subst; contradiction.
  - intros id. rewrite lookup_unlink_sib by assumption. rewrite is_Some_fmap_iff. apply H5.
  - exact H6.
Qed.

(** *** Node removal *)
Definition drop_edges (n : N) (m : gmap EdgeKey Edge) : gmap EdgeKey Edge :=
  filter (fun kv => ~ touches n (fst kv)) m.

Lemma lookup_drop_edges n m k :
  drop_edges n m !! k = if decide (touches n k) then None else m !! k.
Proof.
  unfold drop_edges. destruct (decide (touches n k)) as [H|H].
  - apply map_filter_lookup_None. right. intros e _ Hn. apply Hn, H.
  - destruct (m !! k) eqn:E.
    + apply map_filter_lookup_Some. auto.
    + apply map_filter_lookup_None. auto.
Qed.

Lemma drop_edges_delete n m k : touches n k -> drop_edges n (delete k m) = drop_edges n m.
Proof.
  intros Ht. apply map_eq. intros k'. rewrite !lookup_drop_edges.
  destruct (decide (touches n k')); [reflexivity|]. apply lookup_delete_ne. congruence.
Qed.

(** The state seen after forgetting everything about [n]: invariant of the loops. *)
Definition forget (n : N) (m : gmap N Node) : gmap N Node := delete n (del_sib n <$> m).

Lemma del_sib_idem n nd : del_sib n (del_sib n nd) = del_sib n nd.
Proof. destruct nd. unfold del_sib; cbn. f_equal. set_solver. Qed.
Lemma del_sib_notin n nd : n ∉ n_sib nd -> del_sib n nd = nd.
Proof. destruct nd. unfold del_sib; cbn. intros. f_equal. set_solver. Qed.

Lemma forget_unlink n t m : n <> t -> forget n (unlink_sib n t m) = forget n m.
Proof.
  intros Hne. unfold forget. apply map_eq. intros x. destruct (decide (x = n)) as [->|Hx].
  - rewrite !lookup_delete. reflexivity.
  - rewrite !lookup_delete_ne by congruence. rewrite !lookup_fmap, lookup_unlink_sib by assumption.
    destruct (m !! x) as [nd|]; [|reflexivity]. cbn.
    destruct (decide (x = n)); [contradiction|]. destruct (decide (x = t)) as [->|]; [|reflexivity].
    rewrite del_sib_idem. reflexivity.
Qed.

Lemma sl_remove_loop n ts l :
  sl_wf l ->
  exists l', rfold (fun l t => let! (_, l') := sl_remove_edge l n t in Ok l') ts l = Ok l' /\
    sl_wf l' /\ sl_id l' = sl_id l /\ sl_status l' = sl_status l /\
    forget n (sl_nodes l') = forget n (sl_nodes l) /\
    (forall x, is_Some (sl_nodes l' !! x) <-> is_Some (sl_nodes l !! x)) /\
    (forall t, t ∈ ts -> ec_edges (sl_edges l') !! edge_key n t = None) /\
    (forall k, is_Some (ec_edges (sl_edges l') !! k) -> is_Some (ec_edges (sl_edges l) !! k)) /\
    drop_edges n (ec_edges (sl_edges l')) = drop_edges n (ec_edges (sl_edges l)) /\
    (forall nd, sl_nodes l !! n = Some nd -> exists nd', sl_nodes l' !! n = Some nd' /\
       n_time nd' = n_time nd /\ n_attrs nd' = n_attrs nd /\ n_par nd' = n_par nd /\ n_chd nd' = n_chd nd).
Proof.
  revert l. induction ts as [|t ts IH]; intros l Hwf.
  - exists l. cbn. split; [reflexivity|]. split; [assumption|]. repeat split; auto.
    intros t Ht. inversion Ht. intros nd Hnd. exists nd. auto.
  - cbn [rfold]. destruct (decide (is_Some (ec_edges (sl_edges l) !! edge_key n t))) as [He|He].
    + rewrite (sl_remove_edge_ok _ _ _ Hwf He). cbn [rbind].
      destruct (sl_edge_key _ _ _ Hwf He) as (Hne & _ & _).
      destruct (IH _ (sl_wf_remove_edge _ _ _ Hwf He)) as (l' & Hf & Hwf' & Hid & Hst & Hfg & Hdom & Hgone & Hsub & Hdrop & Hself).
      exists l'. split; [exact Hf|]. split; [exact Hwf'|]. cbn in *.
      split; [exact Hid|]. split; [exact Hst|].
      split; [rewrite Hfg; apply forget_unlink; assumption|].
      split; [intros x; rewrite Hdom, lookup_unlink_sib by assumption; apply is_Some_fmap_iff|].
      split.
      * intros t' Ht'. apply elem_of_cons in Ht' as [->|Ht']; [|auto].
        destruct (ec_edges (sl_edges l') !! edge_key n t) eqn:E; [|reflexivity].
        assert (Hs : is_Some (ec_edges (sl_edges l') !! edge_key n t)) by eauto.
        apply Hsub in Hs. rewrite is_Some_delete in Hs. destruct Hs as [Hs _]. contradiction.
      * split; [intros k Hk; apply Hsub in Hk; rewrite is_Some_delete in Hk; tauto|].
        split; [rewrite Hdrop; apply drop_edges_delete, touches_edge_key; auto|].
        intros nd Hnd. destruct (Hself (del_sib t nd)) as (nd' & Hnd' & ?).
        { rewrite lookup_unlink_sib, Hnd by assumption. cbn. destruct (decide (n = n)); [reflexivity|contradiction]. }
        exists nd'. split; [assumption|]. exact H.
    + apply eq_None_not_Some in He. rewrite (sl_remove_edge_noop _ _ _ He). cbn [rbind].
      destruct (IH _ Hwf) as (l' & Hf & Hwf' & Hid & Hst & Hfg & Hdom & Hgone & Hsub & Hdrop & Hself).
      exists l'. repeat (split; [assumption|]). split; [|split; [assumption|split; assumption]].
      intros t' Ht'. apply elem_of_cons in Ht' as [->|Ht']; [|auto].
      destruct (ec_edges (sl_edges l') !! edge_key n t) eqn:E; [|reflexivity].
      assert (Hs : is_Some (ec_edges (sl_edges l') !! edge_key n t)) by eauto.
      apply Hsub in Hs as [? ?]. congruence.
Qed.

(** Exact effect of removeNode. *)
Lemma sl_remove_node_ok l n nd :
  sl_wf l -> sl_nodes l !! n = Some nd ->
  exists l', sl_remove_node l n = Ok (true, l') /\ sl_wf l' /\
    sl_id l' = sl_id l /\
    sl_nodes l' = forget n (sl_nodes l) /\
    ec_edges (sl_edges l') = drop_edges n (ec_edges (sl_edges l)) /\
    sl_status l' = <[n := NDeleted]> (sl_status l).
Proof.
  intros Hwf Hnd. unfold sl_remove_node. rewrite Hnd.
  destruct (sl_remove_loop n (elements (n_sib nd)) l Hwf)
    as (l1 & Hf & Hwf1 & Hid & Hst & Hfg & Hdom & Hgone & Hsub & Hdrop & Hself).
  rewrite Hf. cbn [rbind]. eexists. split; [reflexivity|].
  assert (Hnone : forall t, ec_edges (sl_edges l1) !! edge_key n t = None).
  { intros t. destruct (ec_edges (sl_edges l1) !! edge_key n t) eqn:E; [|reflexivity].
    assert (Hs : is_Some (ec_edges (sl_edges l) !! edge_key n t)) by (apply Hsub; eauto).
    destruct (sl_edge_key _ _ _ Hwf Hs) as (_ & _ & Ht).
    apply (slw_adj _ Hwf _ _ _ Hnd Ht) in Hs.
    rewrite Hgone in E; [discriminate|]. apply elem_of_elements. exact Hs. }
  assert (Hnodes : delete n (sl_nodes l1) = forget n (sl_nodes l)).
  { rewrite <- Hfg. unfold forget. apply map_eq. intros x. destruct (decide (x = n)) as [->|Hx].
    - rewrite !lookup_delete. reflexivity.
    - rewrite !lookup_delete_ne by congruence. rewrite lookup_fmap.
      destruct (sl_nodes l1 !! x) as [nx|] eqn:E; [|reflexivity]. cbn. f_equal.
      symmetry. apply del_sib_notin. intros Hin.
      apply (slw_adj _ Hwf1 _ _ _ E) in Hin; [|apply Hdom; eauto].
      rewrite edge_key_comm, Hnone in Hin. destruct Hin; discriminate. }
  assert (Hedges : ec_edges (sl_edges l1) = drop_edges n (ec_edges (sl_edges l))).
  { rewrite <- Hdrop. apply map_eq. intros k. rewrite lookup_drop_edges.
    destruct (decide (touches n k)) as [Ht|]; [|reflexivity].
    destruct (ec_edges (sl_edges l1) !! k) as [e|] eqn:E; [|reflexivity].
    pose proof (ecw_key _ (slw_ec _ Hwf1) _ _ E) as ->.
    apply touches_other in Ht as (t & Ht & _). rewrite Ht, Hnone in E. discriminate. }
  split; [|cbn; repeat split; auto; congruence].
  destruct Hwf1 as [H1 H2 H3 H4 H5 H6]. split; cbn.
  - intros id n0. rewrite lookup_delete_Some. intros [_ H]; auto.
  - exact H2.
  - intros k e He. destruct (H3 _ _ He) as (? & ? & ?). split; [assumption|].
    pose proof (ecw_key _ H2 _ _ He) as Hk.
    assert (e_src e <> n /\ e_tgt e <> n) as [? ?].
    { rewrite Hk in He. split; intros Heq; subst n.
      - rewrite Hnone in He. discriminate.
      - rewrite edge_key_comm, Hnone in He. discriminate. }
    rewrite !lookup_delete_ne by congruence. auto.
  - intros u v nu. rewrite lookup_delete_Some. intros [Hu Hnu] Hv.
    apply (H4 _ _ _ Hnu). destruct (decide (n = v)) as [->|]; [rewrite lookup_delete in Hv; destruct Hv; discriminate|].
    rewrite lookup_delete_ne in Hv by assumption. exact Hv.
  - intros id. destruct (decide (n = id)) as [->|Hne].
    + rewrite lookup_delete, lookup_insert. split; [intros [? ?]; discriminate|].
      intros (s & [= <-] & [?|?]); discriminate.
    + rewrite lookup_delete_ne, lookup_insert_ne by assumption. apply H5.
  - intros id s. rewrite lookup_insert_Some. intros [[_ <-]|[_ ?]]; [discriminate|eauto].
Qed.

Lemma sl_remove_node_noop l n : sl_nodes l !! n = None -> sl_remove_node l n = Ok (false, l).
Proof. intros H. unfold sl_remove_node. rewrite H. reflexivity. Qed.
