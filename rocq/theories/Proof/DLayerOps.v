(** Exact effects of node insertion and removal on dynamic layers. *)
From Coq Require Import NArith ZArith Bool List Lia.
From stdpp Require Import base list gmap fin_maps tactics.
From Verif.Model Require Import Types Mesh Attrs Node EdgeContainer SLayer DLayer.
From Verif.Proof Require Import Arith Keys SLayerP SLayerMerge DLayerP.
Local Open Scope N_scope.

(** Adding an unlinked node to a layer. *)
Definition sl_added (l : SLayer) (id : N) (n : Node) (s : NodeStatus) : SLayer :=
  mkSL (sl_id l) (<[id := n]> (sl_nodes l)) (<[id := s]> (sl_status l)) (sl_edges l).

Lemma sl_wf_added l id n s :
  sl_wf l -> sl_nodes l !! id = None ->
  (forall u nu, sl_nodes l !! u = Some nu -> id ∉ n_sib nu) ->
  n_id n = id -> n_layer n = sl_id l -> n_live s ->
  (forall v, v ∈ n_sib n -> sl_nodes l !! v = None /\ v <> id) ->
  sl_wf (sl_added l id n s).
Proof.
  intros Hwf Hno Hfresh Hid Hlay Hs Hsib. destruct Hwf as [H1 H2 H3 H4 H5 H6]. split; cbn.
  - intros x nx. rewrite lookup_insert_Some. intros [[<- <-]|[_ Hx]]; auto.
  - exact H2.
  - intros k e He. destruct (H3 _ _ He) as (? & [? ?] & [? ?]). split; [assumption|].
    rewrite !lookup_insert_ne by congruence. eauto.
  - assert (Hnoe : forall v, ec_edges (sl_edges l) !! edge_key id v = None).
    { intros v. destruct (ec_edges (sl_edges l) !! edge_key id v) eqn:E; [|reflexivity].
      assert (He : is_Some (ec_edges (sl_edges l) !! edge_key id v)) by eauto.
      apply (sl_edge_key l) in He as (_ & [? ?] & _); [congruence|]. split; assumption. }
    intros u v nu. rewrite lookup_insert_Some. intros [[<- <-]|[Hu Hnu]] Hv.
    + rewrite Hnoe. split; [|intros [? ?]; discriminate]. intros Hin.
      apply Hsib in Hin as [Hn Hne]. rewrite lookup_insert_ne, Hn in Hv by congruence. destruct Hv; discriminate.
    + destruct (decide (id = v)) as [<-|Hne].
      * rewrite edge_key_comm, Hnoe. split; [intros Hin; exfalso; eapply Hfresh; eassumption|intros [? ?]; discriminate].
      * rewrite lookup_insert_ne in Hv by assumption. apply H4; assumption.
  - intros x. destruct (decide (id = x)) as [<-|Hne].
    + rewrite !lookup_insert. split; [intros _; exists s; auto|eauto].
    + rewrite !lookup_insert_ne by assumption. apply H5.
  - intros x s'. rewrite lookup_insert_Some. intros [[_ <-]|[_ ?]]; [|eauto]. destruct Hs; congruence.
Qed.

(** The status map may be replaced by any other describing the same set. *)
Lemma sl_wf_restatus l st :
  sl_wf l ->
  (forall id, is_Some (sl_nodes l !! id) <-> exists s, st !! id = Some s /\ n_live s) ->
  (forall id s, st !! id = Some s -> s <> NNonexistent) ->
  sl_wf (mkSL (sl_id l) (sl_nodes l) st (sl_edges l)).
Proof. intros [H1 H2 H3 H4 H5 H6] Ha Hb. split; assumption. Qed.

Lemma const_status_live (m : gmap N Node) id :
  is_Some (m !! id) <-> exists s, ((fun _ => NVisible) <$> m) !! id = Some s /\ n_live s.
Proof.
  rewrite lookup_fmap. destruct (m !! id); cbn; split.
  - intros _. exists NVisible. split; [reflexivity|right; reflexivity].
  - eauto.
  - intros [? ?]; discriminate.
  - intros (? & ? & _); discriminate.
Qed.
Lemma const_status_ok (m : gmap N Node) id s : ((fun _ => NVisible) <$> m) !! id = Some s -> s <> NNonexistent.
Proof. rewrite lookup_fmap. destruct (m !! id); cbn; congruence. Qed.

Lemma sl_wf_view_of d l : dl_id d = sl_id l -> dl_nmap d = sl_nodes l -> dl_edges d = sl_edges l ->
  sl_wf l -> sl_wf (dl_view d).
Proof.
  intros H1 H2 H3 Hwf. unfold dl_view. rewrite H1, H2, H3.
  apply sl_wf_restatus; [assumption|apply const_status_live|apply const_status_ok].
Qed.

(** *** A new slot *)
Definition dl_pushed (d : DLayer) (stamp : Z) (a : NodeAttrs) : DLayer :=
  mkDL (dl_id d) (dl_prefix d) ({[stamp]} ∪ dl_times d)
    (dl_nodes d ++ [Some (node_new (prefix_make_id (dl_prefix d) (dl_next d)) (dl_id d) (Some stamp) a)])
    (<[dl_size d := NNew]> (dl_status d)) (dl_next d) (dl_edges d).

Lemma lookup_snoc_Some {A} (l : list A) x i y :
  (l ++ [x]) !! i = Some y <-> l !! i = Some y \/ (i = length l /\ y = x).
Proof.
  split.
  - intros H. destruct (decide (i < length l)%nat) as [Hlt|Hge].
    + rewrite lookup_app_l in H by assumption. auto.
    + rewrite lookup_app_r in H by lia. destruct (i - length l)%nat as [|k] eqn:E; cbn in H.
      * right. split; [lia|congruence].
      * discriminate.
  - intros [H|[-> ->]]; [apply lookup_app_l_Some; assumption|].
    rewrite lookup_app_r by lia. rewrite Nat.sub_diag. reflexivity.
Qed.

Lemma dl_has_index_insert d i s st j :
  dl_has_index (mkDL (dl_id d) (dl_prefix d) (dl_times d) (dl_nodes d) (<[i := s]> st) (dl_next d) (dl_edges d)) j =
  if decide (i = j) then match s with NNew | NVisible => true | _ => false end
  else match st !! j with Some NVisible | Some NNew => true | _ => false end.
Proof.
  unfold dl_has_index; cbn. destruct (decide (i = j)) as [->|Hne].
  - rewrite lookup_insert. destruct s; reflexivity.
  - rewrite lookup_insert_ne by assumption. reflexivity.
Qed.

Lemma dl_core_pushed d stamp a :
  dl_core d -> dl_next d = dl_size d -> dl_size d < two32 -> stamp ∉ dl_times d ->
  dl_core (dl_pushed d stamp a).
Proof.
  intros H Hnext Hsz Hfresh. unfold dl_pushed. rewrite Hnext. split; cbn.
  - apply H.
  - unfold dl_size in *; cbn [dl_nodes]. rewrite app_length. cbn [length]. lia.
  - intros i n. rewrite lookup_snoc_Some. intros [Hi|[-> [= ->]]]; [apply (dlc_node _ H _ _ Hi)|].
    cbn. split; [reflexivity|]. split; [reflexivity|]. eauto.
  - intros i. unfold dl_has_index; cbn. destruct (decide (dl_size d = i)) as [<-|Hne].
    + rewrite lookup_insert. split; [|reflexivity]. intros _.
      eexists. apply lookup_snoc_Some. right. split; [unfold dl_size; lia|reflexivity].
    + rewrite lookup_insert_ne by assumption. fold (dl_has_index d i). rewrite (dlc_status _ H).
      split; intros [n Hn]; exists n.
      * apply lookup_snoc_Some. auto.
      * apply lookup_snoc_Some in Hn as [Hn|[Hn _]]; [assumption|]. unfold dl_size in Hne. lia.
  - intros i s. rewrite lookup_insert_Some. intros [[_ <-]|[_ Hs]]; [auto|]. apply (dlc_status_ok _ H _ _ Hs).
  - intros t. rewrite elem_of_union, elem_of_singleton, (dlc_times _ H). split.
    + intros [->|(i & n & Hi & Ht)].
      * eexists _, _. split; [apply lookup_snoc_Some; right; split; reflexivity|reflexivity].
      * exists i, n. split; [apply lookup_snoc_Some; auto|assumption].
    + intros (i & n & Hi & Ht). apply lookup_snoc_Some in Hi as [Hi|[-> Hn]]; [right; eauto|].
      left. injection Hn as ->. cbn in Ht. congruence.
  - intros i j n m Hi Hj Heq.
    apply lookup_snoc_Some in Hi as [Hi|[-> Hn]]; apply lookup_snoc_Some in Hj as [Hj|[-> Hm]].
    + eapply (dlc_times_inj _ H); eassumption.
    + exfalso. injection Hm as ->. cbn in Heq. apply Hfresh, (dlc_times _ H). eauto.
    + exfalso. injection Hn as ->. cbn in Heq. apply Hfresh, (dlc_times _ H). eauto.
    + reflexivity.
Qed.

Lemma dl_nmap_pushed d stamp a :
  dl_core d -> dl_next d = dl_size d -> dl_size d < two32 -> stamp ∉ dl_times d ->
  dl_nmap (dl_pushed d stamp a) =
    <[prefix_make_id (dl_prefix d) (dl_next d) :=
        node_new (prefix_make_id (dl_prefix d) (dl_next d)) (dl_id d) (Some stamp) a]> (dl_nmap d) /\
  dl_nmap d !! prefix_make_id (dl_prefix d) (dl_next d) = None.
Proof.
  intros H Hnext Hsz Hfresh. pose proof (dl_core_pushed d stamp a H Hnext Hsz Hfresh) as H'.
  assert (Hno : dl_nmap d !! prefix_make_id (dl_prefix d) (dl_next d) = None).
  { rewrite dl_nmap_lookup; [|assumption|apply make_id_lt, H|apply make_id_from; [apply H|lia]].
    rewrite make_id_index by (apply H || lia). rewrite lookup_ge_None_2; [reflexivity|].
    unfold dl_size in *. lia. }
  split; [|exact Hno].
  apply map_eq. intros x. apply option_eq. intros n. rewrite dl_nmap_Some by assumption.
  rewrite lookup_insert_Some, dl_nmap_Some by assumption. cbn.
  split.
  - intros (i & Hi & ->). apply lookup_snoc_Some in Hi as [Hi|[-> Hn]].
    + right. split; [|eauto]. intros Heq. rewrite Heq in Hno.
      assert (Hs : dl_nmap d !! prefix_make_id (dl_prefix d) (N.of_nat i) = Some n) by (apply dl_nmap_Some; eauto).
      congruence.
    + left. injection Hn as ->. unfold dl_size in *. rewrite <- Hnext. auto.
  - intros [[<- <-]|[Hne (i & Hi & ->)]].
    + eexists. split; [apply lookup_snoc_Some; right; split; reflexivity|]. unfold dl_size in *. congruence.
    + exists i. split; [apply lookup_snoc_Some; auto|reflexivity].
Qed.

(** The state after a successful emplaceNode. *)
Lemma dl_emplace_node_ok d stamp a add_edge :
  dl_wf d -> dl_next d = dl_size d -> dl_size d < two32 -> stamp ∉ dl_times d ->
  let id := prefix_make_id (dl_prefix d) (dl_next d) in
  let l1 := sl_added (dl_view d) id (node_new id (dl_id d) (Some stamp) a) NVisible in
  (forall u nu, dl_nmap d !! u = Some nu -> id ∉ n_sib nu) ->
  dl_nmap d !! id = None /\
  exists l2 b d', (if add_edge && (0 <? dl_size d)
      then sl_insert_edge l1 (prefix_make_id (dl_prefix d) (dl_size d - 1)) id None = Ok (b, l2)
      else l2 = l1) /\ sl_wf l2 /\
    dl_emplace_node d stamp a add_edge = Ok (true, d') /\ dl_wf d' /\ dl_view d' = l2 /\
    dl_id d' = dl_id d /\ dl_prefix d' = dl_prefix d /\ dl_next d' = dl_next d + 1 /\ dl_size d' = dl_size d + 1 /\
    dl_times d' = {[stamp]} ∪ dl_times d /\ dl_status d' = <[dl_size d := NNew]> (dl_status d).
Proof.
  intros [H Hwf] Hnext Hsz Hfresh id l1 Hsibs.
  destruct (dl_nmap_pushed d stamp a H Hnext Hsz Hfresh) as [Hmap Hno].
  pose proof (dl_core_pushed d stamp a H Hnext Hsz Hfresh) as H1.
  split; [exact Hno|].
  assert (Hv1 : dl_view (dl_pushed d stamp a) = l1).
  { unfold dl_view at 1. rewrite Hmap, fmap_insert. reflexivity. }
  assert (Hwf1 : sl_wf l1).
  { apply sl_wf_added; auto; try reflexivity.
    - right; reflexivity.
    - intros v Hv. cbn in Hv. apply elem_of_empty in Hv. contradiction. }
  assert (Hsz1 : dl_size (dl_pushed d stamp a) = dl_size d + 1).
  { unfold dl_size; cbn. rewrite app_length; cbn. lia. }
  unfold dl_emplace_node. rewrite bool_decide_eq_false_2 by assumption.
  fold (dl_pushed d stamp a).
  replace (1 <? dl_size (dl_pushed d stamp a)) with (0 <? dl_size d).
  2: { rewrite Hsz1. destruct (N.ltb_spec 0 (dl_size d)), (N.ltb_spec 1 (dl_size d + 1)); lia. }
  destruct (add_edge && (0 <? dl_size d)) eqn:Eae.
  - apply andb_true_iff in Eae as [_ Hpos]. apply N.ltb_lt in Hpos.
    rewrite Hsz1.
    replace (dl_size d + 1 - 2) with (dl_size d - 1) by lia.
    replace (dl_size d + 1 - 1) with (dl_next d) by lia.
    destruct (dl_insert_edge_sim (dl_pushed d stamp a) (prefix_make_id (dl_prefix d) (dl_size d - 1))
                (prefix_make_id (dl_prefix d) (dl_next d)) None H1) as (b & l2 & d2 & Hsl & Hdl & Hv2 & H2 & Hs2 & _).
    { apply make_id_lt, H. } { apply make_id_lt, H. }
    rewrite Hdl. cbn [rbind]. rewrite Hv1 in Hsl.
    assert (Hwf2 : sl_wf l2).
    { destruct (decide (sl_can_insert l1 (prefix_make_id (dl_prefix d) (dl_size d - 1)) id)) as [Hc|Hc].
      - rewrite sl_insert_edge_ok in Hsl by assumption. injection Hsl as <- <-. apply sl_wf_insert_edge; assumption.
      - rewrite sl_insert_edge_noop in Hsl by assumption. injection Hsl as <- <-. assumption. }
    eexists l2, b, _. split; [exact Hsl|]. split; [assumption|]. split; [reflexivity|].
    destruct Hs2 as (S1 & S2 & S3 & S4 & S5 & S6).
    split; [|split; [|cbn; repeat split; try assumption; unfold dl_size in *; cbn; rewrite S6; exact Hsz1]].
    + split; [destruct H2; split; assumption|]. rewrite <- Hv2 in Hwf2. exact Hwf2.
    + rewrite <- Hv2. reflexivity.
  - exists l1, false. eexists. split; [reflexivity|]. split; [assumption|]. split; [reflexivity|].
    split; [|split; [|cbn; repeat split; unfold dl_size in *; cbn; rewrite app_length; cbn; lia]].
    + split; [destruct H1; split; assumption|]. rewrite <- Hv1 in Hwf1. exact Hwf1.
    + rewrite <- Hv1. reflexivity.
Qed.

Lemma dl_emplace_node_dup d stamp a add_edge : stamp ∈ dl_times d ->
  dl_emplace_node d stamp a add_edge = Ok (false, d).
Proof. intros H. unfold dl_emplace_node. rewrite bool_decide_eq_true_2 by assumption. reflexivity. Qed.

(** *** Removal *)
Lemma dl_remove_loop d n ts : dl_wf d ->
  exists d', rfold (fun d t => let! (_, d') := dl_remove_edge d n t in Ok d') ts d = Ok d' /\
    rfold (fun l t => let! (_, l') := sl_remove_edge l n t in Ok l') ts (dl_view d) = Ok (dl_view d') /\
    dl_wf d' /\ dl_same d d'.
Proof.
  revert d. induction ts as [|t ts IH]; intros d Hwf.
  - exists d. cbn. split; [reflexivity|]. split; [reflexivity|]. split; [assumption|apply dl_same_refl].
  - cbn [rfold]. destruct (dl_remove_edge_sim d n t Hwf) as (b & l & d1 & Hs & Hd & Hv & Hc & Hsame & _).
    rewrite Hs, Hd. cbn [rbind].
    assert (Hwf1 : dl_wf d1).
    { split; [assumption|]. rewrite Hv.
      destruct (decide (is_Some (ec_edges (dl_edges d) !! edge_key n t))) as [He|He].
      - rewrite (sl_remove_edge_ok (dl_view d) _ _ (proj2 Hwf) He) in Hs. injection Hs as <- <-.
        apply sl_wf_remove_edge; [apply Hwf|assumption].
      - apply eq_None_not_Some in He. rewrite (sl_remove_edge_noop (dl_view d) _ _ He) in Hs.
        injection Hs as <- <-. apply Hwf. }
    destruct (IH d1 Hwf1) as (d' & H1 & H2 & H3 & H4). exists d'. rewrite <- Hv.
    split; [exact H1|]. split; [exact H2|]. split; [assumption|]. eapply dl_same_trans; eassumption.
Qed.

Lemma dl_core_popped d i n t :
  dl_core d -> dl_nodes d !! N.to_nat i = Some (Some n) -> n_time n = Some t ->
  dl_core (mkDL (dl_id d) (dl_prefix d) (dl_times d ∖ {[t]}) (<[N.to_nat i := None]> (dl_nodes d))
             (<[i := NDeleted]> (dl_status d)) (dl_next d) (dl_edges d)).
Proof.
  intros H Hi Ht.
  assert (Hlk : forall j m, <[N.to_nat i:=None]> (dl_nodes d) !! j = Some (Some m) <->
            j <> N.to_nat i /\ dl_nodes d !! j = Some (Some m)).
  { intros j m. rewrite list_lookup_insert_Some. split.
    - intros [(_ & ? & _)|[? ?]]; [discriminate|]. split; [congruence|assumption].
    - intros [? ?]. right. split; [congruence|assumption]. }
  split; cbn.
  - apply H.
  - pose proof (dlc_size _ H). unfold dl_size in *; cbn. rewrite insert_length. assumption.
  - intros j m Hm. apply Hlk in Hm as [_ Hm]. apply (dlc_node _ H _ _ Hm).
  - intros j. unfold dl_has_index; cbn. destruct (decide (i = j)) as [<-|Hne].
    + rewrite lookup_insert. split; [discriminate|]. intros (m & Hm). apply Hlk in Hm as [? _]. congruence.
    + rewrite lookup_insert_ne by assumption. fold (dl_has_index d j). rewrite (dlc_status _ H).
      split; intros (m & Hm); exists m.
      * apply Hlk. split; [lia|assumption].
      * apply Hlk in Hm. tauto.
  - intros j s. rewrite lookup_insert_Some. intros [[_ <-]|[_ Hs]]; [auto|]. apply (dlc_status_ok _ H _ _ Hs).
  - intros t'. rewrite elem_of_difference, elem_of_singleton, (dlc_times _ H). split.
    + intros [(j & m & Hm & Htm) Hne]. exists j, m. split; [|assumption]. apply Hlk. split; [|assumption].
      intros ->. rewrite Hi in Hm. injection Hm as <-. congruence.
    + intros (j & m & Hm & Htm). apply Hlk in Hm as [Hne Hm]. split; [eauto|]. intros ->.
      apply Hne. eapply (dlc_times_inj _ H); [exact Hm|exact Hi|congruence].
  - intros j k a b Ha Hb. apply Hlk in Ha as [_ Ha]. apply Hlk in Hb as [_ Hb]. eapply (dlc_times_inj _ H); eassumption.
Qed.

Lemma dl_nmap_popped d x n t :
  dl_core d -> dl_nmap d !! x = Some n -> n_time n = Some t ->
  dl_nmap (mkDL (dl_id d) (dl_prefix d) (dl_times d ∖ {[t]}) (<[N.to_nat (prefix_index x) := None]> (dl_nodes d))
             (<[prefix_index x := NDeleted]> (dl_status d)) (dl_next d) (dl_edges d)) = delete x (dl_nmap d).
Proof.
  intros H Hx Ht. destruct (dl_nmap_slot _ _ _ H Hx) as (Hs & Hp & Hlt).
  pose proof (dl_core_popped _ _ _ _ H Hs Ht) as H'.
  apply map_eq. intros y. apply option_eq. intros m. rewrite dl_nmap_Some by assumption.
  rewrite lookup_delete_Some, dl_nmap_Some by assumption. cbn. split.
  - intros (i & Hi & ->). apply list_lookup_insert_Some in Hi as [(_ & ? & _)|[Hne Hi]]; [discriminate|].
    split; [|eauto]. intros Heq. apply Hne. rewrite Heq, make_id_index; [lia|apply H|].
    exact (dl_index_lt _ _ _ H Hi).
  - intros (Hne & i & Hi & ->). exists i. split; [|reflexivity]. rewrite list_lookup_insert_ne; [assumption|].
    intros Heq. apply Hne. rewrite <- (make_id_of_id (dl_prefix d) (dlc_prefix _ H) x) by assumption.
    f_equal. lia.
Qed.

(** The two chain neighbours of a dynamic node id (uint64 arithmetic). *)
Definition id_prev (id : N) : N := (id + (two64 - 1)) mod two64.
Definition id_next (id : N) : N := (id + 1) mod two64.

Lemma id_prev_lt id : id_prev id < two64. Proof. apply N.mod_lt. rewrite two64_eq. lia. Qed.
Lemma id_next_lt id : id_next id < two64. Proof. apply N.mod_lt. rewrite two64_eq. lia. Qed.
Lemma id_prev_ne id : id < two64 -> id_prev id <> id.
Proof. unfold id_prev. rewrite two64_eq. intros. destruct (N.eq_dec id 0) as [->|]; [vm_compute; discriminate|].
  replace (id + (18446744073709551616 - 1)) with ((id - 1) + 1 * 18446744073709551616) by lia.
  rewrite N.mod_add, N.mod_small by lia. lia. Qed.
Lemma id_next_ne id : id < two64 -> id_next id <> id.
Proof. unfold id_next. rewrite two64_eq. intros. destruct (N.eq_dec (id + 1) 18446744073709551616) as [e|].
  - rewrite e, N.mod_same by lia. lia.
  - rewrite N.mod_small by lia. lia. Qed.

(** The chain repair performed before removing a node: connect the two neighbours. *)
Definition chain_repair (l : SLayer) (id : N) (n : Node) : result (bool * SLayer) :=
  if bool_decide (is_Some (sl_nodes l !! id_prev id) /\ id_prev id ∈ n_sib n /\
                  is_Some (sl_nodes l !! id_next id) /\ id_next id ∈ n_sib n)
  then sl_insert_edge l (id_prev id) (id_next id) None else Ok (false, l).

Lemma chain_repair_ok l id n : sl_wf l -> exists b l1, chain_repair l id n = Ok (b, l1) /\ sl_wf l1 /\
  sl_relinked l l1 /\
  (id < two64 -> sl_nodes l1 !! id = sl_nodes l !! id).
Proof.
  intros Hwf. unfold chain_repair. destruct (bool_decide _) eqn:E.
  2: { eexists _, _. split; [reflexivity|]. split; [assumption|]. split; [apply sl_relinked_refl|reflexivity]. }
  destruct (decide (sl_can_insert l (id_prev id) (id_next id))) as [Hc|Hc].
  - rewrite (sl_insert_edge_ok _ _ _ _ Hc). eexists _, _. split; [reflexivity|].
    split; [apply sl_wf_insert_edge; assumption|]. split; [apply sl_relinked_inserted; assumption|].
    intros Hlt. cbn. rewrite lookup_link_sib by apply Hc.
    destruct (decide (id = id_prev id)) as [e|]; [symmetry in e; apply id_prev_ne in e; [contradiction|assumption]|].
    destruct (decide (id = id_next id)) as [e|]; [symmetry in e; apply id_next_ne in e; [contradiction|assumption]|].
    apply option_fmap_id.
  - rewrite (sl_insert_edge_noop _ _ _ _ Hc). eexists _, _. split; [reflexivity|].
    split; [assumption|]. split; [apply sl_relinked_refl|reflexivity].
Qed.

Lemma dl_remove_node_ok d id n :
  dl_wf d -> dl_nmap d !! id = Some n ->
  exists b l1 d' t, chain_repair (dl_view d) id n = Ok (b, l1) /\
    dl_remove_node d id = Ok (true, d') /\ dl_wf d' /\
    dl_nmap d' = forget id (sl_nodes l1) /\
    ec_edges (dl_edges d') = drop_edges id (ec_edges (sl_edges l1)) /\
    dl_id d' = dl_id d /\ dl_prefix d' = dl_prefix d /\ dl_next d' = dl_next d /\ dl_size d' = dl_size d /\
    n_time n = Some t /\ dl_times d' = dl_times d ∖ {[t]} /\
    dl_status d' = <[prefix_index id := NDeleted]> (dl_status d).
Proof.
  intros Hwf Hn. pose proof Hwf as [H Hsl].
  destruct (dl_nmap_slot _ _ _ H Hn) as (Hslot & Hp & Hlt).
  destruct (dlc_node _ H _ _ Hslot) as (_ & _ & t & Ht).
  destruct (chain_repair_ok _ id n Hsl) as (b & l1 & Hcr & Hwf1 & Hrel1 & Hid1).
  unfold dl_remove_node.
  rewrite (proj2 (dl_has_node_true d id H Hlt)) by eauto. cbn [negb].
  rewrite dl_slot_lookup, Hslot. cbn [at_ deref rbind].
  fold (id_prev id) (id_next id).
  assert (Hcond : (dl_has_node d (id_prev id) && bool_decide (id_prev id ∈ n_sib n) &&
     (dl_has_node d (id_next id) && bool_decide (id_next id ∈ n_sib n))) =
     bool_decide (is_Some (sl_nodes (dl_view d) !! id_prev id) /\ id_prev id ∈ n_sib n /\
                  is_Some (sl_nodes (dl_view d) !! id_next id) /\ id_next id ∈ n_sib n)).
  { apply eq_true_iff_eq. rewrite !andb_true_iff, !bool_decide_eq_true.
    rewrite (dl_has_node_true d (id_prev id) H (id_prev_lt id)), (dl_has_node_true d (id_next id) H (id_next_lt id)). cbn. tauto. }
  rewrite Hcond.
  assert (Hstep : exists d1,
    (if bool_decide (is_Some (sl_nodes (dl_view d) !! id_prev id) /\ id_prev id ∈ n_sib n /\
                  is_Some (sl_nodes (dl_view d) !! id_next id) /\ id_next id ∈ n_sib n)
     then let! (_, d') := dl_insert_edge d (id_prev id) (id_next id) None in Ok d' else Ok d) = Ok d1 /\
    dl_view d1 = l1 /\ dl_core d1 /\ dl_same d d1).
  { unfold chain_repair in Hcr. destruct (bool_decide _).
    - destruct (dl_insert_edge_sim d (id_prev id) (id_next id) None H (id_prev_lt id) (id_next_lt id))
        as (b2 & l2 & d2 & Hs2 & Hd2 & Hv2 & Hc2 & Hsm2 & _).
      rewrite Hd2. cbn. exists d2. split; [reflexivity|]. split; [congruence|]. auto.
    - exists d. split; [reflexivity|]. split; [congruence|]. split; [assumption|apply dl_same_refl]. }
  destruct Hstep as (d1 & Hd1 & Hv1 & Hc1 & Hsm1). rewrite Hd1. cbn [rbind].
  assert (Hwfd1 : dl_wf d1) by (split; [assumption|rewrite Hv1; assumption]).
  destruct (dl_remove_loop d1 id (elements (n_sib n)) Hwfd1) as (d2 & Hd2 & Hl2 & Hwfd2 & Hsm2).
  rewrite Hd2. cbn [rbind].
  rewrite Hv1 in Hl2.
  assert (Hn1 : sl_nodes l1 !! id = Some n) by (rewrite Hid1 by assumption; exact Hn).
  destruct (sl_remove_node_ok l1 id n Hwf1 Hn1) as (l' & Hrm & Hwf' & R1 & R2 & R3 & R4).
  unfold sl_remove_node in Hrm. rewrite Hn1, Hl2 in Hrm. cbn [rbind] in Hrm. injection Hrm as Hl'.
  assert (Hn2 : exists n2, dl_nmap d2 !! id = Some n2 /\ n_time n2 = Some t).
  { destruct (sl_remove_loop id (elements (n_sib n)) l1 Hwf1) as (lx & Hlx & _ & _ & _ & _ & _ & _ & _ & _ & Hself).
    assert (lx = dl_view d2) as -> by congruence.
    destruct (Hself _ Hn1) as (n2 & Hn2 & Ht2 & _). exists n2. cbn in Hn2. split; [assumption|congruence]. }
  destruct Hn2 as (n2 & Hn2 & Ht2).
  destruct (dl_nmap_slot _ _ _ (proj1 Hwfd2) Hn2) as (Hslot2 & _ & _).
  rewrite dl_slot_lookup, Hslot2. cbn [at_ deref rbind]. rewrite Ht2. cbn [deref rbind].
  pose proof (dl_nmap_popped d2 id n2 t (proj1 Hwfd2) Hn2 Ht2) as Hpop.
  pose proof (dl_core_popped d2 (prefix_index id) n2 t (proj1 Hwfd2) Hslot2 Ht2) as Hcpop.
  eexists b, l1, _, t. split; [exact Hcr|]. split; [reflexivity|].
  destruct Hsm1 as (A1 & A2 & A3 & A4 & A5 & A6), Hsm2 as (B1 & B2 & B3 & B4 & B5 & B6).
  assert (Hl'n : sl_nodes l' = delete id (dl_nmap d2)) by (rewrite <- Hl'; reflexivity).
  assert (Hl'e : sl_edges l' = dl_edges d2) by (rewrite <- Hl'; reflexivity).
  assert (Hl'i : sl_id l' = dl_id d2) by (rewrite <- Hl'; reflexivity).
  split; [split; [exact Hcpop|]|].
  { eapply sl_wf_view_of; [| | |exact Hwf']; cbn; [congruence| |congruence].
    rewrite Hl'n. exact Hpop. }
  split; [rewrite Hpop, <- Hl'n; exact R2|].
  split; [cbn; rewrite <- Hl'e; exact R3|]. cbn.
  repeat split; try congruence. unfold dl_size; cbn. rewrite insert_length. congruence.
Qed.

Lemma dl_remove_node_noop d id : dl_core d -> id < two64 -> dl_nmap d !! id = None ->
  dl_remove_node d id = Ok (false, d).
Proof.
  intros H Hlt Hn. unfold dl_remove_node.
  destruct (dl_has_node d id) eqn:E; [|reflexivity].
  apply (dl_has_node_true d id H Hlt) in E as [? ?]. congruence.
Qed.

(** *** emplaceNodeAtIndex *)
Lemma dl_pad_nodes k nodes st : fst (dl_pad k nodes st) = nodes ++ replicate k None.
Proof.
  revert nodes st. induction k as [|k IH]; intros nodes st; cbn; [rewrite app_nil_r; reflexivity|].
  rewrite IH, <- app_assoc. reflexivity.
Qed.
Lemma dl_pad_status k nodes st j :
  snd (dl_pad k nodes st) !! j =
    if decide (N.of_nat (length nodes) < j /\ j <= N.of_nat (length nodes + k)) then Some NDeleted else st !! j.
Proof.
  revert nodes st. induction k as [|k IH]; intros nodes st; cbn [dl_pad].
  - cbn. destruct (decide _); [lia|reflexivity].
  - rewrite IH. rewrite app_length. cbn [length].
    destruct (decide (N.of_nat (length nodes + 1) < j ∧ j ≤ N.of_nat (length nodes + 1 + k)));
    destruct (decide (N.of_nat (length nodes) < j ∧ j ≤ N.of_nat (length nodes + S k))); try reflexivity; try lia.
    + assert (j = N.of_nat (length nodes + 1)) as -> by lia. apply lookup_insert.
    + apply lookup_insert_ne. lia.
Qed.

Lemma dl_emplace_at_ok d stamp index a :
  dl_wf d -> dl_has_index d index = false -> index < two32 -> stamp ∉ dl_times d ->
  let id := prefix_make_id (dl_prefix d) index in
  let l1 := sl_added (dl_view d) id (node_new id (dl_id d) (Some stamp) a) NVisible in
  (forall u nu, dl_nmap d !! u = Some nu -> id ∉ n_sib nu) ->
  dl_nmap d !! id = None /\
  exists d', dl_emplace_at d stamp index a = (true, d') /\ dl_wf d' /\ dl_view d' = l1 /\
    dl_id d' = dl_id d /\ dl_prefix d' = dl_prefix d /\ dl_next d' = dl_next d /\
    dl_size d' = N.max (dl_size d) (index + 1) /\ dl_times d' = {[stamp]} ∪ dl_times d.
Proof.
  intros [H Hwf] Hidx Hlt Hfresh id l1 Hsibs.
  assert (Hnolive : forall n, dl_nodes d !! N.to_nat index <> Some (Some n)).
  { intros n Hn. assert (dl_has_index d index = true); [|congruence]. apply (dlc_status _ H). eauto. }
  assert (Hno : dl_nmap d !! id = None).
  { unfold id. rewrite dl_nmap_lookup; [|assumption|apply make_id_lt, H|apply make_id_from; [apply H|assumption]].
    rewrite make_id_index by (apply H || assumption).
    destruct (dl_nodes d !! N.to_nat index) as [[n|]|] eqn:E; [|reflexivity|reflexivity]. exfalso. eapply Hnolive, eq_refl. }
  split; [exact Hno|].
  unfold dl_emplace_at. rewrite Hidx.
  set (pad := if dl_size d <=? index then _ else _).
  destruct pad as [nodes st] eqn:Epad.
  assert (Hnodes : exists k, nodes = dl_nodes d ++ replicate k None /\ (N.to_nat index < length nodes)%nat /\
            N.of_nat (length nodes) = N.max (dl_size d) (index + 1)).
  { unfold pad in Epad. destruct (N.leb_spec (dl_size d) index).
    - eexists. split; [|split].
      + apply (f_equal fst) in Epad. cbn [fst] in Epad. rewrite <- Epad. apply dl_pad_nodes.
      + apply (f_equal fst) in Epad. rewrite dl_pad_nodes in Epad. cbn in Epad. rewrite <- Epad.
        rewrite app_length. cbn. rewrite replicate_length. unfold dl_size in *. lia.
      + apply (f_equal fst) in Epad. rewrite dl_pad_nodes in Epad. cbn in Epad. rewrite <- Epad.
        rewrite app_length. cbn. rewrite replicate_length. unfold dl_size in *. lia.
    - exists 0%nat. cbn. rewrite app_nil_r. injection Epad as <- <-. split; [reflexivity|].
      unfold dl_size in *. lia. }
  destruct Hnodes as (k & Hnodes & Hlen & Hsize).
  assert (Hst : forall j, j <> index ->
     match st !! j with Some NVisible | Some NNew => true | _ => false end = dl_has_index d j).
  { intros j Hj. unfold pad in Epad. destruct (N.leb_spec (dl_size d) index).
    - apply (f_equal snd) in Epad. cbn [snd] in Epad. rewrite <- Epad, dl_pad_status. destruct (decide _) as [[Hj1 Hj2]|]; [|reflexivity].
      symmetry. destruct (dl_has_index d j) eqn:E; [|reflexivity]. exfalso.
      apply (dlc_status _ H) in E as [n Hn]. apply lookup_lt_Some in Hn. lia.
    - injection Epad as <- <-. reflexivity. }
  assert (Hsto : forall j s, st !! j = Some s -> s = NNew \/ s = NVisible \/ s = NDeleted).
  { intros j s. unfold pad in Epad. destruct (N.leb_spec (dl_size d) index).
    - apply (f_equal snd) in Epad. cbn [snd] in Epad. rewrite <- Epad, dl_pad_status. destruct (decide _) as [[Hj1 Hj2]|].
      + intros [= <-]. auto.
      + apply (dlc_status_ok _ H).
    - injection Epad as <- <-. apply (dlc_status_ok _ H). }
  clearbody pad. clear Epad pad.
  set (nn := node_new id (dl_id d) (Some stamp) a).
  fold id. fold nn.
  assert (Hlk : forall j m, <[N.to_nat index := Some nn]> nodes !! j = Some (Some m) <->
            (j = N.to_nat index /\ m = nn) \/ (j <> N.to_nat index /\ dl_nodes d !! j = Some (Some m))).
  { intros j m. rewrite list_lookup_insert_Some. split.
    - intros [(<- & ? & _)|[Hne Hj]]; [left; split; congruence|right]. split; [congruence|].
      rewrite Hnodes in Hj. apply lookup_app_Some in Hj as [Hj|[_ Hj]]; [assumption|].
      apply lookup_replicate in Hj as [? _]. discriminate.
    - intros [[-> ->]|[Hne Hj]]; [left; auto|right]. split; [congruence|].
      rewrite Hnodes. apply lookup_app_l_Some. assumption. }
  set (d' := mkDL _ _ _ _ _ _ _).
  assert (H' : dl_core d').
  { split; cbn.
    - apply H.
    - unfold dl_size at 1; cbn. rewrite insert_length, Hsize. pose proof (dlc_size _ H). lia.
    - intros i n Hi. apply Hlk in Hi as [[-> ->]|[_ Hi]]; [|apply (dlc_node _ H _ _ Hi)].
      cbn. rewrite N2Nat.id. split; [reflexivity|]. split; [reflexivity|]. eauto.
    - intros i. unfold dl_has_index; cbn. destruct (decide (index = i)) as [<-|Hne].
      + rewrite lookup_insert. split; [|reflexivity]. intros _. exists nn. apply Hlk. auto.
      + rewrite lookup_insert_ne by assumption. rewrite Hst by congruence. rewrite (dlc_status _ H).
        split; intros [n Hn]; exists n.
        * apply Hlk. right. split; [lia|assumption].
        * apply Hlk in Hn as [[? _]|[_ Hn]]; [lia|assumption].
    - intros i s. rewrite lookup_insert_Some. intros [[_ <-]|[_ Hs]]; [auto|eauto].
    - intros t. rewrite elem_of_union, elem_of_singleton, (dlc_times _ H). split.
      + intros [->|(i & n & Hi & Ht)].
        * exists (N.to_nat index), nn. split; [apply Hlk; auto|reflexivity].
        * exists i, n. split; [|assumption]. apply Hlk. right. split; [|assumption]. intros ->. eapply Hnolive, Hi.
      + intros (i & n & Hi & Ht). apply Hlk in Hi as [[-> ->]|[_ Hi]]; [cbn in Ht; left; congruence|right; eauto].
    - intros i j n m Hi Hj Heq.
      apply Hlk in Hi as [[-> ->]|[Hni Hi]]; apply Hlk in Hj as [[-> ->]|[Hnj Hj]].
      + reflexivity.
      + exfalso. cbn in Heq. apply Hfresh, (dlc_times _ H). eauto.
      + exfalso. cbn in Heq. apply Hfresh, (dlc_times _ H). eauto.
      + eapply (dlc_times_inj _ H); eassumption. }
  assert (Hmap : dl_nmap d' = <[id := nn]> (dl_nmap d)).
  { apply map_eq. intros x. apply option_eq. intros n. rewrite dl_nmap_Some by assumption.
    rewrite lookup_insert_Some, dl_nmap_Some by assumption. cbn. split.
    - intros (i & Hi & ->). apply Hlk in Hi as [[-> ->]|[Hne Hi]].
      + left. rewrite N2Nat.id. auto.
      + right. split; [|eauto]. unfold id. intros Heq. apply make_id_inj in Heq; [lia|apply H|assumption|].
        exact (dl_index_lt _ _ _ H Hi).
    - intros [[<- <-]|[Hne (i & Hi & ->)]].
      + exists (N.to_nat index). split; [apply Hlk; auto|]. rewrite N2Nat.id. reflexivity.
      + exists i. split; [|reflexivity]. apply Hlk. right. split; [|assumption]. intros ->.
        apply Hne. unfold id. rewrite N2Nat.id. reflexivity. }
  assert (Hview : dl_view d' = l1).
  { unfold dl_view at 1. rewrite Hmap, fmap_insert. reflexivity. }
  exists d'. split; [reflexivity|]. split; [|split; [exact Hview|]].
  - split; [assumption|]. rewrite Hview. apply sl_wf_added; auto; try reflexivity.
    + right; reflexivity.
    + intros v Hv. cbn in Hv. apply elem_of_empty in Hv. contradiction.
  - cbn. repeat split. unfold dl_size at 1; cbn. rewrite insert_length. assumption.
Qed.
