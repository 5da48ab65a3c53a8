(** mergeGraph, static layers: the loops of [g_merge_layer1] seen as abstract steps. *)
From Coq Require Import NArith ZArith Bool List Lia.
From stdpp Require Import base list gmap fin_maps tactics.
From Verif.Model Require Import Types Mesh Attrs Node EdgeContainer SLayer DLayer Graph.
From Verif.Spec Require Import AbstractGraph GraphHistory.
From Verif.Proof Require Import Arith Keys SLayerP SLayerMerge DLayerP DLayerOps GraphRep GraphEdges GraphAttrs GraphNodes GraphRemove GraphSim LayerRep StatusFrame.
Local Open Scope N_scope.
#[local] Arguments edge_key : simpl never.

(** *** Abstract steps *)
Definition am_remove (a : AGraph) (x : N) : AGraph := snd (a_remove_node a x).
Definition both (a : AGraph) (k : LayerKey) (u v : N) : Prop := a_key a u = Some k /\ a_key a v = Some k.
#[global] Instance both_dec a k u v : Decision (both a k u v). Proof. unfold both. apply _. Defined.
Definition am_cut (k : LayerKey) (a : AGraph) (e : EdgeKey) : AGraph :=
  if decide (both a k (fst e) (snd e)) then snd (a_remove_edge a (fst e) (snd e)) else a.
Definition am_node (lid : LayerId) (upd arch : bool) (mg : N -> bool) (a : AGraph) (x : N * Node) : AGraph :=
  if mg (fst x) then a else
  match ag_nodes a !! fst x with
  | Some an => if upd && (arch || attrs_is_active (an_attrs an))
               then a_add_node a (fst x) (mkAN (an_key an) (an_time an) (n_attrs (snd x))) else a
  | None => a_add_node a (fst x) (mkAN (key_static lid) None (n_attrs (snd x)))
  end.
Definition am_edge (k : LayerKey) (f : N -> N) (a : AGraph) (x : EdgeKey * Edge) : AGraph :=
  let e := snd x in
  if decide (both a k (e_src e) (e_tgt e) /\ a_linked a (e_src e) (e_tgt e)) then a
  else if decide (both a k (f (e_src e)) (f (e_tgt e)))
       then snd (a_insert_edge a (f (e_src e)) (f (e_tgt e)) (Some (e_info e))) else a.
Definition am_iedge (f : N -> N) (par : bool) (a : AGraph) (x : EdgeKey * Edge) : AGraph :=
  let e := snd x in
  if f (e_src e) =? f (e_tgt e) then a
  else if par then snd (a_insert_parent_edge a (f (e_src e)) (f (e_tgt e)) (Some (e_info e)))
  else snd (a_insert_edge a (f (e_src e)) (f (e_tgt e)) (Some (e_info e))).

Definition layer_upd (cfg : MergeConfig) (lid : LayerId) : bool :=
  match mc_update_layer cfg with None => true | Some m => match m !! lid with None => true | Some b => b end end.
Definition sl_merged (s : SLayer) (x : N) : bool := bool_decide (sl_status s !! x = Some NMerged).

(** *** The node loop *)
Section Layer.
  Context (g : Graph) (lid : LayerId) (cfg : MergeConfig).
  Definition nodes_of (a : AGraph) (xs : list (N * Node)) : Prop :=
    forall x n, (x, n) ∈ xs -> n_id n = x /\ (a_key a x = None \/ a_key a x = Some (key_static lid)).

  Lemma merge_node1 L lk a x n mg : Rep (put g lid L lk) a -> n_id n = x ->
    (a_key a x = None \/ a_key a x = Some (key_static lid)) -> mg x = sl_merged L x ->
    exists L' lk', sl_merge_node1 (layer_upd cfg lid) cfg (L, lk) (x, n) = (L', lk') /\
      Rep (put g lid L' lk') (am_node lid (layer_upd cfg lid) (mc_update_archived cfg) mg a (x, n)) /\
      (forall y, sl_merged L' y = sl_merged L y).
  Proof.
    intros HR Hid Hkey Hmg. unfold sl_merge_node1, am_node. cbn [fst snd].
    destruct (put_wf g lid L lk a HR) as [Hwf HLid].
    assert (Hlk : lk !! x = a_key a x) by (rewrite <- (put_lookup g lid L lk); apply HR).
    assert (Hno : sl_status L !! x <> Some NMerged -> mg x = false).
    { intros H. rewrite Hmg. apply bool_decide_eq_false. exact H. }
    destruct (decide (sl_status L !! x = Some NMerged)) as [Hm|Hm].
    { rewrite Hm, Hmg. unfold sl_merged at 1. rewrite bool_decide_true by exact Hm. exists L, lk. auto. }
    rewrite (Hno Hm).
    assert (Hgo : forall A (v w : A), match sl_status L !! x with Some NMerged => v | _ => w end = w).
    { intros A v w. destruct (sl_status L !! x) as [[]|]; try reflexivity. exfalso. apply Hm. reflexivity. }
    rewrite Hgo. destruct (sl_nodes L !! x) as [m|] eqn:Em.
    - destruct (put_attrs g lid L lk a x m (n_attrs n) HR Em) as (an & Han & Hk & HR'). rewrite Han.
      assert (Hat : an_attrs an = n_attrs m).
      { destruct (rp_node _ _ HR x (key_static lid) L m (canon_static lid) (put_layer g lid L lk) Em) as [(an' & A1 & A2 & A3 & A4) _].
        congruence. }
      rewrite Hat, Hk.
      destruct (layer_upd cfg lid); cbn [negb andb]; [|exists L, lk; auto].
      destruct (mc_update_archived cfg); cbn [negb andb orb].
      + eexists _, _. split; [reflexivity|]. split; [exact HR'|reflexivity].
      + destruct (attrs_is_active (n_attrs m)); cbn [negb]; [|exists L, lk; auto].
        eexists _, _. split; [reflexivity|]. split; [exact HR'|reflexivity].
    - assert (Hx : lk !! x = None).
      { rewrite Hlk. destruct Hkey as [Hk|Hk]; [exact Hk|]. exfalso.
        assert (H : is_Some (sl_nodes L !! x)) by (apply (put_home g lid L lk a x HR); congruence).
        rewrite Em in H. destruct H as [? [=]]. }
      assert (Han : ag_nodes a !! x = None).
      { rewrite Hlk in Hx. unfold a_key in Hx. destruct (ag_nodes a !! x); [discriminate|reflexivity]. }
      rewrite Han, Hid, Hx. eexists _, _. split; [reflexivity|]. split.
      + pose proof (put_add g lid L lk a x (node_new x (sl_id L) None (n_attrs n)) HR Hx eq_refl HLid (fun r => match r with RSib | RParent | RChild => eq_refl end)) as H.
        replace (key_static (sl_id L)) with (key_static lid) by congruence. exact H.
      + intros y. unfold sl_merged; cbn. apply bool_decide_ext. destruct (decide (y = x)) as [->|Hne].
        * rewrite lookup_insert. split; [discriminate|]. intros H. contradiction.
        * rewrite lookup_insert_ne by congruence. reflexivity.
  Qed.

  Lemma am_node_key upd arch mg a x n y : y <> x \/ a_key a x = None \/ a_key a x = Some (key_static lid) ->
    a_key (am_node lid upd arch mg a (x, n)) y = a_key a y \/ (y = x /\ a_key (am_node lid upd arch mg a (x, n)) y = Some (key_static lid)).
  Proof.
    intros H. unfold am_node; cbn [fst snd]. destruct (mg x); [auto|]. destruct (ag_nodes a !! x) as [an|] eqn:E.
    - destruct (upd && _); [|auto]. left. unfold a_key; cbn. destruct (decide (x = y)) as [<-|Hne].
      + rewrite lookup_insert, E. reflexivity.
      + rewrite lookup_insert_ne by assumption. reflexivity.
    - unfold a_key; cbn. destruct (decide (x = y)) as [<-|Hne].
      + rewrite lookup_insert. auto.
      + rewrite lookup_insert_ne by assumption. auto.
  Qed.

  Lemma merge_nodes_loop mg xs : forall L lk a, Rep (put g lid L lk) a -> nodes_of a xs ->
    (forall x n, (x, n) ∈ xs -> mg x = sl_merged L x) ->
    exists L' lk', fold_left (sl_merge_node1 (layer_upd cfg lid) cfg) xs (L, lk) = (L', lk') /\
      Rep (put g lid L' lk') (fold_left (am_node lid (layer_upd cfg lid) (mc_update_archived cfg) mg) xs a) /\
      (forall y, sl_merged L' y = sl_merged L y).
  Proof.
    induction xs as [|[x n] r IH]; intros L lk a HR Hxs Hmg; cbn [fold_left].
    - exists L, lk. auto.
    - destruct (Hxs x n (elem_of_list_here _ _)) as [Hid Hkey].
      destruct (merge_node1 L lk a x n mg HR Hid Hkey (Hmg x n (elem_of_list_here _ _))) as (L1 & lk1 & E1 & HR1 & HM1).
      rewrite E1. destruct (IH L1 lk1 _ HR1) as (L' & lk' & E & HR' & HM).
      + intros y m Hy. destruct (Hxs y m (elem_of_list_further _ _ _ Hy)) as [Hi Hk]. split; [exact Hi|].
        destruct (am_node_key (layer_upd cfg lid) (mc_update_archived cfg) mg a x n y) as [E0|[_ E0]]; [|rewrite E0; exact Hk|auto].
        destruct (decide (y = x)) as [->|]; auto.
      + intros y m Hy. rewrite HM1. apply (Hmg y m), elem_of_list_further, Hy.
      + exists L', lk'. split; [exact E|]. split; [exact HR'|]. intros y. rewrite HM. apply HM1.
  Qed.

  (** *** The edge loop *)
  Lemma has_edge_linked L lk a u v : Rep (put g lid L lk) a ->
    sl_has_edge L u v = bool_decide (both a (key_static lid) u v /\ a_linked a u v).
  Proof.
    intros HR. destruct (put_wf g lid L lk a HR) as [Hwf _]. unfold sl_has_edge.
    assert (HK : forall x, a_key a x = Some (key_static lid) <-> is_Some (sl_nodes L !! x)).
    { intros x. rewrite <- (put_home g lid L lk a x HR), <- (put_lookup g lid L lk) at 1. rewrite (rp_lookup _ _ HR). reflexivity. }
    apply eq_true_iff_eq. rewrite ec_contains_true, bool_decide_eq_true. split.
    - intros H. destruct (sl_edge_key _ _ _ Hwf H) as (_ & Hu & Hv). split; [split; apply HK; assumption|].
      unfold a_linked. rewrite (put_edges g lid L lk a u v HR Hu Hv). exact H.
    - intros [[Hu Hv] Hl]. apply HK in Hu. apply HK in Hv. unfold a_linked in Hl. rewrite (put_edges g lid L lk a u v HR Hu Hv) in Hl. exact Hl.
  Qed.

  Lemma merge_edge1 L lk a x : Rep (put g lid L lk) a ->
    exists L', sl_merge_edge1 cfg L x = Ok L' /\
      Rep (put g lid L' lk) (am_edge (key_static lid) (mc_merged_id cfg) a x) /\ sl_status L' = sl_status L.
  Proof.
    intros HR. unfold sl_merge_edge1, am_edge. cbv zeta. set (e := snd x).
    rewrite (has_edge_linked L lk a _ _ HR). case_bool_decide as Hb.
    { rewrite decide_True by exact Hb. exists L. auto. }
    rewrite decide_False by exact Hb.
    set (u := mc_merged_id cfg (e_src e)). set (v := mc_merged_id cfg (e_tgt e)).
    assert (HK : forall x, a_key a x = Some (key_static lid) <-> is_Some (sl_nodes L !! x)).
    { intros y. rewrite <- (put_home g lid L lk a y HR), <- (put_lookup g lid L lk) at 1. rewrite (rp_lookup _ _ HR). reflexivity. }
    destruct (N.eqb_spec u v) as [Huv|Huv].
    { exists L. split; [reflexivity|]. split; [|reflexivity]. unfold a_insert_edge. rewrite (decide_False (P := u <> v /\ _)) by tauto.
      destruct (decide _); exact HR. }
    destruct (decide (sl_can_insert L u v)) as [Hc|Hc].
    - rewrite (sl_insert_edge_ok _ _ _ _ Hc). cbn [rbind]. eexists. split; [reflexivity|].
      destruct Hc as (H1 & H2 & H3 & H4). rewrite decide_True by (split; apply HK; assumption).
      unfold a_insert_edge. rewrite decide_True.
      + split; [|reflexivity]. apply (put_insert g lid L lk a u v (Some (e_info e)) HR). repeat split; assumption.
      + pose proof (proj2 (HK _) H3) as K3. pose proof (proj2 (HK _) H4) as K4. unfold a_key in K3, K4.
        split; [exact H1|]. unfold a_known. destruct (ag_nodes a !! u), (ag_nodes a !! v); try discriminate. split; [eauto|]. split; [eauto|].
        intros Hl. unfold a_linked in Hl. rewrite (put_edges g lid L lk a u v HR H3 H4), H2 in Hl. destruct Hl as [? [=]].
    - rewrite (sl_insert_edge_noop _ _ _ _ Hc). cbn [rbind]. exists L. split; [reflexivity|]. split; [|reflexivity].
      destruct (decide (both a (key_static lid) u v)) as [[Hu Hv]|]; [|exact HR].
      unfold a_insert_edge. rewrite decide_False; [exact HR|]. intros (_ & _ & _ & Hl). apply Hc.
      apply HK in Hu, Hv. split; [exact Huv|]. split; [|split; assumption].
      apply eq_None_not_Some. intros Hs. apply Hl. unfold a_linked. rewrite (put_edges g lid L lk a u v HR Hu Hv). exact Hs.
  Qed.

  Lemma merge_edges_loop lk xs : forall L a, Rep (put g lid L lk) a ->
    exists L', rfold (sl_merge_edge1 cfg) xs L = Ok L' /\ Rep (put g lid L' lk) (fold_left (am_edge (key_static lid) (mc_merged_id cfg)) xs a) /\ sl_status L' = sl_status L.
  Proof.
    induction xs as [|x r IH]; intros L a HR; cbn [rfold fold_left]; [exists L; auto|].
    destruct (merge_edge1 L lk a x HR) as (L1 & -> & HR1 & HS1). cbn [rbind].
    destruct (IH L1 _ HR1) as (L' & E & HR' & HS). exists L'. split; [exact E|]. split; [exact HR'|congruence].
  Qed.

  (** *** The removed edges *)
  Lemma cut_loop es : forall L lk a, Rep (put g lid L lk) a ->
    exists L', rfold (fun g (k : EdgeKey) => let! s := deref (g_layers g !! lid) in
                   let! (_, s') := sl_remove_edge s (fst k) (snd k) in Ok (g_set_layer g lid s')) es (put g lid L lk) = Ok (put g lid L' lk) /\ Rep (put g lid L' lk) (fold_left (am_cut (key_static lid)) es a) /\ sl_status L' = sl_status L.
  Proof.
    induction es as [|k r IH]; intros L lk a HR; cbn [rfold fold_left]; [exists L; auto|].
    rewrite put_layer. cbn [deref rbind]. destruct (put_wf g lid L lk a HR) as [Hwf _].
    pose proof (has_edge_linked L lk a (fst k) (snd k) HR) as HE. unfold sl_has_edge in HE.
    assert (Hset : forall L', g_set_layer (put g lid L lk) lid L' = put g lid L' lk).
    { intros L'. unfold put, g_set_layer; cbn. rewrite insert_insert. reflexivity. }
    unfold am_cut at 2. unfold a_remove_edge. case_bool_decide as Hb.
    - destruct Hb as [Hb Hl]. rewrite (decide_True (P := both _ _ _ _)), decide_True by assumption.
      apply ec_contains_true in HE. rewrite (sl_remove_edge_ok _ _ _ Hwf HE). cbn [rbind]. rewrite Hset.
      destruct (IH _ lk _ (put_remove g lid L lk a _ _ HR HE)) as (L' & E & HR' & HS). exists L'. split; [exact E|]. split; [exact HR'|exact HS].
    - apply ec_contains_false in HE. rewrite (sl_remove_edge_noop _ _ _ HE). cbn [rbind]. rewrite Hset.
      assert (Hno : (if decide (both a (key_static lid) (fst k) (snd k)) then snd (if decide (a_linked a (fst k) (snd k)) then (true, a_del_edge a (fst k) (snd k)) else (false, a)) else a) = a).
      { destruct (decide _); [|reflexivity]. rewrite decide_False by tauto. reflexivity. }
      rewrite Hno. apply IH, HR.
  Qed.
End Layer.

(** *** The removed nodes *)
Definition static_or_none (a : AGraph) (x : N) : Prop := forall k, a_key a x = Some k -> lk_dynamic k = false.
Lemma am_remove_static a x : static_or_none a x ->
  am_remove a x = if decide (a_known a x) then mkAG (ag_layers a) (ag_dyn a) (delete x (ag_nodes a)) (edges_without x (ag_edges a)) else a.
Proof.
  intros H. unfold am_remove, a_remove_node. destruct (decide (a_known a x)) as [Hk|]; [|reflexivity].
  cbn. assert (a_chain a x = a) as ->; [|reflexivity]. unfold a_chain. destruct (a_key a x) as [k|] eqn:E; [|reflexivity].
  rewrite decide_False; [reflexivity|]. intros (Hd & _). rewrite (H k E) in Hd. discriminate.
Qed.
Lemma am_remove_key a x y : static_or_none a x -> a_key (am_remove a x) y = if decide (y = x) then None else a_key a y.
Proof.
  intros H. rewrite (am_remove_static a x H). unfold a_key, a_known. destruct (decide (is_Some _)) as [Hk|Hk]; cbn.
  - destruct (decide (y = x)) as [->|Hne]; [rewrite lookup_delete; reflexivity|rewrite lookup_delete_ne by congruence; reflexivity].
  - destruct (decide (y = x)) as [->|]; [|reflexivity]. apply eq_None_not_Some in Hk. rewrite Hk. reflexivity.
Qed.
Lemma am_remove_linked a x u v : static_or_none a x -> a_linked (am_remove a x) u v -> a_linked a u v.
Proof.
  intros H. rewrite (am_remove_static a x H). destruct (decide (a_known a x)); [|auto]. unfold a_linked, edges_without; cbn.
  intros [e He]. apply map_filter_lookup_Some in He as [He _]. eauto.
Qed.
Lemma remove_loop xs : forall g a, Rep g a ->
  (forall x, x ∈ xs -> static_or_none a x /\ no_cross_sibling a x) ->
  exists g', rfold (fun g id => let! (_, g') := g_remove_node g id in Ok g') xs g = Ok g' /\ Rep g' (fold_left am_remove xs a) /\ stf (fun y => y ∈ xs) g g' /\ g_layer_ids g' = g_layer_ids g.
Proof.
  induction xs as [|x r IH]; intros g a HR Hxs; cbn [rfold fold_left].
  - exists g. split; [reflexivity|]. split; [exact HR|]. split; [apply stf_refl|reflexivity].
  - destruct (Hxs x (elem_of_list_here _ _)) as [Hs Hc].
    pose proof (remove_node_sim g a x HR Hc) as HSim.
    pose proof (kst_remove_node (fun y => y ∈ x :: r) g x (elem_of_list_here _ _)) as HSt.
    pose proof (keeps_remove_node g x) as HK.
    destruct (g_remove_node g x) as [[b g1]| |]; cbn in HSim; [|destruct HSim as [HSim _]; destruct (a_remove_node a x); discriminate|contradiction].
    cbn [rbind]. destruct HSim as [_ HR1]. cbn in HSt, HK.
    assert (E1 : snd (ab (a_remove_node a x)) = am_remove a x) by (unfold am_remove; destruct (a_remove_node a x); reflexivity).
    cbn [snd ab] in HR1. change (snd (a_remove_node a x)) with (am_remove a x) in HR1.
    destruct (IH g1 (am_remove a x) HR1) as (g' & E & HR' & HS' & HI').
    + intros y Hy. destruct (Hxs y (elem_of_list_further _ _ _ Hy)) as [Hs' Hc']. split.
      * intros k. rewrite (am_remove_key a x y Hs). destruct (decide (y = x)); [discriminate|]. apply Hs'.
      * intros v k kv Hl. rewrite !(am_remove_key a x _ Hs). destruct (decide (y = x)); [discriminate|]. destruct (decide (v = x)); [intros _; discriminate|].
        exact (Hc' v k kv (am_remove_linked a x y v Hs Hl)).
    + exists g'. split; [exact E|]. split; [exact HR'|]. split; [|congruence].
      eapply stf_trans; [exact HSt|]. eapply stf_weaken; [|exact HS']. intros y Hy. right. exact Hy.
Qed.


(** *** One shared static layer *)
Definition removed_ids (ol : SLayer) : list N := keys_with n_is_removed (sl_status ol).
Definition removed_pairs (ol : SLayer) : list EdgeKey := keys_with e_is_deleted (ec_status (sl_edges ol)).
Definition am_layer (cfg : MergeConfig) (lid : LayerId) (mg : N -> bool) (ol : SLayer) (a : AGraph) : AGraph :=
  fold_left (am_edge (key_static lid) (mc_merged_id cfg)) (map_to_list (ec_edges (sl_edges ol)))
    (fold_left (am_node lid (layer_upd cfg lid) (mc_update_archived cfg) mg) (map_to_list (sl_nodes ol))
      (fold_left (am_cut (key_static lid)) (removed_pairs ol) (fold_left am_remove (removed_ids ol) a))).
(** The layer [ol] after its reports were read. *)
Definition read_reports (clear : bool) (ol : SLayer) : SLayer :=
  sl_with_edges (snd (sl_get_removed_nodes ol clear)) (snd (ec_get_removed (sl_edges ol) clear)).

Lemma am_cut_nodes k es : forall a, ag_nodes (fold_left (am_cut k) es a) = ag_nodes a /\ ag_layers (fold_left (am_cut k) es a) = ag_layers a /\
  ag_dyn (fold_left (am_cut k) es a) = ag_dyn a.
Proof.
  induction es as [|e r IH]; intros a; cbn [fold_left]; [auto|]. destruct (IH (am_cut k a e)) as (-> & -> & ->).
  unfold am_cut, a_remove_edge. repeat destruct (decide _); auto.
Qed.
Lemma am_remove_keys xs : forall a, (forall x, x ∈ xs -> static_or_none a x) ->
  forall y, a_key (fold_left am_remove xs a) y = if decide (y ∈ xs) then None else a_key a y.
Proof.
  induction xs as [|x r IH]; intros a H y; cbn [fold_left]; [reflexivity|].
  pose proof (H x (elem_of_list_here _ _)) as Hs.
  rewrite IH.
  - rewrite (am_remove_key a x y Hs). destruct (decide (y = x)) as [->|Hne].
    + rewrite (decide_True (P := x ∈ x :: r)) by left. destruct (decide _); reflexivity.
    + apply decide_ext. rewrite elem_of_cons. tauto.
  - intros z Hz k. rewrite (am_remove_key a x z Hs). destruct (decide (z = x)); [discriminate|]. apply H. right. exact Hz.
Qed.

Section One.
  Context (vadd vsub : Vec3 -> Vec3 -> Vec3) (cfg : MergeConfig).
  Lemma merge_layer1_ok g a other0 lid ol s mg : Rep g a -> g_layers g !! lid = Some s -> sl_wf ol ->
    (forall x n, sl_nodes ol !! x = Some n -> a_key a x = None \/ a_key a x = Some (key_static lid)) ->
    (forall x, x ∈ removed_ids ol -> static_or_none a x /\ no_cross_sibling a x) ->
    (forall x n, sl_nodes ol !! x = Some n -> mg x = sl_merged s x) ->
    exists g', g_merge_layer1 cfg (g, other0) (lid, ol) = Ok (g', g_set_layer other0 lid (read_reports (mc_clear_removed cfg) ol)) /\
      Rep g' (am_layer cfg lid mg ol a) /\ g_layer_ids g' = g_layer_ids g /\
      (forall l s1, g_layers g !! l = Some s1 -> exists s1', g_layers g' !! l = Some s1' /\
         forall y, y ∉ removed_ids ol -> sl_merged s1' y = sl_merged s1 y).
  Proof.
    intros HR HL Howf Hkeys Hrem Hmg. unfold g_merge_layer1. rewrite HL. unfold sl_get_removed_nodes at 1. cbv iota beta.
    fold (removed_ids ol).
    destruct (remove_loop (removed_ids ol) g a HR Hrem) as (g1 & -> & HR1 & HS1 & HI1). cbn [rbind].
    set (ol1 := if mc_clear_removed cfg then sl_with_status ol _ else ol).
    assert (He1 : sl_edges ol1 = sl_edges ol) by (unfold ol1; destruct (mc_clear_removed cfg); reflexivity).
    assert (Hn1 : sl_nodes ol1 = sl_nodes ol) by (unfold ol1; destruct (mc_clear_removed cfg); reflexivity).
    rewrite He1. unfold ec_get_removed at 1. cbv iota beta. fold (removed_pairs ol).
    destruct (HS1 lid s HL) as (s1 & HL1 & HSt1).
    assert (HRp : Rep (put g1 lid s1 (g_lookup g1)) (fold_left am_remove (removed_ids ol) a)) by (rewrite put_same by exact HL1; exact HR1).
    destruct (cut_loop g1 lid (removed_pairs ol) s1 (g_lookup g1) _ HRp) as (s2 & E2 & HR2 & HSt2).
    rewrite put_same in E2 by exact HL1. rewrite E2. cbn [rbind]. rewrite put_layer. cbn [deref rbind].
    destruct (put_wf g1 lid s2 _ _ HR2) as [Hwf2 Hid2].
    set (c1 := if mc_clear_removed cfg then mkEC _ _ _ else sl_edges ol).
    assert (Hc1 : ec_edges c1 = ec_edges (sl_edges ol)) by (unfold c1; destruct (mc_clear_removed cfg); reflexivity).
    assert (Hro : read_reports (mc_clear_removed cfg) ol = sl_with_edges ol1 c1).
    { unfold read_reports, ol1, c1, sl_get_removed_nodes, ec_get_removed. destruct (mc_clear_removed cfg); reflexivity. }
    unfold sl_merge_layer. cbn [sl_nodes sl_edges sl_with_edges]. rewrite Hn1, Hc1, Hid2.
    fold (layer_upd cfg lid). rewrite put_lookup.
    assert (Hnr : forall x n, sl_nodes ol !! x = Some n -> x ∉ removed_ids ol).
    { intros x n Hx Hin. apply elem_of_keys_with in Hin as (st & Hst & Hr).
      destruct (proj1 (slw_status _ Howf x) (ex_intro _ n Hx)) as (st' & Hst' & Hlive). assert (st' = st) as -> by congruence.
      destruct st; try discriminate; destruct Hlive; discriminate. }
    assert (Hk2 : forall y, a_key (fold_left (am_cut (key_static lid)) (removed_pairs ol) (fold_left am_remove (removed_ids ol) a)) y =
       if decide (y ∈ removed_ids ol) then None else a_key a y).
    { intros y. unfold a_key at 1. destruct (am_cut_nodes (key_static lid) (removed_pairs ol) (fold_left am_remove (removed_ids ol) a)) as (-> & _ & _).
      apply (am_remove_keys (removed_ids ol) a (fun x H => proj1 (Hrem x H)) y). }
    destruct (merge_nodes_loop g1 lid cfg mg (map_to_list (sl_nodes ol)) s2 (g_lookup g1) _ HR2) as (s3 & lk3 & E3 & HR3 & HM3).
    { intros x n Hx. apply elem_of_map_to_list in Hx. split; [apply (slw_node _ Howf _ _ Hx)|]. rewrite Hk2.
      rewrite decide_False by (eapply Hnr; exact Hx). eapply Hkeys, Hx. }
    { intros x n Hx. apply elem_of_map_to_list in Hx. rewrite (Hmg x n Hx). unfold sl_merged. rewrite HSt2, HSt1 by (eapply Hnr; exact Hx). reflexivity. }
    rewrite E3. destruct (merge_edges_loop g1 lid cfg lk3 (map_to_list (ec_edges (sl_edges ol))) s3 _ HR3) as (s4 & E4 & HR4 & HSt4).
    rewrite E4. cbn [rbind]. fold (put (put g1 lid s2 (g_lookup g1)) lid s4 lk3). rewrite put_put.
    exists (put g1 lid s4 lk3). split; [rewrite Hro; reflexivity|]. split; [exact HR4|]. split; [exact HI1|].
    intros l t Ht. destruct (HS1 l t Ht) as (t1 & Ht1 & HStt). destruct (decide (l = lid)) as [->|Hne].
    - exists s4. split; [apply put_layer|]. intros y Hy. assert (t1 = s1) as -> by congruence. assert (t = s) as -> by congruence.
      transitivity (sl_merged s3 y); [unfold sl_merged; rewrite HSt4; reflexivity|]. rewrite HM3.
      unfold sl_merged. rewrite HSt2, HSt1 by exact Hy. reflexivity.
    - exists t1. split; [rewrite put_layer_ne by assumption; exact Ht1|]. intros y Hy. unfold sl_merged. rewrite HStt by exact Hy. reflexivity.
  Qed.
End One.
