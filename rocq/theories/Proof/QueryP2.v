(** Graph-level change reports. *)
From Coq Require Import NArith ZArith Bool List Lia.
From stdpp Require Import base list gmap fin_maps tactics.
From Verif.Model Require Import Types Mesh Attrs Node EdgeContainer SLayer DLayer Graph.
From Verif.Spec Require Import AbstractGraph GraphHistory LayerLog GraphObs.
From Verif.Proof Require Import Arith Keys SLayerP DLayerP DLayerOps GraphRep GraphEdges GraphRemove GraphSim GraphObsP GraphProps LayerRep MergeP1 MergeP5 QueryP.
Local Open Scope N_scope.
#[local] Arguments edge_key : simpl never.

Lemma new_static_any s b : fst (sl_get_new_nodes s b) = fst (sl_get_new_nodes s false). Proof. reflexivity. Qed.
Lemma new_dyn_any d b : fst (dl_get_new_nodes d b) = fst (dl_get_new_nodes d false). Proof. reflexivity. Qed.

Lemma new_static_home g a l s x b : Rep g a -> g_layers g !! l = Some s -> x ∈ fst (sl_get_new_nodes s b) -> layer_of g x = Some (key_static l).
Proof.
  intros HR Hs Hx. rewrite new_static_any, new_static_iff in Hx. destruct (rp_part _ _ HR (key_static l) s) as (Hwf & _); [intros _; reflexivity|exact Hs|].
  apply (static_home g a l s x HR Hs), (slw_status _ Hwf). exists NNew. split; [exact Hx|]. left. reflexivity.
Qed.
Lemma new_dyn_home g a l p d x b : Rep g a -> g_dlayer g l p = Some d -> x ∈ fst (dl_get_new_nodes d b) -> layer_of g x = Some (key_dynamic l p).
Proof.
  intros HR Hd Hx. rewrite new_dyn_any, new_dyn_iff in Hx. destruct Hx as (i & -> & Hi). destruct (rp_dinv _ _ HR _ _ _ Hd) as (Hc & _ & Hpre & _).
  destruct (new_status_live_dyn d i Hc Hi) as (n & Hn). apply (dyn_home g a l p d _ HR Hd). exists n. apply nmap_of_slot; assumption.
Qed.

Lemma NoDup_map_inj {A B} (f : A -> B) l : NoDup l -> (forall x y, x ∈ l -> y ∈ l -> f x = f y -> x = y) -> NoDup (map f l).
Proof.
  induction l as [|x r IH]; intros Hd Hi; [constructor|]. apply stdpp.list.NoDup_cons in Hd as [Hx Hd]. cbn. apply stdpp.list.NoDup_cons. split.
  - intros H. apply elem_of_list_In, in_map_iff in H as (y & Hy & Hin). apply Hx. rewrite (Hi x y); [apply elem_of_list_In, Hin|left|right; apply elem_of_list_In, Hin|congruence].
  - apply IH; [exact Hd|]. intros y z Hy Hz. apply Hi; right; assumption.
Qed.

Lemma new_nodes_nodup g a b : Rep g a -> NoDup (fst (g_get_new_nodes g b)).
Proof.
  intros HR. rewrite fst_new_nodes. apply NoDup_app. split; [|split].
  - unfold visit_static. cbn [fst]. apply NoDup_concat_map.
    + apply NoDup_map_to_list.
    + intros x _. apply NoDup_keys_with.
    + intros [l s] [l' s'] x H1 H2 X1 X2. apply elem_of_map_to_list in H1, H2. cbn [snd] in X1, X2.
      pose proof (new_static_home g a l s x b HR H1 X1) as E1. pose proof (new_static_home g a l' s' x b HR H2 X2) as E2.
      rewrite E1 in E2. injection E2 as <-. rewrite H1 in H2. injection H2 as <-. reflexivity.
  - intros x H1 H2. apply elem_visit_static in H1 as (l & s & Hs & X1). apply elem_visit_dynamic in H2 as (l' & p & d & Hd & X2).
    pose proof (new_static_home g a l s x b HR Hs X1) as E1. rewrite (new_dyn_home g a l' p d x b HR Hd X2) in E1. discriminate.
  - unfold visit_dynamic. cbn [fst]. apply NoDup_concat_map.
    + apply NoDup_map_to_list.
    + intros [l m] Hm. apply elem_of_map_to_list in Hm. cbn [snd]. apply NoDup_concat_map.
      * apply NoDup_map_to_list.
      * intros [p d] Hd. apply elem_of_map_to_list in Hd. cbn [snd].
        assert (Hg : g_dlayer g l p = Some d) by (unfold g_dlayer; rewrite Hm; exact Hd).
        destruct (rp_dinv _ _ HR _ _ _ Hg) as (Hc & _ & Hpre & _). apply NoDup_map_inj; [apply NoDup_keys_with|].
        intros i j Hi Hj E. apply elem_of_keys_with in Hi as (si & Hi & Ni), Hj as (sj & Hj & Nj). destruct si; try discriminate; destruct sj; try discriminate.
        destruct (new_status_live_dyn d i Hc Hi) as (n & Hn). destruct (new_status_live_dyn d j Hc Hj) as (n' & Hn').
        pose proof (dl_index_lt _ _ _ Hc Hn) as B1. pose proof (dl_index_lt _ _ _ Hc Hn') as B2. rewrite N2Nat.id in B1, B2.
        apply make_id_inj in E; [exact E|apply Hc|exact B1|exact B2].
      * intros [p d] [p' d'] x H1 H2 X1 X2. apply elem_of_map_to_list in H1, H2. cbn [snd] in X1, X2.
        assert (G1 : g_dlayer g l p = Some d) by (unfold g_dlayer; rewrite Hm; exact H1).
        assert (G2 : g_dlayer g l p' = Some d') by (unfold g_dlayer; rewrite Hm; exact H2).
        pose proof (new_dyn_home g a l p d x b HR G1 X1) as E1. pose proof (new_dyn_home g a l p' d' x b HR G2 X2) as E2. rewrite E1 in E2.
        injection E2 as <-. rewrite H1 in H2. injection H2 as <-. reflexivity.
    + intros [l m] [l' m'] x H1 H2 X1 X2. apply elem_of_map_to_list in H1, H2. cbn [snd] in X1, X2.
      apply elem_of_list_In, in_concat in X1 as (y1 & Y1 & X1). apply in_map_iff in Y1 as ([p d] & <- & D1). apply elem_of_list_In, elem_of_map_to_list in D1. cbn [snd] in X1.
      apply elem_of_list_In, in_concat in X2 as (y2 & Y2 & X2). apply in_map_iff in Y2 as ([p' d'] & <- & D2). apply elem_of_list_In, elem_of_map_to_list in D2. cbn [snd] in X2.
      assert (G1 : g_dlayer g l p = Some d) by (unfold g_dlayer; rewrite H1; exact D1).
      assert (G2 : g_dlayer g l' p' = Some d') by (unfold g_dlayer; rewrite H2; exact D2).
      apply elem_of_list_In in X1, X2.
      pose proof (new_dyn_home g a l p d x b HR G1 X1) as E1. pose proof (new_dyn_home g a l' p' d' x b HR G2 X2) as E2. rewrite E1 in E2.
      injection E2 as <- <-. rewrite H1 in H2. injection H2 as <-. reflexivity.
Qed.

(** Clearing. *)
Lemma cleared_layers g l : g_layers (snd (g_get_new_nodes g true)) !! l = (fun s => snd (sl_get_new_nodes s true)) <$> g_layers g !! l.
Proof. cbn. apply lookup_fmap. Qed.
Lemma cleared_dlayer g l p : g_dlayer (snd (g_get_new_nodes g true)) l p = (fun d => snd (dl_get_new_nodes d true)) <$> g_dlayer g l p.
Proof. unfold g_dlayer. cbn. rewrite lookup_fmap. destruct (g_dlayers g !! l) as [m|]; [|reflexivity]. cbn. apply lookup_fmap. Qed.
Lemma cleared_status g x :
  g_check_node (snd (g_get_new_nodes g true)) x = rbind (g_check_node g x) (fun s => Ok (match s with NNew => NVisible | s => s end)).
Proof.
  unfold g_check_node. change (g_lookup (snd (g_get_new_nodes g true))) with (g_lookup g). destruct (g_lookup g !! x) as [k|]; [|reflexivity].
  unfold g_layer_at. rewrite cleared_layers, cleared_dlayer. destruct (lk_dynamic k).
  - destruct (g_dlayer g _ _) as [d|]; [|reflexivity]. cbn. unfold dl_check_node. cbn. destruct (negb _); [reflexivity|]. rewrite lookup_fmap.
    destruct (dl_status d !! prefix_index x) as [[]|]; reflexivity.
  - destruct (g_layers g !! lk_layer k) as [s|]; [|reflexivity]. cbn. unfold sl_check_node. cbn. rewrite lookup_fmap. destruct (sl_status s !! x) as [[]|]; reflexivity.
Qed.

(** *** Edges *)
Lemma or_iff_compat2 (A B C D : Prop) : (A <-> B) -> (C <-> D) -> (A \/ C <-> B \/ D). Proof. tauto. Qed.
Lemma fst_new_edges g b : fst (g_get_new_edges g b) =
  fst (visit_static (fun l => sl_get_new_edges l b) (g_layers g)) ++ fst (visit_dynamic (fun d => dl_get_new_edges d b) (g_dlayers g)) ++
  fst (ec_get_new (g_inter g) b) ++ fst (ec_get_new (g_dinter g) b).
Proof. reflexivity. Qed.
Lemma fst_removed_edges g b : fst (g_get_removed_edges g b) =
  fst (visit_static (fun l => sl_get_removed_edges l b) (g_layers g)) ++ fst (visit_dynamic (fun d => dl_get_removed_edges d b) (g_dlayers g)) ++
  fst (ec_get_removed (g_inter g) b) ++ fst (ec_get_removed (g_dinter g) b).
Proof. reflexivity. Qed.
Lemma elem_new_edges g b k : k ∈ fst (g_get_new_edges g b) <->
  (exists l s, g_layers g !! l = Some s /\ ec_status (sl_edges s) !! k = Some ENew) \/
  (exists l p d, g_dlayer g l p = Some d /\ ec_status (dl_edges d) !! k = Some ENew) \/
  (exists dyn, ec_status (g_ec g dyn) !! k = Some ENew).
Proof.
  assert (H : forall c, k ∈ fst (ec_get_new c b) <-> ec_status c !! k = Some ENew).
  { intros c. cbn. rewrite elem_of_keys_with. split; [intros (s & H1 & H2); destruct s; try discriminate; exact H1|]. intros H. exists ENew. auto. }
  rewrite fst_new_edges, !elem_of_app, elem_visit_static, elem_visit_dynamic. apply or_iff_compat2; [|apply or_iff_compat2].
  - setoid_rewrite H. reflexivity.
  - setoid_rewrite H. reflexivity.
  - rewrite !H. split; [intros [?|?]; [exists false|exists true]; assumption|]. intros [[|] ?]; [right|left]; assumption.
Qed.
Lemma elem_removed_edges g b k : k ∈ fst (g_get_removed_edges g b) <->
  (exists l s, g_layers g !! l = Some s /\ ec_status (sl_edges s) !! k = Some EDeleted) \/
  (exists l p d, g_dlayer g l p = Some d /\ ec_status (dl_edges d) !! k = Some EDeleted) \/
  (exists dyn, ec_status (g_ec g dyn) !! k = Some EDeleted).
Proof.
  assert (H : forall c, k ∈ fst (ec_get_removed c b) <-> ec_status c !! k = Some EDeleted).
  { intros c. cbn. rewrite elem_of_keys_with. split; [intros (s & H1 & H2); destruct s; try discriminate; exact H1|]. intros H. exists EDeleted. auto. }
  rewrite fst_removed_edges, !elem_of_app, elem_visit_static, elem_visit_dynamic. apply or_iff_compat2; [|apply or_iff_compat2].
  - setoid_rewrite H. reflexivity.
  - setoid_rewrite H. reflexivity.
  - rewrite !H. split; [intros [?|?]; [exists false|exists true]; assumption|]. intros [[|] ?]; [right|left]; assumption.
Qed.

Lemma new_edge_live g a b k : Rep g a -> k ∈ fst (g_get_new_edges g b) -> k = edge_key (fst k) (snd k) /\ adjacent g (fst k) (snd k).
Proof.
  intros HR Hk. assert (HW : forall c, ec_wf c -> ec_status c !! k = Some ENew -> k = edge_key (fst k) (snd k) /\ exists e, ec_edges c !! k = Some e).
  { intros c Hc H. split; [symmetry; exact (ecw_norm _ Hc _ _ H)|]. apply (ecw_live _ Hc). exists ENew. split; [exact H|]. left. reflexivity. }
  apply elem_new_edges in Hk as [(l & s & Hs & H)|[(l & p & d & Hd & H)|(dyn & H)]].
  - assert (Hp : g_part g (key_static l) = Some s) by exact Hs. destruct (rp_part _ _ HR (key_static l) s) as (Hwf & _); [intros _; reflexivity|exact Hp|].
    destruct (HW _ (slw_ec _ Hwf) H) as (E & e & He). split; [exact E|]. apply (obs_adjacent g a HR). unfold a_linked. rewrite <- E.
    exists e. exact (proj1 (part_edge_abs g a HR (key_static l) s k e (fun _ => eq_refl) Hp He)).
  - assert (Hp : g_part g (key_dynamic l p) = Some (dl_view d)) by (unfold g_part; cbn; rewrite Hd; reflexivity).
    assert (Hc : canon (key_dynamic l p)) by (intros ?; discriminate). destruct (rp_part _ _ HR _ _ Hc Hp) as (Hwf & _).
    destruct (HW _ (slw_ec _ Hwf) H) as (E & e & He). split; [exact E|]. apply (obs_adjacent g a HR). unfold a_linked. rewrite <- E.
    exists e. exact (proj1 (part_edge_abs g a HR (key_dynamic l p) _ k e Hc Hp He)).
  - destruct (HW _ (rp_ec _ _ HR dyn) H) as (E & e & He). split; [exact E|]. apply (obs_adjacent g a HR). unfold a_linked. rewrite <- E.
    exists e. exact (proj1 (inter_edge_abs g a HR dyn k e He)).
Qed.

(** *** Reports after a change *)
Lemma ec_insert_new c u v i : ec_status (ec_insert c u v i) !! edge_key u v = Some ENew.
Proof. unfold ec_insert. cbn. apply lookup_insert. Qed.
Lemma ec_remove_deleted c u v c' : ec_remove c u v = Ok c' -> ec_status c' !! edge_key u v = Some EDeleted.
Proof. unfold ec_remove. destruct (ec_status c !! edge_key u v); [|discriminate]. intros [= <-]. apply lookup_insert. Qed.
Lemma bl_insert_new b u v i b' : bl_insert_edge b u v i = Ok (true, b') -> ec_status (bl_edges b') !! edge_key u v = Some ENew.
Proof.
  destruct b as [l|d]; cbn.
  - unfold sl_insert_edge. destruct (u =? v); [discriminate|]. destruct (sl_has_edge l u v); [discriminate|]. destruct (negb (sl_has_node l u)); [discriminate|].
    destruct (negb (sl_has_node l v)); [discriminate|]. destruct (sl_upd l u _) as [l1| |]; try discriminate. cbn [rbind].
    destruct (sl_upd l1 v _) as [l2| |]; try discriminate. cbn [rbind]. intros [= <-]. apply ec_insert_new.
  - unfold dl_insert_edge. destruct (u =? v); [discriminate|]. destruct (dl_has_edge d u v); [discriminate|]. destruct (negb (dl_has_node d u) || negb (dl_has_node d v)); [discriminate|].
    destruct (dl_upd d _ _) as [l1| |]; try discriminate. cbn [rbind].
    destruct (dl_upd l1 _ _) as [l2| |]; try discriminate. cbn [rbind]. intros [= <-]. apply ec_insert_new.
Qed.
Lemma bl_remove_deleted b u v b' : bl_remove_edge b u v = Ok (true, b') -> ec_status (bl_edges b') !! edge_key u v = Some EDeleted.
Proof.
  destruct b as [l|d]; cbn.
  - unfold sl_remove_edge. destruct (negb (sl_has_edge l u v)); [discriminate|].
    destruct (sl_upd l u _) as [l1| |]; try discriminate. cbn [rbind]. destruct (sl_upd l1 v _) as [l2| |]; try discriminate. cbn [rbind].
    destruct (ec_remove _ u v) as [c| |] eqn:E; try discriminate. cbn [rbind]. intros [= <-]. exact (ec_remove_deleted _ _ _ _ E).
  - unfold dl_remove_edge. destruct (negb (dl_has_edge d u v)); [discriminate|].
    destruct (dl_upd d _ _) as [l1| |]; try discriminate. cbn [rbind]. destruct (dl_upd l1 _ _) as [l2| |]; try discriminate. cbn [rbind].
    destruct (ec_remove _ u v) as [c| |] eqn:E; try discriminate. cbn [rbind]. intros [= <-]. exact (ec_remove_deleted _ _ _ _ E).
Qed.
Lemma pair_status g sk tk c : g_ec (g_with_pair_ec g sk tk c) (pair_dyn sk tk) = c.
Proof. unfold g_with_pair_ec, g_ec, pair_dyn. destruct (lk_dynamic sk || lk_dynamic tk); reflexivity. Qed.

Lemma insert_edge_reported g u v i g' b : g_insert_edge g u v i = Ok (true, g') -> edge_key u v ∈ fst (g_get_new_edges g' b).
Proof.
  unfold g_insert_edge. destruct (g_has_edge_keys g u v) as [[has keys]| |]; try discriminate. cbn [rbind]. destruct has; [discriminate|].
  destruct keys as [[sk tk]|]; [|discriminate]. destruct (_ || _); [discriminate|]. destruct (key_eqb sk tk).
  - destruct (g_layer_at g sk) as [bl| |]; try discriminate. cbn [rbind]. destruct (bl_insert_edge bl u v i) as [[r b']| |] eqn:E; try discriminate. cbn [rbind].
    intros [= -> <-]. apply bl_insert_new in E. apply elem_new_edges.
    destruct b' as [s|d]; cbn in E; [left|right; left].
    + exists (lk_layer sk), s. split; [cbn; apply lookup_insert|exact E].
    + exists (lk_layer sk), (lk_prefix sk), d. split; [cbn [g_put_layer]; rewrite g_dlayer_set; destruct (decide _) as [_|N]; [reflexivity|exfalso; apply N; auto]|exact E].
  - destruct (g_add_ancestry g u v sk tk) as [g1| |]; try discriminate. cbn [rbind]. intros [= <-]. apply elem_new_edges. right. right.
    exists (pair_dyn sk tk). rewrite pair_status. apply ec_insert_new.
Qed.
Lemma insert_parent_edge_reported g u v i g' b : g_insert_parent_edge g u v i = Ok (true, g') -> edge_key u v ∈ fst (g_get_new_edges g' b).
Proof.
  unfold g_insert_parent_edge. destruct (g_has_edge_keys g u v) as [[has keys]| |]; try discriminate. cbn [rbind]. destruct has; [discriminate|].
  destruct keys as [[sk tk]|]; [|discriminate]. destruct (_ || _); [discriminate|].
  destruct (if negb (key_eqb sk tk) then _ else _) as [g0| |]; try discriminate. cbn [rbind].
  destruct (g_add_ancestry g0 u v sk tk) as [g1| |]; try discriminate. cbn [rbind]. intros [= <-]. apply elem_new_edges. right. right.
  exists (pair_dyn sk tk). rewrite pair_status. apply ec_insert_new.
Qed.
Lemma remove_edge_reported g u v g' b : g_remove_edge g u v = Ok (true, g') -> edge_key u v ∈ fst (g_get_removed_edges g' b).
Proof.
  unfold g_remove_edge. destruct (g_has_edge_keys g u v) as [[has keys]| |]; try discriminate. cbn [rbind]. destruct (negb has); [discriminate|].
  destruct keys as [[sk tk]|]; [|discriminate]. destruct (_ || _); [discriminate|]. destruct (key_eqb sk tk).
  - destruct (g_layer_at g sk) as [bl| |]; try discriminate. cbn [rbind]. destruct (bl_remove_edge bl u v) as [[r b']| |] eqn:E; try discriminate. cbn [rbind].
    intros [= -> <-]. apply bl_remove_deleted in E. apply elem_removed_edges.
    destruct b' as [s|d]; cbn in E; [left|right; left].
    + exists (lk_layer sk), s. split; [cbn; apply lookup_insert|exact E].
    + exists (lk_layer sk), (lk_prefix sk), d. split; [cbn [g_put_layer]; rewrite g_dlayer_set; destruct (decide _) as [_|N]; [reflexivity|exfalso; apply N; auto]|exact E].
  - destruct (g_remove_interlayer_keys g u v sk tk) as [g2| |] eqn:E; try discriminate. cbn [rbind]. intros [= <-].
    unfold g_remove_interlayer_keys in E. destruct (g_remove_ancestry g u v sk tk) as [g1| |]; try discriminate. cbn [rbind] in E.
    destruct (ec_remove _ u v) as [c| |] eqn:Ec; try discriminate. cbn [rbind] in E. injection E as <-. apply elem_removed_edges. right. right.
    exists (pair_dyn sk tk). rewrite pair_status. exact (ec_remove_deleted _ _ _ _ Ec).
Qed.

(** *** Removed nodes *)
Lemma elem_removed_nodes g b x : x ∈ fst (g_get_removed_nodes g b) <->
  (exists l s, g_layers g !! l = Some s /\ (sl_status s !! x = Some NDeleted \/ sl_status s !! x = Some NMerged)) \/
  (exists l p d i, g_dlayer g l p = Some d /\ dl_status d !! i = Some NDeleted /\ x = prefix_make_id (dl_prefix d) i).
Proof.
  change (fst (g_get_removed_nodes g b)) with (fst (visit_static (fun l => sl_get_removed_nodes l b) (g_layers g)) ++ fst (visit_dynamic (fun d => dl_get_removed_nodes d b) (g_dlayers g))).
  rewrite elem_of_app, elem_visit_static, elem_visit_dynamic. apply or_iff_compat2.
  - assert (H : forall s, x ∈ fst (sl_get_removed_nodes s b) <-> sl_status s !! x = Some NDeleted \/ sl_status s !! x = Some NMerged).
    { intros s. cbn. rewrite elem_of_keys_with. split; [intros (st & H1 & H2); destruct st; try discriminate; auto|]. intros [H|H]; eauto. }
    setoid_rewrite H. reflexivity.
  - split.
    + intros (l & p & d & Hd & Hx). cbn in Hx. apply elem_of_list_In, in_map_iff in Hx as (i & <- & Hi). apply elem_of_list_In, elem_of_keys_with in Hi as (st & H1 & H2).
      destruct st; try discriminate. exists l, p, d, i. auto.
    + intros (l & p & d & i & Hd & Hi & ->). exists l, p, d. split; [exact Hd|]. cbn. apply elem_of_list_In, in_map_iff. exists i. split; [reflexivity|].
      apply elem_of_list_In, elem_of_keys_with. eauto.
Qed.

Lemma remove_node_reported g a x g' b : Rep g a -> g_remove_node g x = Ok (true, g') -> x ∈ fst (g_get_removed_nodes g' b).
Proof.
  intros HR. unfold g_remove_node. destruct (g_lookup g !! x) as [k|] eqn:Hx; [|discriminate].
  destruct (Rep_node_ptr g a x k HR Hx) as (L & n & HL & Hn & -> & Hok). cbn [rbind deref].
  destruct (remove_inter_loop (elements (n_chd n)) x k g a HR Hx (NoDup_elements _)) as (g1 & -> & HF1 & HR1).
  { intros t Ht. apply elem_of_elements in Ht. apply (no_links _ _ _ _ _ Hok RChild t) in Ht as (Hl & kt & Hkt & Hr).
    split; [assumption|]. exists kt. split; [assumption|]. intros ->. rewrite rel_refl in Hr. discriminate. }
  cbn [rbind].
  assert (Hx1 : g_lookup g1 !! x = Some k) by (rewrite (gf_lookup _ _ HF1); assumption).
  destruct (Rep_node_ptr g1 _ x k HR1 Hx1) as (L1 & n1 & HL1 & Hn1 & -> & Hok1). cbn [rbind deref].
  destruct (remove_inter_loop (elements (n_par n1)) x k g1 _ HR1 Hx1 (NoDup_elements _)) as (g2 & -> & HF2 & HR2).
  { intros t Ht. apply elem_of_elements in Ht. apply (no_links _ _ _ _ _ Hok1 RParent t) in Ht as (Hl & kt & Hkt & Hr).
    split; [assumption|]. exists kt. split; [assumption|]. intros ->. rewrite rel_refl in Hr. discriminate. }
  cbn [rbind].
  assert (Hx2 : layer_of g2 x = Some k) by (unfold layer_of, g_layer_for_node; rewrite (gf_lookup _ _ HF2); exact Hx1).
  destruct (known_layer g2 _ x k HR2 Hx2) as [(s & m & Hk & Hs & Hm & -> & _ & Hwf & _)|(d & m & Hk & Hd & Hm & -> & _ & Hc & Hp & _)]; cbn [rbind bl_remove_node].
  - unfold sl_remove_node. rewrite Hm. destruct (rfold _ _ s) as [l1| |]; try discriminate. cbn [rbind]. intros [= <-].
    apply elem_removed_nodes. left. eexists (lk_layer k), _. split; [cbn; apply lookup_insert|]. cbn. left. apply lookup_insert.
  - unfold dl_remove_node. destruct (dl_nmap_slot d x m Hc Hm) as (Hsl & Hpf & Hlt).
    assert (Hh : dl_has_node d x = true) by (apply dl_has_node_true; eauto). rewrite Hh. cbn [negb]. rewrite dl_slot_lookup, Hsl. cbn [at_ deref rbind].
    match goal with |- context [rbind (if ?c then ?u else Ok d) _] => set (D1 := if c then u else Ok d) end.
    assert (HD1 : forall d1, D1 = Ok d1 -> dl_prefix d1 = dl_prefix d).
    { unfold D1. intros d1. destruct (_ && _); [|intros [= <-]; reflexivity]. unfold dl_insert_edge. destruct (_ =? _); [intros [= <-]; reflexivity|].
      destruct (dl_has_edge d _ _); [intros [= <-]; reflexivity|]. destruct (_ || _); [intros [= <-]; reflexivity|]. unfold dl_upd at 1.
      destruct (dl_slot d _) as [[n0|]|]; try discriminate. cbn [rbind]. unfold dl_upd at 1. destruct (dl_slot _ _) as [[n2|]|]; try discriminate. intros [= <-]. reflexivity. }
    destruct D1 as [d1| |]; try discriminate. specialize (HD1 d1 eq_refl). cbn [rbind].
    match goal with |- context [rfold ?f ?ts d1] => set (D2 := rfold f ts d1) end. assert (HD2 : forall d2, D2 = Ok d2 -> dl_prefix d2 = dl_prefix d1).
    { unfold D2. clear. generalize (elements (n_sib m)) as ts. intros ts. revert d1. induction ts as [|t r IH]; intros d1 d2; cbn [rfold]; [intros [= <-]; reflexivity|].
      destruct (dl_remove_edge d1 x t) as [[b0 d0]| |] eqn:E; try discriminate. cbn [rbind]. intros H. rewrite (IH _ _ H).
      unfold dl_remove_edge in E. destruct (negb _); [injection E as _ <-; reflexivity|]. unfold dl_upd at 1 in E.
      destruct (dl_slot d1 _) as [[n0|]|]; try discriminate. cbn [rbind] in E. unfold dl_upd at 1 in E. destruct (dl_slot _ _) as [[n2|]|]; try discriminate. cbn [rbind] in E.
      destruct (ec_remove _ x t) as [c| |]; try discriminate. cbn [rbind] in E. injection E as _ <-. reflexivity. }
    destruct D2 as [d2| |]; try discriminate. specialize (HD2 d2 eq_refl). cbn [rbind].
    destruct (at_ (dl_slot d2 _)) as [[n2|]| |]; try discriminate. cbn [rbind deref]. destruct (n_time n2) as [tm|]; try discriminate. cbn [rbind deref]. intros [= <-].
    apply elem_removed_nodes. right. eexists (lk_layer k), (lk_prefix k), _, (prefix_index x). split; [|split].
    + change (g_dlayer (g_with_lookup ?g0 ?l1) (lk_layer k) (lk_prefix k)) with (g_dlayer g0 (lk_layer k) (lk_prefix k)). cbn [g_put_layer]. rewrite g_dlayer_set. destruct (decide _) as [_|N]; [reflexivity|exfalso; apply N; auto].
    + cbn. apply lookup_insert.
    + cbn. rewrite HD2, HD1. symmetry. apply make_id_of_id; [apply Hc|exact Hlt|exact Hpf].
Qed.

Lemma new_edges_cleared g b k : k ∈ fst (g_get_new_edges (snd (g_get_new_edges g true)) b) -> False.
Proof.
  intros H. apply elem_new_edges in H as [(l & s & Hs & H)|[(l & p & d & Hd & H)|([|] & H)]].
  - cbn in Hs. rewrite lookup_fmap in Hs. destruct (g_layers g !! l) as [s0|]; [|discriminate]. injection Hs as <-. cbn in H. rewrite lookup_fmap in H.
    destruct (ec_status (sl_edges s0) !! k) as [[]|]; discriminate.
  - unfold g_dlayer in Hd. cbn in Hd. rewrite lookup_fmap in Hd. destruct (g_dlayers g !! l) as [m|]; [|discriminate]. cbn in Hd. rewrite lookup_fmap in Hd.
    destruct (m !! p) as [d0|]; [|discriminate]. injection Hd as <-. cbn in H. rewrite lookup_fmap in H. destruct (ec_status (dl_edges d0) !! k) as [[]|]; discriminate.
  - cbn in H. rewrite lookup_fmap in H. destruct (ec_status (g_dinter g) !! k) as [[]|]; discriminate.
  - cbn in H. rewrite lookup_fmap in H. destruct (ec_status (g_inter g) !! k) as [[]|]; discriminate.
Qed.
Lemma removed_edges_cleared g b k : k ∈ fst (g_get_removed_edges (snd (g_get_removed_edges g true)) b) -> False.
Proof.
  assert (HF : forall c, ec_status (snd (ec_get_removed c true)) !! k = Some EDeleted -> False).
  { intros c. cbn. rewrite map_filter_lookup_Some. cbn. intros [_ H]. discriminate. }
  intros H. apply elem_removed_edges in H as [(l & s & Hs & H)|[(l & p & d & Hd & H)|([|] & H)]].
  - cbn in Hs. rewrite lookup_fmap in Hs. destruct (g_layers g !! l) as [s0|]; [|discriminate]. injection Hs as <-. exact (HF _ H).
  - unfold g_dlayer in Hd. cbn in Hd. rewrite lookup_fmap in Hd. destruct (g_dlayers g !! l) as [m|]; [|discriminate]. cbn in Hd. rewrite lookup_fmap in Hd.
    destruct (m !! p) as [d0|]; [|discriminate]. injection Hd as <-. exact (HF _ H).
  - exact (HF _ H).
  - exact (HF _ H).
Qed.
