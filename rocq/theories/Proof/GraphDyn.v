(** Every entry of dynamic_layers_ has at least one dynamic layer. *)
From Coq Require Import NArith ZArith Bool List Lia.
From stdpp Require Import base list gmap fin_maps tactics.
From Verif.Model Require Import Types Mesh Attrs Node EdgeContainer SLayer DLayer Graph.
From Verif.Spec Require Import AbstractGraph GraphHistory GraphObs.
Local Open Scope N_scope.

Definition NE (g : Graph) : Prop := forall l m, g_dlayers g !! l = Some m -> m <> ∅.
Definition kne (g : Graph) {A} (r : result A) (f : A -> Graph) : Prop :=
  match r with Ok x => NE g -> NE (f x) | _ => True end.
Lemma NE_set_layer g l s : NE g -> NE (g_set_layer g l s). Proof. auto. Qed.
Lemma NE_with_lookup g s : NE g -> NE (g_with_lookup g s). Proof. auto. Qed.
Lemma NE_set_dlayer g l p s : NE g -> NE (g_set_dlayer g l p s).
Proof.
  intros H l' m. cbn. destruct (decide (l' = l)) as [->|Hne].
  - rewrite lookup_insert. intros [= <-]. apply insert_non_empty.
  - rewrite lookup_insert_ne by congruence. apply H.
Qed.
Lemma NE_put_layer g k b : NE g -> NE (g_put_layer g k b).
Proof. destruct b; cbn; [auto|apply NE_set_dlayer]. Qed.
Lemma NE_with_pair g k k' e : NE g -> NE (g_with_pair_ec g k k' e).
Proof. unfold g_with_pair_ec. destruct (_ || _); auto. Qed.
Lemma NE_fmap (g g' : Graph) (f : gmap N DLayer -> gmap N DLayer) : (forall m, m <> ∅ -> f m <> ∅) ->
  g_dlayers g' = f <$> g_dlayers g -> NE g -> NE g'.
Proof.
  intros Hf He H l m. rewrite He, lookup_fmap, fmap_Some. intros (m0 & Hm0 & ->). eauto.
Qed.
Ltac ne_tac := solve [ unfold id in *; unfold kne; cbn -[NE]; unfold id in *; intros;
  repeat (first [assumption | apply NE_with_pair | apply NE_put_layer | apply NE_set_dlayer | apply NE_set_layer | apply NE_with_lookup]); auto
 | unfold kne; cbn -[NE]; apply NE_fmap with (f := fun mm => _ <$> mm); [intros m Hm; rewrite fmap_empty_iff; exact Hm|reflexivity] ].

Lemma kne_bind g {A B} (r : result A) (k : A -> result B) (f : B -> Graph) :
  (forall x, r = Ok x -> kne g (k x) f) -> kne g (rbind r k) f.
Proof. intros H. destruct r; cbn; auto. Qed.
Lemma kne_trans g {A B} (r : result A) (k : A -> result B) (h : A -> Graph) (f : B -> Graph) :
  kne g r h -> (forall x, kne (h x) (k x) f) -> kne g (rbind r k) f.
Proof.
  intros H1 H2. destruct r as [x| |]; cbn in *; auto. specialize (H2 x). unfold kne in *. destruct (k x); auto.
Qed.
Lemma kne_rfold {A} (f : Graph -> A -> result Graph) l : (forall g x, kne g (f g x) id) ->
  forall g, kne g (rfold f l g) id.
Proof.
  intros H. induction l as [|x r IH]; intros g; cbn; [ne_tac|]. eapply kne_trans; [apply H|]. intros y. apply IH.
Qed.
Lemma kne_upd_ptr g x k f : kne g (g_upd_ptr g x k f) id.
Proof.
  unfold g_upd_ptr. destruct (lk_dynamic k); repeat (apply kne_bind; intros ? _); ne_tac.
Qed.
Lemma kne_upd2 g x k f y k' f' : kne g (let! g1 := g_upd_ptr g x k f in g_upd_ptr g1 y k' f') id.
Proof. eapply kne_trans; [apply kne_upd_ptr|]. intros g1. apply kne_upd_ptr. Qed.
Lemma kne_add_ancestry g s t sk tk : kne g (g_add_ancestry g s t sk tk) id.
Proof.
  unfold g_add_ancestry. apply kne_bind; intros _ _. apply kne_bind; intros _ _.
  destruct (key_is_parent sk tk); [apply kne_upd2|]. destruct (key_is_parent tk sk); apply kne_upd2.
Qed.
Lemma kne_remove_ancestry g s t sk tk : kne g (g_remove_ancestry g s t sk tk) id.
Proof.
  unfold g_remove_ancestry. apply kne_bind; intros _ _. apply kne_bind; intros _ _.
  destruct (key_is_parent sk tk); [apply kne_upd2|]. destruct (key_is_parent tk sk); apply kne_upd2.
Qed.
Lemma kne_remove_keys g s t sk tk : kne g (g_remove_interlayer_keys g s t sk tk) id.
Proof.
  unfold g_remove_interlayer_keys. eapply kne_trans; [apply kne_remove_ancestry|]. intros g1.
  apply kne_bind; intros c _. ne_tac.
Qed.
Lemma kne_remove_interlayer g s t : kne g (g_remove_interlayer g s t) id.
Proof. unfold g_remove_interlayer. apply kne_bind; intros sk _. apply kne_bind; intros tk _. apply kne_remove_keys. Qed.
Lemma kne_remove_edge g s t : kne g (g_remove_edge g s t) snd.
Proof.
  unfold g_remove_edge. apply kne_bind; intros [has keys] _. destruct (negb has); [ne_tac|].
  destruct keys as [[sk tk]|]; [|ne_tac]. destruct (_ || _); [ne_tac|]. destruct (key_eqb sk tk).
  - apply kne_bind; intros b _. apply kne_bind; intros [r b'] _. ne_tac.
  - eapply kne_trans; [apply kne_remove_keys|]. ne_tac.
Qed.
Lemma kne_insert_inter g s t sk tk i : kne g (let! g1 := g_add_ancestry g s t sk tk in
           Ok (true, g_with_pair_ec g1 sk tk (ec_insert (g_pair_ec g1 sk tk) s t i))) snd.
Proof. eapply kne_trans; [apply kne_add_ancestry|]. intros g1. ne_tac. Qed.
Lemma kne_insert_edge g s t i : kne g (g_insert_edge g s t i) snd.
Proof.
  unfold g_insert_edge. apply kne_bind; intros [has keys] _. destruct has; [ne_tac|].
  destruct keys as [[sk tk]|]; [|ne_tac]. destruct (_ || _); [ne_tac|]. destruct (key_eqb sk tk).
  - apply kne_bind; intros b _. apply kne_bind; intros [r b'] _. ne_tac.
  - apply kne_insert_inter.
Qed.
Lemma kne_insert_parent_edge g s t i : kne g (g_insert_parent_edge g s t i) snd.
Proof.
  unfold g_insert_parent_edge. apply kne_bind; intros [has keys] _. destruct has; [ne_tac|].
  destruct keys as [[sk tk]|]; [|ne_tac]. destruct (_ || _); [ne_tac|].
  apply (kne_trans g _ _ id); [|intros g0; apply kne_insert_inter].
  destruct (negb _); [|ne_tac]. unfold g_drop_all_parents.
  apply kne_bind; intros so _. apply kne_bind; intros to _. apply kne_bind; intros n _.
  apply kne_rfold. intros g1 x. eapply kne_trans; [apply kne_remove_edge|]. intros [b g2]. ne_tac.
Qed.
Lemma kne_set_edge_attributes g s t i : kne g (g_set_edge_attributes g s t i) snd.
Proof.
  unfold g_set_edge_attributes. apply kne_bind; intros sk _. apply kne_bind; intros tk _.
  destruct (key_eqb sk tk).
  - apply kne_bind; intros b _. destruct (ec_find _ _ _); ne_tac.
  - destruct (ec_find _ _ _); ne_tac.
Qed.
Lemma kne_emplace_prev g l id0 t at0 : kne g (g_emplace_prev g l id0 t at0) snd.
Proof.
  unfold g_emplace_prev. destruct (g_has_node g id0); [ne_tac|]. unfold g_create_dlayer.
  apply kne_bind; intros d _. destruct (dl_emplace_at _ _ _ _) as [ok d']. destruct ok, (g_has_dlayer _ _ _); ne_tac.
Qed.
Lemma kne_rewire g s ns t : kne g (g_rewire_interlayer g s ns t) id.
Proof.
  unfold g_rewire_interlayer. destruct (s =? ns); [ne_tac|]. apply kne_bind; intros sk _.
  apply kne_bind; intros [has keys] _.
  destruct (match keys with Some p => p | None => _ end) as [nsk tk]. destruct has; [apply kne_remove_keys|].
  eapply kne_trans; [apply kne_remove_ancestry|]. intros g1. eapply kne_trans; [apply kne_add_ancestry|]. intros g2.
  destruct (ec_find _ _ _); [|ne_tac]. apply kne_bind; intros c' _. ne_tac.
Qed.
Lemma kne_merge g f t : kne g (g_merge_nodes g f t) snd.
Proof.
  unfold g_merge_nodes. destruct (g_lookup g !! f), (g_lookup g !! t); try ne_tac.
  destruct (f =? t); [ne_tac|]. destruct (negb _); [ne_tac|].
  apply kne_bind; intros ll _. apply kne_bind; intros n _.
  eapply kne_trans; [apply (kne_rfold _ _ (fun g x => kne_rewire g f t x))|]. intros g1.
  apply kne_bind; intros ll1 _. apply kne_bind; intros n1 _.
  eapply kne_trans; [apply (kne_rfold _ _ (fun g x => kne_rewire g f t x))|]. intros g2.
  apply kne_bind; intros ll2 _. apply kne_bind; intros [b l3] _. ne_tac.
Qed.
Lemma kne_remove_node g x : kne g (g_remove_node g x) snd.
Proof.
  unfold g_remove_node. destruct (g_lookup g !! x); [|ne_tac].
  apply kne_bind; intros o _. apply kne_bind; intros n _.
  eapply kne_trans; [apply (kne_rfold _ _ (fun g y => kne_remove_interlayer g x y))|]. intros g1.
  apply kne_bind; intros o1 _. apply kne_bind; intros n1 _.
  eapply kne_trans; [apply (kne_rfold _ _ (fun g y => kne_remove_interlayer g x y))|]. intros g2.
  apply kne_bind; intros b _. apply kne_bind; intros [r b'] _. ne_tac.
Qed.
Lemma kne_emplace g l id0 at0 : NE g -> NE (snd (g_emplace_node g l id0 at0)).
Proof.
  unfold g_emplace_node. destruct (g_has_node g id0); [ne_tac|]. destruct (g_layers g !! l); [|ne_tac].
  destruct (sl_emplace_node _ _ _) as [[] ?]; ne_tac.
Qed.

Lemma step_ne g o : kne g (g_step g o) snd.
Proof.
  destruct o; cbn [g_step].
  - cbn. apply kne_emplace.
  - unfold kne, g_insert_node. destruct (g_has_node _ _); [ne_tac|]. destruct (g_layers _ !! _); [|ne_tac].
    destruct (sl_insert_node _ _) as [[] ?]; ne_tac.
  - unfold g_emplace_dynamic. destruct (g_has_node _ _); [ne_tac|]. unfold g_create_dlayer.
    apply kne_bind; intros d _. apply kne_bind; intros [ok d'] _. destruct ok, (g_has_dlayer _ _ _); ne_tac.
  - apply kne_emplace_prev.
  - unfold kne, g_create_dlayer. destruct (g_has_dlayer _ _ _); ne_tac.
  - unfold g_add_or_update_node. destruct (g_layers g !! l); [|ne_tac]. destruct (g_lookup g !! id).
    + eapply kne_trans; [apply kne_upd_ptr|]. ne_tac.
    + destruct t; [apply kne_emplace_prev|]. destruct (sl_emplace_node _ _ _) as [[] ?]; ne_tac.
  - unfold g_set_node_attributes. destruct (g_lookup g !! id); [|ne_tac]. eapply kne_trans; [apply kne_upd_ptr|]. ne_tac.
  - apply kne_insert_edge.
  - apply kne_insert_parent_edge.
  - unfold g_add_or_update_edge. apply kne_bind; intros [] _; [apply kne_set_edge_attributes|apply kne_insert_edge].
  - apply kne_set_edge_attributes.
  - apply kne_remove_edge.
  - apply kne_remove_node.
  - apply kne_merge.
  - unfold g_find_edge. destruct (at_ (g_lookup g !! u)); cbn; auto. destruct (at_ (g_lookup g !! v)); cbn; auto.
    destruct (key_eqb _ _); [|ne_tac]. destruct (g_layer_at _ _); cbn; auto. ne_tac.
  - unfold kne; cbn [snd]; eapply NE_fmap with (f := fmap (fun d => dl_with_edges d (ec_set_stale (dl_edges d)))); [intros m Hm; rewrite fmap_empty_iff; exact Hm|reflexivity].
  - unfold kne; cbn [snd]; eapply NE_fmap with (f := fmap (fun d => snd (dl_get_new_nodes d clear))); [intros m Hm; rewrite fmap_empty_iff; exact Hm|reflexivity].
  - unfold kne; cbn [snd]; eapply NE_fmap with (f := fmap (fun d => snd (dl_get_removed_nodes d clear))); [intros m Hm; rewrite fmap_empty_iff; exact Hm|reflexivity].
  - unfold kne; cbn [snd]; eapply NE_fmap with (f := fmap (fun d => snd (dl_get_new_edges d clear))); [intros m Hm; rewrite fmap_empty_iff; exact Hm|reflexivity].
  - unfold kne; cbn [snd]; eapply NE_fmap with (f := fmap (fun d => snd (dl_get_removed_edges d clear))); [intros m Hm; rewrite fmap_empty_iff; exact Hm|reflexivity].
  - ne_tac.
  - intros _ l m. cbn. rewrite lookup_empty. discriminate.
Qed.

(** mergeGraph *)
Lemma kne_merge_layer1 cfg st x : kne (fst st) (g_merge_layer1 cfg st x) fst.
Proof.
  destruct st as [g o], x as [l ol]. unfold g_merge_layer1. cbn [fst]. destruct (g_layers g !! l); [|ne_tac].
  destruct (sl_get_removed_nodes ol _) as [rm ol1].
  eapply (kne_trans _ _ _ id); [apply kne_rfold; intros g1 x; eapply kne_trans; [apply kne_remove_node|intros [b g2]; ne_tac]|].
  intros g1. destruct (ec_get_removed _ _) as [rme e1]. eapply (kne_trans _ _ _ id); [apply kne_rfold|].
  - intros g2 k. apply kne_bind; intros s1 _. apply kne_bind; intros [b s'] _. ne_tac.
  - intros g2. apply kne_bind; intros s1 _. apply kne_bind; intros [s' lk] _. ne_tac.
Qed.
Lemma kne_merge_layers cfg xs : forall st, kne (fst st) (rfold (g_merge_layer1 cfg) xs st) fst.
Proof.
  induction xs as [|x r IH]; intros st; cbn [rfold]; [ne_tac|]. eapply (kne_trans _ _ _ fst); [apply kne_merge_layer1|]. intros st'. apply IH.
Qed.
Lemma kne_merge_edge1 cfg g x : kne g (g_merge_edge1 cfg g x) id.
Proof.
  unfold g_merge_edge1. destruct (_ =? _); [ne_tac|]. eapply (kne_trans _ _ _ snd).
  - destruct (mc_enforce_parent cfg); [apply kne_insert_parent_edge|apply kne_insert_edge].
  - intros [b g1]. ne_tac.
Qed.
Lemma kne_merge_graph vadd vsub g other cfg : kne g (g_merge_graph vadd vsub g other cfg) fst.
Proof.
  unfold g_merge_graph. eapply (kne_trans _ _ _ id).
  - unfold g_merge_dlayers. apply kne_rfold. intros g1 [[l p] od]. apply kne_bind; intros d _. apply kne_bind; intros [d' lk] _.
    unfold g_create_dlayer. destruct (g_has_dlayer g1 l p); ne_tac.
  - intros g1. eapply (kne_trans _ _ _ fst); [apply (kne_merge_layers cfg _ (id g1, other))|]. intros [g2 o2]. cbn [fst].
    eapply (kne_trans _ _ _ id); [apply kne_rfold; intros; apply kne_merge_edge1|]. intros g3.
    eapply (kne_trans _ _ _ id); [apply kne_rfold; intros; apply kne_merge_edge1|]. intros g4. ne_tac.
Qed.
Lemma merge_layers_other cfg xs : forall g o, match rfold (g_merge_layer1 cfg) xs (g, o) with Ok st => g_dlayers (snd st) = g_dlayers o | _ => True end.
Proof.
  induction xs as [|[l ol] r IH]; intros g o; cbn [rfold]; [reflexivity|].
  destruct (g_merge_layer1 cfg (g, o) (l, ol)) as [[g1 o1]| |] eqn:E; cbn [rbind]; [|exact I|exact I].
  assert (Ho : g_dlayers o1 = g_dlayers o).
  { unfold g_merge_layer1 in E. destruct (g_layers g !! l); [|injection E as <- <-; reflexivity].
    destruct (sl_get_removed_nodes ol _) as [rm ol1]. destruct (rfold _ rm g) as [g2| |]; cbn [rbind] in E; [|discriminate|discriminate].
    destruct (ec_get_removed _ _) as [rme e1]. destruct (rfold _ rme g2) as [g3| |]; cbn [rbind] in E; [|discriminate|discriminate].
    destruct (deref _) as [s1| |]; cbn [rbind] in E; [|discriminate|discriminate].
    destruct (sl_merge_layer _ _ _ _) as [[s' lk]| |]; cbn [rbind] in E; [|discriminate|discriminate].
    injection E as <- <-. reflexivity. }
  specialize (IH g1 o1). destruct (rfold (g_merge_layer1 cfg) r (g1, o1)); [|exact I|exact I]. rewrite IH. exact Ho.
Qed.

Lemma reachable_NE g : reachable g -> NE g.
Proof.
  induction 1 as [ids g Hg _|g o b g' Hr IH Ha Hs|g ids _ _ _ _|g other edges b g' other' _ IH _ Hs
    |vadd vsub cfg g other g' other' _ IH _ _ _ Hs|vadd vsub cfg g other g' other' _ _ _ IH _ Hs].
  - destruct ids; [discriminate|]. injection Hg as <-. intros l0 m. cbn. rewrite lookup_empty. discriminate.
  - pose proof (step_ne g o) as Hk. rewrite Hs in Hk. exact (Hk IH).
  - intros l0 m. cbn. rewrite lookup_empty. discriminate.
  - unfold g_update_from_layer in Hs. destruct (g_layers g !! sl_id other); [|injection Hs as <- <- <-; exact IH].
    destruct (fold_left _ _ _) as [l1 lk]. destruct (rfold _ _ _); [|discriminate|discriminate].
    injection Hs as <- <- <-. exact IH.
  - pose proof (kne_merge_graph vadd vsub g other cfg) as H. rewrite Hs in H. exact (H IH).
  - unfold g_merge_graph in Hs. destruct (g_merge_dlayers vadd vsub g other cfg) as [g1| |]; [|discriminate|discriminate]. cbn [rbind] in Hs.
    destruct (rfold (g_merge_layer1 cfg) _ _) as [[g2 o2]| |] eqn:E; [|discriminate|discriminate]. cbn [rbind] in Hs.
    destruct (rfold (g_merge_edge1 cfg) (map_to_list (ec_edges (g_inter other))) g2) as [g3| |]; [|discriminate|discriminate]. cbn [rbind] in Hs.
    destruct (rfold (g_merge_edge1 cfg) (map_to_list (ec_edges (g_dinter other))) g3) as [g4| |]; [|discriminate|discriminate]. cbn [rbind] in Hs. injection Hs as <- <-.
    pose proof (merge_layers_other cfg (map_to_list (g_layers other)) g1 other) as H. rewrite E in H. cbn [snd] in H. intros l0 m. rewrite H. apply IH.
Qed.
