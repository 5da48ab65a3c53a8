(** The refinement: every call of the model behaves as the abstract graph says. *)
From Coq Require Import NArith ZArith Bool List Lia.
From stdpp Require Import base list gmap fin_maps tactics.
From Verif.Model Require Import Types Mesh Attrs Node EdgeContainer SLayer DLayer Graph.
From Verif.Spec Require Import AbstractGraph GraphHistory.
From Verif.Proof Require Import Arith Keys SLayerP SLayerMerge DLayerP DLayerOps GraphRep GraphEdges GraphAttrs GraphNodes GraphRemove GraphMerge.
Local Open Scope N_scope.

(** *** layer_ids is fixed *)
Definition keeps (g : Graph) {A} (r : result A) (f : A -> Graph) : Prop :=
  match r with Ok x => g_layer_ids (f x) = g_layer_ids g | _ => True end.

Lemma ids_set_layer g l s : g_layer_ids (g_set_layer g l s) = g_layer_ids g. Proof. reflexivity. Qed.
Lemma ids_set_dlayer g l p s : g_layer_ids (g_set_dlayer g l p s) = g_layer_ids g. Proof. reflexivity. Qed.
Lemma ids_with_lookup g x : g_layer_ids (g_with_lookup g x) = g_layer_ids g. Proof. reflexivity. Qed.
Lemma ids_put_layer g k b : g_layer_ids (g_put_layer g k b) = g_layer_ids g. Proof. destruct b; reflexivity. Qed.
Lemma ids_with_pair g k k' e : g_layer_ids (g_with_pair_ec g k k' e) = g_layer_ids g.
Proof. unfold g_with_pair_ec. destruct (_ || _); reflexivity. Qed.
#[local] Hint Rewrite ids_set_layer ids_set_dlayer ids_with_lookup ids_put_layer ids_with_pair : ids.

Lemma keeps_bind g {A B} (r : result A) (k : A -> result B) (f : B -> Graph) :
  (forall x, r = Ok x -> keeps g (k x) f) -> keeps g (rbind r k) f.
Proof. intros H. destruct r; cbn; auto. Qed.
Lemma keeps_trans g {A B} (r : result A) (k : A -> result B) (h : A -> Graph) (f : B -> Graph) :
  keeps g r h -> (forall x, keeps (h x) (k x) f) -> keeps g (rbind r k) f.
Proof.
  intros H1 H2. destruct r as [x| |]; cbn in *; auto. specialize (H2 x). unfold keeps in *. destruct (k x); auto. congruence.
Qed.
Lemma keeps_rfold {A} (f : Graph -> A -> result Graph) l : (forall g x, keeps g (f g x) id) ->
  forall g, keeps g (rfold f l g) id.
Proof.
  intros H. induction l as [|x r IH]; intros g; cbn; [reflexivity|]. eapply keeps_trans; [apply H|]. intros y. apply IH.
Qed.
Lemma keeps_upd_ptr g x k f : keeps g (g_upd_ptr g x k f) id.
Proof.
  unfold g_upd_ptr. destruct (lk_dynamic k); repeat (apply keeps_bind; intros ? _); reflexivity.
Qed.
Lemma keeps_upd2 g x k f y k' f' : keeps g (let! g1 := g_upd_ptr g x k f in g_upd_ptr g1 y k' f') id.
Proof. eapply keeps_trans; [apply keeps_upd_ptr|]. intros g1. apply keeps_upd_ptr. Qed.
Lemma keeps_add_ancestry g s t sk tk : keeps g (g_add_ancestry g s t sk tk) id.
Proof.
  unfold g_add_ancestry. apply keeps_bind; intros _ _. apply keeps_bind; intros _ _.
  destruct (key_is_parent sk tk); [apply keeps_upd2|]. destruct (key_is_parent tk sk); apply keeps_upd2.
Qed.
Lemma keeps_remove_ancestry g s t sk tk : keeps g (g_remove_ancestry g s t sk tk) id.
Proof.
  unfold g_remove_ancestry. apply keeps_bind; intros _ _. apply keeps_bind; intros _ _.
  destruct (key_is_parent sk tk); [apply keeps_upd2|]. destruct (key_is_parent tk sk); apply keeps_upd2.
Qed.
Lemma keeps_remove_keys g s t sk tk : keeps g (g_remove_interlayer_keys g s t sk tk) id.
Proof.
  unfold g_remove_interlayer_keys. eapply keeps_trans; [apply keeps_remove_ancestry|]. intros g1.
  apply keeps_bind; intros c _. cbn. unfold id. autorewrite with ids. reflexivity.
Qed.
Lemma keeps_remove_interlayer g s t : keeps g (g_remove_interlayer g s t) id.
Proof. unfold g_remove_interlayer. apply keeps_bind; intros sk _. apply keeps_bind; intros tk _. apply keeps_remove_keys. Qed.
Lemma keeps_remove_edge g s t : keeps g (g_remove_edge g s t) snd.
Proof.
  unfold g_remove_edge. apply keeps_bind; intros [has keys] _. destruct (negb has); [reflexivity|].
  destruct keys as [[sk tk]|]; [|reflexivity]. destruct (_ || _); [reflexivity|]. destruct (key_eqb sk tk).
  - apply keeps_bind; intros b _. apply keeps_bind; intros [r b'] _. cbn. apply ids_put_layer.
  - eapply keeps_trans; [apply keeps_remove_keys|]. reflexivity.
Qed.
Lemma keeps_insert_inter g s t sk tk i : keeps g (let! g1 := g_add_ancestry g s t sk tk in
           Ok (true, g_with_pair_ec g1 sk tk (ec_insert (g_pair_ec g1 sk tk) s t i))) snd.
Proof. eapply keeps_trans; [apply keeps_add_ancestry|]. intros g1. cbn. apply ids_with_pair. Qed.
Lemma keeps_insert_edge g s t i : keeps g (g_insert_edge g s t i) snd.
Proof.
  unfold g_insert_edge. apply keeps_bind; intros [has keys] _. destruct has; [reflexivity|].
  destruct keys as [[sk tk]|]; [|reflexivity]. destruct (_ || _); [reflexivity|]. destruct (key_eqb sk tk).
  - apply keeps_bind; intros b _. apply keeps_bind; intros [r b'] _. cbn. apply ids_put_layer.
  - apply keeps_insert_inter.
Qed.
Lemma keeps_insert_parent_edge g s t i : keeps g (g_insert_parent_edge g s t i) snd.
Proof.
  unfold g_insert_parent_edge. apply keeps_bind; intros [has keys] _. destruct has; [reflexivity|].
  destruct keys as [[sk tk]|]; [|reflexivity]. destruct (_ || _); [reflexivity|].
  apply (keeps_trans g _ _ id); [|intros g0; apply keeps_insert_inter].
  destruct (negb _); [|reflexivity]. unfold g_drop_all_parents.
  apply keeps_bind; intros so _. apply keeps_bind; intros to _. apply keeps_bind; intros n _.
  apply keeps_rfold. intros g1 x. eapply keeps_trans; [apply keeps_remove_edge|]. intros [b g2]. reflexivity.
Qed.
Lemma keeps_set_edge_attributes g s t i : keeps g (g_set_edge_attributes g s t i) snd.
Proof.
  unfold g_set_edge_attributes. apply keeps_bind; intros sk _. apply keeps_bind; intros tk _.
  destruct (key_eqb sk tk).
  - apply keeps_bind; intros b _. destruct (ec_find _ _ _); cbn; apply ids_put_layer.
  - destruct (ec_find _ _ _); cbn; apply ids_with_pair.
Qed.
Lemma keeps_emplace_prev g l id0 t at0 : keeps g (g_emplace_prev g l id0 t at0) snd.
Proof.
  unfold g_emplace_prev. destruct (g_has_node g id0); [reflexivity|]. unfold g_create_dlayer.
  apply keeps_bind; intros d _. destruct (dl_emplace_at _ _ _ _) as [ok d']. destruct ok, (g_has_dlayer _ _ _); reflexivity.
Qed.
Lemma keeps_rewire g s ns t : keeps g (g_rewire_interlayer g s ns t) id.
Proof.
  unfold g_rewire_interlayer. destruct (s =? ns); [reflexivity|]. apply keeps_bind; intros sk _.
  apply keeps_bind; intros [has keys] _.
  destruct (match keys with Some p => p | None => _ end) as [nsk tk]. destruct has; [apply keeps_remove_keys|].
  eapply keeps_trans; [apply keeps_remove_ancestry|]. intros g1. eapply keeps_trans; [apply keeps_add_ancestry|]. intros g2.
  destruct (ec_find _ _ _); [|reflexivity]. apply keeps_bind; intros c' _. cbn. unfold id. autorewrite with ids. reflexivity.
Qed.
Lemma keeps_merge g f t : keeps g (g_merge_nodes g f t) snd.
Proof.
  unfold g_merge_nodes. destruct (g_lookup g !! f), (g_lookup g !! t); try reflexivity.
  destruct (f =? t); [reflexivity|]. destruct (negb _); [reflexivity|].
  apply keeps_bind; intros ll _. apply keeps_bind; intros n _.
  eapply keeps_trans; [apply (keeps_rfold _ _ (fun g x => keeps_rewire g f t x))|]. intros g1.
  apply keeps_bind; intros ll1 _. apply keeps_bind; intros n1 _.
  eapply keeps_trans; [apply (keeps_rfold _ _ (fun g x => keeps_rewire g f t x))|]. intros g2.
  apply keeps_bind; intros ll2 _. apply keeps_bind; intros [b l3] _. reflexivity.
Qed.
Lemma keeps_remove_node g x : keeps g (g_remove_node g x) snd.
Proof.
  unfold g_remove_node. destruct (g_lookup g !! x); [|reflexivity].
  apply keeps_bind; intros o _. apply keeps_bind; intros n _.
  eapply keeps_trans; [apply (keeps_rfold _ _ (fun g y => keeps_remove_interlayer g x y))|]. intros g1.
  apply keeps_bind; intros o1 _. apply keeps_bind; intros n1 _.
  eapply keeps_trans; [apply (keeps_rfold _ _ (fun g y => keeps_remove_interlayer g x y))|]. intros g2.
  apply keeps_bind; intros b _. apply keeps_bind; intros [r b'] _. cbn. unfold id. autorewrite with ids. reflexivity.
Qed.
Lemma keeps_emplace g l id0 at0 : g_layer_ids (snd (g_emplace_node g l id0 at0)) = g_layer_ids g.
Proof.
  unfold g_emplace_node. destruct (g_has_node g id0); [reflexivity|]. destruct (g_layers g !! l); [|reflexivity].
  destruct (sl_emplace_node _ _ _) as [[] ?]; reflexivity.
Qed.

Lemma step_ids g o : keeps g (g_step g o) snd.
Proof.
  destruct o; cbn [g_step].
  - apply keeps_emplace.
  - unfold keeps, g_insert_node. destruct (g_has_node _ _); [reflexivity|]. destruct (g_layers _ !! _); [|reflexivity].
    destruct (sl_insert_node _ _) as [[] ?]; reflexivity.
  - unfold g_emplace_dynamic. destruct (g_has_node _ _); [reflexivity|]. unfold g_create_dlayer.
    apply keeps_bind; intros d _. apply keeps_bind; intros [ok d'] _. destruct ok, (g_has_dlayer _ _ _); reflexivity.
  - apply keeps_emplace_prev.
  - unfold keeps, g_create_dlayer. destruct (g_has_dlayer _ _ _); reflexivity.
  - unfold g_add_or_update_node. destruct (g_layers g !! l); [|reflexivity]. destruct (g_lookup g !! id).
    + eapply keeps_trans; [apply keeps_upd_ptr|]. reflexivity.
    + destruct t; [apply keeps_emplace_prev|]. destruct (sl_emplace_node _ _ _) as [[] ?]; reflexivity.
  - unfold g_set_node_attributes. destruct (g_lookup g !! id); [|reflexivity]. eapply keeps_trans; [apply keeps_upd_ptr|]. reflexivity.
  - apply keeps_insert_edge.
  - apply keeps_insert_parent_edge.
  - unfold g_add_or_update_edge. apply keeps_bind; intros [] _; [apply keeps_set_edge_attributes|apply keeps_insert_edge].
  - apply keeps_set_edge_attributes.
  - apply keeps_remove_edge.
  - apply keeps_remove_node.
  - apply keeps_merge.
  - unfold g_find_edge. destruct (at_ (g_lookup g !! u)); cbn; auto. destruct (at_ (g_lookup g !! v)); cbn; auto.
    destruct (key_eqb _ _); [|cbn; apply ids_with_pair]. destruct (g_layer_at _ _); cbn; auto. apply ids_put_layer.
  - reflexivity.
  - reflexivity.
  - reflexivity.
  - unfold keeps, g_get_new_edges. reflexivity.
  - reflexivity.
  - reflexivity.
  - reflexivity.
Qed.

Lemma a_step_layers a o : ag_layers (snd (a_step a o)) = ag_layers a.
Proof.
  assert (Hie : forall a u v i, ag_layers (snd (a_insert_edge a u v i)) = ag_layers a).
  { intros. unfold a_insert_edge. destruct (decide _); reflexivity. }
  assert (Hcd : forall a l p, ag_layers (snd (a_create_dyn a l p)) = ag_layers a).
  { intros. unfold a_create_dyn. destruct (ag_dyn _ !! _); reflexivity. }
  assert (Hem : forall a l id t at_, ag_layers (snd (a_emplace a l id t at_)) = ag_layers a).
  { intros. unfold a_emplace. repeat destruct (decide _); reflexivity. }
  assert (Hep : forall a l id t at_, ag_layers (snd (a_emplace_prev a l id t at_)) = ag_layers a).
  { intros. unfold a_emplace_prev. destruct (decide _); [reflexivity|]. destruct (default _ _). cbn. apply Hcd. }
  assert (Hsn : forall a id at_, ag_layers (snd (a_set_node_attrs a id at_)) = ag_layers a).
  { intros. unfold a_set_node_attrs. destruct (ag_nodes _ !! _); reflexivity. }
  assert (Hse : forall a u v i, ag_layers (snd (a_set_edge_attrs a u v i)) = ag_layers a).
  { intros. unfold a_set_edge_attrs. destruct (decide _); [|reflexivity]. destruct (ag_edges _ !! _); reflexivity. }
  destruct o; cbn [a_step ab snd]; auto.
  - unfold a_emplace_dyn. destruct (default _ _). destruct (decide _); [reflexivity|]. destruct (decide _); [apply Hcd|].
    cbn [snd]. destruct (decide _); [rewrite Hie|]; cbn; apply Hcd.
  - unfold a_add_or_update_node. repeat destruct (decide _); auto. destruct t; auto.
  - unfold a_insert_parent_edge. destruct (a_key a u), (a_key a v); auto. destruct (decide _); reflexivity.
  - unfold a_add_or_update_edge. destruct (decide _); [auto|]. destruct (a_insert_edge a u v (Some i)) eqn:E. cbn.
    specialize (Hie a u v (Some i)). rewrite E in Hie. exact Hie.
  - unfold a_remove_edge. destruct (decide _); reflexivity.
  - unfold a_remove_node. destruct (decide _); [|reflexivity]. cbn. unfold a_chain. destruct (a_key a n); [|reflexivity].
    destruct (decide _); [apply Hie|reflexivity].
  - unfold a_merge_nodes. destruct (a_key a from), (a_key a to); auto. destruct (decide _); reflexivity.
  - destruct (decide _); reflexivity.
Qed.

(** *** The empty graph *)
Lemma cleared_layers ids l : (list_to_map (map (fun l => (l, sl_new l)) ids) : gmap LayerId SLayer) !! l =
  if decide (l ∈ ids) then Some (sl_new l) else None.
Proof.
  destruct (decide (l ∈ ids)) as [Hin|Hn].
  - induction ids as [|x r IH]; [inversion Hin|]. cbn. destruct (decide (x = l)) as [->|Hne]; [apply lookup_insert|].
    rewrite lookup_insert_ne by assumption. apply IH. apply elem_of_cons in Hin as [->|?]; [contradiction|assumption].
  - apply not_elem_of_list_to_map_1. intros Hin. apply Hn.
    apply elem_of_list_fmap in Hin as ([y s] & -> & Hin). apply elem_of_list_fmap in Hin as (z & [= -> ->] & Hz). exact Hz.
Qed.

Lemma sl_wf_new l : sl_wf (sl_new l).
Proof.
  split; cbn.
  - intros id n. rewrite lookup_empty. discriminate.
  - apply ec_wf_empty.
  - intros k e. rewrite lookup_empty. discriminate.
  - intros u v nu. rewrite lookup_empty. discriminate.
  - intros id. rewrite !lookup_empty. split; [intros [? ?]; discriminate|intros (? & ? & _); discriminate].
  - intros id s. rewrite lookup_empty. discriminate.
Qed.

Lemma Rep_clear g : (forall l, l ∈ g_layer_ids g -> l <> UNKNOWN_LAYER) ->
  Rep (g_clear g) (a_init (g_layer_ids g)).
Proof.
  intros Hids.
  assert (Hpart : forall k L, g_part (g_clear g) k = Some L -> L = sl_new (lk_layer k) /\ lk_layer k ∈ g_layer_ids g).
  { intros k L. unfold g_part, g_dlayer; cbn. destruct (lk_dynamic k); [rewrite lookup_empty; discriminate|].
    rewrite cleared_layers. destruct (decide _); [|discriminate]. intros [= <-]. auto. }
  split.
  - intros l. cbn. rewrite cleared_layers, elem_of_list_to_set. destruct (decide _); split; try tauto; eauto.
    intros [? ?]; discriminate.
  - intros l p. cbn. rewrite lookup_empty. unfold dinfo, g_dlayer; cbn. rewrite lookup_empty. reflexivity.
  - intros l p d. unfold g_dlayer; cbn. rewrite lookup_empty. discriminate.
  - intros k L Hk HL. apply Hpart in HL as [-> HL]. split; [apply sl_wf_new|]. split; [reflexivity|]. apply Hids, HL.
  - intros x. cbn. unfold a_key; cbn. rewrite !lookup_empty. reflexivity.
  - intros x k. cbn. rewrite lookup_empty. discriminate.
  - intros x k Hk. cbn. rewrite lookup_empty. split; [discriminate|]. intros (L & HL & Hs). apply Hpart in HL as [-> _].
    cbn in Hs. rewrite lookup_empty in Hs. destruct Hs; discriminate.
  - intros x k L n Hk HL. apply Hpart in HL as [-> _]. cbn. rewrite lookup_empty. discriminate.
  - intros k e. cbn. rewrite lookup_empty. discriminate.
  - intros u v. cbn. rewrite lookup_empty. unfold g_edge_at; cbn. rewrite lookup_empty. reflexivity.
  - intros []; apply ec_wf_reset.
  - intros [] k e; cbn; rewrite lookup_empty; discriminate.
Qed.

(** [Rep] together with the fact that layer_ids describes the static layers. *)
Definition RepL (g : Graph) (a : AGraph) : Prop := Rep g a /\ ag_layers a = list_to_set (g_layer_ids g).

Theorem step_sim g a o : RepL g a -> clean a o -> sim a (g_step g o) (a_step a o).
Proof.
  intros [HR HI] Hc. destruct o; try (apply reports_sim; [assumption|exact I]).
  - apply emplace_sim; assumption.
  - apply insert_node_sim; assumption.
  - apply emplace_dyn_sim; assumption.
  - apply emplace_prev_sim; assumption.
  - apply create_dyn_sim; assumption.
  - apply add_or_update_node_sim; assumption.
  - apply set_node_attrs_sim; assumption.
  - apply insert_edge_sim; assumption.
  - apply insert_parent_edge_sim; assumption.
  - apply add_or_update_edge_sim; assumption.
  - apply set_edge_attrs_sim; assumption.
  - apply remove_edge_sim; assumption.
  - apply remove_node_sim; assumption.
  - apply merge_nodes_sim; assumption.
  - apply find_edge_sim; assumption.
  - cbn. split; [reflexivity|]. apply Rep_with_mesh, HR.
  - cbn. split; [reflexivity|]. rewrite HI. apply Rep_clear. intros l Hl.
    assert (Hin : l ∈ ag_layers a) by (rewrite HI; apply elem_of_list_to_set; exact Hl).
    apply (rp_layers _ _ HR) in Hin as [L HL].
    apply (rp_part _ _ HR (key_static l) L); [auto|exact HL].
Qed.

Theorem step_RepL g a o : RepL g a -> clean a o ->
  match g_step g o with Ok (_, g') => RepL g' (snd (a_step a o)) | _ => True end.
Proof.
  intros HR Hc. pose proof (step_sim g a o HR Hc) as Hs. pose proof (step_ids g o) as Hi.
  destruct (g_step g o) as [[b g']| |]; [|exact I|exact I]. destruct Hs as [_ Hs]. split; [assumption|].
  rewrite a_step_layers, (proj2 HR). cbn in Hi. rewrite Hi. reflexivity.
Qed.

(** Histories: no undefined behaviour, the same answers, and the final graph represents the
    final abstract graph. *)
Theorem run_sim os : forall g a, RepL g a -> clean_run a os ->
  exists g', g_run g os = Some (fst (a_run a os), g') /\ RepL g' (snd (a_run a os)).
Proof.
  induction os as [|o r IH]; intros g a HR Hc; cbn [g_run a_run fst snd].
  - exists g. auto.
  - destruct Hc as [Ho Hr]. pose proof (step_sim g a o HR Ho) as Hs. pose proof (step_RepL g a o HR Ho) as HR'.
    destruct (a_step a o) as [b a'] eqn:Ea. cbn [snd fst] in *.
    destruct (g_step g o) as [[b' g']| |]; cbn in Hs; [| |contradiction].
    + destruct Hs as [-> _]. destruct (IH g' a' HR' Hr) as (g'' & Hrun & HR''). cbn [step_graph step_out]. rewrite Hrun.
      destruct (a_run a' r) as [bs a'']. cbn in *. exists g''. auto.
    + destruct Hs as [-> ->]. destruct (IH g a HR Hr) as (g'' & Hrun & HR''). cbn [step_graph step_out]. rewrite Hrun.
      destruct (a_run a r) as [bs a'']. cbn in *. exists g''. auto.
Qed.

Lemma new_RepL ids g : g_new ids = Ok g -> ~ UNKNOWN_LAYER ∈ ids -> RepL g (a_init ids).
Proof.
  intros Hg Hu. destruct ids as [|x r]; [discriminate|]. injection Hg as <-.
  split; [|reflexivity].
  apply (Rep_clear (mkG (x :: r) ∅ ∅ ∅ ec_empty ec_empty None)). intros l Hl ->. contradiction.
Qed.

Lemma reset_RepL g ids : ~ UNKNOWN_LAYER ∈ ids -> RepL (g_reset g ids) (a_init ids).
Proof.
  intros Hu. split; [|reflexivity].
  apply (Rep_clear (mkG ids (g_layers g) (g_dlayers g) (g_lookup g) (g_inter g) (g_dinter g) (g_mesh g))). intros l Hl ->. contradiction.
Qed.
