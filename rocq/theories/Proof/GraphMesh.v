(** Which calls change the mesh. *)
From Coq Require Import NArith ZArith Bool List Lia.
From stdpp Require Import base list gmap fin_maps tactics.
From Verif.Model Require Import Types Mesh Attrs Node EdgeContainer SLayer DLayer Graph.
From Verif.Spec Require Import AbstractGraph GraphHistory.
From Verif.Proof Require Import Arith Keys SLayerP SLayerMerge DLayerP DLayerOps GraphRep GraphEdges GraphAttrs GraphNodes GraphRemove GraphMerge.
Local Open Scope N_scope.

(** *** only setMesh and clear change the mesh *)
Definition keepm (g : Graph) {A} (r : result A) (f : A -> Graph) : Prop :=
  match r with Ok x => g_mesh (f x) = g_mesh g | _ => True end.

Lemma mesh_set_layer g l s : g_mesh (g_set_layer g l s) = g_mesh g. Proof. reflexivity. Qed.
Lemma mesh_set_dlayer g l p s : g_mesh (g_set_dlayer g l p s) = g_mesh g. Proof. reflexivity. Qed.
Lemma mesh_with_lookup g x : g_mesh (g_with_lookup g x) = g_mesh g. Proof. reflexivity. Qed.
Lemma mesh_put_layer g k b : g_mesh (g_put_layer g k b) = g_mesh g. Proof. destruct b; reflexivity. Qed.
Lemma mesh_with_pair g k k' e : g_mesh (g_with_pair_ec g k k' e) = g_mesh g.
Proof. unfold g_with_pair_ec. destruct (_ || _); reflexivity. Qed.
#[local] Hint Rewrite mesh_set_layer mesh_set_dlayer mesh_with_lookup mesh_put_layer mesh_with_pair : mesh.

Lemma keepm_bind g {A B} (r : result A) (k : A -> result B) (f : B -> Graph) :
  (forall x, r = Ok x -> keepm g (k x) f) -> keepm g (rbind r k) f.
Proof. intros H. destruct r; cbn; auto. Qed.
Lemma keepm_trans g {A B} (r : result A) (k : A -> result B) (h : A -> Graph) (f : B -> Graph) :
  keepm g r h -> (forall x, keepm (h x) (k x) f) -> keepm g (rbind r k) f.
Proof.
  intros H1 H2. destruct r as [x| |]; cbn in *; auto. specialize (H2 x). unfold keepm in *. destruct (k x); auto. congruence.
Qed.
Lemma keepm_rfold {A} (f : Graph -> A -> result Graph) l : (forall g x, keepm g (f g x) id) ->
  forall g, keepm g (rfold f l g) id.
Proof.
  intros H. induction l as [|x r IH]; intros g; cbn; [reflexivity|]. eapply keepm_trans; [apply H|]. intros y. apply IH.
Qed.
Lemma keepm_upd_ptr g x k f : keepm g (g_upd_ptr g x k f) id.
Proof.
  unfold g_upd_ptr. destruct (lk_dynamic k); repeat (apply keepm_bind; intros ? _); reflexivity.
Qed.
Lemma keepm_upd2 g x k f y k' f' : keepm g (let! g1 := g_upd_ptr g x k f in g_upd_ptr g1 y k' f') id.
Proof. eapply keepm_trans; [apply keepm_upd_ptr|]. intros g1. apply keepm_upd_ptr. Qed.
Lemma keepm_add_ancestry g s t sk tk : keepm g (g_add_ancestry g s t sk tk) id.
Proof.
  unfold g_add_ancestry. apply keepm_bind; intros _ _. apply keepm_bind; intros _ _.
  destruct (key_is_parent sk tk); [apply keepm_upd2|]. destruct (key_is_parent tk sk); apply keepm_upd2.
Qed.
Lemma keepm_remove_ancestry g s t sk tk : keepm g (g_remove_ancestry g s t sk tk) id.
Proof.
  unfold g_remove_ancestry. apply keepm_bind; intros _ _. apply keepm_bind; intros _ _.
  destruct (key_is_parent sk tk); [apply keepm_upd2|]. destruct (key_is_parent tk sk); apply keepm_upd2.
Qed.
Lemma keepm_remove_keys g s t sk tk : keepm g (g_remove_interlayer_keys g s t sk tk) id.
Proof.
  unfold g_remove_interlayer_keys. eapply keepm_trans; [apply keepm_remove_ancestry|]. intros g1.
  apply keepm_bind; intros c _. cbn. unfold id. autorewrite with mesh. reflexivity.
Qed.
Lemma keepm_remove_interlayer g s t : keepm g (g_remove_interlayer g s t) id.
Proof. unfold g_remove_interlayer. apply keepm_bind; intros sk _. apply keepm_bind; intros tk _. apply keepm_remove_keys. Qed.
Lemma keepm_remove_edge g s t : keepm g (g_remove_edge g s t) snd.
Proof.
  unfold g_remove_edge. apply keepm_bind; intros [has keys] _. destruct (negb has); [reflexivity|].
  destruct keys as [[sk tk]|]; [|reflexivity]. destruct (_ || _); [reflexivity|]. destruct (key_eqb sk tk).
  - apply keepm_bind; intros b _. apply keepm_bind; intros [r b'] _. cbn. apply mesh_put_layer.
  - eapply keepm_trans; [apply keepm_remove_keys|]. reflexivity.
Qed.
Lemma keepm_insert_inter g s t sk tk i : keepm g (let! g1 := g_add_ancestry g s t sk tk in
           Ok (true, g_with_pair_ec g1 sk tk (ec_insert (g_pair_ec g1 sk tk) s t i))) snd.
Proof. eapply keepm_trans; [apply keepm_add_ancestry|]. intros g1. cbn. apply mesh_with_pair. Qed.
Lemma keepm_insert_edge g s t i : keepm g (g_insert_edge g s t i) snd.
Proof.
  unfold g_insert_edge. apply keepm_bind; intros [has keys] _. destruct has; [reflexivity|].
  destruct keys as [[sk tk]|]; [|reflexivity]. destruct (_ || _); [reflexivity|]. destruct (key_eqb sk tk).
  - apply keepm_bind; intros b _. apply keepm_bind; intros [r b'] _. cbn. apply mesh_put_layer.
  - apply keepm_insert_inter.
Qed.
Lemma keepm_insert_parent_edge g s t i : keepm g (g_insert_parent_edge g s t i) snd.
Proof.
  unfold g_insert_parent_edge. apply keepm_bind; intros [has keys] _. destruct has; [reflexivity|].
  destruct keys as [[sk tk]|]; [|reflexivity]. destruct (_ || _); [reflexivity|].
  apply (keepm_trans g _ _ id); [|intros g0; apply keepm_insert_inter].
  destruct (negb _); [|reflexivity]. unfold g_drop_all_parents.
  apply keepm_bind; intros so _. apply keepm_bind; intros to _. apply keepm_bind; intros n _.
  apply keepm_rfold. intros g1 x. eapply keepm_trans; [apply keepm_remove_edge|]. intros [b g2]. reflexivity.
Qed.
Lemma keepm_set_edge_attributes g s t i : keepm g (g_set_edge_attributes g s t i) snd.
Proof.
  unfold g_set_edge_attributes. apply keepm_bind; intros sk _. apply keepm_bind; intros tk _.
  destruct (key_eqb sk tk).
  - apply keepm_bind; intros b _. destruct (ec_find _ _ _); cbn; apply mesh_put_layer.
  - destruct (ec_find _ _ _); cbn; apply mesh_with_pair.
Qed.
Lemma keepm_emplace_prev g l id0 t at0 : keepm g (g_emplace_prev g l id0 t at0) snd.
Proof.
  unfold g_emplace_prev. destruct (g_has_node g id0); [reflexivity|]. unfold g_create_dlayer.
  apply keepm_bind; intros d _. destruct (dl_emplace_at _ _ _ _) as [ok d']. destruct ok, (g_has_dlayer _ _ _); reflexivity.
Qed.
Lemma keepm_rewire g s ns t : keepm g (g_rewire_interlayer g s ns t) id.
Proof.
  unfold g_rewire_interlayer. destruct (s =? ns); [reflexivity|]. apply keepm_bind; intros sk _.
  apply keepm_bind; intros [has keys] _.
  destruct (match keys with Some p => p | None => _ end) as [nsk tk]. destruct has; [apply keepm_remove_keys|].
  eapply keepm_trans; [apply keepm_remove_ancestry|]. intros g1. eapply keepm_trans; [apply keepm_add_ancestry|]. intros g2.
  destruct (ec_find _ _ _); [|reflexivity]. apply keepm_bind; intros c' _. cbn. unfold id. autorewrite with mesh. reflexivity.
Qed.
Lemma keepm_merge g f t : keepm g (g_merge_nodes g f t) snd.
Proof.
  unfold g_merge_nodes. destruct (g_lookup g !! f), (g_lookup g !! t); try reflexivity.
  destruct (f =? t); [reflexivity|]. destruct (negb _); [reflexivity|].
  apply keepm_bind; intros ll _. apply keepm_bind; intros n _.
  eapply keepm_trans; [apply (keepm_rfold _ _ (fun g x => keepm_rewire g f t x))|]. intros g1.
  apply keepm_bind; intros ll1 _. apply keepm_bind; intros n1 _.
  eapply keepm_trans; [apply (keepm_rfold _ _ (fun g x => keepm_rewire g f t x))|]. intros g2.
  apply keepm_bind; intros ll2 _. apply keepm_bind; intros [b l3] _. reflexivity.
Qed.
Lemma keepm_remove_node g x : keepm g (g_remove_node g x) snd.
Proof.
  unfold g_remove_node. destruct (g_lookup g !! x); [|reflexivity].
  apply keepm_bind; intros o _. apply keepm_bind; intros n _.
  eapply keepm_trans; [apply (keepm_rfold _ _ (fun g y => keepm_remove_interlayer g x y))|]. intros g1.
  apply keepm_bind; intros o1 _. apply keepm_bind; intros n1 _.
  eapply keepm_trans; [apply (keepm_rfold _ _ (fun g y => keepm_remove_interlayer g x y))|]. intros g2.
  apply keepm_bind; intros b _. apply keepm_bind; intros [r b'] _. cbn. unfold id. autorewrite with mesh. reflexivity.
Qed.
Lemma keepm_emplace g l id0 at0 : g_mesh (snd (g_emplace_node g l id0 at0)) = g_mesh g.
Proof.
  unfold g_emplace_node. destruct (g_has_node g id0); [reflexivity|]. destruct (g_layers g !! l); [|reflexivity].
  destruct (sl_emplace_node _ _ _) as [[] ?]; reflexivity.
Qed.

Lemma step_mesh g o : (forall m, o <> GSetMesh m) -> o <> GClear -> keepm g (g_step g o) snd.
Proof.
  intros H1 H2. destruct o; cbn [g_step].
  - apply keepm_emplace.
  - unfold keepm, g_insert_node. destruct (g_has_node _ _); [reflexivity|]. destruct (g_layers _ !! _); [|reflexivity].
    destruct (sl_insert_node _ _) as [[] ?]; reflexivity.
  - unfold g_emplace_dynamic. destruct (g_has_node _ _); [reflexivity|]. unfold g_create_dlayer.
    apply keepm_bind; intros d _. apply keepm_bind; intros [ok d'] _. destruct ok, (g_has_dlayer _ _ _); reflexivity.
  - apply keepm_emplace_prev.
  - unfold keepm, g_create_dlayer. destruct (g_has_dlayer _ _ _); reflexivity.
  - unfold g_add_or_update_node. destruct (g_layers g !! l); [|reflexivity]. destruct (g_lookup g !! id).
    + eapply keepm_trans; [apply keepm_upd_ptr|]. reflexivity.
    + destruct t; [apply keepm_emplace_prev|]. destruct (sl_emplace_node _ _ _) as [[] ?]; reflexivity.
  - unfold g_set_node_attributes. destruct (g_lookup g !! id); [|reflexivity]. eapply keepm_trans; [apply keepm_upd_ptr|]. reflexivity.
  - apply keepm_insert_edge.
  - apply keepm_insert_parent_edge.
  - unfold g_add_or_update_edge. apply keepm_bind; intros [] _; [apply keepm_set_edge_attributes|apply keepm_insert_edge].
  - apply keepm_set_edge_attributes.
  - apply keepm_remove_edge.
  - apply keepm_remove_node.
  - apply keepm_merge.
  - unfold g_find_edge. destruct (at_ (g_lookup g !! u)); cbn; auto. destruct (at_ (g_lookup g !! v)); cbn; auto.
    destruct (key_eqb _ _); [|cbn; apply mesh_with_pair]. destruct (g_layer_at _ _); cbn; auto. apply mesh_put_layer.
  - reflexivity.
  - reflexivity.
  - reflexivity.
  - unfold keepm, g_get_new_edges. reflexivity.
  - reflexivity.
  - destruct (H1 m eq_refl).
  - destruct (H2 eq_refl).
Qed.

Lemma sweep_mesh g g' : g_remove_all_stale g = Ok g' -> g_mesh g' = g_mesh g.
Proof.
  assert (Hk : forall ks g, keepm g (g_remove_stale g ks) id).
  { intros ks. apply (keepm_rfold (fun g (k : EdgeKey) => let! (_, g') := g_remove_edge g (fst k) (snd k) in Ok g')).
    intros g0 k. pose proof (keepm_remove_edge g0 (fst k) (snd k)) as H. destruct (g_remove_edge g0 _ _) as [[b g1]| |]; cbn in *; auto. }
  assert (HK : keepm g (g_remove_all_stale g) id).
  { unfold g_remove_all_stale. eapply keepm_trans; [apply Hk|]. intros g1. eapply keepm_trans; [apply Hk|]. intros g2.
    eapply keepm_trans; [apply Hk|]. intros g3. apply Hk. }
  intros E. rewrite E in HK. exact HK.
Qed.
