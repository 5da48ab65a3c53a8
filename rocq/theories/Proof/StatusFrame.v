(** Which node statuses of the static layers a graph operation can change. *)
From Coq Require Import NArith ZArith Bool List Lia.
From stdpp Require Import base list gmap fin_maps tactics.
From Verif.Model Require Import Types Mesh Attrs Node EdgeContainer SLayer DLayer Graph.
Local Open Scope N_scope.

(** Every static layer is still there and has the same status for every id outside [X]. *)
Definition stf (X : N -> Prop) (g g' : Graph) : Prop :=
  forall l s, g_layers g !! l = Some s -> exists s', g_layers g' !! l = Some s' /\
    forall y, ~ X y -> sl_status s' !! y = sl_status s !! y.
Definition kst (X : N -> Prop) (g : Graph) {A} (r : result A) (f : A -> Graph) : Prop :=
  match r with Ok x => stf X g (f x) | _ => True end.
Definition lst (X : N -> Prop) (s s' : SLayer) : Prop := forall y, ~ X y -> sl_status s' !! y = sl_status s !! y.
Definition klst (X : N -> Prop) (s : SLayer) {A} (r : result A) (f : A -> SLayer) : Prop :=
  match r with Ok x => lst X s (f x) | _ => True end.

Lemma stf_refl X g : stf X g g. Proof. intros l s H. eauto. Qed.
Lemma stf_trans X a b c : stf X a b -> stf X b c -> stf X a c.
Proof.
  intros H1 H2 l s Hs. destruct (H1 l s Hs) as (s1 & E1 & F1). destruct (H2 l s1 E1) as (s2 & E2 & F2).
  exists s2. split; [exact E2|]. intros y Hy. rewrite (F2 y Hy). apply F1, Hy.
Qed.
Lemma stf_weaken (X Y : N -> Prop) g g' : (forall y, X y -> Y y) -> stf X g g' -> stf Y g g'.
Proof. intros H H1 l s Hs. destruct (H1 l s Hs) as (s' & E & F). exists s'. split; [exact E|]. intros y Hy. apply F. auto. Qed.
Lemma stf_layers X g g' : g_layers g' = g_layers g -> stf X g g'.
Proof. intros E l s H. rewrite E. eauto. Qed.
Lemma stf_set X g lid s s' : g_layers g !! lid = Some s -> lst X s s' -> stf X g (g_set_layer g lid s').
Proof.
  intros H HL l s0 Hs. cbn. destruct (decide (l = lid)) as [->|Hne].
  - rewrite lookup_insert. exists s'. split; [reflexivity|]. assert (s0 = s) as -> by congruence. exact HL.
  - rewrite lookup_insert_ne by congruence. eauto.
Qed.
Lemma kst_bind X g {A B} (r : result A) (k : A -> result B) (f : B -> Graph) :
  (forall x, r = Ok x -> kst X g (k x) f) -> kst X g (rbind r k) f.
Proof. intros H. destruct r; cbn; auto. Qed.
Lemma kst_trans X g {A B} (r : result A) (k : A -> result B) (h : A -> Graph) (f : B -> Graph) :
  kst X g r h -> (forall x, kst X (h x) (k x) f) -> kst X g (rbind r k) f.
Proof.
  intros H1 H2. destruct r as [x| |]; cbn in *; auto. specialize (H2 x). unfold kst in *. destruct (k x); auto.
  eapply stf_trans; eassumption.
Qed.
Lemma kst_rfold X {A} (f : Graph -> A -> result Graph) l : (forall g x, x ∈ l -> kst X g (f g x) id) ->
  forall g, kst X g (rfold f l g) id.
Proof.
  intros H. induction l as [|x r IH]; intros g; cbn [rfold]; [apply stf_refl|].
  eapply kst_trans; [apply H; left|]. intros y. apply IH. intros g0 x0 H0. apply H. right. exact H0.
Qed.

(** *** The layer operations *)
Lemma lst_refl X s : lst X s s. Proof. intros y _. reflexivity. Qed.
Lemma lst_trans X a b c : lst X a b -> lst X b c -> lst X a c.
Proof. intros H1 H2 y Hy. rewrite (H2 y Hy). apply H1, Hy. Qed.
Lemma klst_trans X s {A B} (r : result A) (k : A -> result B) (h : A -> SLayer) (f : B -> SLayer) :
  klst X s r h -> (forall x, klst X (h x) (k x) f) -> klst X s (rbind r k) f.
Proof.
  intros H1 H2. destruct r as [x| |]; cbn in *; auto. specialize (H2 x). unfold klst in *. destruct (k x); auto.
  eapply lst_trans; eassumption.
Qed.
Lemma klst_upd X s x f : klst X s (sl_upd s x f) id.
Proof. unfold sl_upd. destruct (sl_nodes s !! x); [|exact I]. intros y _. reflexivity. Qed.
Lemma klst_insert_edge X s u v i : klst X s (sl_insert_edge s u v i) snd.
Proof.
  unfold sl_insert_edge. repeat (destruct (_ : bool); [apply lst_refl|]).
  eapply klst_trans; [apply klst_upd|]. intros l1. eapply klst_trans; [apply klst_upd|]. intros l2 y _. reflexivity.
Qed.
Lemma klst_remove_edge X s u v : klst X s (sl_remove_edge s u v) snd.
Proof.
  unfold sl_remove_edge. destruct (negb _); [apply lst_refl|].
  eapply klst_trans; [apply klst_upd|]. intros l1. eapply klst_trans; [apply klst_upd|]. intros l2.
  destruct (ec_remove _ _ _); [intros y _; reflexivity|exact I|exact I].
Qed.
Lemma klst_rfold X {A} (f : SLayer -> A -> result SLayer) l : (forall g x, klst X g (f g x) id) ->
  forall g, klst X g (rfold f l g) id.
Proof.
  intros H. induction l as [|x r IH]; intros g; cbn [rfold]; [apply lst_refl|].
  eapply klst_trans; [apply H|]. intros y. apply IH.
Qed.
Lemma klst_remove_node (X : N -> Prop) s x : X x -> klst X s (sl_remove_node s x) snd.
Proof.
  intros Hx. unfold sl_remove_node. destruct (sl_nodes s !! x); [|apply lst_refl].
  eapply klst_trans; [apply klst_rfold; intros l t; eapply klst_trans; [apply klst_remove_edge|]; intros [b l']; apply lst_refl|].
  intros l1 y Hy. cbn. rewrite lookup_insert_ne by congruence. reflexivity.
Qed.

(** *** The graph operations *)
Lemma stf_put_layer X g k b b' : g_layer_at g k = Ok b ->
  match b, b' with BS s, BS s' => lst X s s' | BD _, BD _ => True | _, _ => False end -> stf X g (g_put_layer g k b').
Proof.
  intros Hb HL. unfold g_layer_at in Hb. destruct (lk_dynamic k).
  - destruct (g_dlayer _ _ _); [|discriminate]. injection Hb as <-. destruct b'; [contradiction|]. apply stf_layers. reflexivity.
  - destruct (g_layers g !! lk_layer k) as [s|] eqn:E; [|discriminate]. injection Hb as <-. destruct b'; [|contradiction].
    eapply stf_set; eassumption.
Qed.
Lemma kst_upd_ptr X g x k f : kst X g (g_upd_ptr g x k f) id.
Proof.
  unfold g_upd_ptr. destruct (lk_dynamic k).
  - repeat (apply kst_bind; intros ? _). apply stf_layers. reflexivity.
  - apply kst_bind; intros s Hs. apply kst_bind; intros n _. apply kst_bind; intros s' Hs'.
    destruct (g_layers g !! lk_layer k) eqn:E; [|discriminate]. injection Hs as ->.
    eapply stf_set; [exact E|]. pose proof (klst_upd X s x f) as H. rewrite Hs' in H. exact H.
Qed.
Lemma kst_upd2 X g x k f y k' f' : kst X g (let! g1 := g_upd_ptr g x k f in g_upd_ptr g1 y k' f') id.
Proof. eapply kst_trans; [apply kst_upd_ptr|]. intros g1. apply kst_upd_ptr. Qed.
Lemma kst_add_ancestry X g s t sk tk : kst X g (g_add_ancestry g s t sk tk) id.
Proof.
  unfold g_add_ancestry. apply kst_bind; intros _ _. apply kst_bind; intros _ _.
  destruct (key_is_parent sk tk); [apply kst_upd2|]. destruct (key_is_parent tk sk); apply kst_upd2.
Qed.
Lemma kst_remove_ancestry X g s t sk tk : kst X g (g_remove_ancestry g s t sk tk) id.
Proof.
  unfold g_remove_ancestry. apply kst_bind; intros _ _. apply kst_bind; intros _ _.
  destruct (key_is_parent sk tk); [apply kst_upd2|]. destruct (key_is_parent tk sk); apply kst_upd2.
Qed.
Lemma stf_with_pair X g k k' e : stf X g (g_with_pair_ec g k k' e).
Proof. apply stf_layers. unfold g_with_pair_ec. destruct (_ || _); reflexivity. Qed.
Lemma kst_remove_keys X g s t sk tk : kst X g (g_remove_interlayer_keys g s t sk tk) id.
Proof.
  unfold g_remove_interlayer_keys. eapply kst_trans; [apply kst_remove_ancestry|]. intros g1.
  apply kst_bind; intros c _. apply stf_with_pair.
Qed.
Lemma kst_remove_interlayer X g s t : kst X g (g_remove_interlayer g s t) id.
Proof. unfold g_remove_interlayer. apply kst_bind; intros sk _. apply kst_bind; intros tk _. apply kst_remove_keys. Qed.
Lemma kst_remove_edge X g s t : kst X g (g_remove_edge g s t) snd.
Proof.
  unfold g_remove_edge. apply kst_bind; intros [has keys] _. destruct (negb has); [apply stf_refl|].
  destruct keys as [[sk tk]|]; [|apply stf_refl]. destruct (_ || _); [apply stf_refl|]. destruct (key_eqb sk tk).
  - apply kst_bind; intros b Hb. apply kst_bind; intros [r b'] Hb'. eapply stf_put_layer; [exact Hb|].
    destruct b as [s0|d]; cbn in Hb'.
    + pose proof (klst_remove_edge X s0 s t) as H. destruct (sl_remove_edge s0 s t) as [[r0 s1]| |]; try discriminate.
      injection Hb' as <- <-. exact H.
    + destruct (dl_remove_edge d s t) as [[r0 s1]| |]; try discriminate. injection Hb' as <- <-. exact I.
  - eapply kst_trans; [apply kst_remove_keys|]. intros g1. apply stf_refl.
Qed.
Lemma kst_insert_inter X g s t sk tk i : kst X g (let! g1 := g_add_ancestry g s t sk tk in
           Ok (true, g_with_pair_ec g1 sk tk (ec_insert (g_pair_ec g1 sk tk) s t i))) snd.
Proof. eapply kst_trans; [apply kst_add_ancestry|]. intros g1. apply stf_with_pair. Qed.
Lemma kst_insert_edge X g s t i : kst X g (g_insert_edge g s t i) snd.
Proof.
  unfold g_insert_edge. apply kst_bind; intros [has keys] _. destruct has; [apply stf_refl|].
  destruct keys as [[sk tk]|]; [|apply stf_refl]. destruct (_ || _); [apply stf_refl|]. destruct (key_eqb sk tk).
  - apply kst_bind; intros b Hb. apply kst_bind; intros [r b'] Hb'. eapply stf_put_layer; [exact Hb|].
    destruct b as [s0|d]; cbn in Hb'.
    + pose proof (klst_insert_edge X s0 s t i) as H. destruct (sl_insert_edge s0 s t i) as [[r0 s1]| |]; try discriminate.
      injection Hb' as <- <-. exact H.
    + destruct (dl_insert_edge d s t i) as [[r0 s1]| |]; try discriminate. injection Hb' as <- <-. exact I.
  - apply kst_insert_inter.
Qed.
Lemma kst_insert_parent_edge X g s t i : kst X g (g_insert_parent_edge g s t i) snd.
Proof.
  unfold g_insert_parent_edge. apply kst_bind; intros [has keys] _. destruct has; [apply stf_refl|].
  destruct keys as [[sk tk]|]; [|apply stf_refl]. destruct (_ || _); [apply stf_refl|].
  apply (kst_trans X g _ _ id); [|intros g0; apply kst_insert_inter].
  destruct (negb _); [|apply stf_refl]. unfold g_drop_all_parents.
  apply kst_bind; intros so _. apply kst_bind; intros to _. apply kst_bind; intros n _.
  apply kst_rfold. intros g1 x _. eapply kst_trans; [apply kst_remove_edge|]. intros [b g2]. apply stf_refl.
Qed.
Lemma kst_remove_node (X : N -> Prop) g x : X x -> kst X g (g_remove_node g x) snd.
Proof.
  intros Hx. unfold g_remove_node. destruct (g_lookup g !! x); [|apply stf_refl].
  apply kst_bind; intros o _. apply kst_bind; intros n _.
  eapply kst_trans; [apply (kst_rfold X _ _ (fun g y _ => kst_remove_interlayer X g x y))|]. intros g1.
  apply kst_bind; intros o1 _. apply kst_bind; intros n1 _.
  eapply kst_trans; [apply (kst_rfold X _ _ (fun g y _ => kst_remove_interlayer X g x y))|]. intros g2.
  apply kst_bind; intros b Hb. apply kst_bind; intros [r b'] Hb'.
  eapply stf_trans; [|apply (stf_layers X (g_put_layer g2 l b')); reflexivity].
  eapply stf_put_layer; [exact Hb|]. destruct b as [s0|d]; cbn in Hb'.
  + pose proof (klst_remove_node X s0 x Hx) as H. destruct (sl_remove_node s0 x) as [[r0 s1]| |]; try discriminate.
    injection Hb' as <- <-. exact H.
  + destruct (dl_remove_node d x) as [[r0 s1]| |]; try discriminate. injection Hb' as <- <-. exact I.
Qed.
