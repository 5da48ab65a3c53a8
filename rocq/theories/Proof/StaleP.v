(** Stale flags: how each call changes them, and the sweep. *)
From Coq Require Import NArith ZArith Bool List Lia.
From stdpp Require Import base list gmap fin_maps tactics.
From Verif.Model Require Import Types Mesh Attrs Node EdgeContainer SLayer DLayer Graph.
From Verif.Spec Require Import AbstractGraph GraphHistory GraphObs.
From Verif.Proof Require Import Arith Keys SLayerP SLayerMerge DLayerP DLayerOps GraphRep GraphEdges GraphAttrs GraphNodes GraphRemove GraphMerge GraphSim GraphObsP.
Local Open Scope N_scope.

(** The edge containers of a graph. *)
Inductive cid := CSt (l : LayerId) | CDy (l : LayerId) (p : N) | CIn | CDin.
Definition g_stale (g : Graph) (c : cid) : gmap EdgeKey bool :=
  match c with
  | CSt l => match g_layers g !! l with Some s => ec_stale (sl_edges s) | None => ∅ end
  | CDy l p => match g_dlayer g l p with Some d => ec_stale (dl_edges d) | None => ∅ end
  | CIn => ec_stale (g_inter g)
  | CDin => ec_stale (g_dinter g)
  end.

Definition SR (T : EdgeKey -> Prop) (g g' : Graph) : Prop :=
  forall c k, g_stale g' c !! k = g_stale g c !! k \/ (T k /\ g_stale g' c !! k <> Some true).
Lemma SR_refl T g : SR T g g. Proof. intros c k. auto. Qed.
Lemma SR_trans T g g1 g2 : SR T g g1 -> SR T g1 g2 -> SR T g g2.
Proof.
  intros H1 H2 c k. destruct (H2 c k) as [E2|[Ht E2]]; [|auto]. destruct (H1 c k) as [E1|[Ht E1]].
  - left. congruence.
  - right. split; [exact Ht|]. congruence.
Qed.
Lemma SR_mono (T T' : EdgeKey -> Prop) g g' : (forall k, T k -> T' k) -> SR T g g' -> SR T' g g'.
Proof. intros H H1 c k. destruct (H1 c k) as [E|[Ht E]]; auto. Qed.
Lemma SR_same T g g' : (forall c, g_stale g' c = g_stale g c) -> SR T g g'.
Proof. intros H c k. left. rewrite H. reflexivity. Qed.

(** The same for one container. *)
Definition ER (T : EdgeKey -> Prop) (e e' : EC) : Prop :=
  forall k, ec_stale e' !! k = ec_stale e !! k \/ (T k /\ ec_stale e' !! k <> Some true).
Lemma ER_same T e e' : ec_stale e' = ec_stale e -> ER T e e'.
Proof. intros H k. left. rewrite H. reflexivity. Qed.
Lemma ER_trans T e e1 e2 : ER T e e1 -> ER T e1 e2 -> ER T e e2.
Proof.
  intros H1 H2 k. destruct (H2 k) as [E2|[Ht E2]]; [|auto]. destruct (H1 k) as [E1|[Ht E1]].
  - left. congruence.
  - right. split; [exact Ht|]. congruence.
Qed.
Lemma ER_touch (T : EdgeKey -> Prop) e s t : T (edge_key s t) -> ER T e (ec_touch e s t).
Proof.
  intros H k. unfold ec_touch. destruct (ec_edges e !! edge_key s t); [|auto]. cbn.
  destruct (decide (k = edge_key s t)) as [->|Hne]; [right; rewrite lookup_insert; split; [exact H|discriminate]|].
  left. apply lookup_insert_ne. congruence.
Qed.
Lemma stale_insert e s t i : ec_stale (ec_insert e s t i) = ec_stale e. Proof. reflexivity. Qed.
Lemma stale_remove e s t e' : ec_remove e s t = Ok e' -> ec_stale e' = ec_stale e.
Proof. unfold ec_remove. destruct (ec_status e !! _); [intros [= <-]; reflexivity|discriminate]. Qed.
Lemma ER_rewire (T : EdgeKey -> Prop) e s t ns nt e' : T (edge_key s t) -> ec_rewire e s t ns nt = Ok e' -> ER T e e'.
Proof.
  intros HT. unfold ec_rewire. destruct (ec_find e s t) as [prev|]; [|intros [= <-]; apply ER_same; reflexivity].
  destruct (ec_status (ec_touch e s t) !! _); [|discriminate].
  destruct (ec_remove _ s t) as [c3| |] eqn:E; cbn; [|discriminate|discriminate]. intros [= <-]. apply stale_remove in E. cbn in E.
  eapply ER_trans; [apply (ER_touch T e s t HT)|]. apply ER_same. rewrite stale_insert. exact E.
Qed.

(** Writing back pieces. *)
Lemma SR_set_layer T g l s s' : g_layers g !! l = Some s -> ER T (sl_edges s) (sl_edges s') -> SR T g (g_set_layer g l s').
Proof.
  intros Hs H c k. destruct c as [l'|l' p'| |]; cbn; try (left; reflexivity).
  destruct (decide (l = l')) as [<-|Hne].
  - rewrite lookup_insert, Hs. apply H.
  - left. rewrite lookup_insert_ne by assumption. reflexivity.
Qed.
Lemma SR_set_dlayer T g l p d' : ER T (match g_dlayer g l p with Some d => dl_edges d | None => ec_empty end) (dl_edges d') ->
  SR T g (g_set_dlayer g l p d').
Proof.
  intros H c k. destruct c as [l'|l' p'| |]; cbn; try (left; reflexivity).
  rewrite g_dlayer_set. destruct (decide _) as [[-> ->]|Hne]; [|left; reflexivity].
  specialize (H k). destruct (g_dlayer g l p); exact H.
Qed.
Definition bl_pre (g : Graph) (k : LayerKey) (b : BLayer) : Prop :=
  match b with BS s => g_layers g !! lk_layer k = Some s | BD d => g_dlayer g (lk_layer k) (lk_prefix k) = Some d end.
Lemma layer_at_pre g k b : g_layer_at g k = Ok b -> bl_pre g k b.
Proof.
  unfold g_layer_at. destruct (lk_dynamic k).
  - destruct (g_dlayer g _ _) eqn:E; cbn; [intros [= <-]; exact E|discriminate].
  - destruct (g_layers g !! _) eqn:E; cbn; [intros [= <-]; exact E|discriminate].
Qed.
Definition bl_same (b b' : BLayer) : Prop := match b, b' with BS _, BS _ | BD _, BD _ => True | _, _ => False end.
Lemma SR_put T g k b b' : bl_pre g k b -> bl_same b b' -> ER T (bl_edges b) (bl_edges b') -> SR T g (g_put_layer g k b').
Proof.
  destruct b, b'; cbn; intros H [] HE.
  - eapply SR_set_layer; eassumption.
  - apply SR_set_dlayer. rewrite H. exact HE.
Qed.
Lemma SR_pair T g sk tk e : ER T (g_pair_ec g sk tk) e -> SR T g (g_with_pair_ec g sk tk e).
Proof.
  unfold g_pair_ec, g_with_pair_ec. destruct (_ || _); intros H c k; destruct c; cbn; try (left; reflexivity); apply H.
Qed.
Lemma SR_lookup T g x : SR T g (g_with_lookup g x). Proof. apply SR_same. intros []; reflexivity. Qed.

(** Results. *)
Definition RR (T : EdgeKey -> Prop) (g : Graph) {A} (r : result A) (f : A -> Graph) : Prop :=
  match r with Ok x => SR T g (f x) | _ => True end.
Lemma RR_bind T g {A B} (r : result A) (k : A -> result B) f : (forall x, r = Ok x -> RR T g (k x) f) -> RR T g (rbind r k) f.
Proof. intros H. destruct r; cbn; auto. Qed.
Lemma RR_step T g {A B} (r : result A) (h : A -> Graph) (k : A -> result B) f :
  RR T g r h -> (forall x, r = Ok x -> RR T (h x) (k x) f) -> RR T g (rbind r k) f.
Proof.
  intros H1 H2. destruct r as [x| |]; cbn in *; auto. specialize (H2 x eq_refl). unfold RR in *.
  destruct (k x); auto. eapply SR_trans; eassumption.
Qed.
Lemma RR_rfold T {A} (f : Graph -> A -> result Graph) l : (forall g x, x ∈ l -> RR T g (f g x) id) ->
  forall g, RR T g (rfold f l g) id.
Proof.
  induction l as [|x r IH]; intros H g; cbn; [apply SR_refl|]. eapply RR_step; [apply H; left|].
  intros g1 _. apply IH. intros g0 y Hy. apply H. right. exact Hy.
Qed.

Lemma dl_upd_edges d i f d' : dl_upd d i f = Ok d' -> dl_edges d' = dl_edges d.
Proof. unfold dl_upd. destruct (dl_slot d i) as [[n|]|]; [intros [= <-]; reflexivity|discriminate|discriminate]. Qed.
Lemma sl_upd_edges l x f l' : sl_upd l x f = Ok l' -> sl_edges l' = sl_edges l.
Proof. unfold sl_upd. destruct (sl_nodes l !! x); [intros [= <-]; reflexivity|discriminate]. Qed.
Lemma sl_insert_edge_stale l s t i r l' : sl_insert_edge l s t i = Ok (r, l') -> ec_stale (sl_edges l') = ec_stale (sl_edges l).
Proof.
  unfold sl_insert_edge. destruct (s =? t); [intros [= _ <-]; reflexivity|]. destruct (sl_has_edge l s t); [intros [= _ <-]; reflexivity|].
  destruct (negb _); [intros [= _ <-]; reflexivity|]. destruct (negb _); [intros [= _ <-]; reflexivity|].
  destruct (sl_upd l s _) as [l1| |] eqn:E1; cbn; [|discriminate|discriminate].
  destruct (sl_upd l1 t _) as [l2| |] eqn:E2; cbn; [|discriminate|discriminate]. intros [= _ <-]. cbn.
  rewrite (sl_upd_edges _ _ _ _ E2), (sl_upd_edges _ _ _ _ E1). reflexivity.
Qed.
Lemma sl_remove_edge_stale l s t r l' : sl_remove_edge l s t = Ok (r, l') -> ec_stale (sl_edges l') = ec_stale (sl_edges l).
Proof.
  unfold sl_remove_edge. destruct (negb _); [intros [= _ <-]; reflexivity|].
  destruct (sl_upd l s _) as [l1| |] eqn:E1; cbn; [|discriminate|discriminate].
  destruct (sl_upd l1 t _) as [l2| |] eqn:E2; cbn; [|discriminate|discriminate].
  destruct (ec_remove _ s t) as [e| |] eqn:E3; cbn; [|discriminate|discriminate]. intros [= _ <-]. cbn.
  rewrite (stale_remove _ _ _ _ E3), (sl_upd_edges _ _ _ _ E2), (sl_upd_edges _ _ _ _ E1). reflexivity.
Qed.
Lemma dl_insert_edge_stale l s t i r l' : dl_insert_edge l s t i = Ok (r, l') -> ec_stale (dl_edges l') = ec_stale (dl_edges l).
Proof.
  unfold dl_insert_edge. destruct (s =? t); [intros [= _ <-]; reflexivity|]. destruct (dl_has_edge l s t); [intros [= _ <-]; reflexivity|].
  destruct (_ || _); [intros [= _ <-]; reflexivity|].
  destruct (dl_upd l _ _) as [l1| |] eqn:E1; cbn; [|discriminate|discriminate].
  destruct (dl_upd l1 _ _) as [l2| |] eqn:E2; cbn; [|discriminate|discriminate]. intros [= _ <-]. cbn.
  rewrite (dl_upd_edges _ _ _ _ E2), (dl_upd_edges _ _ _ _ E1). reflexivity.
Qed.
Lemma dl_remove_edge_stale l s t r l' : dl_remove_edge l s t = Ok (r, l') -> ec_stale (dl_edges l') = ec_stale (dl_edges l).
Proof.
  unfold dl_remove_edge. destruct (negb _); [intros [= _ <-]; reflexivity|].
  destruct (dl_upd l _ _) as [l1| |] eqn:E1; cbn; [|discriminate|discriminate].
  destruct (dl_upd l1 _ _) as [l2| |] eqn:E2; cbn; [|discriminate|discriminate].
  destruct (ec_remove _ s t) as [e| |] eqn:E3; cbn; [|discriminate|discriminate]. intros [= _ <-]. cbn.
  rewrite (stale_remove _ _ _ _ E3), (dl_upd_edges _ _ _ _ E2), (dl_upd_edges _ _ _ _ E1). reflexivity.
Qed.
Lemma sl_remove_node_stale l x r l' : sl_remove_node l x = Ok (r, l') -> ec_stale (sl_edges l') = ec_stale (sl_edges l).
Proof.
  unfold sl_remove_node. destruct (sl_nodes l !! x) as [n|]; [|intros [= _ <-]; reflexivity].
  assert (H : forall ts l0 l1, rfold (fun l t => let! (_, l') := sl_remove_edge l x t in Ok l') ts l0 = Ok l1 ->
     ec_stale (sl_edges l1) = ec_stale (sl_edges l0)).
  { induction ts as [|t ts IH]; intros l0 l1; cbn; [intros [= <-]; reflexivity|].
    destruct (sl_remove_edge l0 x t) as [[b l2]| |] eqn:E; cbn; [|discriminate|discriminate]. intros H. apply IH in H.
    rewrite H. eapply sl_remove_edge_stale, E. }
  destruct (rfold _ _ l) as [l1| |] eqn:E; cbn; [|discriminate|discriminate]. intros [= _ <-]. apply (H _ _ _ E).
Qed.
Lemma dl_remove_node_stale l x r l' : dl_remove_node l x = Ok (r, l') -> ec_stale (dl_edges l') = ec_stale (dl_edges l).
Proof.
  unfold dl_remove_node. destruct (negb _); [intros [= _ <-]; reflexivity|].
  destruct (at_ _) as [slot| |]; cbn; [|discriminate|discriminate]. destruct (deref slot) as [n| |]; cbn; [|discriminate|discriminate].
  assert (H : forall ts l0 l1, rfold (fun l t => let! (_, l') := dl_remove_edge l x t in Ok l') ts l0 = Ok l1 ->
     ec_stale (dl_edges l1) = ec_stale (dl_edges l0)).
  { induction ts as [|t ts IH]; intros l0 l1; cbn; [intros [= <-]; reflexivity|].
    destruct (dl_remove_edge l0 x t) as [[b l2]| |] eqn:E; cbn; [|discriminate|discriminate]. intros H. apply IH in H.
    rewrite H. eapply dl_remove_edge_stale, E. }
  set (m := if _ && _ then _ else _). assert (Hm : forall d1, m = Ok d1 -> ec_stale (dl_edges d1) = ec_stale (dl_edges l)).
  { unfold m. destruct (_ && _); [|intros ? [= <-]; reflexivity]. intros d1.
    destruct (dl_insert_edge _ _ _ _) as [[b d2]| |] eqn:E; cbn; [|discriminate|discriminate]. intros [= <-]. eapply dl_insert_edge_stale, E. }
  clearbody m. destruct m as [d1| |]; cbn; [|discriminate|discriminate].
  destruct (rfold _ _ d1) as [d2| |] eqn:E; cbn; [|discriminate|discriminate].
  destruct (at_ (dl_slot d2 _)) as [s2| |]; cbn; [|discriminate|discriminate]. destruct (deref s2) as [n2| |]; cbn; [|discriminate|discriminate].
  destruct (deref (n_time n2)) as [tm| |]; cbn; [|discriminate|discriminate]. intros [= _ <-]. cbn.
  rewrite (H _ _ _ E). apply Hm. reflexivity.
Qed.
Lemma bl_stale_op b b' : (exists l l', b = BS l /\ b' = BS l' /\ ec_stale (sl_edges l') = ec_stale (sl_edges l)) \/
  (exists l l', b = BD l /\ b' = BD l' /\ ec_stale (dl_edges l') = ec_stale (dl_edges l)) ->
  bl_same b b' /\ forall T, ER T (bl_edges b) (bl_edges b').
Proof.
  intros [(l & l' & -> & -> & H)|(l & l' & -> & -> & H)]; (split; [exact I|]); intros T; apply ER_same, H.
Qed.
Lemma bl_insert_edge_stale b s t i r b' : bl_insert_edge b s t i = Ok (r, b') -> bl_same b b' /\ forall T, ER T (bl_edges b) (bl_edges b').
Proof.
  intros H. apply bl_stale_op. destruct b as [l|l]; cbn in H.
  - destruct (sl_insert_edge l s t i) as [[b l']| |] eqn:E; cbn in H; [|discriminate|discriminate]. injection H as _ <-. left.
    exists l, l'. split; [reflexivity|]. split; [reflexivity|]. eapply sl_insert_edge_stale, E.
  - destruct (dl_insert_edge l s t i) as [[b l']| |] eqn:E; cbn in H; [|discriminate|discriminate]. injection H as _ <-. right.
    exists l, l'. split; [reflexivity|]. split; [reflexivity|]. eapply dl_insert_edge_stale, E.
Qed.
Lemma bl_remove_edge_stale b s t r b' : bl_remove_edge b s t = Ok (r, b') -> bl_same b b' /\ forall T, ER T (bl_edges b) (bl_edges b').
Proof.
  intros H. apply bl_stale_op. destruct b as [l|l]; cbn in H.
  - destruct (sl_remove_edge l s t) as [[b l']| |] eqn:E; cbn in H; [|discriminate|discriminate]. injection H as _ <-. left.
    exists l, l'. split; [reflexivity|]. split; [reflexivity|]. eapply sl_remove_edge_stale, E.
  - destruct (dl_remove_edge l s t) as [[b l']| |] eqn:E; cbn in H; [|discriminate|discriminate]. injection H as _ <-. right.
    exists l, l'. split; [reflexivity|]. split; [reflexivity|]. eapply dl_remove_edge_stale, E.
Qed.
Lemma bl_remove_node_stale b x r b' : bl_remove_node b x = Ok (r, b') -> bl_same b b' /\ forall T, ER T (bl_edges b) (bl_edges b').
Proof.
  intros H. apply bl_stale_op. destruct b as [l|l]; cbn in H.
  - destruct (sl_remove_node l x) as [[b l']| |] eqn:E; cbn in H; [|discriminate|discriminate]. injection H as _ <-. left.
    exists l, l'. split; [reflexivity|]. split; [reflexivity|]. eapply sl_remove_node_stale, E.
  - destruct (dl_remove_node l x) as [[b l']| |] eqn:E; cbn in H; [|discriminate|discriminate]. injection H as _ <-. right.
    exists l, l'. split; [reflexivity|]. split; [reflexivity|]. eapply dl_remove_node_stale, E.
Qed.

(** Graph calls. *)
Section Ops.
  Context (T : EdgeKey -> Prop).
  Lemma RR_upd_ptr g x k f : RR T g (g_upd_ptr g x k f) id.
  Proof using.
    unfold g_upd_ptr. destruct (lk_dynamic k).
    - destruct (g_dlayer g _ _) as [d|] eqn:Ed; cbn; [|exact I]. destruct (dl_slot d _); cbn; [|exact I].
      destruct (dl_upd d _ f) as [d'| |] eqn:E; cbn; [|exact I|exact I]. apply SR_set_dlayer. rewrite Ed. apply ER_same.
      rewrite (dl_upd_edges _ _ _ _ E). reflexivity.
    - destruct (g_layers g !! _) as [d|] eqn:Ed; cbn; [|exact I]. destruct (sl_nodes d !! x); cbn; [|exact I].
      destruct (sl_upd d _ f) as [d'| |] eqn:E; cbn; [|exact I|exact I]. eapply SR_set_layer; [exact Ed|]. apply ER_same.
      rewrite (sl_upd_edges _ _ _ _ E). reflexivity.
  Qed.
  Lemma RR_upd2 g x k f y k' f' : RR T g (let! g1 := g_upd_ptr g x k f in g_upd_ptr g1 y k' f') id.
  Proof using. eapply RR_step; [apply RR_upd_ptr|]. intros g1 _. apply RR_upd_ptr. Qed.
  Lemma RR_add_ancestry g s t sk tk : RR T g (g_add_ancestry g s t sk tk) id.
  Proof using.
    unfold g_add_ancestry. apply RR_bind; intros _ _. apply RR_bind; intros _ _.
    destruct (key_is_parent sk tk); [apply RR_upd2|]. destruct (key_is_parent tk sk); apply RR_upd2.
  Qed.
  Lemma RR_remove_ancestry g s t sk tk : RR T g (g_remove_ancestry g s t sk tk) id.
  Proof using.
    unfold g_remove_ancestry. apply RR_bind; intros _ _. apply RR_bind; intros _ _.
    destruct (key_is_parent sk tk); [apply RR_upd2|]. destruct (key_is_parent tk sk); apply RR_upd2.
  Qed.
  Lemma RR_remove_keys g s t sk tk : RR T g (g_remove_interlayer_keys g s t sk tk) id.
  Proof using.
    unfold g_remove_interlayer_keys. eapply RR_step; [apply RR_remove_ancestry|]. intros g1 _.
    apply RR_bind; intros c Hc. cbn. apply SR_pair, ER_same. eapply stale_remove, Hc.
  Qed.
  Lemma RR_remove_interlayer g s t : RR T g (g_remove_interlayer g s t) id.
  Proof using. unfold g_remove_interlayer. apply RR_bind; intros sk _. apply RR_bind; intros tk _. apply RR_remove_keys. Qed.
  Lemma RR_remove_edge g s t : RR T g (g_remove_edge g s t) snd.
  Proof using.
    unfold g_remove_edge. apply RR_bind; intros [has keys] _. destruct (negb has); [apply SR_refl|].
    destruct keys as [[sk tk]|]; [|apply SR_refl]. destruct (_ || _); [apply SR_refl|]. destruct (key_eqb sk tk).
    - apply RR_bind; intros b Hb. apply RR_bind; intros [r b'] Hb'. cbn. apply bl_remove_edge_stale in Hb' as [H1 H2].
      eapply SR_put; [apply layer_at_pre, Hb|exact H1|apply H2].
    - eapply RR_step; [apply RR_remove_keys|]. intros g1 _. apply SR_refl.
  Qed.
  Lemma RR_insert_inter g s t sk tk i : RR T g (let! g1 := g_add_ancestry g s t sk tk in
           Ok (true, g_with_pair_ec g1 sk tk (ec_insert (g_pair_ec g1 sk tk) s t i))) snd.
  Proof using. eapply RR_step; [apply RR_add_ancestry|]. intros g1 _. cbn. apply SR_pair, ER_same. reflexivity. Qed.
  Lemma RR_insert_edge g s t i : RR T g (g_insert_edge g s t i) snd.
  Proof using.
    unfold g_insert_edge. apply RR_bind; intros [has keys] _. destruct has; [apply SR_refl|].
    destruct keys as [[sk tk]|]; [|apply SR_refl]. destruct (_ || _); [apply SR_refl|]. destruct (key_eqb sk tk).
    - apply RR_bind; intros b Hb. apply RR_bind; intros [r b'] Hb'. cbn. apply bl_insert_edge_stale in Hb' as [H1 H2].
      eapply SR_put; [apply layer_at_pre, Hb|exact H1|apply H2].
    - apply RR_insert_inter.
  Qed.
  Lemma RR_insert_parent_edge g s t i : RR T g (g_insert_parent_edge g s t i) snd.
  Proof using.
    unfold g_insert_parent_edge. apply RR_bind; intros [has keys] _. destruct has; [apply SR_refl|].
    destruct keys as [[sk tk]|]; [|apply SR_refl]. destruct (_ || _); [apply SR_refl|].
    assert (Hd : RR T g (if negb (key_eqb sk tk) then g_drop_all_parents g s t sk tk else Ok g) id).
    { destruct (negb _); [|apply SR_refl]. unfold g_drop_all_parents. apply RR_bind; intros so _. apply RR_bind; intros to _.
      apply RR_bind; intros n _. apply RR_rfold. intros g0 p _. eapply RR_step; [apply RR_remove_edge|]. intros [b g1] _. apply SR_refl. }
    eapply RR_step; [apply Hd|]. intros g0 _. apply RR_insert_inter.
  Qed.
  Lemma RR_emplace_prev g l id0 t at0 : RR T g (g_emplace_prev g l id0 t at0) snd.
  Proof using.
    unfold g_emplace_prev. destruct (g_has_node g id0); [apply SR_refl|].
    assert (Hc : SR T g (snd (g_create_dlayer g l (prefix_from_id id0)))).
    { unfold g_create_dlayer, g_has_dlayer. destruct (bool_decide _) eqn:E; [apply SR_refl|]. cbn. apply bool_decide_eq_false in E.
      apply SR_set_dlayer. rewrite (proj2 (eq_None_not_Some _) E). apply ER_same. reflexivity. }
    destruct (g_dlayer (snd (g_create_dlayer g l _)) l (prefix_from_id id0)) as [d|] eqn:Ed; cbn; [|exact I].
    destruct (dl_emplace_at d t (prefix_index id0) at0) as [ok d'] eqn:Ee. cbn.
    assert (Hed : dl_edges d' = dl_edges d).
    { unfold dl_emplace_at in Ee. destruct (dl_has_index d _); [injection Ee as _ <-; reflexivity|].
      destruct (if dl_size d <=? _ then _ else _) as [nn st]. injection Ee as _ <-. reflexivity. }
    eapply SR_trans; [exact Hc|]. eapply SR_trans; [apply (SR_set_dlayer T _ l (prefix_from_id id0) d'); rewrite Ed, Hed; apply ER_same; reflexivity|].
    destruct ok; [apply SR_lookup|apply SR_refl].
  Qed.
  Lemma RR_emplace_dynamic g l p t a e : RR T g (g_emplace_dynamic g l p t a e) snd.
  Proof using.
    unfold g_emplace_dynamic. destruct (g_has_node g _); [apply SR_refl|].
    assert (Hc : SR T g (snd (g_create_dlayer g l p))).
    { unfold g_create_dlayer, g_has_dlayer. destruct (bool_decide _) eqn:E; [apply SR_refl|]. cbn. apply bool_decide_eq_false in E.
      apply SR_set_dlayer. rewrite (proj2 (eq_None_not_Some _) E). apply ER_same. reflexivity. }
    destruct (g_dlayer (snd (g_create_dlayer g l p)) l p) as [d|] eqn:Ed; cbn; [|exact I].
    apply RR_bind. intros [ok d'] Ee. cbn.
    assert (Hed : ec_stale (dl_edges d') = ec_stale (dl_edges d)).
    { unfold dl_emplace_node in Ee. destruct (bool_decide _); [injection Ee as _ <-; reflexivity|].
      destruct (_ && _).
      - destruct (dl_insert_edge _ _ _ _) as [[b d2]| |] eqn:E; cbn in Ee; [|discriminate|discriminate]. injection Ee as _ <-. cbn.
        apply dl_insert_edge_stale in E. exact E.
      - cbn in Ee. injection Ee as _ <-. reflexivity. }
    eapply SR_trans; [exact Hc|]. eapply SR_trans; [apply (SR_set_dlayer T _ l p d'); rewrite Ed; apply ER_same, Hed|].
    destruct ok; [apply SR_lookup|apply SR_refl].
  Qed.
  Lemma SR_emplace g l id0 at0 : SR T g (snd (g_emplace_node g l id0 at0)).
  Proof using.
    unfold g_emplace_node. destruct (g_has_node g id0); [apply SR_refl|]. destruct (g_layers g !! l) as [s|] eqn:E; [|apply SR_refl].
    unfold sl_emplace_node. destruct (sl_nodes s !! id0); cbn.
    - eapply SR_set_layer; [exact E|apply ER_same; reflexivity].
    - eapply SR_trans; [|apply SR_lookup]. eapply SR_set_layer; [exact E|apply ER_same; reflexivity].
  Qed.
  Lemma RR_remove_node g x : RR T g (g_remove_node g x) snd.
  Proof using.
    unfold g_remove_node. destruct (g_lookup g !! x) as [k|]; [|apply SR_refl].
    apply RR_bind; intros o _. apply RR_bind; intros n _. eapply RR_step; [apply RR_rfold; intros; apply RR_remove_interlayer|]. intros g1 _.
    apply RR_bind; intros o1 _. apply RR_bind; intros n1 _. eapply RR_step; [apply RR_rfold; intros; apply RR_remove_interlayer|]. intros g2 _.
    apply RR_bind; intros b Hb. apply RR_bind; intros [r b'] Hb'. cbn. unfold id in *. apply bl_remove_node_stale in Hb' as [H1 H2].
    eapply SR_trans; [eapply SR_put; [apply layer_at_pre, Hb|exact H1|apply H2]|apply SR_lookup].
  Qed.
  Lemma RR_rewire g s ns t : T (edge_key s t) -> RR T g (g_rewire_interlayer g s ns t) id.
  Proof using.
    intros HT. unfold g_rewire_interlayer. destruct (s =? ns); [apply SR_refl|]. apply RR_bind; intros sk _. apply RR_bind; intros [has keys] _.
    destruct (match keys with Some p => p | None => _ end) as [nsk tk]. destruct has; [apply RR_remove_keys|].
    eapply RR_step; [apply RR_remove_ancestry|]. intros g1 _. eapply RR_step; [apply RR_add_ancestry|]. intros g2 _. unfold id in *.
    destruct (ec_find _ s t) as [e|]; [|apply SR_refl].
    apply RR_bind; intros c' Hc. cbn. eapply SR_trans.
    - apply (SR_pair T g2 sk tk c'). eapply ER_trans; [apply (ER_touch T _ s t HT)|]. apply ER_same. eapply stale_remove, Hc.
    - apply SR_pair, ER_same. reflexivity.
  Qed.
End Ops.

Lemma sl_rewire_edge_ER (T : EdgeKey -> Prop) l s t ns nt r l' : T (edge_key s t) -> sl_rewire_edge l s t ns nt = Ok (r, l') -> ER T (sl_edges l) (sl_edges l').
Proof.
  intros HT. unfold sl_rewire_edge. destruct (negb _); [intros [= _ <-]; apply ER_same; reflexivity|].
  destruct (_ || _); [intros [= _ <-]; apply ER_same; reflexivity|]. destruct (_ && _); [intros [= _ <-]; apply ER_same; reflexivity|].
  destruct (_ || _).
  - destruct (sl_remove_edge l s t) as [[b l1]| |] eqn:E; cbn; [|discriminate|discriminate]. intros [= _ <-]. apply ER_same. eapply sl_remove_edge_stale, E.
  - destruct (ec_rewire _ _ _ _ _) as [e| |] eqn:E; cbn; [|discriminate|discriminate].
    destruct (sl_upd _ s _) as [l1| |] eqn:E1; cbn; [|discriminate|discriminate].
    destruct (sl_upd l1 t _) as [l2| |] eqn:E2; cbn; [|discriminate|discriminate].
    destruct (sl_upd l2 ns _) as [l3| |] eqn:E3; cbn; [|discriminate|discriminate].
    destruct (sl_upd l3 nt _) as [l4| |] eqn:E4; cbn; [|discriminate|discriminate]. intros [= _ <-].
    rewrite (sl_upd_edges _ _ _ _ E4), (sl_upd_edges _ _ _ _ E3), (sl_upd_edges _ _ _ _ E2), (sl_upd_edges _ _ _ _ E1). cbn.
    eapply ER_rewire; eassumption.
Qed.
Lemma touches_key n t : key_touches n (edge_key n t).
Proof. unfold key_touches, edge_key; cbn. lia. Qed.
Definition mergeable (g : Graph) (f t : N) : Prop :=
  f <> t /\ exists kf kt, g_lookup g !! f = Some kf /\ g_lookup g !! t = Some kt /\ key_eqb kf kt = true.
Lemma RR_merge g f t : RR (fun k => mergeable g f t /\ key_touches f k) g (g_merge_nodes g f t) snd.
Proof.
  set (T := fun k => mergeable g f t /\ key_touches f k). unfold g_merge_nodes. destruct (g_lookup g !! f) as [fk|] eqn:Ef; [|apply SR_refl].
  destruct (g_lookup g !! t) as [tk|] eqn:Et; [|apply SR_refl]. destruct (N.eqb_spec f t) as [|Hne]; [apply SR_refl|].
  destruct (key_eqb fk tk) eqn:Ek; cbn [negb]; [|apply SR_refl].
  assert (HT : forall x, T (edge_key f x)) by (intros x; split; [split; [exact Hne|]; exists fk, tk; auto|apply touches_key]).
  apply RR_bind; intros l _. apply RR_bind; intros n _. eapply RR_step; [apply RR_rfold; intros; apply RR_rewire, HT|]. intros g1 _.
  apply RR_bind; intros l1 _. apply RR_bind; intros n1 _. eapply RR_step; [apply RR_rfold; intros; apply RR_rewire, HT|]. intros g2 _. unfold id in *.
  destruct (g_layers g2 !! lk_layer fk) as [l2|] eqn:El2; cbn; [|exact I]. apply RR_bind; intros [r l3] Hm. cbn.
  eapply SR_trans; [|apply SR_lookup]. eapply SR_set_layer; [exact El2|].
  unfold sl_merge_nodes in Hm. destruct (_ || _); [injection Hm as _ <-; apply ER_same; reflexivity|].
  destruct (f =? t); [injection Hm as _ <-; apply ER_same; reflexivity|]. destruct (at_ _) as [nd| |]; cbn in Hm; [|discriminate|discriminate].
  assert (H : forall ts l0 l1, rfold (fun l x => let! (_, l') := sl_rewire_edge l f x t x in Ok l') ts l0 = Ok l1 -> ER T (sl_edges l0) (sl_edges l1)).
  { induction ts as [|x ts IH]; intros l0 l4; cbn; [intros [= <-]; apply ER_same; reflexivity|].
    destruct (sl_rewire_edge l0 f x t x) as [[b l5]| |] eqn:E; cbn; [|discriminate|discriminate]. intros H.
    eapply ER_trans; [eapply sl_rewire_edge_ER; [apply HT|exact E]|]. apply IH, H. }
  destruct (rfold _ _ l2) as [l4| |] eqn:E; cbn in Hm; [|discriminate|discriminate]. injection Hm as _ <-. cbn. apply (H _ _ _ E).
Qed.
Lemma RR_find g s t : RR (fun k => k = edge_key s t) g (g_find_edge g s t) snd.
Proof.
  unfold g_find_edge. apply RR_bind; intros sk _. apply RR_bind; intros tk _. destruct (key_eqb sk tk).
  - apply RR_bind; intros b Hb. cbn. eapply SR_put; [apply layer_at_pre, Hb|destruct b; exact I|]. destruct b; cbn; apply ER_touch; reflexivity.
  - cbn. apply SR_pair, ER_touch. reflexivity.
Qed.
Lemma ER_upd_info e s t a : ER (fun k => k = edge_key s t) e (ec_set_info (ec_touch e s t) s t a).
Proof. eapply ER_trans; [apply (ER_touch (fun k => k = edge_key s t) e s t eq_refl)|]. apply ER_same. reflexivity. Qed.
Lemma RR_set_edge g s t a : RR (fun k => k = edge_key s t) g (g_set_edge_attributes g s t a) snd.
Proof.
  unfold g_set_edge_attributes. apply RR_bind; intros sk _. apply RR_bind; intros tk _. destruct (key_eqb sk tk).
  - apply RR_bind; intros b Hb. destruct (ec_find (bl_edges b) s t); cbn.
    + eapply SR_put; [apply layer_at_pre, Hb|destruct b; exact I|]. destruct b; cbn; apply ER_upd_info.
    + eapply SR_put; [apply layer_at_pre, Hb|destruct b; exact I|]. destruct b; cbn; apply ER_same; reflexivity.
  - destruct (ec_find _ s t); cbn.
    + apply SR_pair, ER_upd_info.
    + apply SR_pair, ER_same. reflexivity.
Qed.

(** The pairs whose flag a call may clear. *)
Definition touch_set (g : Graph) (o : gop) (k : EdgeKey) : Prop :=
  match o with
  | GFindEdge u v | GSetEdgeAttrs u v _ | GAddOrUpdateEdge u v _ => k = edge_key u v
  | GMergeNodes f t => mergeable g f t /\ key_touches f k
  | GClear => True
  | _ => False
  end.
Lemma stale_fmap_layers (f : SLayer -> SLayer) g l : (forall s, ec_stale (sl_edges (f s)) = ec_stale (sl_edges s)) ->
  match (f <$> g_layers g) !! l with Some s => ec_stale (sl_edges s) | None => ∅ end =
  match g_layers g !! l with Some s => ec_stale (sl_edges s) | None => ∅ end.
Proof. intros H. rewrite lookup_fmap. destruct (g_layers g !! l); cbn; [apply H|reflexivity]. Qed.
Lemma stale_fmap_dlayers (f : DLayer -> DLayer) (m : gmap LayerId (gmap N DLayer)) l p : (forall s, ec_stale (dl_edges (f s)) = ec_stale (dl_edges s)) ->
  match match ((fun mm : gmap N DLayer => f <$> mm) <$> m) !! l with None => None | Some m => m !! p end with Some d => ec_stale (dl_edges d) | None => ∅ end =
  match match m !! l with None => None | Some m => m !! p end with Some d => ec_stale (dl_edges d) | None => ∅ end.
Proof. intros H. rewrite lookup_fmap. destruct (m !! l) as [mm|]; cbn; [|reflexivity]. rewrite lookup_fmap. destruct (mm !! p); cbn; [apply H|reflexivity]. Qed.

Lemma step_SR g o : o <> GMarkStale -> RR (touch_set g o) g (g_step g o) snd.
Proof.
  intros Hm. destruct o; cbn [g_step touch_set]; try contradiction.
  - cbn. apply SR_emplace.
  - cbn. destruct (g_has_node g id); [apply SR_refl|]. destruct (g_layers g !! l) as [s|] eqn:E; [|apply SR_refl].
    unfold sl_insert_node. cbn. destruct (negb _); cbn; [eapply SR_set_layer; [exact E|apply ER_same; reflexivity]|].
    destruct (sl_has_node s id); cbn; [eapply SR_set_layer; [exact E|apply ER_same; reflexivity]|].
    eapply SR_trans; [|apply SR_lookup]. eapply SR_set_layer; [exact E|apply ER_same; reflexivity].
  - apply RR_emplace_dynamic.
  - apply RR_emplace_prev.
  - cbn. unfold g_create_dlayer, g_has_dlayer. destruct (bool_decide _) eqn:E; [apply SR_refl|]. cbn. apply bool_decide_eq_false in E.
    apply SR_set_dlayer. rewrite (proj2 (eq_None_not_Some _) E). apply ER_same. reflexivity.
  - unfold g_add_or_update_node. destruct (g_layers g !! l) as [s|] eqn:El; [|apply SR_refl]. destruct (g_lookup g !! id) as [k|].
    + eapply RR_step; [apply RR_upd_ptr|]. intros g1 _. apply SR_refl.
    + destruct t; [apply RR_emplace_prev|]. unfold sl_emplace_node. destruct (sl_nodes s !! id); cbn.
      * eapply SR_set_layer; [exact El|apply ER_same; reflexivity].
      * eapply SR_trans; [|apply SR_lookup]. eapply SR_set_layer; [exact El|apply ER_same; reflexivity].
  - unfold g_set_node_attributes. destruct (g_lookup g !! id); [|apply SR_refl]. eapply RR_step; [apply RR_upd_ptr|]. intros g1 _. apply SR_refl.
  - apply RR_insert_edge.
  - apply RR_insert_parent_edge.
  - unfold g_add_or_update_edge. apply RR_bind; intros has _. destruct has; [apply RR_set_edge|apply RR_insert_edge].
  - apply RR_set_edge.
  - apply RR_remove_edge.
  - apply RR_remove_node.
  - apply RR_merge.
  - eapply RR_step; [apply RR_find|]. intros [o g1] _. apply SR_refl.
  - unfold g_get_new_nodes, visit_static, visit_dynamic. cbn. apply SR_same. intros [l|l p| |]; cbn; try reflexivity.
    + apply stale_fmap_layers. intros s. unfold sl_get_new_nodes. destruct clear; reflexivity.
    + unfold g_dlayer. cbn. apply stale_fmap_dlayers. intros s. unfold dl_get_new_nodes. destruct clear; reflexivity.
  - unfold g_get_removed_nodes, visit_static, visit_dynamic. cbn. apply SR_same. intros [l|l p| |]; cbn; try reflexivity.
    + apply stale_fmap_layers. intros s. unfold sl_get_removed_nodes. destruct clear; reflexivity.
    + unfold g_dlayer. cbn. apply stale_fmap_dlayers. intros s. unfold dl_get_removed_nodes. destruct clear; reflexivity.
  - unfold g_get_new_edges, visit_static, visit_dynamic, ec_get_new. cbn. apply SR_same. intros [l|l p| |]; cbn.
    + apply stale_fmap_layers. intros s. unfold sl_get_new_edges. destruct clear; reflexivity.
    + unfold g_dlayer. cbn. apply stale_fmap_dlayers. intros s. unfold dl_get_new_edges. destruct clear; reflexivity.
    + destruct clear; reflexivity.
    + destruct clear; reflexivity.
  - unfold g_get_removed_edges, visit_static, visit_dynamic, ec_get_removed. cbn. apply SR_same. intros [l|l p| |]; cbn.
    + apply stale_fmap_layers. intros s. unfold sl_get_removed_edges. destruct clear; reflexivity.
    + unfold g_dlayer. cbn. apply stale_fmap_dlayers. intros s. unfold dl_get_removed_edges. destruct clear; reflexivity.
    + destruct clear; reflexivity.
    + destruct clear; reflexivity.
  - apply SR_same. intros []; reflexivity.
  - cbn. intros c k. destruct c as [l|l p| |]; cbn; try (left; reflexivity).
    + right. split; [exact I|]. rewrite cleared_layers. destruct (decide _); cbn; rewrite lookup_empty; discriminate.
    + right. split; [exact I|]. unfold g_dlayer. cbn. rewrite lookup_empty, lookup_empty. discriminate.
Qed.
