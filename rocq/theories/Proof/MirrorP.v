(** How each call changes the node and edge statuses behind the change reports. *)
From Coq Require Import NArith ZArith Bool List Lia.
From stdpp Require Import base list gmap fin_maps tactics.
From Verif.Model Require Import Types Mesh Attrs Node EdgeContainer SLayer DLayer Graph.
From Verif.Spec Require Import AbstractGraph GraphHistory GraphObs.
From Verif.Proof Require Import Arith Keys SLayerP SLayerMerge DLayerP DLayerOps GraphRep GraphEdges GraphAttrs GraphNodes GraphRemove GraphMerge GraphSim GraphObsP StaleP StaleP2.
Local Open Scope N_scope.
#[local] Arguments edge_key : simpl never.

#[global] Instance cid_dec : EqDecision cid.
Proof. intros [l|l p| |] [l'|l' p'| |]; try (right; discriminate); try (left; reflexivity).
  - destruct (decide (l = l')) as [->|H]; [left; reflexivity|right; congruence].
  - destruct (decide (l = l')) as [->|H]; [|right; congruence]. destruct (decide (p = p')) as [->|H]; [left; reflexivity|right; congruence].
Defined.

(** Edge and node statuses of the parts of a graph. *)
Definition es (g : Graph) (c : cid) : gmap EdgeKey EdgeStatus :=
  match g_cont g c with Some e => ec_status e | None => ∅ end.
Definition ns (g : Graph) (c : cid) : gmap N NodeStatus :=
  match c with
  | CSt l => match g_layers g !! l with Some s => sl_status s | None => ∅ end
  | CDy l p => match g_dlayer g l p with Some d => dl_status d | None => ∅ end
  | _ => ∅
  end.

Definition en (s : option EdgeStatus) : Prop := s = Some ENew \/ s = Some EDeleted.
Definition MR (T : cid -> EdgeKey -> Prop) (g g' : Graph) : Prop :=
  g_lookup g' = g_lookup g /\ (forall c, ns g' c = ns g c) /\
  forall c k, es g' c !! k = es g c !! k \/ (T c k /\ en (es g' c !! k)).
Lemma MR_refl T g : MR T g g. Proof. split; [reflexivity|]. split; auto. Qed.
Lemma MR_trans T g g1 g2 : MR T g g1 -> MR T g1 g2 -> MR T g g2.
Proof.
  intros (L1 & N1 & H1) (L2 & N2 & H2). split; [congruence|]. split; [intros c; rewrite N2; apply N1|].
  intros c k. destruct (H2 c k) as [E2|E2]; [|auto]. rewrite E2. apply H1.
Qed.
Lemma MR_same T g g' : g_lookup g' = g_lookup g -> (forall c, ns g' c = ns g c) -> (forall c, es g' c = es g c) -> MR T g g'.
Proof. intros H1 H2 H. split; [exact H1|]. split; [exact H2|]. intros c k. left. rewrite H. reflexivity. Qed.

(** The same for one container. *)
Definition XR (T : EdgeKey -> Prop) (e e' : EC) : Prop :=
  forall k, ec_status e' !! k = ec_status e !! k \/ (T k /\ en (ec_status e' !! k)).
Lemma XR_same T e e' : ec_status e' = ec_status e -> XR T e e'.
Proof. intros H k. left. rewrite H. reflexivity. Qed.
Lemma XR_trans T e e1 e2 : XR T e e1 -> XR T e1 e2 -> XR T e e2.
Proof. intros H1 H2 k. destruct (H2 k) as [E2|E2]; [|auto]. rewrite E2. apply H1. Qed.
Lemma touch_status e s t : ec_status (ec_touch e s t) = ec_status e.
Proof. unfold ec_touch. destruct (ec_edges e !! _); reflexivity. Qed.
Lemma touch_edges e s t : ec_edges (ec_touch e s t) = ec_edges e.
Proof. unfold ec_touch. destruct (ec_edges e !! _); reflexivity. Qed.
Lemma XR_set (T : EdgeKey -> Prop) e e' k v : T k -> en (Some v) -> ec_status e' = <[k := v]> (ec_status e) -> XR T e e'.
Proof.
  intros HT Hv H k'. rewrite H. destruct (decide (k' = k)) as [->|Hne]; [right; rewrite lookup_insert; auto|].
  left. apply lookup_insert_ne. congruence.
Qed.
Lemma XR_insert (T : EdgeKey -> Prop) e s t i : T (edge_key s t) -> XR T e (ec_insert e s t i).
Proof. intros HT. apply (XR_set T e _ (edge_key s t) ENew HT); [left; reflexivity|reflexivity]. Qed.
Lemma XR_remove (T : EdgeKey -> Prop) e s t e' : T (edge_key s t) -> ec_remove e s t = Ok e' -> XR T e e'.
Proof.
  intros HT. unfold ec_remove. destruct (ec_status e !! _); [intros [= <-]|discriminate].
  apply (XR_set T e _ (edge_key s t) EDeleted HT); [right; reflexivity|reflexivity].
Qed.
Lemma XR_rewire (T : EdgeKey -> Prop) e s t nu nv e' : T (edge_key s t) -> T (edge_key nu nv) -> ec_rewire e s t nu nv = Ok e' -> XR T e e'.
Proof.
  intros HT HT'. unfold ec_rewire. destruct (ec_find e s t) as [prev|]; [|intros [= <-]; apply XR_same; reflexivity].
  destruct (ec_status (ec_touch e s t) !! _); [|discriminate].
  unfold ec_remove. cbn. rewrite lookup_insert. cbn. intros [= <-].
  eapply XR_trans; [|apply (XR_insert T _ nu nv (Some (e_info prev)) HT')].
  apply (XR_set T e _ (edge_key s t) EDeleted HT); [right; reflexivity|]. cbn. rewrite insert_insert, touch_status. reflexivity.
Qed.

(** Writing back pieces. *)
Lemma es_layer g l s c : es (g_set_layer g l s) c = if decide (c = CSt l) then ec_status (sl_edges s) else es g c.
Proof.
  unfold es. destruct c as [l'|l' p'| |]; cbn; try (rewrite decide_False by discriminate; reflexivity).
  destruct (decide (l' = l)) as [->|Hne].
  - rewrite lookup_insert, decide_True by reflexivity. reflexivity.
  - rewrite lookup_insert_ne by congruence. rewrite decide_False by congruence. reflexivity.
Qed.
Lemma es_dlayer g l p d c : es (g_set_dlayer g l p d) c = if decide (c = CDy l p) then ec_status (dl_edges d) else es g c.
Proof.
  unfold es. destruct c as [l'|l' p'| |]; cbn; try (rewrite decide_False by discriminate; reflexivity).
  rewrite g_dlayer_set. destruct (decide (l' = l /\ p' = p)) as [[-> ->]|Hne].
  - rewrite decide_True by reflexivity. reflexivity.
  - rewrite decide_False by (intros [= ? ?]; auto). reflexivity.
Qed.
Lemma ns_layer g l s c : ns (g_set_layer g l s) c = if decide (c = CSt l) then sl_status s else ns g c.
Proof.
  unfold ns. destruct c as [l'|l' p'| |]; cbn; try (rewrite decide_False by discriminate; reflexivity).
  destruct (decide (l' = l)) as [->|Hne].
  - rewrite lookup_insert, decide_True by reflexivity. reflexivity.
  - rewrite lookup_insert_ne by congruence. rewrite decide_False by congruence. reflexivity.
Qed.
Lemma ns_dlayer g l p d c : ns (g_set_dlayer g l p d) c = if decide (c = CDy l p) then dl_status d else ns g c.
Proof.
  unfold ns. destruct c as [l'|l' p'| |]; cbn; try (rewrite decide_False by discriminate; reflexivity).
  rewrite g_dlayer_set. destruct (decide (l' = l /\ p' = p)) as [[-> ->]|Hne].
  - rewrite decide_True by reflexivity. reflexivity.
  - rewrite decide_False by (intros [= ? ?]; auto). reflexivity.
Qed.
Definition bl_nst (b : BLayer) : gmap N NodeStatus := match b with BS s => sl_status s | BD d => dl_status d end.
Definition bcid (k : LayerKey) (b : BLayer) : cid := match b with BS _ => CSt (lk_layer k) | BD _ => CDy (lk_layer k) (lk_prefix k) end.
Lemma es_put g k b c : es (g_put_layer g k b) c = if decide (c = bcid k b) then ec_status (bl_edges b) else es g c.
Proof. destruct b; [apply es_layer|apply es_dlayer]. Qed.
Lemma ns_put g k b c : ns (g_put_layer g k b) c = if decide (c = bcid k b) then bl_nst b else ns g c.
Proof. destruct b; [apply ns_layer|apply ns_dlayer]. Qed.
Lemma pre_es g k b : bl_pre g k b -> es g (bcid k b) = ec_status (bl_edges b).
Proof. destruct b; cbn; unfold es; cbn; intros ->; reflexivity. Qed.
Lemma pre_ns g k b : bl_pre g k b -> ns g (bcid k b) = bl_nst b.
Proof. destruct b; cbn; intros ->; reflexivity. Qed.
Lemma put_lookup g k b : g_lookup (g_put_layer g k b) = g_lookup g. Proof. destruct b; reflexivity. Qed.
Lemma same_cid k b b' : bl_same b b' -> bcid k b' = bcid k b. Proof. destruct b, b'; cbn; intros []; reflexivity. Qed.

Lemma MR_put T g k b b' : bl_pre g k b -> bl_same b b' -> bl_nst b' = bl_nst b -> XR (T (bcid k b)) (bl_edges b) (bl_edges b') ->
  MR T g (g_put_layer g k b').
Proof.
  intros Hp Hs Hn HX. split; [apply put_lookup|]. split.
  - intros c. rewrite ns_put. destruct (decide _) as [->|]; [|reflexivity]. rewrite (same_cid k b b' Hs), (pre_ns g k b Hp). exact Hn.
  - intros c k'. rewrite es_put. destruct (decide _) as [->|]; [|left; reflexivity]. rewrite (same_cid k b b' Hs), (pre_es g k b Hp). apply HX.
Qed.
Lemma MR_pair T g sk tk e : XR (T (if pair_dyn sk tk then CDin else CIn)) (g_pair_ec g sk tk) e -> MR T g (g_with_pair_ec g sk tk e).
Proof.
  unfold g_pair_ec, g_with_pair_ec, pair_dyn. destruct (_ || _); intros H; (split; [reflexivity|]); (split; [intros []; reflexivity|]);
    intros c k; destruct c; unfold es; cbn; try (left; reflexivity); apply H.
Qed.

(** Results. *)
Definition MM (T : cid -> EdgeKey -> Prop) (g : Graph) {A} (r : result A) (f : A -> Graph) : Prop :=
  match r with Ok x => MR T g (f x) | _ => True end.
Lemma MM_bind T g {A B} (r : result A) (k : A -> result B) f : (forall x, r = Ok x -> MM T g (k x) f) -> MM T g (rbind r k) f.
Proof. intros H. destruct r; cbn; auto. Qed.
Lemma MM_step T g {A B} (r : result A) (h : A -> Graph) (k : A -> result B) f :
  MM T g r h -> (forall x, r = Ok x -> MR T g (h x) -> MM T (h x) (k x) f) -> MM T g (rbind r k) f.
Proof.
  intros H1 H2. destruct r as [x| |]; cbn in *; auto. specialize (H2 x eq_refl H1). unfold MM in *.
  destruct (k x); auto. eapply MR_trans; eassumption.
Qed.

(** *** Layers *)
Lemma dl_upd_status d i f d' : dl_upd d i f = Ok d' -> dl_status d' = dl_status d /\ dl_prefix d' = dl_prefix d.
Proof. unfold dl_upd. destruct (dl_slot d i) as [[n|]|]; [intros [= <-]; split; reflexivity|discriminate|discriminate]. Qed.
Lemma sl_upd_status l x f l' : sl_upd l x f = Ok l' -> sl_status l' = sl_status l.
Proof. unfold sl_upd. destruct (sl_nodes l !! x); [intros [= <-]; reflexivity|discriminate]. Qed.
Lemma sl_upd_dom l x f l' y : sl_upd l x f = Ok l' -> is_Some (sl_nodes l !! x) /\ (is_Some (sl_nodes l' !! y) <-> is_Some (sl_nodes l !! y)).
Proof.
  unfold sl_upd. destruct (sl_nodes l !! x) as [n|] eqn:E; [intros [= <-]|discriminate]. split; [eauto|]. cbn.
  destruct (decide (y = x)) as [->|Hne]; [rewrite lookup_insert, E; split; eauto|]. rewrite lookup_insert_ne by congruence. reflexivity.
Qed.

(** Same nodes and statuses. *)
Definition sl_keeps (l l' : SLayer) : Prop := sl_status l' = sl_status l /\ forall y, is_Some (sl_nodes l' !! y) <-> is_Some (sl_nodes l !! y).
Lemma sl_keeps_refl l : sl_keeps l l. Proof. split; reflexivity || auto. Qed.
Lemma sl_keeps_trans l l1 l2 : sl_keeps l l1 -> sl_keeps l1 l2 -> sl_keeps l l2.
Proof. intros [A1 A2] [B1 B2]. split; [congruence|]. intros y. rewrite B2. apply A2. Qed.
Lemma sl_upd_keeps l x f l' : sl_upd l x f = Ok l' -> sl_keeps l l'.
Proof. intros H. split; [eapply sl_upd_status, H|]. intros y. eapply sl_upd_dom, H. Qed.
Lemma sl_with_edges_keeps l e : sl_keeps l (sl_with_edges l e). Proof. split; [reflexivity|]. intros y. reflexivity. Qed.
Lemma sl_insert_edge_X (T : EdgeKey -> Prop) l s t i r l' : T (edge_key s t) -> sl_insert_edge l s t i = Ok (r, l') ->
  sl_keeps l l' /\ XR T (sl_edges l) (sl_edges l').
Proof.
  intros HT. unfold sl_insert_edge. destruct (s =? t); [intros [= _ <-]; split; [apply sl_keeps_refl|apply XR_same; reflexivity]|].
  destruct (sl_has_edge l s t); [intros [= _ <-]; split; [apply sl_keeps_refl|apply XR_same; reflexivity]|].
  destruct (negb _); [intros [= _ <-]; split; [apply sl_keeps_refl|apply XR_same; reflexivity]|].
  destruct (negb _); [intros [= _ <-]; split; [apply sl_keeps_refl|apply XR_same; reflexivity]|].
  destruct (sl_upd l s _) as [l1| |] eqn:E1; cbn; [|discriminate|discriminate].
  destruct (sl_upd l1 t _) as [l2| |] eqn:E2; cbn; [|discriminate|discriminate]. intros [= _ <-]. split.
  - eapply sl_keeps_trans; [eapply sl_upd_keeps, E1|]. eapply sl_keeps_trans; [eapply sl_upd_keeps, E2|]. apply sl_with_edges_keeps.
  - cbn [sl_edges sl_with_edges]. rewrite (sl_upd_edges _ _ _ _ E2), (sl_upd_edges _ _ _ _ E1). apply XR_insert, HT.
Qed.
Lemma sl_remove_edge_X (T : EdgeKey -> Prop) l s t r l' : (is_Some (sl_nodes l !! s) -> is_Some (sl_nodes l !! t) -> T (edge_key s t)) ->
  sl_remove_edge l s t = Ok (r, l') -> sl_keeps l l' /\ XR T (sl_edges l) (sl_edges l').
Proof.
  intros HT. unfold sl_remove_edge. destruct (negb _); [intros [= _ <-]; split; [apply sl_keeps_refl|apply XR_same; reflexivity]|].
  destruct (sl_upd l s _) as [l1| |] eqn:E1; cbn; [|discriminate|discriminate].
  destruct (sl_upd l1 t _) as [l2| |] eqn:E2; cbn; [|discriminate|discriminate].
  destruct (ec_remove _ s t) as [e| |] eqn:E3; cbn; [|discriminate|discriminate]. intros [= _ <-]. split.
  - eapply sl_keeps_trans; [eapply sl_upd_keeps, E1|]. eapply sl_keeps_trans; [eapply sl_upd_keeps, E2|]. apply sl_with_edges_keeps.
  - cbn [sl_edges sl_with_edges]. rewrite (sl_upd_edges _ _ _ _ E2), (sl_upd_edges _ _ _ _ E1) in E3. eapply XR_remove; [|exact E3].
    destruct (sl_upd_dom _ _ _ _ t E1) as [H1 H2]. destruct (sl_upd_dom _ _ _ _ t E2) as [H3 _]. apply HT; [exact H1|apply H2, H3].
Qed.
Definition dl_keeps (d d' : DLayer) : Prop := dl_status d' = dl_status d /\ dl_prefix d' = dl_prefix d.
Lemma dl_keeps_has d d' x : dl_keeps d d' -> dl_has_node d' x = dl_has_node d x.
Proof. intros [H1 H2]. unfold dl_has_node, dl_has_index. rewrite H1, H2. reflexivity. Qed.
Lemma dl_keeps_refl d : dl_keeps d d. Proof. split; reflexivity. Qed.
Lemma dl_keeps_trans d d1 d2 : dl_keeps d d1 -> dl_keeps d1 d2 -> dl_keeps d d2.
Proof. intros [A1 A2] [B1 B2]. split; congruence. Qed.
Lemma dl_insert_edge_X (T : EdgeKey -> Prop) l s t i r l' : T (edge_key s t) -> dl_insert_edge l s t i = Ok (r, l') ->
  dl_keeps l l' /\ XR T (dl_edges l) (dl_edges l') /\ (forall k, is_Some (ec_edges (dl_edges l') !! k) -> is_Some (ec_edges (dl_edges l) !! k) \/ T k).
Proof.
  intros HT. unfold dl_insert_edge. assert (H0 : dl_keeps l l /\ XR T (dl_edges l) (dl_edges l) /\ (forall k, is_Some (ec_edges (dl_edges l) !! k) -> is_Some (ec_edges (dl_edges l) !! k) \/ T k)).
  { split; [apply dl_keeps_refl|]. split; [apply XR_same; reflexivity|auto]. }
  destruct (s =? t); [intros [= _ <-]; exact H0|]. destruct (dl_has_edge l s t); [intros [= _ <-]; exact H0|].
  destruct (_ || _); [intros [= _ <-]; exact H0|]. clear H0.
  destruct (dl_upd l _ _) as [l1| |] eqn:E1; cbn; [|discriminate|discriminate].
  destruct (dl_upd l1 _ _) as [l2| |] eqn:E2; cbn; [|discriminate|discriminate]. intros [= _ <-]. split.
  - eapply dl_keeps_trans; [eapply dl_upd_status, E1|]. eapply dl_keeps_trans; [eapply dl_upd_status, E2|]. split; reflexivity.
  - cbn [dl_edges dl_with_edges]. rewrite (dl_upd_edges _ _ _ _ E2), (dl_upd_edges _ _ _ _ E1). split; [apply XR_insert, HT|].
    intros k. destruct (decide (k = edge_key s t)) as [->|Hne]; [auto|]. unfold ec_insert. cbv zeta. cbn [ec_edges]. destruct (ec_edges (dl_edges l) !! edge_key s t); [auto|]. rewrite lookup_insert_ne by congruence. auto.
Qed.
Lemma dl_remove_edge_X (T : EdgeKey -> Prop) l s t r l' : (forall k, is_Some (ec_edges (dl_edges l) !! k) -> T k) ->
  dl_remove_edge l s t = Ok (r, l') ->
  dl_keeps l l' /\ XR T (dl_edges l) (dl_edges l') /\ (forall k, is_Some (ec_edges (dl_edges l') !! k) -> T k).
Proof.
  intros HT. unfold dl_remove_edge, dl_has_edge, ec_contains. case_bool_decide as Hin; cbn [negb].
  2:{ intros [= _ <-]. split; [apply dl_keeps_refl|]. split; [apply XR_same; reflexivity|exact HT]. }
  destruct (dl_upd l _ _) as [l1| |] eqn:E1; cbn; [|discriminate|discriminate].
  destruct (dl_upd l1 _ _) as [l2| |] eqn:E2; cbn; [|discriminate|discriminate].
  destruct (ec_remove _ s t) as [e| |] eqn:E3; cbn; [|discriminate|discriminate]. intros [= _ <-]. split.
  - eapply dl_keeps_trans; [eapply dl_upd_status, E1|]. eapply dl_keeps_trans; [eapply dl_upd_status, E2|]. split; reflexivity.
  - cbn [dl_edges dl_with_edges]. rewrite (dl_upd_edges _ _ _ _ E2), (dl_upd_edges _ _ _ _ E1) in E3. split; [eapply XR_remove; [apply HT, Hin|exact E3]|].
    intros k Hk. apply HT. unfold ec_remove in E3. destruct (ec_status _ !! _); [|discriminate]. injection E3 as <-. cbn in Hk.
    destruct (decide (k = edge_key s t)) as [->|Hne]; [exact Hin|]. rewrite lookup_delete_ne in Hk by congruence. exact Hk.
Qed.
Lemma sl_remove_node_X (T : EdgeKey -> Prop) l x r l' :
  (forall u v, is_Some (sl_nodes l !! u) -> is_Some (sl_nodes l !! v) -> T (edge_key u v)) -> is_Some (sl_nodes l !! x) ->
  sl_remove_node l x = Ok (r, l') -> sl_status l' = <[x := NDeleted]> (sl_status l) /\ XR T (sl_edges l) (sl_edges l').
Proof.
  intros HT [n Hn]. unfold sl_remove_node. rewrite Hn.
  assert (H : forall ts l0 l1, sl_keeps l l0 -> rfold (fun l t => let! (_, l') := sl_remove_edge l x t in Ok l') ts l0 = Ok l1 ->
     sl_keeps l l1 /\ XR T (sl_edges l0) (sl_edges l1)).
  { induction ts as [|t ts IH]; intros l0 l1 Hk; cbn; [intros [= <-]; split; [exact Hk|apply XR_same; reflexivity]|].
    destruct (sl_remove_edge l0 x t) as [[b l2]| |] eqn:E; cbn; [|discriminate|discriminate]. intros H.
    destruct (sl_remove_edge_X T l0 x t b l2) as [K1 K2]; [|exact E|].
    { intros H1 H2. apply HT; apply Hk; assumption. }
    destruct (IH l2 l1) as [K3 K4]; [eapply sl_keeps_trans; eassumption|exact H|]. split; [exact K3|eapply XR_trans; eassumption]. }
  destruct (rfold _ _ l) as [l1| |] eqn:E; cbn; [|discriminate|discriminate]. intros [= _ <-]. cbn.
  destruct (H _ _ _ (sl_keeps_refl l) E) as [[K1 _] K2]. split; [rewrite K1; reflexivity|exact K2].
Qed.
Lemma dl_remove_node_X (T : EdgeKey -> Prop) l x r l' :
  (forall k, is_Some (ec_edges (dl_edges l) !! k) -> T k) ->
  (forall u v, u < two64 -> v < two64 -> dl_has_node l u = true -> dl_has_node l v = true -> T (edge_key u v)) -> dl_has_node l x = true ->
  dl_remove_node l x = Ok (r, l') -> dl_status l' = <[prefix_index x := NDeleted]> (dl_status l) /\ XR T (dl_edges l) (dl_edges l').
Proof.
  intros HE HT Hx. unfold dl_remove_node. rewrite Hx. cbn [negb].
  destruct (at_ _) as [slot| |]; cbn [rbind]; [|discriminate|discriminate]. destruct (deref slot) as [n| |]; cbn [rbind]; [|discriminate|discriminate].
  assert (H : forall ts l0 l1, (forall k, is_Some (ec_edges (dl_edges l0) !! k) -> T k) -> rfold (fun l t => let! (_, l') := dl_remove_edge l x t in Ok l') ts l0 = Ok l1 ->
     dl_keeps l0 l1 /\ XR T (dl_edges l0) (dl_edges l1)).
  { induction ts as [|t ts IH]; intros l0 l1 Hk; cbn; [intros [= <-]; split; [apply dl_keeps_refl|apply XR_same; reflexivity]|].
    destruct (dl_remove_edge l0 x t) as [[b l2]| |] eqn:E; cbn; [|discriminate|discriminate]. intros H.
    destruct (dl_remove_edge_X T l0 x t b l2 Hk E) as (K1 & K2 & K3).
    destruct (IH l2 l1 K3 H) as [K4 K5]. split; [eapply dl_keeps_trans; eassumption|eapply XR_trans; eassumption]. }
  set (prev := (x + (two64 - 1)) mod two64). set (next := (x + 1) mod two64).
  match goal with |- context [rbind (if ?c0 then _ else _) _] => set (c := c0) end.
  match goal with |- context [rbind ?m' _] => set (m := m') end.
  assert (Hm : forall d1, m = Ok d1 -> dl_keeps l d1 /\ XR T (dl_edges l) (dl_edges d1) /\ (forall k, is_Some (ec_edges (dl_edges d1) !! k) -> T k)).
  { unfold m. destruct c eqn:Ec; [|intros ? [= <-]; split; [apply dl_keeps_refl|]; split; [apply XR_same; reflexivity|exact HE]]. intros d1.
    unfold c in Ec. apply andb_true_iff in Ec as [Ec1 Ec2]. apply andb_true_iff in Ec1 as [Ec1 _]. apply andb_true_iff in Ec2 as [Ec2 _].
    destruct (dl_insert_edge _ _ _ _) as [[b d2]| |] eqn:E; cbn; [|discriminate|discriminate]. intros [= <-].
    destruct (dl_insert_edge_X T _ _ _ _ _ _ (HT prev next (N.mod_lt _ two64 ltac:(discriminate)) (N.mod_lt _ two64 ltac:(discriminate)) Ec1 Ec2) E) as (K1 & K2 & K3). split; [exact K1|]. split; [exact K2|].
    intros k Hk. destruct (K3 k Hk); auto. }
  clearbody m. destruct m as [d1| |]; cbn [rbind]; [|discriminate|discriminate]. destruct (Hm d1 eq_refl) as (M1 & M2 & M3).
  destruct (rfold _ _ d1) as [d2| |] eqn:E; cbn [rbind]; [|discriminate|discriminate].
  destruct (at_ (dl_slot d2 _)) as [s2| |]; cbn [rbind]; [|discriminate|discriminate]. destruct (deref s2) as [n2| |]; cbn [rbind]; [|discriminate|discriminate].
  destruct (deref (n_time n2)) as [tm| |]; cbn [rbind]; [|discriminate|discriminate]. intros [= _ <-]. cbn [dl_status dl_edges].
  destruct (H _ _ _ M3 E) as [[K1 _] K2]. destruct M1 as [M1 _]. split; [rewrite K1, M1; reflexivity|eapply XR_trans; eassumption].
Qed.
Lemma sl_merge_nodes_X (T : EdgeKey -> Prop) l f t r l' :
  (forall u v, is_Some (sl_nodes l !! u) -> is_Some (sl_nodes l !! v) -> T (edge_key u v)) -> is_Some (sl_nodes l !! f) ->
  is_Some (sl_nodes l !! t) -> f <> t ->
  sl_merge_nodes l f t = Ok (r, l') -> sl_status l' = <[f := NMerged]> (sl_status l) /\ XR T (sl_edges l) (sl_edges l').
Proof.
  intros HT Hf Ht Hne. unfold sl_merge_nodes, sl_has_node. rewrite !bool_decide_true by assumption. cbn [negb orb].
  destruct (N.eqb_spec f t) as [|_]; [contradiction|]. destruct Hf as [n Hn]. rewrite Hn. cbn [at_ rbind].
  assert (H : forall ts l0 l1, sl_keeps l l0 -> rfold (fun l x => let! (_, l') := sl_rewire_edge l f x t x in Ok l') ts l0 = Ok l1 ->
    sl_keeps l l1 /\ XR T (sl_edges l0) (sl_edges l1)).
  { induction ts as [|x ts IH]; intros l0 l4 Hk; cbn; [intros [= <-]; split; [exact Hk|apply XR_same; reflexivity]|].
    destruct (sl_rewire_edge l0 f x t x) as [[b l5]| |] eqn:E; cbn; [|discriminate|discriminate]. intros H.
    assert (K : sl_keeps l0 l5 /\ XR T (sl_edges l0) (sl_edges l5)).
    { clear IH H. revert E. unfold sl_rewire_edge, sl_has_node. assert (H0 : sl_keeps l0 l0 /\ XR T (sl_edges l0) (sl_edges l0)) by (split; [apply sl_keeps_refl|apply XR_same; reflexivity]).
      destruct (negb (sl_has_edge l0 f x)); [intros [= _ <-]; exact H0|].
      case_bool_decide as H1; cbn [negb orb]; [|intros [= _ <-]; exact H0]. case_bool_decide as H2; cbn [negb]; [|intros [= _ <-]; exact H0].
      destruct (_ && _); [intros [= _ <-]; exact H0|].
      apply (proj2 Hk) in H1. apply (proj2 Hk) in H2.
      destruct (_ || _).
      - destruct (sl_remove_edge l0 f x) as [[b' l1]| |] eqn:E; cbn; [|discriminate|discriminate]. intros [= _ <-].
        eapply sl_remove_edge_X; [|exact E]. intros _ _. apply HT; [eauto|assumption].
      - destruct (ec_rewire _ _ _ _ _) as [e| |] eqn:E; cbn; [|discriminate|discriminate].
        destruct (sl_upd _ f _) as [l1| |] eqn:E1; cbn; [|discriminate|discriminate].
        destruct (sl_upd l1 x _) as [l2| |] eqn:E2; cbn; [|discriminate|discriminate].
        destruct (sl_upd l2 t _) as [l3| |] eqn:E3; cbn; [|discriminate|discriminate].
        destruct (sl_upd l3 x _) as [l6| |] eqn:E4; cbn; [|discriminate|discriminate]. intros [= _ <-]. split.
        + eapply sl_keeps_trans; [apply (sl_with_edges_keeps l0 e)|]. eapply sl_keeps_trans; [eapply sl_upd_keeps, E1|]. eapply sl_keeps_trans; [eapply sl_upd_keeps, E2|].
          eapply sl_keeps_trans; [eapply sl_upd_keeps, E3|eapply sl_upd_keeps, E4].
        + rewrite (sl_upd_edges _ _ _ _ E4), (sl_upd_edges _ _ _ _ E3), (sl_upd_edges _ _ _ _ E2), (sl_upd_edges _ _ _ _ E1). cbn [sl_edges sl_with_edges].
          eapply XR_rewire; [| |exact E]; apply HT; eauto. }
    destruct K as [K1 K2]. destruct (IH l5 l4) as [K3 K4]; [eapply sl_keeps_trans; eassumption|exact H|]. split; [exact K3|eapply XR_trans; eassumption]. }
  destruct (rfold _ _ l) as [l4| |] eqn:E; cbn; [|discriminate|discriminate]. intros [= _ <-]. cbn.
  destruct (H _ _ _ (sl_keeps_refl l) E) as [[K1 _] K2]. split; [rewrite K1; reflexivity|exact K2].
Qed.

(** The containers a call on [g0] may change for a pair: the one its nodes belong to, or any if
    one of them is not known yet. *)
Definition tch (g0 : Graph) (c : cid) (k : EdgeKey) : Prop := cont g0 (fst k) (snd k) = Some c \/ cont g0 (fst k) (snd k) = None.
Lemma edge_key_self s t : edge_key (fst (edge_key s t)) (snd (edge_key s t)) = edge_key s t.
Proof. unfold edge_key. cbn. f_equal; lia. Qed.
Lemma tch_key g0 c s t : cont g0 s t = Some c \/ cont g0 s t = None -> tch g0 c (edge_key s t).
Proof. unfold tch. rewrite (cont_key g0 _ _ s t (edge_key_self s t)). auto. Qed.
Lemma at_cid g k b : g_layer_at g k = Ok b -> bcid k b = key_cid k.
Proof.
  unfold g_layer_at, key_cid. destruct (lk_dynamic k).
  - destruct (g_dlayer g _ _); cbn; [intros [= <-]; reflexivity|discriminate].
  - destruct (g_layers g !! _); cbn; [intros [= <-]; reflexivity|discriminate].
Qed.

Section Ops.
  Context (g0 : Graph) (a0 : AGraph) (HR0 : Rep g0 a0).
  Notation T := (tch g0).
  Lemma tch_same g s t k : g_lookup g = g_lookup g0 -> g_lookup g !! s = Some k -> g_lookup g !! t = Some k -> T (key_cid k) (edge_key s t).
  Proof using. intros E H1 H2. apply tch_key. left. rewrite E in *. unfold cont. rewrite H1, H2, decide_True by reflexivity. reflexivity. Qed.
  Lemma tch_pair g s t sk tk : g_lookup g = g_lookup g0 -> g_lookup g !! s = Some sk -> g_lookup g !! t = Some tk -> sk <> tk ->
    T (if pair_dyn sk tk then CDin else CIn) (edge_key s t).
  Proof using. intros E H1 H2 Hne. apply tch_key. left. rewrite E in *. unfold cont. rewrite H1, H2, decide_False by exact Hne. reflexivity. Qed.
  Lemma eqb_eq g s t sk tk : g_lookup g = g_lookup g0 -> g_lookup g !! s = Some sk -> g_lookup g !! t = Some tk -> key_eqb sk tk = true -> sk = tk.
  Proof using HR0. intros E H1 H2 H. rewrite E in *. apply (key_eqb_true sk tk); [eapply rp_canon; eassumption|eapply rp_canon; eassumption|exact H]. Qed.
  Lemma eqb_ne sk tk : key_eqb sk tk = false -> sk <> tk.
  Proof using. intros H ->. unfold key_eqb in H. destruct (lk_dynamic tk); cbn in H; rewrite ?N.eqb_refl in H; cbn in H; rewrite ?N.eqb_refl in H; discriminate. Qed.

  Lemma MM_upd_ptr g x k f : MM T g (g_upd_ptr g x k f) id.
  Proof using.
    unfold g_upd_ptr. destruct (lk_dynamic k).
    - destruct (g_dlayer g _ _) as [d|] eqn:Ed; cbn; [|exact I]. destruct (dl_slot d _); cbn; [|exact I].
      destruct (dl_upd d _ f) as [d'| |] eqn:E; cbn; [|exact I|exact I]. apply (MR_put T g k (BD d) (BD d') Ed I).
      + apply (dl_upd_status _ _ _ _ E).
      + apply XR_same. cbn. rewrite (dl_upd_edges _ _ _ _ E). reflexivity.
    - destruct (g_layers g !! _) as [d|] eqn:Ed; cbn; [|exact I]. destruct (sl_nodes d !! x); cbn; [|exact I].
      destruct (sl_upd d _ f) as [d'| |] eqn:E; cbn; [|exact I|exact I]. apply (MR_put T g k (BS d) (BS d') Ed I).
      + apply (sl_upd_status _ _ _ _ E).
      + apply XR_same. cbn. rewrite (sl_upd_edges _ _ _ _ E). reflexivity.
  Qed.
  Lemma MM_upd2 g x k f y k' f' : MM T g (let! g1 := g_upd_ptr g x k f in g_upd_ptr g1 y k' f') id.
  Proof using. eapply MM_step; [apply MM_upd_ptr|]. intros g1 _ _. apply MM_upd_ptr. Qed.
  Lemma MM_add_ancestry g s t sk tk : MM T g (g_add_ancestry g s t sk tk) id.
  Proof using.
    unfold g_add_ancestry. apply MM_bind; intros _ _. apply MM_bind; intros _ _.
    destruct (key_is_parent sk tk); [apply MM_upd2|]. destruct (key_is_parent tk sk); apply MM_upd2.
  Qed.
  Lemma MM_remove_ancestry g s t sk tk : MM T g (g_remove_ancestry g s t sk tk) id.
  Proof using.
    unfold g_remove_ancestry. apply MM_bind; intros _ _. apply MM_bind; intros _ _.
    destruct (key_is_parent sk tk); [apply MM_upd2|]. destruct (key_is_parent tk sk); apply MM_upd2.
  Qed.
  Lemma MM_remove_keys g s t sk tk : g_lookup g = g_lookup g0 -> g_lookup g !! s = Some sk -> g_lookup g !! t = Some tk -> sk <> tk ->
    MM T g (g_remove_interlayer_keys g s t sk tk) id.
  Proof using.
    intros E H1 H2 Hne. unfold g_remove_interlayer_keys. eapply MM_step; [apply MM_remove_ancestry|]. intros g1 _ _.
    apply MM_bind; intros c Hc. cbn. apply MR_pair. eapply XR_remove; [|exact Hc]. eapply tch_pair; eassumption.
  Qed.
  Lemma MM_remove_edge g s t : g_lookup g = g_lookup g0 -> MM T g (g_remove_edge g s t) snd.
  Proof using HR0.
    intros E. unfold g_remove_edge. apply MM_bind; intros [has keys] Hk. destruct (negb has); [apply MR_refl|].
    destruct keys as [[sk tk]|]; [|apply MR_refl].
    assert (Hl : g_lookup g !! s = Some sk /\ g_lookup g !! t = Some tk).
    { unfold g_has_edge_keys in Hk. destruct (g_lookup g !! s) as [ks|]; [|discriminate]. destruct (g_lookup g !! t) as [kt|]; [|discriminate].
      destruct (key_eqb ks kt); [|injection Hk as _ <- <-; auto]. destruct (g_layer_at g ks); cbn in Hk; [|discriminate|discriminate]. injection Hk as _ <- <-. auto. }
    destruct Hl as [Hs Ht]. destruct (_ || _); [apply MR_refl|]. destruct (key_eqb sk tk) eqn:Ek.
    - pose proof (eqb_eq g s t sk tk E Hs Ht Ek) as <-.
      apply MM_bind; intros b Hb. apply MM_bind; intros [r b'] Hb'. cbn [snd MM].
      assert (HT : T (bcid sk b) (edge_key s t)) by (rewrite (at_cid _ _ _ Hb); eapply tch_same; eassumption).
      destruct b as [l|d]; cbn in Hb'.
      + destruct (sl_remove_edge l s t) as [[b l']| |] eqn:Er; cbn in Hb'; [|discriminate|discriminate]. injection Hb' as _ <-.
        destruct (sl_remove_edge_X _ l s t b l' (fun _ _ => HT) Er) as [[K _] K2]. eapply MR_put; [apply layer_at_pre, Hb|exact I|exact K|exact K2].
      + destruct (dl_remove_edge d s t) as [[b l']| |] eqn:Er; cbn in Hb'; [|discriminate|discriminate]. injection Hb' as _ <-.
        eapply MR_put; [apply layer_at_pre, Hb|exact I| |].
        * unfold dl_remove_edge in Er. destruct (negb _); [injection Er as _ <-; reflexivity|].
          destruct (dl_upd d _ _) as [l1| |] eqn:E1; cbn in Er; [|discriminate|discriminate].
          destruct (dl_upd l1 _ _) as [l2| |] eqn:E2; cbn in Er; [|discriminate|discriminate].
          destruct (ec_remove _ s t) as [e| |] eqn:E3; cbn in Er; [|discriminate|discriminate]. injection Er as _ <-. cbn.
          rewrite (proj1 (dl_upd_status _ _ _ _ E2)), (proj1 (dl_upd_status _ _ _ _ E1)). reflexivity.
        * unfold dl_remove_edge in Er. destruct (negb _); [injection Er as _ <-; apply XR_same; reflexivity|].
          destruct (dl_upd d _ _) as [l1| |] eqn:E1; cbn in Er; [|discriminate|discriminate].
          destruct (dl_upd l1 _ _) as [l2| |] eqn:E2; cbn in Er; [|discriminate|discriminate].
          destruct (ec_remove _ s t) as [e| |] eqn:E3; cbn in Er; [|discriminate|discriminate]. injection Er as _ <-. cbn [bl_edges dl_edges dl_with_edges].
          rewrite (dl_upd_edges _ _ _ _ E2), (dl_upd_edges _ _ _ _ E1) in E3. eapply XR_remove; [exact HT|exact E3].
    - eapply MM_step; [apply MM_remove_keys; try assumption; apply eqb_ne, Ek|]. intros g1 _ _. apply MR_refl.
  Qed.
  Lemma MM_insert_inter g s t sk tk i : g_lookup g = g_lookup g0 -> g_lookup g !! s = Some sk -> g_lookup g !! t = Some tk -> sk <> tk ->
    MM T g (let! g1 := g_add_ancestry g s t sk tk in
           Ok (true, g_with_pair_ec g1 sk tk (ec_insert (g_pair_ec g1 sk tk) s t i))) snd.
  Proof using.
    intros E H1 H2 Hne. eapply MM_step; [apply MM_add_ancestry|]. intros g1 _ _. cbn. apply MR_pair, XR_insert. eapply tch_pair; eassumption.
  Qed.
  Lemma has_keys g s t has sk tk : g_has_edge_keys g s t = Ok (has, Some (sk, tk)) -> g_lookup g !! s = Some sk /\ g_lookup g !! t = Some tk.
  Proof using.
    intros Hk. unfold g_has_edge_keys in Hk. destruct (g_lookup g !! s) as [ks|]; [|discriminate]. destruct (g_lookup g !! t) as [kt|]; [|discriminate].
    destruct (key_eqb ks kt); [|injection Hk as _ <- <-; auto]. destruct (g_layer_at g ks); cbn in Hk; [|discriminate|discriminate]. injection Hk as _ <- <-. auto.
  Qed.
  Lemma MM_insert_edge g s t i : g_lookup g = g_lookup g0 -> MM T g (g_insert_edge g s t i) snd.
  Proof using HR0.
    intros E. unfold g_insert_edge. apply MM_bind; intros [has keys] Hk. destruct has; [apply MR_refl|].
    destruct keys as [[sk tk]|]; [|apply MR_refl]. apply has_keys in Hk as [Hs Ht].
    destruct (_ || _); [apply MR_refl|]. destruct (key_eqb sk tk) eqn:Ek.
    - pose proof (eqb_eq g s t sk tk E Hs Ht Ek) as <-.
      apply MM_bind; intros b Hb. apply MM_bind; intros [r b'] Hb'. cbn [snd MM].
      assert (HT : T (bcid sk b) (edge_key s t)) by (rewrite (at_cid _ _ _ Hb); eapply tch_same; eassumption).
      destruct b as [l|d]; cbn in Hb'.
      + destruct (sl_insert_edge l s t i) as [[b l']| |] eqn:Er; cbn in Hb'; [|discriminate|discriminate]. injection Hb' as _ <-.
        destruct (sl_insert_edge_X _ l s t i b l' HT Er) as [[K _] K2]. eapply MR_put; [apply layer_at_pre, Hb|exact I|exact K|exact K2].
      + destruct (dl_insert_edge d s t i) as [[b l']| |] eqn:Er; cbn in Hb'; [|discriminate|discriminate]. injection Hb' as _ <-.
        destruct (dl_insert_edge_X _ d s t i b l' HT Er) as ([K _] & K2 & _). eapply MR_put; [apply layer_at_pre, Hb|exact I|exact K|exact K2].
    - apply MM_insert_inter; try assumption. apply eqb_ne, Ek.
  Qed.
  Lemma MM_rfold {A} (f : Graph -> A -> result Graph) l : (forall g x, g_lookup g = g_lookup g0 -> x ∈ l -> MM T g (f g x) id) ->
    forall g, g_lookup g = g_lookup g0 -> MM T g (rfold f l g) id.
  Proof using.
    induction l as [|x r IH]; intros H g E; cbn; [apply MR_refl|]. eapply MM_step; [apply H; [exact E|left]|].
    intros g1 _ (E1 & _). apply IH; [intros g' y E' Hy; apply H; [exact E'|right; exact Hy]|]. unfold id in *. congruence.
  Qed.
  Lemma MM_insert_parent_edge g s t i : g_lookup g = g_lookup g0 ->
    (forall sk tk, g_lookup g !! s = Some sk -> g_lookup g !! t = Some tk -> sk <> tk) -> MM T g (g_insert_parent_edge g s t i) snd.
  Proof using HR0.
    intros E Hne. unfold g_insert_parent_edge. apply MM_bind; intros [has keys] Hk. destruct has; [apply MR_refl|].
    destruct keys as [[sk tk]|]; [|apply MR_refl]. apply has_keys in Hk as [Hs Ht]. destruct (_ || _); [apply MR_refl|].
    assert (Hd : MM T g (if negb (key_eqb sk tk) then g_drop_all_parents g s t sk tk else Ok g) id).
    { destruct (negb _); [|apply MR_refl]. unfold g_drop_all_parents. apply MM_bind; intros so _. apply MM_bind; intros to _.
      apply MM_bind; intros n _. apply MM_rfold; [|exact E]. intros g1 p E1 _. eapply MM_step; [apply MM_remove_edge, E1|]. intros [b g2] _ _. apply MR_refl. }
    eapply MM_step; [apply Hd|]. intros g1 _ (E1 & _). unfold id in *. apply MM_insert_inter; try congruence. apply Hne; assumption.
  Qed.
  Lemma MM_find g s t : MM T g (g_find_edge g s t) snd.
  Proof using.
    unfold g_find_edge. apply MM_bind; intros sk _. apply MM_bind; intros tk _. destruct (key_eqb sk tk).
    - apply MM_bind; intros b Hb. cbn. eapply MR_put; [apply layer_at_pre, Hb|destruct b; exact I|destruct b; reflexivity|].
      apply XR_same. destruct b; cbn; apply touch_status.
    - cbn. apply MR_pair, XR_same, touch_status.
  Qed.
  Lemma MM_set_edge g s t a : MM T g (g_set_edge_attributes g s t a) snd.
  Proof using.
    unfold g_set_edge_attributes. apply MM_bind; intros sk _. apply MM_bind; intros tk _. destruct (key_eqb sk tk).
    - apply MM_bind; intros b Hb. destruct (ec_find (bl_edges b) s t); cbn.
      + eapply MR_put; [apply layer_at_pre, Hb|destruct b; exact I|destruct b; reflexivity|]. apply XR_same. destruct b; cbn; apply touch_status.
      + eapply MR_put; [apply layer_at_pre, Hb|destruct b; exact I|destruct b; reflexivity|]. apply XR_same. destruct b; reflexivity.
    - destruct (ec_find _ s t); cbn; apply MR_pair, XR_same; [apply touch_status|reflexivity].
  Qed.
  Lemma MM_rewire g s nw t k kt : g_lookup g = g_lookup g0 -> g_lookup g !! s = Some k -> g_lookup g !! nw = Some k -> g_lookup g !! t = Some kt -> kt <> k ->
    MM T g (g_rewire_interlayer g s nw t) id.
  Proof using.
    intros E Hs Hn Ht Hne. unfold g_rewire_interlayer. destruct (s =? nw); [apply MR_refl|]. rewrite Hs. cbn [at_ rbind].
    apply MM_bind; intros [has keys] Hk. assert (Hks : keys = Some (k, kt)).
    { unfold g_has_edge_keys in Hk. rewrite Hn, Ht in Hk. destruct (key_eqb k kt); [|injection Hk as _ <-; reflexivity].
      destruct (g_layer_at g k); cbn in Hk; [|discriminate|discriminate]. injection Hk as _ <-. reflexivity. }
    subst keys. destruct has; [apply MM_remove_keys; congruence|].
    eapply MM_step; [apply MM_remove_ancestry|]. intros g1 _ _. eapply MM_step; [apply MM_add_ancestry|]. intros g2 _ _. unfold id in *.
    destruct (ec_find _ s t) as [e|]; [|apply MR_refl].
    apply MM_bind; intros c' Hc. cbn. eapply MR_trans.
    - apply (MR_pair T g2 k kt c'). eapply XR_trans; [apply XR_same; apply (touch_status _ s t)|]. eapply XR_remove; [|exact Hc].
      eapply tch_pair; try eassumption. congruence.
    - apply MR_pair, XR_insert. eapply tch_pair; try eassumption. congruence.
  Qed.
End Ops.
