(** The last slot of a dynamic layer of a loaded graph is in use. *)
From Coq Require Import NArith ZArith Bool List Lia.
From stdpp Require Import base list gmap fin_maps tactics.
From Verif.Model Require Import Types Mesh Attrs Node EdgeContainer SLayer DLayer Graph Binary Versioning AttrCodec Registry GraphCodec Json Rotation JsonCodec GraphJson.
From Verif.Spec Require Import BinarySpec AbstractGraph GraphHistory.
From Verif.Proof Require Import Arith Keys DLayerP GraphRep GraphMesh MessageP.
Local Open Scope N_scope.

Definition ltight (d : DLayer) : Prop := list.last (dl_nodes d) <> Some None /\ dl_next d = 0.
Definition tight (g : Graph) : Prop := forall l p d, g_dlayer g l p = Some d -> ltight d.
Definition keept (g : Graph) {A} (r : result A) (f : A -> Graph) : Prop :=
  tight g -> match r with Ok x => tight (f x) | _ => True end.

Lemma tight_set_dlayer g l p d : tight g -> ltight d -> tight (g_set_dlayer g l p d).
Proof.
  intros Hg Hd l' p' d'. unfold g_dlayer, g_set_dlayer, g_with_dlayers. cbn [g_dlayers].
  destruct (decide (l' = l)) as [->|Hl]; [|rewrite lookup_insert_ne by congruence; apply Hg].
  rewrite lookup_insert. destruct (decide (p' = p)) as [->|Hp]; [rewrite lookup_insert; congruence|].
  rewrite lookup_insert_ne by congruence. intros H. apply (Hg l p'). unfold g_dlayer. destruct (g_dlayers g !! l); [exact H|]. cbn in H. rewrite lookup_empty in H. discriminate.
Qed.
Lemma tight_same g g' : g_dlayers g' = g_dlayers g -> tight g -> tight g'.
Proof. intros E H l p d. unfold g_dlayer. rewrite E. apply H. Qed.
Lemma keept_bind g {A B} (r : result A) (k : A -> result B) (f : B -> Graph) :
  (forall x, r = Ok x -> keept g (k x) f) -> keept g (rbind r k) f.
Proof. intros H Hg. destruct r; cbn; auto. exact (H _ eq_refl Hg). Qed.
Lemma keept_trans g {A B} (r : result A) (k : A -> result B) (h : A -> Graph) (f : B -> Graph) :
  keept g r h -> (forall x, keept (h x) (k x) f) -> keept g (rbind r k) f.
Proof. intros H1 H2 Hg. specialize (H1 Hg). destruct r as [x| |]; cbn in *; auto. exact (H2 x H1). Qed.
Lemma keept_rfold {A} (f : Graph -> A -> result Graph) l : (forall g x, keept g (f g x) id) -> forall g, keept g (rfold f l g) id.
Proof.
  intros H. induction l as [|x r IH]; intros g; cbn; [intros Hg; exact Hg|]. eapply keept_trans; [apply H|]. intros y. apply IH.
Qed.
(** *** one layer *)
Lemma last_insert {A} (l : list A) i x : (i < length l)%nat -> list.last (<[i := x]> l) = Some x \/ list.last (<[i := x]> l) = list.last l.
Proof.
  intros Hi. rewrite !last_lookup, insert_length. destruct (decide (i = pred (length l))) as [->|Hne].
  - left. apply list_lookup_insert. lia.
  - right. apply list_lookup_insert_ne. exact Hne.
Qed.
Lemma ltight_insert d i n : (i < length (dl_nodes d))%nat -> ltight d -> list.last (<[i := Some n]> (dl_nodes d)) <> Some None /\ dl_next d = 0.
Proof. intros Hi [H H0]. split; [|exact H0]. destruct (last_insert (dl_nodes d) i (Some n) Hi) as [-> | ->]; [discriminate|exact H]. Qed.
Lemma ltight_upd d i f d' : dl_upd d i f = Ok d' -> ltight d -> ltight d'.
Proof.
  unfold dl_upd, dl_slot. destruct (i <? dl_size d) eqn:E; [|discriminate]. destruct (dl_nodes d !! N.to_nat i) as [[n|]|] eqn:E'; [|discriminate..].
  intros [= <-] H. unfold ltight. cbn. apply ltight_insert; [apply lookup_lt_Some in E'; exact E'|exact H].
Qed.
Lemma ltight_edges d e : ltight d -> ltight (dl_with_edges d e). Proof. exact (fun H => H). Qed.
Lemma ltight_insert_edge d s t i r d' : dl_insert_edge d s t i = Ok (r, d') -> ltight d -> ltight d'.
Proof.
  unfold dl_insert_edge. destruct (s =? t); [intros [= _ <-]; auto|]. destruct (dl_has_edge d s t); [intros [= _ <-]; auto|].
  destruct (_ || _); [intros [= _ <-]; auto|]. destruct (dl_upd d _ _) as [d1| |] eqn:E1; cbn [rbind]; [|discriminate..].
  destruct (dl_upd d1 _ _) as [d2| |] eqn:E2; cbn [rbind]; [|discriminate..]. intros [= _ <-] H. apply ltight_edges.
  eapply ltight_upd; [exact E2|]. eapply ltight_upd; [exact E1|exact H].
Qed.
Lemma ltight_remove_edge d s t r d' : dl_remove_edge d s t = Ok (r, d') -> ltight d -> ltight d'.
Proof.
  unfold dl_remove_edge. destruct (negb _); [intros [= _ <-]; auto|].
  destruct (dl_upd d _ _) as [d1| |] eqn:E1; cbn [rbind]; [|discriminate..].
  destruct (dl_upd d1 _ _) as [d2| |] eqn:E2; cbn [rbind]; [|discriminate..]. destruct (ec_remove _ _ _); cbn [rbind]; [|discriminate..]. intros [= _ <-] H. apply ltight_edges.
  eapply ltight_upd; [exact E2|]. eapply ltight_upd; [exact E1|exact H].
Qed.
Lemma pad_length k : forall nodes st, length (fst (dl_pad k nodes st)) = (k + length nodes)%nat.
Proof. induction k as [|k IH]; intros nodes st; [reflexivity|]. cbn [dl_pad]. rewrite IH, app_length. cbn. lia. Qed.
Lemma ltight_emplace_at d t i a : ltight d -> ltight (snd (dl_emplace_at d t i a)).
Proof.
  intros H. unfold dl_emplace_at. destruct (dl_has_index d i); [exact H|]. destruct (dl_size d <=? i) eqn:E.
  - apply N.leb_le in E. unfold dl_size in *. pose proof (pad_length (S (N.to_nat (i - N.of_nat (length (dl_nodes d))))) (dl_nodes d) (dl_status d)) as P.
    destruct (dl_pad _ _ _) as [nodes st]. cbn [fst snd] in *. unfold ltight. cbn [dl_nodes]. rewrite last_lookup, insert_length.
    replace (pred (length nodes)) with (N.to_nat i) by lia. rewrite list_lookup_insert by lia. split; [discriminate|apply H].
  - apply N.leb_gt in E. unfold dl_size in E. unfold ltight. cbn [snd dl_nodes dl_next]. apply ltight_insert; [lia|exact H].
Qed.
(** *** the graph *)
Lemma tight_layer_at g k d : g_layer_at g k = Ok (BD d) -> tight g -> ltight d.
Proof.
  unfold g_layer_at. destruct (lk_dynamic k); [|destruct (_ !! _); discriminate]. destruct (g_dlayer g _ _) as [d0|] eqn:E; [|discriminate].
  intros [= <-] H. exact (H _ _ _ E).
Qed.
Lemma tight_put g k b : (forall d, b = BD d -> ltight d) -> tight g -> tight (g_put_layer g k b).
Proof. intros Hb Hg. destruct b as [s|d]; [exact (tight_same g _ eq_refl Hg)|]. apply tight_set_dlayer; [exact Hg|apply Hb; reflexivity]. Qed.
Lemma tight_with_pair g k k' e : tight g -> tight (g_with_pair_ec g k k' e).
Proof. unfold g_with_pair_ec. destruct (_ || _); apply tight_same; reflexivity. Qed.
Lemma keept_upd_ptr g x k f : keept g (g_upd_ptr g x k f) id.
Proof.
  unfold g_upd_ptr. destruct (lk_dynamic k).
  - destruct (g_dlayer g _ _) as [d|] eqn:E; [|intros _; exact I]. cbn [at_ rbind]. apply keept_bind; intros sl _. apply keept_bind; intros d' Hd' Hg.
    apply tight_set_dlayer; [exact Hg|]. eapply ltight_upd; [exact Hd'|exact (Hg _ _ _ E)].
  - repeat (apply keept_bind; intros ? _). intros Hg. exact (tight_same g _ eq_refl Hg).
Qed.
Lemma keept_upd2 g x k f y k' f' : keept g (let! g1 := g_upd_ptr g x k f in g_upd_ptr g1 y k' f') id.
Proof. eapply keept_trans; [apply keept_upd_ptr|]. intros g1. apply keept_upd_ptr. Qed.
Lemma keept_add_ancestry g s t sk tk : keept g (g_add_ancestry g s t sk tk) id.
Proof.
  unfold g_add_ancestry. apply keept_bind; intros _ _. apply keept_bind; intros _ _.
  destruct (key_is_parent sk tk); [apply keept_upd2|]. destruct (key_is_parent tk sk); apply keept_upd2.
Qed.
Lemma keept_remove_ancestry g s t sk tk : keept g (g_remove_ancestry g s t sk tk) id.
Proof.
  unfold g_remove_ancestry. apply keept_bind; intros _ _. apply keept_bind; intros _ _.
  destruct (key_is_parent sk tk); [apply keept_upd2|]. destruct (key_is_parent tk sk); apply keept_upd2.
Qed.
Lemma keept_remove_keys g s t sk tk : keept g (g_remove_interlayer_keys g s t sk tk) id.
Proof.
  unfold g_remove_interlayer_keys. eapply keept_trans; [apply keept_remove_ancestry|]. intros g1.
  apply keept_bind; intros c _. intros Hg. apply tight_with_pair. exact Hg.
Qed.
Lemma keept_remove_edge g s t : keept g (g_remove_edge g s t) snd.
Proof.
  unfold g_remove_edge. apply keept_bind; intros [has keys] _. destruct (negb has); [intros H; exact H|].
  destruct keys as [[sk tk]|]; [|intros H; exact H]. destruct (_ || _); [intros H; exact H|]. destruct (key_eqb sk tk).
  - apply keept_bind; intros b Hb. apply keept_bind; intros [r b'] Hb' Hg. apply tight_put; [|exact Hg]. intros d ->.
    destruct b as [s0|d0]; cbn in Hb'; [destruct (sl_remove_edge _ _ _) as [[]| |]; discriminate|].
    destruct (dl_remove_edge d0 s t) as [[r1 d1]| |] eqn:E; cbn in Hb'; [|discriminate..]. injection Hb' as -> ->. eapply ltight_remove_edge; [exact E|]. eapply tight_layer_at; eassumption.
  - eapply keept_trans; [apply keept_remove_keys|]. intros g1 Hg. exact Hg.
Qed.
Lemma keept_insert_edge g s t i : keept g (g_insert_edge g s t i) snd.
Proof.
  unfold g_insert_edge. apply keept_bind; intros [has keys] _. destruct has; [intros H; exact H|].
  destruct keys as [[sk tk]|]; [|intros H; exact H]. destruct (_ || _); [intros H; exact H|]. destruct (key_eqb sk tk).
  - apply keept_bind; intros b Hb. apply keept_bind; intros [r b'] Hb' Hg. apply tight_put; [|exact Hg]. intros d ->.
    destruct b as [s0|d0]; cbn in Hb'; [destruct (sl_insert_edge _ _ _ _) as [[]| |]; discriminate|].
    destruct (dl_insert_edge d0 s t i) as [[r1 d1]| |] eqn:E; cbn in Hb'; [|discriminate..]. injection Hb' as -> ->. eapply ltight_insert_edge; [exact E|]. eapply tight_layer_at; eassumption.
  - eapply keept_trans; [apply keept_add_ancestry|]. intros g1 Hg. apply tight_with_pair, Hg.
Qed.
Lemma keept_set_edge_attributes g s t i : keept g (g_set_edge_attributes g s t i) snd.
Proof.
  unfold g_set_edge_attributes. apply keept_bind; intros sk _. apply keept_bind; intros tk _.
  destruct (key_eqb sk tk).
  - apply keept_bind; intros b Hb Hg. destruct (ec_find _ _ _); cbn [rbind snd]; (apply tight_put; [|exact Hg]; intros d E; destruct b as [s0|d0]; cbn in E; [discriminate|];
      injection E as <-; apply ltight_edges; eapply tight_layer_at; eassumption).
  - intros Hg. destruct (ec_find _ _ _); cbn; apply tight_with_pair, Hg.
Qed.
Lemma keept_add_or_update_edge g s t i : keept g (g_add_or_update_edge g s t i) snd.
Proof. unfold g_add_or_update_edge. apply keept_bind; intros [] _; [apply keept_set_edge_attributes|apply keept_insert_edge]. Qed.
Lemma keept_emplace_prev g l x t a : keept g (g_emplace_prev g l x t a) snd.
Proof.
  unfold g_emplace_prev. destruct (g_has_node g x); [intros H; exact H|]. intros Hg.
  assert (Hc : tight (snd (g_create_dlayer g l (prefix_from_id x)))).
  { unfold g_create_dlayer. destruct (g_has_dlayer _ _ _); [exact Hg|]. apply tight_set_dlayer; [exact Hg|]. split; [discriminate|reflexivity]. }
  revert Hc. generalize (snd (g_create_dlayer g l (prefix_from_id x))). intros g1 Hc. destruct (g_dlayer g1 l (prefix_from_id x)) as [d|] eqn:E; [|exact I]. cbn [deref rbind].
  pose proof (ltight_emplace_at d t (prefix_index x) a (Hc _ _ _ E)) as Hd. destruct (dl_emplace_at _ _ _ _) as [ok d']. cbn [snd] in *.
  pose proof (tight_set_dlayer g1 l (prefix_from_id x) d' Hc Hd) as H. destruct ok; [exact (tight_same _ _ eq_refl H)|exact H].
Qed.
Lemma tight_emplace g l x a : tight g -> tight (snd (g_emplace_node g l x a)).
Proof.
  intros Hg. unfold g_emplace_node. destruct (g_has_node g x); [exact Hg|]. destruct (g_layers g !! l); [|exact Hg].
  destruct (sl_emplace_node _ _ _) as [[] ?]; exact (tight_same g _ eq_refl Hg).
Qed.
Lemma keept_add_or_update_node g l x a t : keept g (g_add_or_update_node g l x a t) snd.
Proof.
  unfold g_add_or_update_node. destruct (g_layers g !! l); [|intros H; exact H]. destruct (g_lookup g !! x).
  - eapply keept_trans; [apply keept_upd_ptr|]. intros g1 H. exact H.
  - destruct t; [apply keept_emplace_prev|]. intros Hg. destruct (sl_emplace_node _ _ _) as [[] ?]; exact (tight_same g _ eq_refl Hg).
Qed.
Lemma tight_mark g : tight g -> tight (g_mark_stale g).
Proof.
  intros Hg ly p d. unfold g_dlayer, g_mark_stale. cbn [g_dlayers]. rewrite lookup_fmap. destruct (g_dlayers g !! ly) as [m|] eqn:E; [|discriminate].
  cbn [fmap option_fmap option_map]. rewrite lookup_fmap. destruct (m !! p) as [d0|] eqn:E'; [|discriminate]. cbn. intros [= <-]. apply ltight_edges. apply (Hg ly p). unfold g_dlayer. rewrite E. exact E'.
Qed.
Lemma keept_remove_stale ks : forall g, keept g (g_remove_stale g ks) id.
Proof. apply keept_rfold. intros g k. eapply keept_trans; [apply keept_remove_edge|]. intros [r g'] H. exact H. Qed.
Lemma keept_remove_all_stale g : keept g (g_remove_all_stale g) id.
Proof.
  unfold g_remove_all_stale. eapply keept_trans; [apply keept_remove_stale|]. intros g1. eapply keept_trans; [apply keept_remove_stale|]. intros g2.
  eapply keept_trans; [apply keept_remove_stale|]. intros g3. apply keept_remove_stale.
Qed.
Lemma tight_new ids g : g_new ids = Ok g -> tight g /\ dom (g_lookup g) = ∅.
Proof.
  unfold g_new. destruct ids; [discriminate|]. intros [= <-]. split; [|cbn; apply dom_empty_L]. intros ly p d. unfold g_dlayer. cbn. rewrite lookup_empty. discriminate.
Qed.
(** *** reading JSON *)
Lemma keept_node_json env f g j : keept g (node_from_json env f g j) id.
Proof.
  unfold node_from_json. do 6 (apply keept_bind; let v := fresh "v" in intros v _). match goal with |- keept _ (match ?o with _ => _ end) _ => destruct o as [a|]; [|intros _; exact I] end.
  apply (keept_trans g _ _ snd); [|intros [[] g'] H; [exact H|exact I]]. destruct (j_contains _ _).
  - do 2 (apply keept_bind; let v := fresh "v" in intros v _). apply keept_emplace_prev.
  - intros Hg. apply tight_emplace, Hg.
Qed.
Lemma keept_edge_json f g j : keept g (edge_from_json f g j) id.
Proof.
  unfold edge_from_json. do 6 (apply keept_bind; let v := fresh "v" in intros v _).
  apply (keept_trans g _ _ snd); [apply keept_insert_edge|intros [[] g'] H; [exact H|exact I]].
Qed.
Lemma tight_json fsub p j g : read_graph_json fsub p j = Ok g -> tight g.
Proof.
  unfold read_graph_json. intros H. destruct (if j_contains j header_field then _ else _) as [h| |]; [|discriminate..]. cbn [rbind] in H.
  destruct (j_at j _) as [jl| |]; [|discriminate..]. cbn [rbind] in H. destruct (jc_from jc_u64s jl) as [ids| |]; [|discriminate..]. cbn [rbind] in H.
  destruct (g_new ids) as [g0| |] eqn:E0; [|discriminate..]. cbn [rbind] in H. destruct (tight_new _ _ E0) as [T0 _].
  destruct (j_at j _) as [jn| |]; [|discriminate..]. cbn [rbind] in H.
  destruct (rfold _ _ g0) as [g1| |] eqn:E1 in H; [|discriminate..]. cbn [rbind] in H.
  assert (T1 : tight g1) by (pose proof (keept_rfold _ (j_items jn) (keept_node_json (mkEnv (h_version h) fsub) (reg_current (pg_nodes p))) g0 T0) as K; rewrite E1 in K; exact K).
  destruct (j_at j _) as [je| |]; [|discriminate..]. cbn [rbind] in H.
  destruct (rfold _ _ g1) as [g2| |] eqn:E2 in H; [|discriminate..]. cbn [rbind] in H.
  assert (T2 : tight g2) by (pose proof (keept_rfold _ (j_items je) (keept_edge_json (reg_current (pg_edges p))) g1 T1) as K; rewrite E2 in K; exact K).
  destruct (j_contains j _); [|injection H as <-; exact T2].
  destruct (j_at j _) as [jm| |]; [|discriminate..]. cbn [rbind] in H. destruct (dump jm) as [t| |]; [|discriminate..]. cbn [rbind] in H.
  destruct (mesh_from_text t) as [m| |]; [|discriminate..]. cbn [rbind] in H. injection H as <-. exact (tight_same g2 _ eq_refl T2).
Qed.
(** *** reading bytes *)
Lemma loop_inv {S} (P : S -> Prop) (step : S -> Reader S) : (forall s buf pos s' n, P s -> step s buf pos = Val s' n -> P s') ->
  forall fuel s buf pos s' n, P s -> read_loop step fuel s buf pos = Val s' n -> P s'.
Proof.
  intros Hs. induction fuel as [|fuel IH]; intros s buf pos s' n HP H; [discriminate|]. cbn [read_loop] in H.
  apply bind_val in H as (e & q & _ & H). destruct e.
  - apply ret_val in H as [<- _]. exact HP.
  - apply bind_val in H as (s1 & q1 & H1 & H). eapply IH; [|exact H]. eapply Hs; eassumption.
Qed.
Lemma array_inv {S} (P : S -> Prop) (step : S -> Reader S) s buf pos s' n : (forall s buf pos s' n, P s -> step s buf pos = Val s' n -> P s') ->
  P s -> read_dynamic_array step s buf pos = Val s' n -> P s'.
Proof. intros Hs HP H. unfold read_dynamic_array in H. apply bind_val in H as (u & q & _ & H). eapply loop_inv; eassumption. Qed.
Lemma tight_parse_node env f g buf pos x g' n : tight g -> parse_node env f g buf pos = Val (x, g') n -> tight g'.
Proof.
  intros Hg H. unfold parse_node in H. apply bind_val in H as (u0 & q0 & _ & H). apply bind_val in H as (ly & q1 & _ & H). apply bind_val in H as (nd & q2 & _ & H). apply bind_val in H as (st & q3 & _ & H). apply bind_val in H as (oa & q4 & _ & H).
  match type of H with (match ?o with _ => _ end) _ _ = _ => destruct o as [a|] end.
  - apply bind_val in H as ([r g1] & q & H1 & H). apply ret_val in H as [E _]. injection E as _ <-. apply lift_val in H1 as [H1 _].
    pose proof (keept_add_or_update_node g ly nd a st Hg) as K. rewrite H1 in K. exact K.
  - apply ret_val in H as [E _]. injection E as _ <-. exact Hg.
Qed.
Lemma tight_parse_edge f g buf pos g' n : tight g -> parse_edge f g buf pos = Val g' n -> tight g'.
Proof.
  intros Hg H. unfold parse_edge in H. apply bind_val in H as (u0 & q0 & _ & H). apply bind_val in H as (es & q1 & _ & H). apply bind_val in H as (et & q2 & _ & H). apply bind_val in H as (oa & q3 & _ & H).
  match type of H with (match ?o with _ => _ end) _ _ = _ => destruct o as [a|] end.
  - apply bind_val in H as ([r g1] & q & H1 & H). apply ret_val in H as [<- _]. apply lift_val in H1 as [H1 _].
    pose proof (keept_add_or_update_edge g es et a Hg) as K. rewrite H1 in K. exact K.
  - apply bind_val in H as (has & q & _ & H). destruct has; [discriminate|]. apply bind_val in H as ([r g1] & q9 & H1 & H). apply ret_val in H as [<- _].
    apply lift_val in H1 as [H1 _]. pose proof (keept_insert_edge g es et None Hg) as K. rewrite H1 in K. exact K.
Qed.
Lemma tight_update env p g buf pos g' n : tight g -> dom (g_lookup g) = ∅ -> update_graph env p g buf pos = Val g' n -> tight g'.
Proof.
  intros Hg Hd H. unfold update_graph in H. do 3 (apply bind_val in H as (? & ? & _ & H)).
  set (P := fun st : Graph * gset N => tight (fst st) /\ snd st = ∅).
  assert (Hstep : forall f (s : Graph * gset N) buf pos s' n, P s -> node_round env f s buf pos = Val s' n -> P s').
  { intros f [g0 s0] b i [g1 s1] k [H1 H2] Hr. unfold node_round in Hr. apply bind_val in Hr as ([y g2] & q & Hr1 & Hr). apply ret_val in Hr as [E _]. injection E as <- <-.
    cbn [fst snd] in *. split; cbn [fst snd]; [eapply tight_parse_node; eassumption|]. rewrite H2. set_solver. }
  apply bind_val in H as (st1 & ? & H1 & H). assert (P1 : P st1) by (eapply array_inv; [apply Hstep| |exact H1]; split; assumption).
  apply bind_val in H as (st2 & ? & H2 & H). assert (P2 : P st2) by (eapply array_inv; [apply Hstep|exact P1|exact H2]).
  apply bind_val in H as (g3 & ? & H3 & H). apply lift_val in H3 as [H3 _]. destruct P2 as [T2 S2]. rewrite S2, elements_empty in H3. cbn in H3. injection H3 as <-.
  apply bind_val in H as (g4 & ? & H4 & H). assert (T4 : tight g4).
  { eapply (array_inv tight); [intros s b i s' k HP Hs; eapply tight_parse_edge; eassumption| |exact H4]. apply tight_mark, T2. }
  apply bind_val in H as (g5 & ? & H5 & H). apply lift_val in H5 as [H5 _]. pose proof (keept_remove_all_stale g4 T4) as T5. rewrite H5 in T5.
  apply bind_val in H as (m & ? & _ & H). destruct m.
  - apply bind_val in H as (mesh & ? & _ & H). apply ret_val in H as [<- _]. exact (tight_same g5 _ eq_refl T5).
  - apply ret_val in H as [<- _]. exact T5.
Qed.
Lemma tight_read env p buf pos g n : read_graph env p buf pos = Val g n -> tight g.
Proof.
  intros H. unfold read_graph in H. apply bind_val in H as (ids & ? & _ & H). apply bind_val in H as (g0 & ? & H0 & H). apply lift_val in H0 as [H0 _].
  destruct (tight_new _ _ H0) as [T D]. eapply tight_update; eassumption.
Qed.
Lemma tight_load fsub p file g n : load_binary fsub p file = Val g n -> tight g.
Proof. unfold load_binary. destruct (load_prologue file) as [[h off]| |]; [|discriminate..]. apply tight_read. Qed.
