(** Facts about edge keys and edge containers. *)
From Coq Require Import NArith Bool List Lia.
From stdpp Require Import base list gmap fin_maps tactics.
From Verif.Model Require Import Types Attrs EdgeContainer.
Local Open Scope N_scope.

Lemma edge_key_comm a b : edge_key a b = edge_key b a.
Proof. unfold edge_key. rewrite N.min_comm, N.max_comm. reflexivity. Qed.

Lemma edge_key_inj a b c d :
  edge_key a b = edge_key c d <-> (a = c /\ b = d) \/ (a = d /\ b = c).
Proof.
  unfold edge_key. split.
  - intros H. injection H as H1 H2. lia.
  - intros [[-> ->]|[-> ->]]; [reflexivity|]. rewrite N.min_comm, N.max_comm. reflexivity.
Qed.

Lemma edge_key_eq_l a b c : edge_key a b = edge_key a c <-> b = c.
Proof. rewrite edge_key_inj. split; [intros [[_ ->]|[-> ->]]; reflexivity | intros ->; auto]. Qed.

Lemma edge_key_eq_r a b c : edge_key b a = edge_key c a <-> b = c.
Proof. rewrite (edge_key_comm b), (edge_key_comm c). apply edge_key_eq_l. Qed.

Lemma edge_key_self a b c : edge_key a b = edge_key c c <-> a = c /\ b = c.
Proof. rewrite edge_key_inj. intuition. Qed.

(** A key is normalised if its first component is the smaller one. *)
Lemma edge_key_norm a b : edge_key (fst (edge_key a b)) (snd (edge_key a b)) = edge_key a b.
Proof. unfold edge_key; cbn. f_equal; lia. Qed.

(** The endpoints of a key. *)
Definition touches (n : N) (k : EdgeKey) : Prop := fst k = n \/ snd k = n.
#[global] Instance touches_dec n k : Decision (touches n k).
Proof. unfold touches. apply _. Defined.

Lemma touches_edge_key n a b : touches n (edge_key a b) <-> n = a \/ n = b.
Proof. unfold touches, edge_key; cbn. lia. Qed.

Lemma touches_other n a b : touches n (edge_key a b) -> exists t, edge_key a b = edge_key n t /\ (t = a \/ t = b).
Proof.
  rewrite touches_edge_key. intros [->| ->]; [exists b; auto|exists a]. rewrite edge_key_comm. auto.
Qed.

(** ** Well-formed edge containers *)
Definition e_live (s : EdgeStatus) : Prop := s = ENew \/ s = EVisible.
#[global] Instance e_live_dec s : Decision (e_live s).
Proof. unfold e_live. apply _. Defined.

Record ec_wf (c : EC) : Prop := {
  ecw_key : forall k e, ec_edges c !! k = Some e -> k = edge_key (e_src e) (e_tgt e);
  ecw_live : forall k, is_Some (ec_edges c !! k) <-> exists s, ec_status c !! k = Some s /\ e_live s;
  ecw_status : forall k s, ec_status c !! k = Some s -> e_live s \/ s = EDeleted;
  ecw_norm : forall k s, ec_status c !! k = Some s -> edge_key (fst k) (snd k) = k
}.

Lemma ec_wf_empty : ec_wf ec_empty.
Proof.
  split; cbn.
  - intros k e. rewrite lookup_empty. discriminate.
  - intros k. split; [intros [? H]|intros (? & H & _)]; rewrite lookup_empty in H; discriminate.
  - intros k s. rewrite lookup_empty. discriminate.
  - intros k s. rewrite lookup_empty. discriminate.
Qed.

Lemma ec_contains_true c s t : ec_contains c s t = true <-> is_Some (ec_edges c !! edge_key s t).
Proof. unfold ec_contains. apply bool_decide_eq_true. Qed.
Lemma ec_contains_false c s t : ec_contains c s t = false <-> ec_edges c !! edge_key s t = None.
Proof. unfold ec_contains. rewrite bool_decide_eq_false, eq_None_not_Some. reflexivity. Qed.

Lemma ec_insert_edges_new c s t i :
  ec_edges c !! edge_key s t = None ->
  ec_edges (ec_insert c s t i) =
    <[edge_key s t := mkEdge s t (default ea_default i)]> (ec_edges c).
Proof. intros H. unfold ec_insert; cbn. rewrite H. destruct i; reflexivity. Qed.

Lemma ec_insert_edges_old c s t i e :
  ec_edges c !! edge_key s t = Some e -> ec_edges (ec_insert c s t i) = ec_edges c.
Proof. intros H. unfold ec_insert; cbn. rewrite H. reflexivity. Qed.

Lemma ec_wf_insert c s t i : ec_wf c -> ec_wf (ec_insert c s t i).
Proof.
  intros [H1 H2 H3 H4]. unfold ec_insert; split; cbn [ec_edges ec_status].
  - intros k e. destruct (ec_edges c !! edge_key s t) eqn:E; [apply H1|].
    rewrite lookup_insert_Some. intros [[<- <-]|[_ He]]; [reflexivity|auto].
  - intros k. destruct (decide (k = edge_key s t)) as [->|Hne].
    + rewrite lookup_insert. split; [intros _; exists ENew; split; [reflexivity|left; reflexivity]|].
      intros _. destruct (ec_edges c !! edge_key s t) eqn:E; [rewrite E; eauto|].
      rewrite lookup_insert. eauto.
    + rewrite (lookup_insert_ne (ec_status c)) by congruence. rewrite <- H2.
      destruct (ec_edges c !! edge_key s t) eqn:E; [reflexivity|].
      rewrite lookup_insert_ne by congruence. reflexivity.
  - intros k st. rewrite lookup_insert_Some. intros [[_ <-]|[_ Hs]]; [left; left; reflexivity|eauto].
  - intros k st. rewrite lookup_insert_Some. intros [[<- _]|[_ Hs]]; [apply edge_key_norm|eauto].
Qed.

Lemma ec_remove_ok c s t :
  ec_wf c -> is_Some (ec_edges c !! edge_key s t) ->
  ec_remove c s t = Ok (mkEC (delete (edge_key s t) (ec_edges c))
                             (<[edge_key s t := EDeleted]> (ec_status c)) (ec_stale c)).
Proof.
  intros [_ H2 _ _] Hs. apply H2 in Hs as (st & Hst & _). unfold ec_remove. rewrite Hst. reflexivity.
Qed.

Lemma ec_wf_remove c k :
  ec_wf c -> edge_key (fst k) (snd k) = k -> ec_wf (mkEC (delete k (ec_edges c)) (<[k := EDeleted]> (ec_status c)) (ec_stale c)).
Proof.
  intros [H1 H2 H3 H4] Hk. split; cbn [ec_edges ec_status].
  - intros k' e. rewrite lookup_delete_Some. intros [_ He]; auto.
  - intros k'. destruct (decide (k' = k)) as [->|Hne].
    + rewrite lookup_delete, lookup_insert. split; [intros [? ?]; discriminate|].
      intros (st & [= <-] & [?|?]); discriminate.
    + rewrite lookup_delete_ne, lookup_insert_ne by congruence. apply H2.
  - intros k' st. rewrite lookup_insert_Some. intros [[_ <-]|[_ Hs]]; [right; reflexivity|eauto].
  - intros k' st. rewrite lookup_insert_Some. intros [[<- _]|[_ Hs]]; [exact Hk|eauto].
Qed.

#[global] Arguments ec_touch : simpl never.
#[global] Arguments ec_insert : simpl never.
Lemma ec_touch_edges c s t : ec_edges (ec_touch c s t) = ec_edges c.
Proof. unfold ec_touch. destruct (ec_edges c !! edge_key s t); reflexivity. Qed.
Lemma ec_touch_status c s t : ec_status (ec_touch c s t) = ec_status c.
Proof. unfold ec_touch. destruct (ec_edges c !! edge_key s t); reflexivity. Qed.

Lemma ec_wf_ext c c' : ec_edges c = ec_edges c' -> ec_status c = ec_status c' -> ec_wf c -> ec_wf c'.
Proof. intros He Hs [H1 H2 H3 H4]. split; intros; rewrite <- ?He, <- ?Hs in *; eauto. Qed.

Lemma ec_wf_touch c s t : ec_wf c -> ec_wf (ec_touch c s t).
Proof. apply ec_wf_ext; [rewrite ec_touch_edges|rewrite ec_touch_status]; reflexivity. Qed.

Lemma ec_wf_set_info c s t a : ec_wf c -> ec_wf (ec_set_info c s t a).
Proof.
  intros [H1 H2 H3 H4]. split; cbn [ec_edges ec_status ec_set_info].
  - intros k e. destruct (decide (k = edge_key s t)) as [->|Hne].
    + rewrite lookup_alter. destruct (ec_edges c !! edge_key s t) eqn:E; [|discriminate].
      cbn. intros [= <-]; cbn. eauto.
    + rewrite lookup_alter_ne by congruence. eauto.
  - intros k. rewrite <- H2. destruct (decide (k = edge_key s t)) as [->|Hne].
    + rewrite lookup_alter. rewrite fmap_is_Some. reflexivity.
    + rewrite lookup_alter_ne by congruence. reflexivity.
  - eauto.
  - eauto.
Qed.

Lemma ec_wf_reset c : ec_wf (ec_reset c).
Proof. apply (ec_wf_ext ec_empty); [reflexivity|reflexivity|apply ec_wf_empty]. Qed.

Lemma ec_wf_set_stale c : ec_wf c -> ec_wf (ec_set_stale c).
Proof. apply ec_wf_ext; reflexivity. Qed.

(** Rewiring to a fresh key. *)
Lemma ec_rewire_ok c s t ns nt e :
  ec_wf c -> ec_edges c !! edge_key s t = Some e ->
  ec_edges c !! edge_key ns nt = None ->
  exists c', ec_rewire c s t ns nt = Ok c' /\ ec_wf c' /\
    ec_edges c' = <[edge_key ns nt := mkEdge ns nt (e_info e)]> (delete (edge_key s t) (ec_edges c)) /\
    ec_status c' = <[edge_key ns nt := ENew]> (<[edge_key s t := EDeleted]> (ec_status c)).
Proof.
  intros Hwf He Hn. unfold ec_rewire, ec_find. rewrite He.
  assert (Hst : is_Some (ec_edges c !! edge_key s t)) by eauto.
  pose proof Hwf as [H1 H2 H3 H4]. apply H2 in Hst as (st & Hst & _).
  rewrite ec_touch_status, Hst.
  set (c2 := mkEC _ _ _). unfold ec_remove.
  assert (Hc2 : ec_status c2 !! edge_key s t = Some EMerged) by (unfold c2; cbn; apply lookup_insert).
  rewrite Hc2. cbn [rbind]. eexists; split; [reflexivity|].
  assert (Hne : edge_key ns nt <> edge_key s t) by congruence.
  set (c3 := mkEC (delete (edge_key s t) (ec_edges c2)) _ _).
  assert (Hc3 : ec_wf c3).
  { apply (ec_wf_ext (mkEC (delete (edge_key s t) (ec_edges c))
                        (<[edge_key s t := EDeleted]> (ec_status c)) (ec_stale c))).
    - unfold c3, c2; cbn. rewrite ec_touch_edges. reflexivity.
    - unfold c3, c2; cbn. rewrite insert_insert. reflexivity.
    - apply ec_wf_remove; [assumption|apply edge_key_norm]. }
  split; [apply ec_wf_insert, Hc3|].
  assert (Hed : ec_edges c3 = delete (edge_key s t) (ec_edges c))
    by (unfold c3, c2; cbn; rewrite ec_touch_edges; reflexivity).
  split.
  - rewrite ec_insert_edges_new; [rewrite Hed; reflexivity|].
    rewrite Hed, lookup_delete_ne by congruence. exact Hn.
  - unfold ec_insert, c3; cbn. rewrite insert_insert. reflexivity.
Qed.

(** Membership in [keys_with]. *)
Lemma elem_of_keys_with {K} `{Countable K} {S} (p : S -> bool) (m : gmap K S) k :
  k ∈ keys_with p m <-> exists s, m !! k = Some s /\ p s = true.
Proof.
  unfold keys_with. rewrite elem_of_list_fmap. split.
  - intros ([k' s] & -> & Hin). apply elem_of_map_to_list, map_filter_lookup_Some in Hin as [? ?].
    cbn in *. eauto.
  - intros (s & Hs & Hp). exists (k, s); split; [reflexivity|].
    apply elem_of_map_to_list, map_filter_lookup_Some; auto.
Qed.

Lemma NoDup_keys_with {K} `{Countable K} {S} (p : S -> bool) (m : gmap K S) : NoDup (keys_with p m).
Proof. unfold keys_with. apply NoDup_fst_map_to_list. Qed.
