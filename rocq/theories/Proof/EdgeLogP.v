(** The edge container refines the edge log. *)
From Coq Require Import NArith Bool List Lia.
From stdpp Require Import base list gmap fin_maps tactics.
From Verif.Model Require Import Types Attrs EdgeContainer.
From Verif.Spec Require Import EdgeLog.
From Verif.Proof Require Import Keys.
Local Open Scope N_scope.

#[local] Arguments edge_key : simpl never.

Record el_rep (c : EC) (l : ELog) : Prop := {
  er_wf : ec_wf c;
  er_edges : ec_edges c = el_edges l;
  er_fresh : forall k, k ∈ el_fresh l <-> ec_status c !! k = Some ENew;
  er_gone : forall k, k ∈ el_gone l <-> ec_status c !! k = Some EDeleted
}.

Lemma el_rep_ext c c' l : ec_edges c = ec_edges c' -> ec_status c = ec_status c' -> el_rep c l -> el_rep c' l.
Proof.
  intros He Hs [H1 H2 H3 H4]. split.
  - eapply ec_wf_ext; eassumption.
  - congruence.
  - intros k. rewrite <- Hs. apply H3.
  - intros k. rewrite <- Hs. apply H4.
Qed.

Lemma el_rep_init c : el_rep (ec_reset c) el_init.
Proof.
  split; [apply ec_wf_reset|reflexivity| |]; intros k; cbn; rewrite lookup_empty; split; try discriminate; set_solver.
Qed.

Lemma el_rep_insert c l s t i : el_rep c l -> el_rep (ec_insert c s t i) (el_insert l s t (default ea_default i)).
Proof.
  intros [H1 H2 H3 H4]. split.
  - apply ec_wf_insert, H1.
  - unfold ec_insert, el_insert; cbn. rewrite <- H2. destruct (ec_edges c !! edge_key s t); destruct i; reflexivity.
  - intros k. unfold ec_insert, el_insert; cbn [ec_status el_fresh el_gone]. rewrite elem_of_union, elem_of_singleton, H3.
    destruct (decide (k = edge_key s t)) as [->|Hne].
    + rewrite lookup_insert. tauto.
    + rewrite lookup_insert_ne by congruence. tauto.
  - intros k. unfold ec_insert, el_insert; cbn [ec_status el_fresh el_gone]. rewrite elem_of_difference, elem_of_singleton, H4.
    destruct (decide (k = edge_key s t)) as [->|Hne].
    + rewrite lookup_insert. split; [tauto|discriminate].
    + rewrite lookup_insert_ne by congruence. tauto.
Qed.

Lemma el_rep_remove c l k st : el_rep c l -> edge_key (fst k) (snd k) = k ->
  el_rep (mkEC (delete k (ec_edges c)) (<[k := EDeleted]> (ec_status c)) st) (el_remove l k).
Proof.
  intros [H1 H2 H3 H4] Hk. split.
  - eapply ec_wf_ext; [| |apply (ec_wf_remove c k H1 Hk)]; reflexivity.
  - cbn. rewrite H2. reflexivity.
  - intros k'. cbn. rewrite elem_of_difference, elem_of_singleton, H3.
    destruct (decide (k' = k)) as [->|Hne].
    + rewrite lookup_insert. split; [tauto|discriminate].
    + rewrite lookup_insert_ne by congruence. tauto.
  - intros k'. cbn. rewrite elem_of_union, elem_of_singleton, H4.
    destruct (decide (k' = k)) as [->|Hne].
    + rewrite lookup_insert. tauto.
    + rewrite lookup_insert_ne by congruence. tauto.
Qed.

(** A pair has a status iff it is an edge or was removed. *)
Lemma el_rep_status c l k : el_rep c l -> (is_Some (ec_status c !! k) <-> is_Some (el_edges l !! k) \/ k ∈ el_gone l).
Proof.
  intros [H1 H2 H3 H4]. rewrite <- H2, H4, (ecw_live _ H1). split.
  - intros [s Hs]. destruct (ecw_status _ H1 _ _ Hs) as [Hl| ->]; eauto.
  - intros [(s & Hs & _)|?]; eauto.
Qed.

Lemma el_step_ok c l o : el_rep c l ->
  out_agree (fst (ec_step c o)) (fst (el_step l o)) /\ el_rep (snd (ec_step c o)) (snd (el_step l o)).
Proof.
  intros HR. destruct o; cbn [ec_step el_step].
  - cbn. split; [exact I|]. apply el_rep_insert, HR.
  - unfold ec_remove. pose proof (el_rep_status c l (edge_key s t) HR) as Hst.
    destruct (ec_status c !! edge_key s t) eqn:E.
    + rewrite decide_True by (apply Hst; eauto). cbn. split; [exact I|]. apply el_rep_remove; [exact HR|apply edge_key_norm].
    + rewrite decide_False by (rewrite <- Hst; intros [? ?]; discriminate). cbn. auto.
  - unfold ec_rewire, ec_find. rewrite <- (er_edges _ _ HR).
    destruct (ec_edges c !! edge_key s t) as [e|] eqn:E; [|cbn; auto].
    assert (is_Some (ec_status c !! edge_key s t)) as [st Hst].
    { apply (el_rep_status c l _ HR). left. rewrite <- (er_edges _ _ HR). eauto. }
    rewrite ec_touch_status, Hst. unfold ec_remove; cbn. rewrite lookup_insert. cbn. split; [exact I|].
    apply (el_rep_insert _ _ ns nt (Some (e_info e))). rewrite ec_touch_edges.
    eapply el_rep_ext; [| |apply (el_rep_remove c l (edge_key s t) ∅ HR (edge_key_norm _ _))]; cbn; [reflexivity|].
    rewrite insert_insert. reflexivity.
  - cbn. unfold ec_find. rewrite (er_edges _ _ HR). split; [reflexivity|].
    eapply el_rep_ext; [| |exact HR]; [rewrite ec_touch_edges|rewrite ec_touch_status]; reflexivity.
  - cbn. unfold ec_contains. rewrite (er_edges _ _ HR). auto.
  - cbn. unfold ec_size. rewrite (er_edges _ _ HR). auto.
  - cbn. split; [|exact HR]. unfold ec_get_status, el_status. destruct HR as [H1 H2 H3 H4]. set (k := edge_key s t). rewrite <- H2.
    pose proof (ecw_live _ H1 k) as HL. pose proof (H3 k) as Hf. pose proof (H4 k) as Hg. destruct (ec_status c !! k) as [st|] eqn:E.
    + destruct (ecw_status _ H1 _ _ E) as [Hl| ->]; [|rewrite decide_True by tauto; reflexivity].
      rewrite decide_False by (rewrite Hg; unfold e_live in Hl; intros [= ->]; destruct Hl; discriminate).
      rewrite decide_True by (apply HL; eauto). destruct Hl as [->| ->].
      * rewrite decide_True by tauto. reflexivity.
      * rewrite decide_False by (rewrite Hf; discriminate). reflexivity.
    + rewrite decide_False by (rewrite Hg; discriminate). rewrite decide_False; [reflexivity|]. rewrite HL. intros (st & ? & _). discriminate.
  - cbn. split; [exact I|]. destruct HR as [H1 H2 H3 H4]. split.
    + apply ec_wf_set_info, ec_wf_touch, H1.
    + cbn. rewrite ec_touch_edges. congruence.
    + intros k. cbn. rewrite ec_touch_status. apply H3.
    + intros k. cbn. rewrite ec_touch_status. apply H4.
  - cbn. split.
    + split; [apply NoDup_keys_with|]. intros k. rewrite elem_of_keys_with, (er_fresh _ _ HR). split.
      * intros (s & Hs & Hp). destruct s; try discriminate. assumption.
      * intros H. exists ENew. auto.
    + destruct clear; [|exact HR]. destruct HR as [H1 H2 H3 H4]. split; cbn.
      * destruct H1 as [A B C D]. split; cbn [ec_edges ec_status]; [assumption| | |].
        -- intros k. rewrite B. split.
           ++ intros (s & Hs & [->| ->]); rewrite lookup_fmap, Hs; cbn; eexists; (split; [reflexivity|]); unfold e_live; auto.
           ++ intros (s & Hs & Hl). rewrite lookup_fmap in Hs. destruct (ec_status c !! k) as [s0|] eqn:E0; [|discriminate].
              cbn in Hs. injection Hs as <-. exists s0. split; [reflexivity|]. destruct s0; unfold e_live in *; cbn in *; tauto.
        -- intros k s. rewrite lookup_fmap, fmap_Some. intros (s0 & Hs0 & ->). apply C in Hs0. unfold e_live in *. destruct s0; cbn in *; intuition congruence.
        -- intros k s. rewrite lookup_fmap, fmap_Some. intros (s0 & Hs0 & ->). eauto.
      * assumption.
      * intros k. rewrite lookup_fmap. split; [set_solver|]. destruct (ec_status c !! k) as [[]|]; cbn; discriminate.
      * intros k. rewrite lookup_fmap, H4. destruct (ec_status c !! k) as [[]|]; cbn; split; congruence.
  - cbn. split.
    + split; [apply NoDup_keys_with|]. intros k. rewrite elem_of_keys_with, (er_gone _ _ HR). split.
      * intros (s & Hs & Hp). destruct s; try discriminate. assumption.
      * intros H. exists EDeleted. auto.
    + destruct clear; [|exact HR]. destruct HR as [H1 H2 H3 H4]. split; cbn.
      * destruct H1 as [A B C D]. split; cbn [ec_edges ec_status]; [assumption| | |].
        -- intros k. rewrite B. split.
           ++ intros (s & Hs & Hl). exists s. split; [|assumption]. apply map_filter_lookup_Some. split; [assumption|].
              destruct Hl as [->| ->]; reflexivity.
           ++ intros (s & Hs & Hl). apply map_filter_lookup_Some in Hs as [Hs _]. eauto.
        -- intros k s Hs. apply map_filter_lookup_Some in Hs as [Hs _]. eauto.
        -- intros k s Hs. apply map_filter_lookup_Some in Hs as [Hs _]. eauto.
      * assumption.
      * intros k. rewrite map_filter_lookup_Some, H3. split; [intros H; split; [assumption|reflexivity]|tauto].
      * intros k. rewrite map_filter_lookup_Some. cbn. split; [set_solver|]. intros [_ ?]; discriminate.
  - cbn. split; [exact I|]. eapply el_rep_ext; [| |exact HR]; reflexivity.
  - cbn. split; [exact I|]. apply el_rep_init.
Qed.

Theorem ec_run_ok os : forall c l, el_rep c l ->
  Forall2 out_agree (fst (ec_run c os)) (fst (el_run l os)) /\ el_rep (snd (ec_run c os)) (snd (el_run l os)).
Proof.
  induction os as [|o r IH]; intros c l HR; cbn [ec_run el_run].
  - split; [constructor|exact HR].
  - destruct (el_step_ok c l o HR) as [Ho HR'].
    destruct (ec_step c o) as [x c'], (el_step l o) as [y l']. cbn [fst snd] in *.
    destruct (IH _ _ HR') as [Hos HR'']. destruct (ec_run c' r), (el_run l' r). cbn [fst snd] in *.
    split; [constructor; assumption|assumption].
Qed.

Theorem ec_history os :
  Forall2 out_agree (fst (ec_run ec_empty os)) (fst (el_run el_init os)).
Proof. apply ec_run_ok. apply (el_rep_init ec_empty). Qed.

Lemma ec_final_edges os u v :
  ec_find (snd (ec_run ec_empty os)) u v = el_edges (snd (el_run el_init os)) !! edge_key u v.
Proof.
  unfold ec_find. change ec_empty with (ec_reset ec_empty).
  rewrite (er_edges _ _ (proj2 (ec_run_ok os _ _ (el_rep_init ec_empty)))). reflexivity.
Qed.

Lemma keys_with_nil {K} `{Countable K} {S} (p : S -> bool) (m : gmap K S) :
  (forall k s, m !! k = Some s -> p s = false) -> keys_with p m = [].
Proof.
  intros H0. destruct (keys_with p m) as [|k r] eqn:E; [reflexivity|].
  assert (Hin : k ∈ keys_with p m) by (rewrite E; left).
  apply elem_of_keys_with in Hin as (s & Hs & Hp). rewrite (H0 _ _ Hs) in Hp. discriminate.
Qed.
Lemma ec_second_new c b : fst (ec_get_new (snd (ec_get_new c true)) b) = [].
Proof.
  cbn. apply keys_with_nil. intros k s. rewrite lookup_fmap, fmap_Some. intros (s0 & _ & ->). destruct s0; reflexivity.
Qed.
Lemma ec_second_removed c b : fst (ec_get_removed (snd (ec_get_removed c true)) b) = [].
Proof.
  cbn. apply keys_with_nil. intros k s Hs. apply map_filter_lookup_Some in Hs as [_ Hs]. exact Hs.
Qed.
