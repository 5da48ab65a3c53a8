(** Correctness of the seen-set based searches and of connected components. *)
From Coq Require Import NArith Bool List Lia.
From stdpp Require Import base list gmap relations.
From Verif.Model Require Import Types Attrs Node EdgeContainer SLayer Search.
From Verif.Spec Require Import EdgeLog LayerLog Search.
From Verif.Proof Require Import Keys EdgeLogP SLayerP SLayerMerge LayerLogP LayerLogP2.
Local Open Scope N_scope.
#[local] Arguments edge_key : simpl never.

Section Mono.
  Context {S : Type} (expand : N -> S -> result (list N * S)).
  Lemma search_mono fuel fuel' : forall F s O r,
    search_loop expand fuel F s O = Some r -> (fuel <= fuel')%nat -> search_loop expand fuel' F s O = Some r.
  Proof.
    revert fuel'. induction fuel as [|f IH]; intros fuel' F s O r H L; destruct F as [|x F].
    - cbn in H. destruct fuel'; exact H.
    - discriminate H.
    - destruct fuel'; exact H.
    - destruct fuel' as [|f']; [lia|]. cbn in H |- *. destruct (expand x s) as [[A s']| |]; try exact H.
      apply IH; [exact H|lia].
  Qed.
End Mono.

(** The general argument for searches with a [seen] set. *)
Section Gen.
  Variables (expand : N -> gset N -> result (list N * gset N)) (D : gset N)
            (R : N -> N -> Prop) (bad : N -> Prop) (S0 : gset N) (F0 : list N).
  Hypothesis Hexp : forall x S, x ∈ D -> S0 ⊆ S -> exists A S', expand x S = Ok (A, S') /\ NoDup A /\
    (forall y, y ∈ A -> y ∉ S /\ y ∈ D /\ R x y) /\ S ⊆ S' /\ (forall y, y ∈ A -> y ∈ S') /\
    (forall y, y ∈ S' -> y ∈ S \/ y ∈ A \/ bad y) /\ (forall y, R x y -> y ∈ S').
  Hypothesis Hbad : forall x y, R x y -> ~ bad y /\ y ∉ S0.

  Record SInv (F : list N) (S : gset N) (O : list N) : Prop := {
    si_nodup : NoDup (O ++ F);
    si_dom : forall y, y ∈ O ++ F -> y ∈ D;
    si_seen : forall y, y ∈ O ++ F -> y ∈ S;
    si_s0 : S0 ⊆ S;
    si_back : forall y, y ∈ S -> y ∈ O ++ F \/ bad y \/ y ∈ S0;
    si_closed : forall x y, x ∈ O -> R x y -> y ∈ S;
    si_sound : forall y, y ∈ O ++ F -> exists r, r ∈ F0 /\ rtc R r y;
    si_roots : forall r, r ∈ F0 -> r ∈ O ++ F
  }.

  Lemma SInv_len F S O : SInv F S O -> (length O + length F <= size D)%nat.
  Proof.
    intros H. assert (list_to_set (O ++ F) ⊆ D) as Hs.
    { intros y Hy. apply elem_of_list_to_set in Hy. exact (si_dom _ _ _ H y Hy). }
    apply subseteq_size in Hs. rewrite size_list_to_set in Hs by exact (si_nodup _ _ _ H).
    rewrite app_length in Hs. exact Hs.
  Qed.

  Lemma SInv_step x F S O A S' : SInv (x :: F) S O ->
    NoDup A -> (forall y, y ∈ A -> y ∉ S /\ y ∈ D /\ R x y) -> S ⊆ S' -> (forall y, y ∈ A -> y ∈ S') ->
    (forall y, y ∈ S' -> y ∈ S \/ y ∈ A \/ bad y) -> (forall y, R x y -> y ∈ S') ->
    SInv (F ++ A) S' (O ++ [x]).
  Proof.
    intros H HA HN HS HAS HB HC.
    assert (forall y, y ∈ (O ++ [x]) ++ F ++ A <-> y ∈ O ++ x :: F \/ y ∈ A) as E.
    { intros y. rewrite !elem_of_app, !elem_of_cons, elem_of_nil. tauto. }
    split.
    - replace ((O ++ [x]) ++ F ++ A) with ((O ++ x :: F) ++ A) by (rewrite <- !app_assoc; reflexivity).
      apply NoDup_app. split; [exact (si_nodup _ _ _ H)|]. split; [|exact HA].
      intros y Hy HyA. exact (proj1 (HN y HyA) (si_seen _ _ _ H y Hy)).
    - intros y Hy. apply E in Hy as [Hy|Hy]; [exact (si_dom _ _ _ H y Hy)|apply HN, Hy].
    - intros y Hy. apply E in Hy as [Hy|Hy]; [apply HS, (si_seen _ _ _ H y Hy)|apply HAS, Hy].
    - etransitivity; [exact (si_s0 _ _ _ H)|exact HS].
    - intros y Hy. rewrite E. destruct (HB y Hy) as [Hy'|[Hy'|Hy']]; auto.
      destruct (si_back _ _ _ H y Hy') as [?|[?|?]]; auto.
    - intros z y Hz Hzy. apply elem_of_app in Hz as [Hz|Hz].
      + apply HS, (si_closed _ _ _ H z y Hz Hzy).
      + apply elem_of_list_singleton in Hz. subst z. apply HC, Hzy.
    - intros y Hy. apply E in Hy as [Hy|Hy]; [exact (si_sound _ _ _ H y Hy)|].
      destruct (si_sound _ _ _ H x) as (r & Hr & Hp); [rewrite elem_of_app, elem_of_cons; auto|].
      exists r. split; [exact Hr|]. eapply rtc_r; [exact Hp|]. apply HN, Hy.
    - intros r Hr. apply E. left. exact (si_roots _ _ _ H r Hr).
  Qed.

  Lemma search_ok fuel : forall F S O, SInv F S O -> (size D <= fuel + length O)%nat ->
    exists O' S', search_loop expand fuel F S O = Some (Ok (O', S')) /\ SInv [] S' O'.
  Proof.
    induction fuel as [|f IH]; intros F S O H L; destruct F as [|x F].
    - exists O, S. split; [reflexivity|exact H].
    - exfalso. pose proof (SInv_len _ _ _ H) as HL. cbn in HL. lia.
    - exists O, S. split; [reflexivity|exact H].
    - assert (x ∈ D) as Hx by (apply (si_dom _ _ _ H); rewrite elem_of_app, elem_of_cons; auto).
      destruct (Hexp x S Hx (si_s0 _ _ _ H)) as (A & S' & E & H1 & H2 & H3 & H4 & H5 & H6).
      cbn [search_loop]. rewrite E. apply IH; [exact (SInv_step _ _ _ _ _ _ H H1 H2 H3 H4 H5 H6)|].
      rewrite app_length. cbn. lia.
  Qed.

  Lemma search_result S : NoDup F0 -> (forall r, r ∈ F0 -> r ∈ D) -> (forall y, y ∈ S <-> y ∈ F0 \/ y ∈ S0) ->
    exists O S', finishes (fun fuel => search_loop expand fuel F0 S []) (O, S') /\ NoDup O /\
      (forall y, y ∈ O <-> exists r, r ∈ F0 /\ rtc R r y) /\
      (forall y, y ∈ O -> y ∈ S' /\ y ∈ D) /\ S0 ⊆ S' /\ (forall y, y ∈ S' -> y ∈ O \/ bad y \/ y ∈ S0).
  Proof.
    intros HN HD HS. destruct (search_ok (size D) F0 S []) as (O & S' & E & HI).
    - split; cbn.
      + exact HN.
      + exact HD.
      + intros y Hy. apply HS. auto.
      + intros y Hy. apply HS. auto.
      + intros y Hy. apply HS in Hy. tauto.
      + intros x y Hx. apply elem_of_nil in Hx. contradiction.
      + intros y Hy. exists y. split; [exact Hy|constructor].
      + auto.
    - cbn. lia.
    - destruct HI as [I1 I2 I3 I4 I5 I6 I7 I8]. rewrite app_nil_r in *. exists O, S'. split.
      { exists (size D). intros fuel L. eapply search_mono; [exact E|exact L]. }
      split; [exact I1|]. split; [|split; [auto|split; [exact I4|exact I5]]].
      intros y. split; [apply I7|]. intros (r & Hr & Hp). revert y Hp.
      assert (forall y, rtc R r y -> y ∈ O); [|auto]. intros y Hp. pattern y.
      refine (rtc_ind_r _ r _ _ y Hp); [exact (I8 r Hr)|].
      intros a b _ Hab Ha. destruct (Hbad a b Hab) as [Hnb Hn0].
      destruct (I5 b (I6 a b Ha Hab)) as [?|[?|?]]; [assumption|contradiction|contradiction].
  Qed.
End Gen.

(** Layer facts used by searches. *)
Definition slayer_ok (l : SLayer) : Prop := sl_wf l /\ sl_closed l.

Lemma linked_sib l u v nd : slayer_ok l -> sl_nodes l !! u = Some nd -> (v ∈ n_sib nd <-> linked l u v).
Proof.
  intros [W C] Hu. unfold linked, sl_has_edge. rewrite ec_contains_true. split.
  - intros Hv. apply (slw_adj _ W u v nd Hu); [exact (C u nd v Hu Hv)|exact Hv].
  - intros He. apply (slw_adj _ W u v nd Hu); [|exact He]. apply (sl_edge_key l u v W He).
Qed.
Lemma linked_nodes l u v : slayer_ok l -> linked l u v ->
  u <> v /\ is_Some (sl_nodes l !! u) /\ is_Some (sl_nodes l !! v).
Proof. intros [W C] H. unfold linked, sl_has_edge in H. rewrite ec_contains_true in H. exact (sl_edge_key l u v W H). Qed.
Lemma linked_sym l u v : linked l u v <-> linked l v u.
Proof. unfold linked, sl_has_edge, ec_contains. rewrite (edge_key_comm u v). reflexivity. Qed.

Lemma neighbors_ok l x nd : sl_nodes l !! x = Some nd -> neighbors l x = Ok (elements (n_sib nd)).
Proof. intros H. unfold neighbors, sl_find_node. rewrite H. reflexivity. Qed.

(** The for loop of the unfiltered / set-filtered search. *)
Lemma push_unseen_fold valid ns : forall A S A' S', NoDup ns ->
  fold_left (push_unseen valid) ns (A, S) = (A', S') ->
  exists B, A' = A ++ B /\ NoDup B /\
    (forall y, y ∈ B <-> y ∈ ns /\ y ∉ S /\ valid y = true) /\
    (forall y, y ∈ S' <-> y ∈ S \/ y ∈ B).
Proof.
  induction ns as [|m ns IH]; intros A S A' S' HN E.
  - injection E as <- <-. exists []. rewrite app_nil_r. split; [reflexivity|]. split; [constructor|].
    split; intros y; rewrite ?elem_of_nil; tauto.
  - apply list.NoDup_cons in HN as [Hm HN]. cbn [fold_left] in E. unfold push_unseen at 2 in E.
    destruct (decide (m ∈ S)) as [HmS|HmS].
    { destruct (IH _ _ _ _ HN E) as (B & -> & HB & H1 & H2). exists B. split; [reflexivity|]. split; [exact HB|].
      split; [|exact H2]. intros y. rewrite H1, elem_of_cons. split; [tauto|]. intros [[->|?] [? ?]]; tauto. }
    destruct (valid m) eqn:Hv; cbn [negb] in E.
    + destruct (IH _ _ _ _ HN E) as (B & -> & HB & H1 & H2). exists (m :: B). rewrite <- app_assoc. split; [reflexivity|].
      assert (m ∉ B) as HmB by (intros K; apply H1 in K; tauto).
      split; [apply list.NoDup_cons; split; assumption|]. split.
      * intros y. rewrite !elem_of_cons, H1, elem_of_union, elem_of_singleton. split.
        -- intros [->|(? & ? & ?)]; tauto.
        -- intros [[->|?] [? ?]]; [tauto|]. destruct (decide (y = m)); tauto.
      * intros y. rewrite H2, elem_of_union, elem_of_singleton, elem_of_cons. tauto.
    + destruct (IH _ _ _ _ HN E) as (B & -> & HB & H1 & H2). exists B. split; [reflexivity|]. split; [exact HB|].
      split; [|exact H2]. intros y. rewrite H1, elem_of_cons. split; [tauto|]. intros [[->|?] [? ?]]; [congruence|tauto].
Qed.

Lemma expand_unseen_ok l valid S0 : slayer_ok l ->
  forall x S, x ∈ (dom (sl_nodes l) : gset N) -> S0 ⊆ S -> exists A S', expand_unseen l valid x S = Ok (A, S') /\ NoDup A /\
    (forall y, y ∈ A -> y ∉ S /\ y ∈ (dom (sl_nodes l) : gset N) /\ (linked l x y /\ valid y = true /\ y ∉ S0)) /\ S ⊆ S' /\ (forall y, y ∈ A -> y ∈ S') /\
    (forall y, y ∈ S' -> y ∈ S \/ y ∈ A \/ False) /\ (forall y, (linked l x y /\ valid y = true /\ y ∉ S0) -> y ∈ S').
Proof.
  intros W x S Hx H0. apply elem_of_dom in Hx as [nd Hx]. unfold expand_unseen. rewrite (neighbors_ok _ _ _ Hx). cbn [rbind].
  destruct (fold_left (push_unseen valid) (elements (n_sib nd)) ([], S)) as [A S'] eqn:E.
  destruct (push_unseen_fold valid _ _ _ _ _ (NoDup_elements _) E) as (B & -> & HB & H1 & H2).
  exists B, S'. split; [reflexivity|]. split; [exact HB|]. setoid_rewrite elem_of_elements in H1.
  split.
  { intros y Hy. apply H1 in Hy as (Hy & HyS & Hv). apply (linked_sib l x y nd W Hx) in Hy as Hl.
    split; [exact HyS|]. split; [apply elem_of_dom, (linked_nodes l x y W Hl)|]. split; [exact Hl|]. split; [exact Hv|].
    intros K. apply HyS, H0, K. }
  split; [intros y Hy; apply H2; auto|]. split; [intros y Hy; apply H2; auto|].
  split; [intros y Hy; apply H2 in Hy; tauto|].
  intros y (Hl & Hv & _). apply H2. destruct (decide (y ∈ S)); [auto|]. right. apply H1.
  split; [apply (linked_sib l x y nd W Hx), Hl|auto].
Qed.

(** The for loop of the search with validity functions. *)
Lemma push_valid_fold l nv ev x ns : slayer_ok l -> forall A S, NoDup ns -> (forall y, y ∈ ns -> linked l x y) ->
  exists B S', rfold (push_valid l nv ev x) ns (A, S) = Ok (A ++ B, S') /\ NoDup B /\
    (forall y, y ∈ B <-> y ∈ ns /\ y ∉ S /\ linked_ok l nv ev x y) /\
    S ⊆ S' /\ (forall y, y ∈ B -> y ∈ S') /\
    (forall y, y ∈ S' -> y ∈ S \/ y ∈ B \/ ~ passes l nv y).
Proof.
  intros W. induction ns as [|m ns IH]; intros A S HN HL.
  - exists [], S. cbn. rewrite app_nil_r. split; [reflexivity|]. split; [constructor|].
    split; [intros y; rewrite elem_of_nil; tauto|]. split; [reflexivity|]. split; [intros y Hy; apply elem_of_nil in Hy; contradiction|auto].
  - apply list.NoDup_cons in HN as [Hm HN]. cbn [rfold]. unfold push_valid at 1.
    assert (forall y, y ∈ ns -> linked l x y) as HL' by (intros y Hy; apply HL, elem_of_cons; auto).
    assert (linked l x m) as Hxm by (apply HL, elem_of_cons; auto).
    destruct (decide (m ∈ S)) as [HmS|HmS].
    { cbn [rbind]. destruct (IH A S HN HL') as (B & S' & -> & HB & H1 & H2 & H3 & H4). exists B, S'. split; [reflexivity|].
      split; [exact HB|]. split; [|auto]. intros y. rewrite H1, elem_of_cons. split; [tauto|]. intros [[->|?] ?]; tauto. }
    destruct (linked_nodes l x m W Hxm) as (_ & _ & [nd Hnd]). unfold sl_find_node at 1. rewrite Hnd. cbn [at_ rbind].
    destruct (nv nd) eqn:Hnv; cbn [negb].
    + unfold linked, sl_has_edge in Hxm. rewrite ec_contains_true in Hxm. destruct Hxm as [e He].
      unfold sl_find_edge at 1. cbn [fst]. unfold ec_find. rewrite He. cbn [at_ rbind].
      destruct (ev e) eqn:Hev; cbn [negb rbind].
      * destruct (IH (A ++ [m]) ({[m]} ∪ S) HN HL') as (B & S' & -> & HB & H1 & H2 & H3 & H4). exists (m :: B), S'.
        split; [rewrite <- app_assoc; reflexivity|].
        assert (m ∉ B) as HmB by (intros K; apply H1 in K; tauto).
        split; [apply list.NoDup_cons; split; assumption|]. split.
        -- intros y. rewrite !elem_of_cons, H1, elem_of_union, elem_of_singleton. split.
           ++ intros [->|(? & ? & ?)]; [|tauto]. split; [auto|]. split; [exact HmS|]. split; [exists nd; auto|exists e; auto].
           ++ intros [[->|?] [? ?]]; [tauto|]. destruct (decide (y = m)); tauto.
        -- split; [set_solver|]. split.
           ++ intros y Hy. apply elem_of_cons in Hy as [->|Hy]; [set_solver|auto].
           ++ intros y Hy. rewrite elem_of_cons. destruct (H4 y Hy) as [K|[?|?]]; [|auto|auto].
              apply elem_of_union in K as [K|?]; [apply elem_of_singleton in K; auto|auto].
      * destruct (IH A S HN HL') as (B & S' & -> & HB & H1 & H2 & H3 & H4). exists B, S'. split; [reflexivity|].
        split; [exact HB|]. split; [|auto]. intros y. rewrite H1, elem_of_cons. split; [tauto|]. intros [[->|?] [? K]]; [|tauto].
        exfalso. destruct K as [_ (e' & He' & Hv')]. unfold sl_find_edge in He'. cbn in He'. unfold ec_find in He'. congruence.
    + cbn [rbind]. destruct (IH A ({[m]} ∪ S) HN HL') as (B & S' & -> & HB & H1 & H2 & H3 & H4). exists B, S'. split; [reflexivity|].
      assert (~ passes l nv m) as Hnp by (intros (nd' & K & K'); unfold sl_find_node in K; congruence).
      split; [exact HB|]. split; [|split; [set_solver|]].
      * intros y. rewrite H1, elem_of_cons, elem_of_union, elem_of_singleton. split; [tauto|].
        intros [[->|?] [? K]]; [exfalso; apply Hnp; destruct K as [(nd' & ? & ?) _]; exists nd'; auto|].
        destruct (decide (y = m)) as [->|]; tauto.
      * split; [auto|]. intros y Hy. destruct (H4 y Hy) as [K|[?|?]]; [|auto|auto].
        apply elem_of_union in K as [K|?]; [apply elem_of_singleton in K; subst y; auto|auto].
Qed.

Lemma linked_ok_linked l nv ev x y : linked_ok l nv ev x y -> linked l x y.
Proof.
  intros [_ (e & He & _)]. unfold linked, sl_has_edge. rewrite ec_contains_true. unfold sl_find_edge, ec_find in He. cbn in He. eauto.
Qed.

Lemma expand_valid_ok l nv ev S0 : slayer_ok l ->
  forall x S, x ∈ (dom (sl_nodes l) : gset N) -> S0 ⊆ S -> exists A S', expand_valid l nv ev x S = Ok (A, S') /\ NoDup A /\
    (forall y, y ∈ A -> y ∉ S /\ y ∈ (dom (sl_nodes l) : gset N) /\ (linked_ok l nv ev x y /\ y ∉ S0)) /\ S ⊆ S' /\ (forall y, y ∈ A -> y ∈ S') /\
    (forall y, y ∈ S' -> y ∈ S \/ y ∈ A \/ ~ passes l nv y) /\ (forall y, (linked_ok l nv ev x y /\ y ∉ S0) -> y ∈ S').
Proof.
  intros W x S Hx H0. apply elem_of_dom in Hx as [nd Hx]. unfold expand_valid. rewrite (neighbors_ok _ _ _ Hx). cbn [rbind].
  destruct (push_valid_fold l nv ev x (elements (n_sib nd)) W [] S (NoDup_elements _)) as (B & S' & -> & HB & H1 & H2 & H3 & H4).
  { intros y Hy. apply elem_of_elements in Hy. apply (linked_sib l x y nd W Hx), Hy. }
  exists B, S'. split; [reflexivity|]. split; [exact HB|]. setoid_rewrite elem_of_elements in H1.
  split.
  { intros y Hy. apply H1 in Hy as (Hy & HyS & Hv). apply (linked_sib l x y nd W Hx) in Hy as Hl.
    split; [exact HyS|]. split; [apply elem_of_dom, (linked_nodes l x y W Hl)|]. split; [exact Hv|].
    intros K. apply HyS, H0, K. }
  split; [exact H2|]. split; [exact H3|]. split; [exact H4|].
  intros y (Hl & _). destruct (decide (y ∈ S)) as [|HyS]; [auto|]. apply H3, H1.
  split; [apply (linked_sib l x y nd W Hx), (linked_ok_linked _ _ _ _ _ Hl)|auto].
Qed.

(** ** Single searches *)
Lemma finishes_visits {S} (f : nat -> fueled (list N * S)) O s : finishes f (O, s) -> finishes (fun n => visits (f n)) O.
Proof. intros [n H]. exists n. intros fuel L. rewrite (H fuel L). reflexivity. Qed.

Lemma rtc_iff (R R' : N -> N -> Prop) : (forall x y, R x y <-> R' x y) -> forall x y, rtc R x y <-> rtc R' x y.
Proof. intros H x y. split; apply rtc_subrel; intros a b; apply H. Qed.

Theorem bfs_roots_ok l roots : slayer_ok l -> NoDup roots -> (forall r, r ∈ roots -> sl_has_node l r = true) ->
  exists O, finishes (bfs_roots l roots) O /\ NoDup O /\ (forall y, y ∈ O <-> exists r, r ∈ roots /\ path (linked l) r y).
Proof.
  intros W HN HD.
  destruct (search_result (expand_unseen l (fun _ => true)) (dom (sl_nodes l)) _ (fun _ => False) ∅ roots
              (expand_unseen_ok l _ ∅ W)) with (S := list_to_set (C := gset N) roots) as (O & S' & HF & HO & HR & _).
  - intros x y (_ & _ & ?). split; [tauto|assumption].
  - exact HN.
  - intros r Hr. apply elem_of_dom, sl_has_node_true, HD, Hr.
  - intros y. rewrite elem_of_list_to_set. set_solver.
  - exists O. split; [|split; [exact HO|]].
    + unfold bfs_roots. replace (forallb (sl_has_node l) roots) with true.
      * exact (finishes_visits _ _ _ HF).
      * symmetry. apply forallb_forall. intros r Hr. apply HD, elem_of_list_In, Hr.
    + intros y. rewrite HR. unfold path. setoid_rewrite (rtc_iff _ (linked l)); [reflexivity|].
      intros a b. split; [tauto|]. intros ?. split; [assumption|]. split; [reflexivity|set_solver].
Qed.

(** ** Connected components *)
Section Comp.
  Variables (search : nat -> list N -> gset N -> fueled (list N * gset N)) (skip : N -> bool)
            (D : N -> Prop) (R : N -> N -> Prop) (bad : N -> Prop).
  (** [D]: the nodes searched; [R] is symmetric on them. *)
  Hypothesis R_dom : forall x y, D x -> R x y -> D y.
  Hypothesis R_sym : forall x y, D x -> R x y -> R y x.
  Hypothesis D_bad : forall x, D x -> ~ bad x.
  Hypothesis Hsearch : forall n V, D n -> n ∉ V ->
    exists O V', finishes (fun fuel => search fuel [n] ({[n]} ∪ V)) (O, V') /\ NoDup O /\
      (forall y, y ∈ O <-> rtc (fun a b => R a b /\ b ∉ V) n y) /\
      (forall y, y ∈ O -> y ∈ V') /\ V ⊆ V' /\ (forall y, y ∈ V' -> y ∈ O \/ bad y \/ y ∈ V).

  Lemma rtc_dom x y : D x -> rtc R x y -> D y.
  Proof. intros Hx H. induction H as [|a b c Hab _ IH]; [exact Hx|]. exact (IH (R_dom _ _ Hx Hab)). Qed.
  Lemma rtc_symD x y : D x -> rtc R x y -> rtc R y x.
  Proof.
    intros Hx H. induction H as [|a b c Hab _ IH]; [constructor|].
    eapply rtc_r; [exact (IH (R_dom _ _ Hx Hab))|exact (R_sym _ _ Hx Hab)].
  Qed.

  Record CInv (V : gset N) (cs : list (list N)) : Prop := {
    ci_nodup : NoDup (concat cs);
    ci_seen : forall y, y ∈ concat cs -> y ∈ V /\ D y;
    ci_back : forall y, y ∈ V -> y ∈ concat cs \/ bad y;
    ci_cl : forall c x y, c ∈ cs -> x ∈ c -> R x y -> y ∈ c;
    ci_conn : forall c, c ∈ cs -> c <> [] /\ forall x y, x ∈ c -> y ∈ c -> rtc R x y
  }.

  Lemma elem_concat (cs : list (list N)) y : y ∈ concat cs <-> exists c, c ∈ cs /\ y ∈ c.
  Proof.
    rewrite elem_of_list_In, in_concat. split; intros (c & H1 & H2); exists c;
      rewrite ?elem_of_list_In in *; auto.
  Qed.
  Lemma ci_closed V cs : CInv V cs -> forall x y, x ∈ concat cs -> R x y -> y ∈ concat cs.
  Proof.
    intros HI x y Hx Hxy. rewrite elem_concat in *. destruct Hx as (c & Hc & Hx). exists c.
    split; [exact Hc|exact (ci_cl _ _ HI c x y Hc Hx Hxy)].
  Qed.
  Lemma ci_together V cs : CInv V cs -> forall x y,
    (exists c, c ∈ cs /\ x ∈ c /\ y ∈ c) <-> x ∈ concat cs /\ rtc R x y.
  Proof.
    intros HI x y. rewrite elem_concat. split.
    - intros (c & Hc & Hx & Hy). split; [eauto|]. exact (proj2 (ci_conn _ _ HI c Hc) x y Hx Hy).
    - intros ((c & Hc & Hx) & Hp). exists c. split; [exact Hc|]. split; [exact Hx|].
      induction Hp as [|a b d Hab _ IH]; [exact Hx|]. apply IH, (ci_cl _ _ HI c a b Hc Hx Hab).
  Qed.

  Lemma avoid_rtc V cs n : CInv V cs -> D n -> n ∉ V -> forall y,
    rtc (fun a b => R a b /\ b ∉ V) n y <-> rtc R n y.
  Proof.
    intros HI Hn HV y. split; [apply rtc_subrel; tauto|].
    intros H. revert Hn HV. induction H as [|a b c Hab _ IH]; intros Ha HaV; [constructor|].
    assert (b ∉ V) as HbV.
    { intros K. destruct (ci_back _ _ HI b K) as [Hb|Hb].
      - apply HaV, (ci_seen _ _ HI a), (ci_closed _ _ HI b a Hb), (R_sym _ _ Ha Hab).
      - exact (D_bad _ (R_dom _ _ Ha Hab) Hb). }
    eapply rtc_l; [split; [exact Hab|exact HbV]|]. apply IH; [exact (R_dom _ _ Ha Hab)|exact HbV].
  Qed.

  Lemma CInv_add V cs n O V' : CInv V cs -> D n -> n ∉ V -> NoDup O ->
    (forall y, y ∈ O <-> rtc (fun a b => R a b /\ b ∉ V) n y) -> (forall y, y ∈ O -> y ∈ V') -> V ⊆ V' ->
    (forall y, y ∈ V' -> y ∈ O \/ bad y \/ y ∈ V) -> CInv V' (cs ++ [O]).
  Proof.
    intros HI Hn HV HO HR H1 H2 H3. setoid_rewrite (avoid_rtc V cs n HI Hn HV) in HR.
    assert (concat (cs ++ [O]) = concat cs ++ O) as E by (rewrite concat_app; cbn; rewrite app_nil_r; reflexivity).
    split; rewrite ?E.
    - apply NoDup_app. split; [exact (ci_nodup _ _ HI)|]. split; [|exact HO].
      intros y Hy HyO. apply HR in HyO.
      assert (forall z, rtc R y z -> z ∈ concat cs) as HC.
      { intros z Hz. induction Hz as [|a b c Hab _ IH]; [exact Hy|]. apply IH; [exact (ci_closed _ _ HI a b Hy Hab)|].
        eapply rtc_r; [exact HyO|exact Hab]. }
      apply HV, (ci_seen _ _ HI n), HC, (rtc_symD _ _ Hn HyO).
    - intros y Hy. apply elem_of_app in Hy as [Hy|Hy].
      + destruct (ci_seen _ _ HI y Hy). auto.
      + split; [auto|]. apply HR in Hy. exact (rtc_dom _ _ Hn Hy).
    - intros y Hy. rewrite elem_of_app. destruct (H3 y Hy) as [?|[?|K]]; [auto|auto|]. destruct (ci_back _ _ HI y K); auto.
    - intros c x y Hc Hx Hxy. apply elem_of_app in Hc as [Hc|Hc]; [exact (ci_cl _ _ HI c x y Hc Hx Hxy)|].
      apply elem_of_list_singleton in Hc. subst c. apply HR in Hx. apply HR. eapply rtc_r; eassumption.
    - intros c Hc. apply elem_of_app in Hc as [Hc|Hc]; [exact (ci_conn _ _ HI c Hc)|].
      apply elem_of_list_singleton in Hc. subst c. split.
      + intros ->. assert (n ∈ []) as K by (apply HR; constructor). apply elem_of_nil in K. exact K.
      + intros x y Hx Hy. apply HR in Hx, Hy. etransitivity; [exact (rtc_symD _ _ Hn Hx)|exact Hy].
  Qed.

  Lemma components_ok starts : (forall n, n ∈ starts -> skip n = false -> D n) ->
    forall V cs, CInv V cs -> exists cs' V', finishes (fun fuel => components_loop (search fuel) skip starts V cs) cs' /\
      CInv V' cs' /\ (forall y, y ∈ concat cs -> y ∈ concat cs') /\
      (forall n, n ∈ starts -> skip n = false -> n ∈ concat cs') /\
      (forall y, y ∈ concat cs' -> y ∈ concat cs \/ exists n, n ∈ starts /\ skip n = false /\ rtc R n y).
  Proof.
    induction starts as [|n ns IH]; intros HD V cs HI.
    - exists cs, V. split; [exists 0%nat; intros; reflexivity|]. split; [exact HI|]. split; [auto|].
      split; [intros n Hn; apply elem_of_nil in Hn; contradiction|auto].
    - assert (forall m, m ∈ ns -> skip m = false -> D m) as HD' by (intros m Hm; apply HD, elem_of_cons; auto).
      destruct (skip n) eqn:Hs.
      { destruct (IH HD' V cs HI) as (cs' & V' & HF & HI' & H0 & H1 & H2). exists cs', V'. split; [|split; [exact HI'|split; [exact H0|split]]].
        - cbn [components_loop]. rewrite Hs. exact HF.
        - intros m Hm Hsm. apply elem_of_cons in Hm as [->|Hm]; [congruence|auto].
        - intros y Hy. destruct (H2 y Hy) as [?|(m & Hm & ?)]; [auto|]. right. exists m. rewrite elem_of_cons. auto. }
      assert (D n) as Hn by (apply HD; [apply elem_of_cons; auto|exact Hs]).
      destruct (decide (n ∈ V)) as [HV|HV].
      { destruct (IH HD' V cs HI) as (cs' & V' & HF & HI' & H0 & H1 & H2). exists cs', V'. split; [|split; [exact HI'|split; [exact H0|split]]].
        - cbn [components_loop]. destruct HF as [k HF]. exists k. intros fuel L. rewrite Hs, decide_True by exact HV. exact (HF fuel L).
        - intros m Hm Hsm. apply elem_of_cons in Hm as [->|Hm]; [|auto].
          destruct (ci_back _ _ HI n HV) as [K|K]; [apply H0, K|destruct (D_bad _ Hn K)].
        - intros y Hy. destruct (H2 y Hy) as [?|(m & Hm & ?)]; [auto|]. right. exists m. rewrite elem_of_cons. auto. }
      destruct (Hsearch n V Hn HV) as (O & V1 & HF1 & HO & HR & G1 & G2 & G3).
      destruct (IH HD' V1 (cs ++ [O]) (CInv_add V cs n O V1 HI Hn HV HO HR G1 G2 G3)) as (cs' & V' & HF & HI' & H0 & H1 & H2).
      assert (concat (cs ++ [O]) = concat cs ++ O) as E by (rewrite concat_app; cbn; rewrite app_nil_r; reflexivity).
      rewrite E in H0. rewrite E in H2. setoid_rewrite elem_of_app in H0. setoid_rewrite elem_of_app in H2.
      exists cs', V'. split; [|split; [exact HI'|split; [auto|split]]].
      + destruct HF1 as [n1 HF1], HF as [n2 HF]. exists (n1 `max` n2)%nat. intros fuel L.
        cbn [components_loop]. rewrite Hs, decide_False by exact HV. rewrite HF1 by lia. apply HF. lia.
      + intros m Hm Hsm. apply elem_of_cons in Hm as [->|Hm]; [|auto]. apply H0. right. apply HR. constructor.
      + intros y Hy. destruct (H2 y Hy) as [[?|Hy']|(m & Hm & ?)]; [auto| |].
        * right. exists n. split; [apply elem_of_cons; auto|]. split; [exact Hs|].
          apply HR in Hy'. revert Hy'. apply rtc_subrel. tauto.
        * right. exists m. rewrite elem_of_cons. auto.
  Qed.
End Comp.
