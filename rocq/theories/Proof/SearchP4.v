(** Neighbourhood queries, depth-limited components and their merging. *)
From Coq Require Import NArith Bool List Lia Sorted.
From stdpp Require Import base list gmap relations.
From Verif.Model Require Import Types Attrs Node EdgeContainer SLayer Search.
From Verif.Spec Require Import EdgeLog LayerLog Search.
From Verif.Proof Require Import Keys EdgeLogP SLayerP SLayerMerge LayerLogP LayerLogP2 SearchP SearchP2 SearchP3.
#[local] Arguments edge_key : simpl never.
Local Open Scope nat_scope.

Lemma init_costs (roots : list N) : forall (m : gmap N nat) x,
  fold_left (fun m r => <[r := 0]> m) roots m !! x = if decide (x ∈ roots) then Some 0 else m !! x.
Proof.
  induction roots as [|r rs IH]; intros m x; cbn [fold_left].
  - rewrite decide_False by (intros K; apply elem_of_nil in K; exact K). reflexivity.
  - rewrite IH. destruct (decide (x ∈ rs)) as [H|H].
    + rewrite decide_True by (apply elem_of_cons; auto). reflexivity.
    + destruct (decide (x = r)) as [->|Hne].
      * rewrite lookup_insert, decide_True by (apply elem_of_cons; auto). reflexivity.
      * rewrite lookup_insert_ne by congruence. rewrite decide_False; [reflexivity|].
        intros K. apply elem_of_cons in K as [?|?]; contradiction.
Qed.

Theorem bfs_roots_limit_ok l roots limit : slayer_ok l -> NoDup roots ->
  (forall r, r ∈ roots -> sl_has_node l r = true) ->
  exists O, finishes (bfs_roots_limit l roots limit) O /\ NoDup O /\
    (forall y, y ∈ O <-> exists r, r ∈ roots /\ path_le (linked l) limit r y).
Proof.
  intros W HN HD. set (C0 := fold_left (fun (m : gmap N nat) r => <[r := 0]> m) roots ∅).
  assert (forall x, C0 !! x = if decide (x ∈ roots) then Some 0 else None) as HC0.
  { intros x. subst C0. rewrite init_costs. destruct (decide (x ∈ roots)); [reflexivity|apply lookup_empty]. }
  assert (forall x, is_Some (C0 !! x) <-> x ∈ roots) as HC1.
  { intros x. rewrite HC0. destruct (decide (x ∈ roots)); [split; eauto|split; [intros [? ?]; discriminate|contradiction]]. }
  assert (forall r, r ∈ roots -> is_Some (sl_nodes l !! r)) as HD' by (intros r Hr; apply sl_has_node_true, HD, Hr).
  destruct (cost_search_ok l false limit (fun r => r ∈ roots) W roots C0 [] (fun _ => False)) as (O & C' & HF & HK).
  - split.
    + intros x Hx. apply HC1, Hx.
    + intros x Hx. apply HD', HC1, Hx.
    + intros x c Hc. assert (x ∈ roots) as Hx by (apply HC1; eauto). rewrite HC0, decide_True in Hc by exact Hx.
      injection Hc as <-. split; [lia|]. exists x. split; [exact Hx|]. exists 0. split; [lia|constructor].
    + intros x Hx. left. apply HC1, Hx.
    + intros x c Hc Hn. exfalso. apply Hn, HC1. eauto.
    + intros x [[]|Hx]. apply elem_of_nil in Hx. contradiction.
    + intros r Hr. rewrite HC0, decide_True by exact Hr. reflexivity.
  - exists O. split; [|split].
    + unfold bfs_roots_limit. replace (forallb (sl_has_node l) roots) with true.
      * exact (finishes_visits _ _ _ HF).
      * symmetry. apply forallb_forall. intros r Hr. apply HD, elem_of_list_In, Hr.
    + destruct HF as [k HF]. refine (once_search l limit W k roots C0 [] O C' _ (HF k (le_n k))). split.
      * exact HN.
      * exact HC1.
      * intros x Hx. apply HD', HC1, Hx.
      * apply SS_const. intros a b Ha Hb. unfold cost_of. rewrite !HC0, !decide_True by assumption. lia.
      * intros x y Hx Hy. apply HC1 in Hy. unfold cost_of. rewrite !HC0, !decide_True by assumption. cbn. lia.
    + intros y. rewrite <- (KInv_final l limit _ _ _ HK y). tauto.
Qed.

Lemma finishes_as_set (f : nat -> fueled (list N)) O : finishes f O -> finishes (fun n => as_set (f n)) (list_to_set O).
Proof. intros [n H]. exists n. intros fuel L. rewrite (H fuel L). reflexivity. Qed.

Lemma bfs_root_limit_roots l root limit fuel : bfs_root_limit l root limit fuel = bfs_roots_limit l [root] limit fuel.
Proof. unfold bfs_root_limit, bfs_roots_limit. cbn. rewrite andb_true_r. reflexivity. Qed.
Lemma bfs_root_roots l root fuel : bfs_root l root fuel = bfs_roots l [root] fuel.
Proof.
  unfold bfs_root, bfs_roots. cbn. rewrite andb_true_r.
  replace ({[root]} ∪ ∅ : gset N) with ({[root]} : gset N) by set_solver. reflexivity.
Qed.

(** ** Depth-limited components *)
Lemma KInv_empty l limit : KInv l limit (fun _ => False) [] ∅ (fun _ => False).
Proof.
  split; try (intros *; rewrite ?lookup_empty; try (intros [? K]; discriminate K); try discriminate; try tauto).
  intros K. apply elem_of_nil in K. contradiction.
Qed.
Lemma KInv_start l limit Src C P n : KInv l limit Src [] C P -> is_Some (sl_nodes l !! n) ->
  KInv l limit (fun r => Src r \/ r = n) [n] (<[n := 0]> C) P.
Proof.
  intros H Hn. split.
  - intros x Hx. apply elem_of_list_singleton in Hx. subst x. rewrite lookup_insert. eauto.
  - intros x Hx. destruct (decide (x = n)) as [->|Hne]; [exact Hn|]. rewrite lookup_insert_ne in Hx by congruence. exact (k_dom _ _ _ _ _ _ H x Hx).
  - intros x c Hc. destruct (decide (x = n)) as [->|Hne].
    + rewrite lookup_insert in Hc. injection Hc as <-. split; [lia|]. exists n. split; [auto|]. exists 0. split; [lia|constructor].
    + rewrite lookup_insert_ne in Hc by congruence. destruct (k_sound _ _ _ _ _ _ H x c Hc) as (? & r & ? & ?). eauto.
  - intros x Hx. destruct (decide (x = n)) as [->|Hne]; [left; apply elem_of_list_singleton; reflexivity|].
    rewrite lookup_insert_ne in Hx by congruence. destruct (k_done _ _ _ _ _ _ H x Hx) as [K|K]; [apply elem_of_nil in K; contradiction|auto].
  - intros x c Hc Hx Hlt y Hl. rewrite elem_of_list_singleton in Hx. rewrite lookup_insert_ne in Hc by congruence.
    destruct (k_closed _ _ _ _ _ _ H x c Hc) with (y := y) as (c' & Hc' & Hle); [intros K; apply elem_of_nil in K; exact K|exact Hlt|exact Hl|].
    destruct (decide (y = n)) as [->|Hne]; [exists 0; rewrite lookup_insert; split; [reflexivity|lia]|].
    exists c'. rewrite lookup_insert_ne by congruence. auto.
  - intros x Hx. destruct (decide (x = n)) as [->|Hne]; [rewrite lookup_insert; eauto|]. rewrite lookup_insert_ne by congruence.
    exact (k_vis _ _ _ _ _ _ H x Hx).
  - intros r [Hr| ->]; [|apply lookup_insert]. destruct (decide (r = n)) as [->|Hne]; [apply lookup_insert|].
    rewrite lookup_insert_ne by congruence. exact (k_src _ _ _ _ _ _ H r Hr).
Qed.
Lemma KInv_iff l limit Src F C (P P' : N -> Prop) : (forall y, P y <-> P' y) -> KInv l limit Src F C P -> KInv l limit Src F C P'.
Proof.
  intros E [a1 a2 a3 a4 a5 a6 a7]. split; auto.
  - intros x Hx. rewrite <- E. auto.
  - intros x Hx. apply a6, E, Hx.
Qed.

Definition covered (cs : list (gset N)) (y : N) : Prop := exists c, c ∈ cs /\ y ∈ c.
Lemma covered_app cs c y : covered (cs ++ [c]) y <-> covered cs y \/ y ∈ c.
Proof.
  unfold covered. split.
  - intros (d & Hd & Hy). apply elem_of_app in Hd as [Hd|Hd]; [eauto|]. apply elem_of_list_singleton in Hd. subst d. auto.
  - intros [(d & Hd & Hy)|Hy]; [exists d|exists c]; rewrite elem_of_app, elem_of_list_singleton; auto.
Qed.

Lemma depth_loop_ok l depth roots : slayer_ok l -> forall Src C comp acc,
  KInv l depth Src [] C (fun y => y ∈ comp) -> (forall c, c ∈ acc -> c <> ∅) ->
  exists cs, finishes (fun fuel => depth_loop l depth fuel roots C comp acc) cs /\ (forall c, c ∈ cs -> c <> ∅) /\
    (forall y, covered cs y <-> covered acc y \/ y ∈ comp \/
       exists r, r ∈ roots /\ sl_has_node l r = true /\ path_le (linked l) depth r y).
Proof.
  intros W. induction roots as [|n ns IH]; intros Src C comp acc HK Hne.
  - cbn [depth_loop]. exists (if decide (comp = ∅) then acc else acc ++ [comp]). split; [exists 0; reflexivity|].
    destruct (decide (comp = ∅)) as [->|Hc]; split.
    + exact Hne.
    + intros y. split; [auto|]. intros [?|[K|(r & K & _)]]; [assumption|set_solver|apply elem_of_nil in K; contradiction].
    + intros c Hc'. apply elem_of_app in Hc' as [?|Hc']; [auto|]. apply elem_of_list_singleton in Hc'. subst c. exact Hc.
    + intros y. rewrite covered_app. split; [tauto|]. intros [?|[?|(r & K & _)]]; [auto|auto|apply elem_of_nil in K; contradiction].
  - destruct (sl_has_node l n) eqn:Hn.
    2: { destruct (IH Src C comp acc HK Hne) as (cs & HF & H1 & H2). exists cs. split; [|split; [exact H1|]].
         - cbn [depth_loop]. rewrite Hn. exact HF.
         - intros y. rewrite H2. split; (intros [?|[?|(r & Hr & Hs & Hp)]]; [auto|auto|]); right; right; exists r.
           + rewrite elem_of_cons. auto.
           + apply elem_of_cons in Hr as [->|Hr]; [congruence|auto]. }
    assert (is_Some (sl_nodes l !! n)) as Hn' by (apply sl_has_node_true, Hn).
    set (flush := bool_decide (C !! n = None) && negb (bool_decide (comp = ∅))).
    set (acc' := if flush then acc ++ [comp] else acc). set (comp' := if flush then ∅ else comp).
    set (C' := if flush then ∅ else C). set (Src' := if flush then (fun _ => False) else Src).
    assert (KInv l depth Src' [] C' (fun y => y ∈ comp')) as HK'.
    { subst Src' C' comp'. destruct flush; [|exact HK]. apply KInv_iff with (P := fun _ => False); [set_solver|apply KInv_empty]. }
    pose proof (KInv_start _ _ _ _ _ n HK' Hn') as HK1.
    destruct (cost_search_ok l true depth (fun r => Src' r \/ r = n) W [n] (<[n := 0]> C') [] (fun y => y ∈ comp')) as (vs & C'' & HF1 & HK2).
    { eapply KInv_iff; [|exact HK1]. intros y. cbn. split; [auto|]. intros [?|K]; [assumption|apply elem_of_nil in K; contradiction]. }
    destruct (IH (fun r => Src' r \/ r = n) C'' (comp' ∪ list_to_set vs) acc') as (cs & HF2 & H1 & H2).
    { eapply KInv_iff; [|exact HK2]. intros y. rewrite elem_of_union, elem_of_list_to_set. reflexivity. }
    { intros c Hc. subst acc'. destruct flush eqn:Ef; [|auto]. apply elem_of_app in Hc as [?|Hc]; [auto|].
      apply elem_of_list_singleton in Hc. subst c. subst flush. apply andb_prop in Ef as [_ Ef].
      rewrite negb_true_iff, bool_decide_eq_false in Ef. exact Ef. }
    exists cs. split; [|split; [exact H1|]].
    + destruct HF1 as [k1 HF1], HF2 as [k2 HF2]. exists (k1 `max` k2). intros fuel L. cbn [depth_loop].
      rewrite Hn. cbn [negb]. fold flush. fold acc'. fold comp'. fold C'. unfold bfs_cost. rewrite HF1 by lia. apply HF2. lia.
    + intros y. rewrite H2. rewrite elem_of_union, elem_of_list_to_set.
      pose proof (KInv_final _ _ _ _ _ HK2 y) as E2. cbn in E2.
      pose proof (KInv_final _ _ _ _ _ HK' y) as E1. cbn in E1.
      assert (covered acc' y \/ y ∈ comp' <-> covered acc y \/ y ∈ comp) as E3.
      { subst acc' comp'. destruct flush; [rewrite covered_app; set_solver|reflexivity]. }
      split.
      * intros [?|[K|(r & Hr & Hs & Hp)]].
        -- tauto.
        -- apply E2 in K as (r & [Hr| ->] & Hp).
           ++ assert (y ∈ comp') by (apply E1; eauto). tauto.
           ++ right; right. exists n. rewrite elem_of_cons. auto.
        -- right; right. exists r. rewrite elem_of_cons. auto.
      * intros [?|[?|(r & Hr & Hs & Hp)]]; [tauto|tauto|]. apply elem_of_cons in Hr as [->|Hr].
        -- right; left. apply E2. exists n. auto.
        -- right; right. exists r. auto.
Qed.

(** ** Merging *)
Lemma absorb_spec later : forall curr curr' kept, absorb curr later = (curr', kept) ->
  (forall y, y ∈ curr' \/ covered kept y <-> y ∈ curr \/ covered later y) /\
  (length kept <= length later) /\ curr ⊆ curr' /\
  (forall c, c ∈ later -> c ∈ kept \/ c ⊆ curr') /\ (forall c, c ∈ kept -> c ∈ later).
Proof.
  induction later as [|c r IH]; intros curr curr' kept E.
  - injection E as <- <-. split; [tauto|]. split; [lia|]. split; [reflexivity|]. split; [|auto].
    intros c Hc. apply elem_of_nil in Hc. contradiction.
  - cbn [absorb] in E. destruct (decide (c ∩ curr ≠ ∅)) as [Ho|Ho].
    + destruct (IH _ _ _ E) as (H1 & H2 & H3 & H4 & H5). split; [|split; [cbn; lia|split; [set_solver|split]]].
      * intros y. rewrite H1. unfold covered. rewrite elem_of_union. split.
        -- intros [[?|?]|(d & Hd & Hy)]; [auto|right; exists c; rewrite elem_of_cons; auto|right; exists d; rewrite elem_of_cons; auto].
        -- intros [?|(d & Hd & Hy)]; [auto|]. apply elem_of_cons in Hd as [->|Hd]; [auto|right; eauto].
      * intros d Hd. apply elem_of_cons in Hd as [->|Hd]; [right; set_solver|auto].
      * intros d Hd. apply elem_of_cons. auto.
    + destruct (absorb curr r) as [cu ke] eqn:E'. injection E as <- <-. destruct (IH _ _ _ E') as (H1 & H2 & H3 & H4 & H5).
      split; [|split; [cbn; lia|split; [exact H3|split]]].
      * intros y. assert (covered (c :: ke) y <-> y ∈ c \/ covered ke y) as ->.
        { unfold covered. split; [intros (d & Hd & Hy); apply elem_of_cons in Hd as [->|Hd]; eauto|].
          intros [?|(d & Hd & Hy)]; [exists c|exists d]; rewrite elem_of_cons; auto. }
        assert (covered (c :: r) y <-> y ∈ c \/ covered r y) as ->.
        { unfold covered. split; [intros (d & Hd & Hy); apply elem_of_cons in Hd as [->|Hd]; eauto|].
          intros [?|(d & Hd & Hy)]; [exists c|exists d]; rewrite elem_of_cons; auto. }
        specialize (H1 y). tauto.
      * intros d Hd. rewrite elem_of_cons. apply elem_of_cons in Hd as [->|Hd]; [auto|]. destruct (H4 d Hd); auto.
      * intros d Hd. rewrite elem_of_cons. apply elem_of_cons in Hd as [->|Hd]; auto.
Qed.

Lemma merged_n_ok n : forall cs, length cs <= n ->
  (forall y, covered (merged_components_n n cs) y <-> covered cs y) /\
  (forall c, c ∈ cs -> exists d, d ∈ merged_components_n n cs /\ c ⊆ d).
Proof.
  induction n as [|n IH]; intros cs L; destruct cs as [|c r]; cbn [length] in L; try lia.
  - split; [reflexivity|]. intros c Hc. apply elem_of_nil in Hc. contradiction.
  - split; [reflexivity|]. intros c Hc. apply elem_of_nil in Hc. contradiction.
  - cbn [merged_components_n]. destruct (absorb c r) as [c' kept] eqn:E.
    destruct (absorb_spec _ _ _ _ E) as (H1 & H2 & H3 & H4 & H5). destruct (IH kept ltac:(lia)) as [I1 I2]. split.
    + intros y. assert (forall (a : gset N) bs, covered (a :: bs) y <-> y ∈ a \/ covered bs y) as HC.
      { intros a bs. unfold covered. split; [intros (d & Hd & Hy); apply elem_of_cons in Hd as [->|Hd]; eauto|].
        intros [?|(d & Hd & Hy)]; [exists a|exists d]; rewrite elem_of_cons; auto. }
      rewrite !HC, I1. apply H1.
    + intros d Hd. apply elem_of_cons in Hd as [->|Hd]; [exists c'; rewrite elem_of_cons; auto|].
      destruct (H4 d Hd) as [K|K]; [|exists c'; rewrite elem_of_cons; auto].
      destruct (I2 d K) as (e & He & Hs). exists e. rewrite elem_of_cons. auto.
Qed.

(** If sharing a node is transitive on the inputs, the outputs are disjoint. *)
Definition overlap (a b : gset N) : Prop := a ∩ b <> ∅.
Definition overlap_transitive (cs : list (gset N)) : Prop :=
  forall a b c, a ∈ cs -> b ∈ cs -> c ∈ cs -> overlap a b -> overlap b c -> overlap a c.

Lemma overlap_sym a b : overlap a b <-> overlap b a.
Proof. unfold overlap. set_solver. Qed.
Lemma overlap_iff a b : overlap a b <-> exists y, y ∈ a /\ y ∈ b.
Proof.
  unfold overlap. split.
  - intros H. apply set_choose_L in H as [y Hy]. exists y. set_solver.
  - intros (y & Ha & Hb) K. set_solver.
Qed.

Lemma absorb_disjoint all later : overlap_transitive all -> forall curr curr' kept members,
  (forall m, m ∈ members -> m ∈ all) -> (forall c, c ∈ later -> c ∈ all) ->
  (forall y, y ∈ curr <-> covered members y) ->
  absorb curr later = (curr', kept) ->
  (* what was passed over before shares nothing with curr: *)
  exists members', (forall m, m ∈ members' -> m ∈ all) /\ (forall y, y ∈ curr' <-> covered members' y) /\
    (forall m, m ∈ members -> m ∈ members') /\
    (forall c, c ∈ kept -> ~ overlap c curr') /\
    (forall c, c ∈ all -> ~ overlap c curr -> overlap c curr' -> False).
Proof.
  intros T. induction later as [|c r IH]; intros curr curr' kept members HM HL Hcu E.
  - injection E as <- <-. exists members. split; [exact HM|]. split; [exact Hcu|]. split; [auto|].
    split; [intros c Hc; apply elem_of_nil in Hc; contradiction|auto].
  - assert (forall d, d ∈ r -> d ∈ all) as HL' by (intros d Hd; apply HL, elem_of_cons; auto).
    assert (c ∈ all) as Hc by (apply HL, elem_of_cons; auto).
    cbn [absorb] in E. destruct (decide (c ∩ curr ≠ ∅)) as [Ho|Ho].
    + assert (forall m, m ∈ members ++ [c] -> m ∈ all) as HM'.
      { intros m Hm. apply elem_of_app in Hm as [?|Hm]; [auto|]. apply elem_of_list_singleton in Hm. subst m. exact Hc. }
      destruct (IH (curr ∪ c) curr' kept (members ++ [c]) HM' HL') as (ms & J1 & J2 & J3 & J4 & J5).
      { intros y. rewrite covered_app, elem_of_union, Hcu. reflexivity. }
      { exact E. }
      exists ms. split; [exact J1|]. split; [exact J2|]. split; [intros m Hm; apply J3, elem_of_app; auto|]. split; [exact J4|].
      intros d Hd Hn Hov. apply (J5 d Hd); [|exact Hov]. intros K. apply overlap_iff in K as (y & Hyd & Hy).
      apply elem_of_union in Hy as [Hy|Hy]; [apply Hn, overlap_iff; eauto|].
      fold (overlap c curr) in Ho. apply overlap_iff in Ho as (z & Hzc & Hz). apply Hcu in Hz as (m & Hm & Hzm).
      assert (overlap d m) as Hdm.
      { apply (T d c m); [exact Hd|exact Hc|exact (HM m Hm)|apply overlap_iff; eauto|apply overlap_iff; eauto]. }
      apply overlap_iff in Hdm as (w & Hwd & Hwm). apply Hn, overlap_iff. exists w. split; [exact Hwd|]. apply Hcu. exists m. auto.
    + destruct (absorb curr r) as [cu ke] eqn:E'. injection E as <- <-.
      destruct (IH curr cu ke members HM HL' Hcu E') as (ms & J1 & J2 & J3 & J4 & J5).
      exists ms. split; [exact J1|]. split; [exact J2|]. split; [exact J3|]. split; [|exact J5].
      intros d Hd K. apply elem_of_cons in Hd as [->|Hd]; [|exact (J4 d Hd K)].
      apply (J5 c Hc); [|exact K]. intros K'. exact (Ho K').
Qed.

Lemma absorb_kept_in curr later curr' kept : absorb curr later = (curr', kept) -> forall c, c ∈ kept -> c ∈ later.
Proof. intros E. apply (absorb_spec _ _ _ _ E). Qed.

Lemma merged_n_disjoint all n : overlap_transitive all -> forall cs, (forall c, c ∈ cs -> c ∈ all) -> length cs <= n ->
  forall i j a b, merged_components_n n cs !! i = Some a -> merged_components_n n cs !! j = Some b -> i <> j -> a ∩ b = ∅.
Proof.
  intros T. induction n as [|n IH]; intros cs Hall L i j a b Hi Hj Hne; destruct cs as [|c r]; cbn [length] in L; try lia.
  - discriminate.
  - cbn in Hi. discriminate.
  - cbn [merged_components_n] in Hi, Hj. destruct (absorb c r) as [c' kept] eqn:E.
    destruct (absorb_disjoint all r T c c' kept [c]) as (ms & J1 & J2 & J3 & J4 & J5).
    { intros m Hm. apply elem_of_list_singleton in Hm. subst m. apply Hall, elem_of_cons. auto. }
    { intros d Hd. apply Hall, elem_of_cons. auto. }
    { intros y. unfold covered. split; [intros Hy; exists c; rewrite elem_of_list_singleton; auto|].
      intros (d & Hd & Hy). apply elem_of_list_singleton in Hd. subst d. exact Hy. }
    { exact E. }
    destruct (absorb_spec _ _ _ _ E) as (_ & Hlen & _).
    assert (forall k d, merged_components_n n kept !! k = Some d -> c' ∩ d = ∅) as HD.
    { intros k d Hk. apply elem_of_list_lookup_2 in Hk.
      assert (forall y, y ∈ c' -> y ∈ d -> False) as K.
      { intros y Hy Hyd. assert (covered kept y) as (e & He & Hye) by (apply (proj1 (merged_n_ok n kept ltac:(lia)) y); exists d; auto).
        apply (J4 e He), overlap_iff. eauto. }
      set_solver. }
    destruct i as [|i], j as [|j]; cbn in Hi, Hj.
    + contradiction.
    + injection Hi as <-. exact (HD j b Hj).
    + injection Hj as <-. rewrite (intersection_comm_L a c'). exact (HD i a Hi).
    + apply (IH kept) with (i := i) (j := j); [|lia|exact Hi|exact Hj|congruence].
      intros d Hd. apply Hall, elem_of_cons. right. exact (absorb_kept_in _ _ _ _ E d Hd).
Qed.
