(** Cost-limited searches: neighbourhoods and depth-limited components. *)
From Coq Require Import NArith Bool List Lia Sorted Arith.Wf_nat.
From stdpp Require Import base list gmap relations.
From Verif.Model Require Import Types Attrs Node EdgeContainer SLayer Search.
From Verif.Spec Require Import EdgeLog LayerLog Search.
From Verif.Proof Require Import Keys EdgeLogP SLayerP SLayerMerge LayerLogP LayerLogP2 SearchP SearchP2.
#[local] Arguments edge_key : simpl never.
Local Open Scope nat_scope.

Definition lowers (ae : bool) (nc : nat) (o : option nat) : Prop :=
  match o with None => True | Some c => if ae then nc <= c else nc < c end.

Lemma push_cost_fold ae nc ns : forall A C A' C', NoDup ns ->
  fold_left (push_cost ae nc) ns (A, C) = (A', C') ->
  exists B, A' = A ++ B /\ NoDup B /\ length B <= length ns /\
    (forall y, y ∈ B <-> y ∈ ns /\ lowers ae nc (C !! y)) /\
    (forall y, y ∈ B -> C' !! y = Some nc) /\ (forall y, y ∉ B -> C' !! y = C !! y).
Proof.
  induction ns as [|m ns IH]; intros A C A' C' HN E.
  - injection E as <- <-. exists []. rewrite app_nil_r. split; [reflexivity|]. split; [constructor|]. split; [cbn; lia|].
    split; [intros y; rewrite elem_of_nil; tauto|]. split; [|auto]. intros y Hy. apply elem_of_nil in Hy. contradiction.
  - apply list.NoDup_cons in HN as [Hm HN]. cbn [fold_left] in E. unfold push_cost at 2 in E.
    match type of E with context [if ?b then _ else _] => set (sk := b) in E end.
    assert (sk = false <-> lowers ae nc (C !! m)) as Hsk.
    { subst sk. unfold lowers. destruct (C !! m) as [c|]; [|tauto]. destruct ae;
        [rewrite Nat.ltb_ge|rewrite Nat.leb_gt]; lia. }
    destruct sk.
    + destruct (IH _ _ _ _ HN E) as (B & -> & HB & HL & H1 & H2 & H3). exists B. split; [reflexivity|]. split; [exact HB|].
      split; [cbn; lia|]. split; [|auto]. intros y. rewrite H1, elem_of_cons. split; [tauto|]. intros [[->|?] K]; [|auto].
      apply Hsk in K. discriminate.
    + destruct (IH _ _ _ _ HN E) as (B & -> & HB & HL & H1 & H2 & H3). exists (m :: B). rewrite <- app_assoc. split; [reflexivity|].
      assert (m ∉ B) as HmB by (intros K; apply H1 in K; tauto).
      split; [apply list.NoDup_cons; split; assumption|]. split; [cbn; lia|]. split; [|split].
      * intros y. rewrite !elem_of_cons, H1. split.
        -- intros [->|[? K]]; [split; [auto|apply Hsk; reflexivity]|]. split; [auto|].
           rewrite lookup_insert_ne in K by (intros ->; contradiction). exact K.
        -- intros [[->|?] K]; [auto|]. right. split; [assumption|].
           rewrite lookup_insert_ne by (intros ->; contradiction). exact K.
      * intros y Hy. apply elem_of_cons in Hy as [->|Hy]; [|auto]. rewrite (H3 _ HmB). apply lookup_insert.
      * intros y Hy. rewrite elem_of_cons in Hy. rewrite H3 by tauto. apply lookup_insert_ne. intros ->. tauto.
Qed.

Lemma expand_cost_ok l ae limit x c (C : gmap N nat) : slayer_ok l -> is_Some (sl_nodes l !! x) -> C !! x = Some c ->
  exists B C', expand_cost l ae limit x C = Ok (B, C') /\ NoDup B /\
    (forall y, y ∈ B <-> c < limit /\ linked l x y /\ lowers ae (c + 1) (C !! y)) /\
    (forall y, y ∈ B -> C' !! y = Some (c + 1)) /\ (forall y, y ∉ B -> C' !! y = C !! y).
Proof.
  intros W [nd Hx] Hc. unfold expand_cost, cost_of. rewrite Hc. cbn [default id].
  destruct (limit <=? c) eqn:E.
  - apply Nat.leb_le in E. exists [], C. split; [reflexivity|]. split; [constructor|].
    split; [intros y; rewrite elem_of_nil; lia|]. split; [|auto]. intros y Hy. apply elem_of_nil in Hy. contradiction.
  - apply Nat.leb_gt in E. rewrite (neighbors_ok _ _ _ Hx). cbn [rbind].
    destruct (fold_left (push_cost ae (c + 1)) (elements (n_sib nd)) ([], C)) as [B C'] eqn:EF.
    destruct (push_cost_fold ae _ _ _ _ _ _ (NoDup_elements _) EF) as (B' & -> & HB & _ & H1 & H2 & H3).
    exists B', C'. split; [reflexivity|]. split; [exact HB|]. split; [|auto].
    intros y. rewrite H1, elem_of_elements, (linked_sib l x y nd W Hx). tauto.
Qed.

Section Cost.
  Variables (l : SLayer) (ae : bool) (limit : nat) (Src : N -> Prop).
  Hypothesis W : slayer_ok l.
  Let D : gset N := dom (sl_nodes l).

  (** [P x]: the visitor was already called on [x]. *)
  Record KInv (F : list N) (C : gmap N nat) (P : N -> Prop) : Prop := {
    k_front : forall x, x ∈ F -> is_Some (C !! x);
    k_dom : forall x, is_Some (C !! x) -> is_Some (sl_nodes l !! x);
    k_sound : forall x c, C !! x = Some c -> c <= limit /\ exists r, Src r /\ path_le (linked l) c r x;
    k_done : forall x, is_Some (C !! x) -> x ∈ F \/ P x;
    k_closed : forall x c, C !! x = Some c -> x ∉ F -> c < limit -> forall y, linked l x y ->
      exists c', C !! y = Some c' /\ c' <= c + 1;
    k_vis : forall x, P x -> is_Some (C !! x);
    k_src : forall r, Src r -> C !! r = Some 0
  }.

  Lemma path_le_step c x y r : path_le (linked l) c r x -> linked l x y -> path_le (linked l) (c + 1) r y.
  Proof. intros (m & Hm & Hp) Hl. exists (S m). split; [lia|]. eapply nsteps_r; eassumption. Qed.

  Lemma KInv_step x F C P c B C' : KInv (x :: F) C P -> C !! x = Some c ->
    (forall y, y ∈ B <-> c < limit /\ linked l x y /\ lowers ae (c + 1) (C !! y)) ->
    (forall y, y ∈ B -> C' !! y = Some (c + 1)) -> (forall y, y ∉ B -> C' !! y = C !! y) ->
    KInv (F ++ B) C' (fun y => P y \/ y = x).
  Proof.
    intros H Hc HB H1 H2.
    assert (forall y c0, C !! y = Some c0 -> exists c1, C' !! y = Some c1 /\ c1 <= c0) as Hdec.
    { intros y c0 Hy. destruct (decide (y ∈ B)) as [K|K].
      - exists (c + 1). split; [auto|]. apply HB in K as (_ & _ & K). rewrite Hy in K. cbn in K. destruct ae; lia.
      - exists c0. split; [rewrite H2 by exact K; exact Hy|lia]. }
    assert (x ∉ B) as HxB.
    { intros K. apply HB in K as (_ & K & _). exact (proj1 (linked_nodes l x x W K) eq_refl). }
    split.
    - intros y Hy. apply elem_of_app in Hy as [Hy|Hy]; [|rewrite H1 by exact Hy; eauto].
      destruct (k_front _ _ _ H y) as [c0 Hy0]; [apply elem_of_cons; auto|]. destruct (Hdec y c0 Hy0) as (c1 & ? & _). eauto.
    - intros y Hy. destruct (decide (y ∈ B)) as [K|K].
      + apply HB in K as (_ & K & _). apply (linked_nodes l x y W K).
      + rewrite H2 in Hy by exact K. exact (k_dom _ _ _ H y Hy).
    - intros y cy Hy. destruct (decide (y ∈ B)) as [K|K].
      + rewrite H1 in Hy by exact K. injection Hy as <-. apply HB in K as (Hlt & Hl & _). split; [lia|].
        destruct (k_sound _ _ _ H x c Hc) as (_ & r & Hr & Hp). exists r. split; [exact Hr|].
        exact (path_le_step _ _ _ _ Hp Hl).
      + rewrite H2 in Hy by exact K. exact (k_sound _ _ _ H y cy Hy).
    - intros y Hy. rewrite elem_of_app. destruct (decide (y ∈ B)) as [K|K]; [auto|].
      rewrite H2 in Hy by exact K. destruct (k_done _ _ _ H y Hy) as [K'|K']; [apply elem_of_cons in K' as [->|?]; auto|auto].
    - intros y cy Hy Hn Hlt z Hz. rewrite elem_of_app in Hn. destruct (decide (y ∈ B)) as [K|K]; [tauto|].
      rewrite H2 in Hy by exact K. destruct (decide (y = x)) as [->|Hne].
      + assert (cy = c) as -> by congruence. destruct (decide (z ∈ B)) as [Kz|Kz]; [exists (c + 1); auto|].
        rewrite H2 by exact Kz. destruct (C !! z) as [cz|] eqn:Ez.
        * exists cz. split; [reflexivity|]. destruct (decide (cz <= c + 1)) as [|Hgt]; [assumption|]. exfalso. apply Kz, HB.
          split; [exact Hlt|]. split; [exact Hz|]. rewrite Ez. cbn. destruct ae; lia.
        * exfalso. apply Kz, HB. rewrite Ez. cbn. auto.
      + destruct (k_closed _ _ _ H y cy Hy) with (y := z) as (cz & Hcz & Hle); [|exact Hlt|exact Hz|].
        * rewrite elem_of_cons. tauto.
        * destruct (Hdec z cz Hcz) as (c1 & ? & ?). exists c1. split; [assumption|lia].
    - intros y [Hy|Hy].
      + destruct (k_vis _ _ _ H y Hy) as [c0 Hy0]. destruct (Hdec y c0 Hy0) as (c1 & ? & _). eauto.
      + subst y. rewrite H2 by exact HxB. eauto.
    - intros r Hr. destruct (Hdec r 0 (k_src _ _ _ H r Hr)) as (c1 & Hc1 & ?). rewrite Hc1. f_equal. lia.
  Qed.

  (** Termination measures. *)
  Definition slack (C : gmap N nat) (x : N) : nat := match C !! x with None => S limit | Some c => c end.
  Fixpoint msum (f : N -> nat) (xs : list N) : nat := match xs with [] => 0 | x :: r => f x + msum f r end.
  Definition M1 (C : gmap N nat) : nat := msum (slack C) (elements D).
  Definition weight (C : gmap N nat) (x : N) : nat := S (size D) ^ (limit - slack C x).
  Definition M2 (C : gmap N nat) (F : list N) : nat := msum (weight C) F.

  Lemma msum_le f g xs : (forall x, x ∈ xs -> f x <= g x) -> msum f xs <= msum g xs.
  Proof.
    induction xs as [|x xs IH]; intros H; cbn; [lia|]. assert (f x <= g x) by (apply H, elem_of_cons; auto).
    assert (msum f xs <= msum g xs) by (apply IH; intros; apply H, elem_of_cons; auto). lia.
  Qed.
  Lemma msum_lt f g xs z : (forall x, x ∈ xs -> f x <= g x) -> z ∈ xs -> f z < g z -> msum f xs < msum g xs.
  Proof.
    induction xs as [|x xs IH]; intros H Hz Hlt; [apply elem_of_nil in Hz; contradiction|]. cbn.
    assert (f x <= g x) by (apply H, elem_of_cons; auto).
    assert (msum f xs <= msum g xs) by (apply msum_le; intros; apply H, elem_of_cons; auto).
    apply elem_of_cons in Hz as [->|Hz]; [lia|].
    assert (msum f xs < msum g xs) by (apply IH; [intros; apply H, elem_of_cons; auto|exact Hz|exact Hlt]). lia.
  Qed.
  Lemma msum_app f xs ys : msum f (xs ++ ys) = msum f xs + msum f ys.
  Proof. induction xs as [|x xs IH]; cbn; [reflexivity|]. rewrite IH. lia. Qed.
  Lemma msum_const f k xs : (forall x, x ∈ xs -> f x = k) -> msum f xs = length xs * k.
  Proof.
    induction xs as [|x xs IH]; intros H; cbn; [reflexivity|]. rewrite IH by (intros; apply H, elem_of_cons; auto).
    rewrite (H x) by (apply elem_of_cons; auto). reflexivity.
  Qed.

  Lemma measure_step x F C P c B C' : KInv (x :: F) C P -> C !! x = Some c -> NoDup B ->
    (forall y, y ∈ B <-> c < limit /\ linked l x y /\ lowers ae (c + 1) (C !! y)) ->
    (forall y, y ∈ B -> C' !! y = Some (c + 1)) -> (forall y, y ∉ B -> C' !! y = C !! y) ->
    M1 C' < M1 C \/ (M1 C' <= M1 C /\ M2 C' (F ++ B) < M2 C (x :: F)).
  Proof.
    intros H Hc HN HB H1 H2.
    assert (forall y, slack C' y <= slack C y) as Hle.
    { intros y. unfold slack. destruct (decide (y ∈ B)) as [K|K]; [|rewrite H2 by exact K; lia].
      rewrite (H1 y K). apply HB in K as (Hlt & _ & K). destruct (C !! y) as [cy|]; [|lia]. cbn in K. destruct ae; lia. }
    assert (forall y, y ∈ B -> y ∈ elements D) as HBD.
    { intros y Hy. apply HB in Hy as (_ & Hy & _). apply elem_of_elements, elem_of_dom, (linked_nodes l x y W Hy). }
    destruct (decide (Forall (fun y => slack C' y = slack C y) B)) as [Hall|Hex].
    - right. rewrite List.Forall_forall in Hall.
      assert (forall y, slack C' y = slack C y) as Heq.
      { intros y. destruct (decide (y ∈ B)) as [K|K]; [apply Hall, elem_of_list_In, K|unfold slack; rewrite H2 by exact K; reflexivity]. }
      split; [apply msum_le; intros; apply Hle|].
      unfold M2. rewrite msum_app. cbn [msum].
      assert (msum (weight C') F = msum (weight C) F) as ->.
      { apply Nat.le_antisymm; apply msum_le; intros y _; unfold weight; rewrite Heq; lia. }
      assert (weight C x = S (size D) ^ (limit - c)) as -> by (unfold weight, slack; rewrite Hc; reflexivity).
      rewrite (msum_const _ (S (size D) ^ (limit - (c + 1))) B).
      2: { intros y Hy. unfold weight, slack. rewrite (H1 y Hy). reflexivity. }
      assert (length B <= size D) as HL.
      { unfold size, set_size. apply submseteq_length, NoDup_submseteq; assumption. }
      destruct B as [|b B].
      + cbn [length]. pose proof (Nat.pow_nonzero (S (size D)) (limit - c)). lia.
      + assert (c < limit) as Hlt by (apply (HB b), elem_of_cons; auto).
        replace (limit - c) with (S (limit - (c + 1))) by lia. rewrite Nat.pow_succ_r'.
        pose proof (Nat.pow_nonzero (S (size D)) (limit - (c + 1))). nia.
    - left. apply not_Forall_Exists in Hex; [|intros y; apply _]. apply list.Exists_exists in Hex as (y & Hy & Hne).
      apply msum_lt with (z := y); [intros; apply Hle|apply HBD, Hy|]. specialize (Hle y). cbn in Hne. apply Nat.le_neq. split; [exact Hle|exact Hne].
  Qed.

  Theorem cost_search_ok F C O (P0 : N -> Prop) : KInv F C (fun y => P0 y \/ y ∈ O) ->
    exists O' C', finishes (fun fuel => search_loop (expand_cost l ae limit) fuel F C O) (O', C') /\
      KInv [] C' (fun y => P0 y \/ y ∈ O').
  Proof.
    remember (M1 C) as m1 eqn:E1. assert (M1 C <= m1) as L1 by lia. clear E1.
    revert F C O L1. induction m1 as [m1 IH1] using lt_wf_ind. intros F C O L1.
    remember (M2 C F) as m2 eqn:E2. assert (M2 C F <= m2) as L2 by lia. clear E2.
    revert F C O L1 L2. induction m2 as [m2 IH2] using lt_wf_ind. intros F C O L1 L2 H.
    destruct F as [|x F].
    { exists O, C. split; [|exact H]. exists 0. intros fuel _. destruct fuel; reflexivity. }
    destruct (k_front _ _ _ H x) as [c Hc]; [apply elem_of_cons; auto|].
    destruct (expand_cost_ok l ae limit x c C W) as (B & C1 & E & HN & HB & H1 & H2); [apply (k_dom _ _ _ H); eauto|exact Hc|].
    pose proof (KInv_step _ _ _ _ _ _ _ H Hc HB H1 H2) as H'.
    assert (KInv (F ++ B) C1 (fun y => P0 y \/ y ∈ O ++ [x])) as H''.
    { destruct H' as [a1 a2 a3 a4 a5 a6 a7]. split; auto; intros y Hy.
      - specialize (a4 y Hy). rewrite (elem_of_app O), elem_of_list_singleton. tauto.
      - apply a6. rewrite elem_of_app, elem_of_list_singleton in Hy. tauto. }
    assert (exists O' C', finishes (fun fuel => search_loop (expand_cost l ae limit) fuel (F ++ B) C1 (O ++ [x])) (O', C') /\
      KInv [] C' (fun y => P0 y \/ y ∈ O')) as (O' & C' & [k HF] & HK).
    { destruct (measure_step x F C _ c B C1 H Hc HN HB H1 H2) as [Hlt|[Hle Hlt]].
      - apply (IH1 (M1 C1)); [lia|lia|exact H''].
      - apply (IH2 (M2 C1 (F ++ B))); [lia|lia|lia|exact H'']. }
    exists O', C'. split; [|exact HK]. exists (S k). intros fuel L. destruct fuel as [|f]; [lia|].
    cbn [search_loop]. rewrite E. apply HF. lia.
  Qed.

  Lemma KInv_final C P : KInv [] C P -> forall y, P y <-> exists r, Src r /\ path_le (linked l) limit r y.
  Proof.
    intros H y. split.
    - intros Hy. destruct (k_vis _ _ _ H y Hy) as [c Hc]. destruct (k_sound _ _ _ H y c Hc) as (Hle & r & Hr & m & Hm & Hp).
      exists r. split; [exact Hr|]. exists m. split; [lia|exact Hp].
    - intros (r & Hr & m & Hm & Hp).
      assert (forall m z, m <= limit -> nsteps (linked l) m r z -> exists c, C !! z = Some c /\ c <= m) as HA.
      { clear m Hm Hp y. induction m as [|m IH]; intros z Hm Hp.
        - inversion Hp; subst. exists 0. split; [exact (k_src _ _ _ H _ Hr)|lia].
        - apply nsteps_inv_r in Hp as (w & Hp & Hl). destruct (IH w ltac:(lia) Hp) as (cw & Hw & Hle).
          destruct (k_closed _ _ _ H w cw Hw) with (y := z) as (cz & Hz & Hlez); [intros K; apply elem_of_nil in K; exact K|lia|exact Hl|].
          exists cz. split; [exact Hz|lia]. }
      destruct (HA m y Hm Hp) as (c & Hc & _). destruct (k_done _ _ _ H y) as [K|K]; [eauto|apply elem_of_nil in K; contradiction|exact K].
  Qed.
End Cost.

(** The visitor is called once per node (AllowEqual = false, all roots at cost 0). *)
Section Once.
  Variables (l : SLayer) (limit : nat).
  Hypothesis W : slayer_ok l.
  Record JInv (F : list N) (C : gmap N nat) (O : list N) : Prop := {
    j_nodup : NoDup (O ++ F);
    j_dom : forall x, is_Some (C !! x) <-> x ∈ O ++ F;
    j_nodes : forall x, is_Some (C !! x) -> is_Some (sl_nodes l !! x);
    j_sorted : StronglySorted (fun a b => cost_of C a <= cost_of C b) F;
    j_max : forall x y, x ∈ F -> is_Some (C !! y) -> cost_of C y <= cost_of C x + 1
  }.
  Lemma SS_ext (R R' : N -> N -> Prop) F : (forall a b, a ∈ F -> b ∈ F -> R a b -> R' a b) ->
    StronglySorted R F -> StronglySorted R' F.
  Proof.
    intros H HS. induction HS as [|a F HS IH HF]; constructor.
    - apply IH. intros x y Hx Hy. apply H; apply elem_of_cons; auto.
    - rewrite List.Forall_forall in HF |- *. intros b Hb. apply H; [apply elem_of_cons; auto|apply elem_of_cons; right; apply elem_of_list_In, Hb|apply HF, Hb].
  Qed.
  Lemma SS_app (R : N -> N -> Prop) F G : StronglySorted R F -> StronglySorted R G ->
    (forall a b, a ∈ F -> b ∈ G -> R a b) -> StronglySorted R (F ++ G).
  Proof.
    intros HF HG H. induction HF as [|a F HF IH Ha]; [exact HG|]. cbn. constructor.
    - apply IH. intros x y Hx Hy. apply H; [apply elem_of_cons; auto|exact Hy].
    - rewrite List.Forall_forall in Ha |- *. intros b Hb. apply in_app_or in Hb as [Hb|Hb]; [auto|].
      apply H; [apply elem_of_cons; auto|apply elem_of_list_In, Hb].
  Qed.
  Lemma SS_const (R : N -> N -> Prop) F : (forall a b, a ∈ F -> b ∈ F -> R a b) -> StronglySorted R F.
  Proof.
    induction F as [|a F IH]; intros H; constructor.
    - apply IH. intros x y Hx Hy. apply H; apply elem_of_cons; auto.
    - rewrite List.Forall_forall. intros b Hb. apply H; apply elem_of_cons; [auto|right; apply elem_of_list_In, Hb].
  Qed.

  Lemma JInv_step x F C O c B C' : JInv (x :: F) C O -> C !! x = Some c -> NoDup B ->
    (forall y, y ∈ B <-> c < limit /\ linked l x y /\ lowers false (c + 1) (C !! y)) ->
    (forall y, y ∈ B -> C' !! y = Some (c + 1)) -> (forall y, y ∉ B -> C' !! y = C !! y) ->
    JInv (F ++ B) C' (O ++ [x]).
  Proof.
    intros H Hc HN HB H1 H2.
    assert (cost_of C x = c) as Hcx by (unfold cost_of; rewrite Hc; reflexivity).
    assert (forall y, y ∈ B -> C !! y = None) as Hfresh.
    { intros y Hy. apply HB in Hy as (_ & _ & K). destruct (C !! y) as [cy|] eqn:E; [|reflexivity]. cbn in K.
      pose proof (j_max _ _ _ H x y ltac:(apply elem_of_cons; auto) ltac:(eauto)) as Hm. unfold cost_of in Hm at 1. rewrite E in Hm. cbn in Hm. lia. }
    assert (forall y, is_Some (C !! y) -> cost_of C' y = cost_of C y) as Hsame.
    { intros y [cy Hy]. unfold cost_of. rewrite H2; [reflexivity|]. intros K. rewrite (Hfresh y K) in Hy. discriminate. }
    assert (forall y, y ∈ F -> is_Some (C !! y)) as HF.
    { intros y Hy. apply (j_dom _ _ _ H). rewrite elem_of_app, elem_of_cons. auto. }
    assert (forall y, y ∈ F -> c <= cost_of C y) as Hmin.
    { intros y Hy. pose proof (j_sorted _ _ _ H) as HS. inversion HS as [|a b HS' HF0]; subst.
      rewrite List.Forall_forall in HF0. apply HF0, elem_of_list_In, Hy. }
    split.
    - replace ((O ++ [x]) ++ F ++ B) with ((O ++ x :: F) ++ B) by (rewrite <- !app_assoc; reflexivity).
      apply NoDup_app. split; [exact (j_nodup _ _ _ H)|]. split; [|exact HN].
      intros y Hy HyB. apply (j_dom _ _ _ H) in Hy as [cy Hy]. rewrite (Hfresh y HyB) in Hy. discriminate.
    - intros y. replace ((O ++ [x]) ++ F ++ B) with ((O ++ x :: F) ++ B) by (rewrite <- !app_assoc; reflexivity).
      rewrite elem_of_app, <- (j_dom _ _ _ H). destruct (decide (y ∈ B)) as [K|K].
      + rewrite (H1 y K). split; eauto.
      + rewrite (H2 y K). tauto.
    - intros y Hy. destruct (decide (y ∈ B)) as [K|K].
      + apply HB in K as (_ & K & _). apply (linked_nodes l x y W K).
      + rewrite (H2 y K) in Hy. exact (j_nodes _ _ _ H y Hy).
    - apply SS_app.
      + pose proof (j_sorted _ _ _ H) as HS. inversion HS as [|a b HS' HF0]; subst.
        revert HS'. apply SS_ext. intros a b Ha Hb. rewrite !Hsame by auto. auto.
      + apply SS_const. intros a b Ha Hb. unfold cost_of. rewrite (H1 a Ha), (H1 b Hb). lia.
      + intros a b Ha Hb. rewrite Hsame by auto. unfold cost_of at 2. rewrite (H1 b Hb). cbn.
        pose proof (j_max _ _ _ H x a ltac:(apply elem_of_cons; auto) (HF a Ha)). lia.
    - intros a y Ha Hy. assert (c <= cost_of C' a) as Hca.
      { apply elem_of_app in Ha as [Ha|Ha]; [rewrite Hsame by auto; auto|]. unfold cost_of. rewrite (H1 a Ha). cbn. lia. }
      assert (cost_of C' y <= c + 1); [|lia]. destruct (decide (y ∈ B)) as [K|K].
      + unfold cost_of. rewrite (H1 y K). cbn. lia.
      + rewrite (H2 y K) in Hy. rewrite Hsame by exact Hy. rewrite <- Hcx.
        apply (j_max _ _ _ H); [apply elem_of_cons; auto|exact Hy].
  Qed.

  Lemma once_search fuel : forall F C O O' C', JInv F C O ->
    search_loop (expand_cost l false limit) fuel F C O = Some (Ok (O', C')) -> NoDup O'.
  Proof.
    induction fuel as [|f IH]; intros F C O O' C' H E; destruct F as [|x F].
    - injection E as <- <-. pose proof (j_nodup _ _ _ H) as K. rewrite app_nil_r in K. exact K.
    - discriminate.
    - injection E as <- <-. pose proof (j_nodup _ _ _ H) as K. rewrite app_nil_r in K. exact K.
    - assert (is_Some (C !! x)) as [c Hc] by (apply (j_dom _ _ _ H); rewrite elem_of_app, elem_of_cons; auto).
      destruct (expand_cost_ok l false limit x c C W) as (B & C1 & EX & HN & HB & H1 & H2); [apply (j_nodes _ _ _ H); eauto|exact Hc|].
      cbn [search_loop] in E. rewrite EX in E. revert E. apply IH.
      exact (JInv_step _ _ _ _ _ _ _ H Hc HN HB H1 H2).
  Qed.
End Once.
