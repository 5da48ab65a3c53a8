(** Proofs about add_gt_room_label. *)
From Coq Require Import NArith ZArith Bool List Lia.
From stdpp Require Import base list gmap.
From Verif.Model Require Import Types Mesh Attrs Node EdgeContainer SLayer DLayer Graph PyConvert Expand Repartition Label.
From Verif.Spec Require Import AbstractGraph GraphHistory GraphObs ExpandSpec RepartitionSpec LabelSpec.
From Verif.Proof Require Import GraphProps ExpandP ExpandP2 ExpandP3 RepartitionP RepartitionP2 RepartitionP3.
From Verif.Proof Require Import GraphProps2 GraphRep GraphObsP.
Local Open Scope N_scope.
Local Open Scope list_scope.
Set Default Proof Using "Type".

Definition resolves {S} (P : result S -> Prop) (Post : result S -> Prop) : Prop := (exists r, P r) /\ forall r, P r -> Post r.
Lemma resolves_then {S T} (P : result S -> Prop) (Q : S -> result T -> Prop) G Post :
  resolves P G -> (forall s, G (Ok s) -> resolves (Q s) Post) -> (G Throw -> Post Throw) -> (G UB -> Post UB) -> resolves (py_then P Q) Post.
Proof.
  intros [[r0 H0] H] HQ HT HU. split.
  - destruct r0 as [s| |]; [destruct (HQ s (H _ H0)) as [[r Hr] _]; exists r; left; eauto|exists Throw; right; left; auto|exists UB; right; right; auto].
  - intros r [(s & HP & Hr)|[[HP ->]|[HP ->]]]; [apply (HQ s (H _ HP)), Hr|apply HT, H, HP|apply HU, H, HP].
Qed.
Lemma resolves_eq {S} (p : result S) (Post : result S -> Prop) : Post p -> resolves (eq p) Post.
Proof. intros H. split; [eauto|]. intros r <-. exact H. Qed.
Lemma resolves_total {S} (P : result S -> Prop) Post : total P Post -> resolves P (fun r => exists s, r = Ok s /\ Post s).
Proof. intros [H1 H2]. split; [exact H1|exact H2]. Qed.

Lemma set_label_ok a l : match attrs_set_label a l with Some a' => relabelled l a a' /\ has_label a | None => ~ has_label a end.
Proof.
  assert (S : forall s, sem_relabelled l s (sem_set_label s l)) by (intros []; constructor).
  destruct a as [b|s|[s m r q]|[s p]|[]|[]|a|[[s m r q]]]; cbn; try tauto; (split; [|exact Logic.I]); constructor; apply S.
Qed.
Lemma set_attrs_layers g x a b g' : reachable g -> g_set_node_attributes g x a = Ok (b, g') -> forall m, g_has_layer g' m = g_has_layer g m.
Proof.
  intros Hr E. assert (Ha : allowed g (GSetNodeAttrs x a)) by exact Logic.I. destruct (reachable_step g _ Hr Ha) as (q & [HR _] & H). cbn [g_step] in H. rewrite E in H.
  destruct H as (_ & [HR' _] & _). apply same_layers. exists q, (snd (a_step q (GSetNodeAttrs x a))). split; [exact HR|]. split; [exact HR'|].
  cbn. unfold a_set_node_attrs. case_match; reflexivity.
Qed.

Section best.
Context {P S : Type} (iou : GtRoom -> P -> option S) (less : S -> S -> bool) (HW : strict_weak less).
Lemma best_split (x : GtRoom * S) r : exists pre post, x :: r = pre ++ fold_left (fun m y => if less (snd m) (snd y) then y else m) r x :: post /\
  (forall y, y ∈ pre -> less (snd y) (snd (fold_left (fun m y => if less (snd m) (snd y) then y else m) r x)) = true) /\
  (forall y, y ∈ post -> less (snd (fold_left (fun m y => if less (snd m) (snd y) then y else m) r x)) (snd y) = false).
Proof using HW.
  induction r as [|y r IH] using rev_ind.
  - exists [], []. split; [reflexivity|]. split; intros y Hy; apply elem_of_nil in Hy; destruct Hy.
  - rewrite fold_left_app. cbn [fold_left]. destruct IH as (pre & post & E & H1 & H2).
    revert E H1 H2. generalize (fold_left (fun m y => if less (snd m) (snd y) then y else m) r x). intros m E H1 H2.
    assert (E2 : x :: r ++ [y] = pre ++ m :: post ++ [y]) by (rewrite app_comm_cons, E, <- app_assoc; reflexivity).
    destruct (less (snd m) (snd y)) eqn:L.
    + exists (pre ++ m :: post), []. split; [rewrite E2, <- app_assoc; reflexivity|]. split; [|intros z Hz; apply elem_of_nil in Hz; destruct Hz].
      intros z Hz. apply elem_of_app in Hz as [Hz|Hz].
      * destruct (proj2 HW _ (snd y) _ (H1 z Hz)) as [K|K]; [exact K|]. apply (proj1 HW) in K. congruence.
      * apply elem_of_cons in Hz as [->|Hz]; [exact L|]. destruct (proj2 HW _ (snd z) _ L) as [K|K]; [|exact K]. rewrite (H2 z Hz) in K. discriminate.
    + exists pre, (post ++ [y]). split; [exact E2|]. split; [exact H1|]. intros z Hz. apply elem_of_app in Hz as [Hz|Hz]; [apply H2, Hz|].
      apply elem_of_list_singleton in Hz as ->. exact L.
Qed.
Inductive scored (pos : Vec3) (p : P) : list GtRoom -> list (GtRoom * S) -> Prop :=
| sc_nil : scored pos p [] []
| sc_off gt l sc : gr_floor gt pos = false -> scored pos p l sc -> scored pos p (gt :: l) sc
| sc_on gt l s sc : gr_floor gt pos = true -> iou gt p = Some s -> scored pos p l sc -> scored pos p (gt :: l) ((gt, s) :: sc).
Lemma scores_ok pos p l : forall acc, match rfold (score iou pos p) l acc with
  | Ok r => exists sc, r = acc ++ sc /\ scored pos p l sc
  | Throw => exists gt, gt ∈ l /\ gr_floor gt pos = true /\ iou gt p = None
  | UB => False end.
Proof.
  induction l as [|gt l IH]; intros acc; cbn [rfold].
  - exists []. rewrite app_nil_r. split; [reflexivity|constructor].
  - unfold score at 1. destruct (gr_floor gt pos) eqn:F; cbn.
    + destruct (iou gt p) as [s|] eqn:I; cbn.
      * specialize (IH (acc ++ [(gt, s)])). destruct (rfold _ l _) as [r| |]; [|destruct IH as (q & Q1 & Q2); exists q; split; [right; exact Q1|exact Q2]|exact IH].
        destruct IH as (sc & -> & K). exists ((gt, s) :: sc). rewrite <- app_assoc. split; [reflexivity|]. constructor; assumption.
      * exists gt. split; [left|auto].
    + specialize (IH acc). destruct (rfold _ l _) as [r| |]; [|destruct IH as (q & Q1 & Q2); exists q; split; [right; exact Q1|exact Q2]|exact IH].
      destruct IH as (sc & -> & K). exists sc. split; [reflexivity|]. constructor; assumption.
Qed.
Lemma scored_at pos p l sc : scored pos p l sc -> forall o, o ∈ l -> gr_floor o pos = true -> exists s, iou o p = Some s /\ (o, s) ∈ sc.
Proof.
  induction 1 as [|gt l sc F H IH|gt l s sc F I H IH]; intros o Ho Fo.
  - apply elem_of_nil in Ho. destruct Ho.
  - apply elem_of_cons in Ho as [->|Ho]; [congruence|]. apply IH; assumption.
  - apply elem_of_cons in Ho as [->|Ho]; [exists s; split; [exact I|left]|]. destruct (IH o Ho Fo) as (s' & I1 & I2). exists s'. split; [exact I1|right; exact I2].
Qed.
Lemma scored_split pos p l : forall pre m post, scored pos p l (pre ++ m :: post) ->
  exists l1 l2, l = l1 ++ fst m :: l2 /\ gr_floor (fst m) pos = true /\ iou (fst m) p = Some (snd m) /\ scored pos p l1 pre /\ scored pos p l2 post.
Proof.
  induction l as [|gt l IH]; intros pre m post H.
  - inversion H as [E| |]. destruct pre; discriminate.
  - inversion H as [|? ? ? F K|? ? s sc F I K E1 E2]; subst.
    + destruct (IH _ _ _ K) as (l1 & l2 & -> & A & B & C & D). exists (gt :: l1), l2. split; [reflexivity|]. split; [exact A|]. split; [exact B|]. split; [constructor; assumption|exact D].
    + destruct pre as [|q pre]; cbn in E2.
      * injection E2 as <- <-. exists [], l. split; [reflexivity|]. split; [exact F|]. split; [exact I|]. split; [constructor|exact K].
      * injection E2 as <- ->. destruct (IH _ _ _ K) as (l1 & l2 & -> & A & B & C & D). exists (gt :: l1), l2. split; [reflexivity|]. split; [exact A|]. split; [exact B|]. split; [constructor; assumption|exact D].
Qed.
Lemma best_ok pos p gts sc m : scored pos p gts sc -> best less sc = Ok m -> overlaps_most iou less gts pos p (fst m) (snd m).
Proof using HW.
  intros H E. destruct sc as [|x r]; [discriminate|]. cbn in E. destruct (best_split x r) as (pre & post & E2 & H1 & H2).
  revert E E2 H1 H2. generalize (fold_left (fun m y => if less (snd m) (snd y) then y else m) r x). intros m' E E2 H1 H2. injection E as ->.
  rewrite E2 in H. destruct (scored_split pos p gts pre m post H) as (l1 & l2 & -> & F & I & S1 & S2).
  exists l1, l2. split; [reflexivity|]. split; [exact F|]. split; [exact I|]. split; intros o Ho Fo.
  - destruct (scored_at pos p l1 pre S1 o Ho Fo) as (s & A & B). exists s. split; [exact A|]. apply (H1 _ B).
  - destruct (scored_at pos p l2 post S2 o Ho Fo) as (s & A & B). exists s. split; [exact A|]. apply (H2 _ B).
Qed.
End best.

Section label.
Context {P S : Type} (area : list NodeAttrs -> option P) (iou : GtRoom -> P -> option S) (less : S -> S -> bool) (below : S -> bool) (HW : strict_weak less).
Context (gts : list GtRoom) (g : Graph) (Hg : reachable g).
Notation decided := (decided area iou less below gts g).
Notation fails := (fails area iou less below gts g).

Notation settled := (settled area iou less below gts g).

Record inv (h : Graph) (D : list N) : Prop := {
  i_reach : reachable h;
  i_edges : same_edges g h;
  i_layers : forall l, g_has_layer h l = g_has_layer g l;
  i_layer : forall x, layer_of h x = layer_of g x;
  i_rooms : forall x, x ∈ D -> old_room g x;
  i_rest : forall x, x ∉ D -> node_data h x = node_data g x;
  i_done : forall x, x ∈ D -> settled x h
}.
Lemma inv_start : inv g [].
Proof using Hg. split; [exact Hg|intros ? ?; reflexivity|reflexivity|reflexivity| |reflexivity|]; intros x Hx; apply elem_of_nil in Hx; destruct Hx. Qed.
Lemma inv_agree h D : inv h D -> agree g h.
Proof using Hg.
  intros H. split; [|exact (i_layer _ _ H)]. intros u v. rewrite (adj_edge h u v (i_reach _ _ H)), (adj_edge g u v Hg), (i_edges _ _ H u v). reflexivity.
Qed.
Lemma inv_node h D x : inv h D -> x ∉ D -> g_has_node g x = true ->
  exists n k t a, g_get_node h x = Ok n /\ node_at h x = Some n /\ n_attrs n = a /\ node_data g x = Some (k, t, a) /\ has_attrs g x a.
Proof using Hg.
  intros H Hx Hk. apply (data_known g x Hg) in Hk as [[[k t] a] Ed].
  pose proof Ed as Eh. rewrite <- (i_rest _ _ H x Hx) in Eh. destruct (data_node h x k t a (i_reach _ _ H) Eh) as (n & Hn & An & _).
  destruct (get_node h x (i_reach _ _ H) (node_at_known h x n (i_reach _ _ H) Hn)) as (n' & En & Hn' & _). assert (n' = n) as -> by congruence.
  destruct (data_node g x k t a Hg Ed) as (m & Hm & Am & _).
  exists n, k, t, a. split; [exact En|]. split; [exact Hn|]. split; [exact An|]. split; [exact Ed|]. exists m. auto.
Qed.
Lemma child_free h D x y : inv h D -> old_room g x -> is_parent_of g x y -> y ∉ D /\ g_has_node g y = true.
Proof using Hg.
  intros H Hx (Ha & kp & kc & K1 & K2 & K3). split.
  - intros Hy. apply (i_rooms _ _ H) in Hy. unfold old_room in *. assert (kp = key_static ROOMS) as -> by congruence. assert (kc = key_static ROOMS) as -> by congruence.
    apply N.lt_irrefl in K3. exact K3.
  - apply known_node; [exact Hg|]. eauto.
Qed.
Lemma area_resolves h D x n : inv h D -> old_room g x -> node_at h x = Some n ->
  resolves (room_area area true h n) (fun r => exists l, children_of g x l /\ r = at_ (area l)).
Proof using Hg.
  intros H Hx Hn. unfold room_area.
  assert (CF : forall v, v ∈ elements (n_chd n) <-> is_parent_of g x v).
  { intros v. rewrite elem_of_elements, (chd_shown h x n v (i_reach _ _ H) Hn). exact (agree_parent g h (inv_agree h D H) x v). }
  apply (resolves_then _ _ (fun r => exists l, r = Ok l /\ children_of g x l)).
  - apply resolves_total. eapply total_weaken.
    + apply (total_order _ (fun d l => Forall2 (has_attrs g) d l) (elements (n_chd n)) []).
      * apply NoDup_elements.
      * constructor.
      * intros d l v Hv _ _ F. apply CF in Hv. destruct (child_free h D x v H Hx Hv) as [V1 V2].
        destruct (inv_node h D v H V1 V2) as (m & k & t & a & Em & _ & Am & _ & Ha).
        unfold child_attrs. eapply total_then; [apply (total_eq _ m (fun v => v = m)); [exact Em|reflexivity]|]. intros ? ->.
        apply total_ret. apply Forall2_app; [exact F|]. constructor; [|constructor]. rewrite Am. exact Ha.
    + intros l (ch & C1 & C2 & C3). cbn beta in C3. exists ch. split; [exact C1|]. split; [intros v; rewrite C2; apply CF|exact C3].
  - intros l (l' & E & Hl). injection E as <-. apply resolves_eq. eauto.
  - intros (l & E & _). discriminate.
  - intros (l & E & _). discriminate.
Qed.
Definition outcome_ok (x : N) (r : result (option NodeAttrs)) : Prop :=
  match r with
  | Ok None => decided x None
  | Ok (Some a') => exists l k t a, decided x (Some l) /\ node_data g x = Some (k, t, a) /\ relabelled l a a'
  | Throw => fails x
  | UB => False
  end.
Lemma label_resolves h D x : inv h D -> old_room g x -> x ∉ D -> resolves (room_label area iou less below gts true h x) (outcome_ok x).
Proof using Hg HW.
  intros H Hx HD. assert (Hk : g_has_node g x = true) by (apply known_node; [exact Hg|]; exists (key_static ROOMS); exact Hx).
  destruct (inv_node h D x H HD Hk) as (n & k & t & a & En & Hn & An & Ed & Ha). unfold room_label.
  apply (resolves_then _ _ (fun r => r = Ok n)); [apply resolves_eq; exact En| |discriminate|discriminate]. intros s Es. injection Es as ->.
  apply (resolves_then _ _ (fun r => exists l, children_of g x l /\ r = at_ (area l))); [apply (area_resolves h D x n H Hx Hn)| | |].
  2:{ intros (l & Hl & E). exists a, l. split; [exact Ha|]. split; [exact Hl|]. left. destruct (area l); [discriminate|reflexivity]. }
  2:{ intros (l & _ & E). destruct (area l); discriminate. }
  intros p (l & Hl & E). assert (Ep : area l = Some p) by (destruct (area l); [injection E as ->; reflexivity|discriminate]). clear E. rewrite An.
  pose proof (scores_ok iou (attrs_position a) p gts []) as HS.
  apply (resolves_then _ _ (fun r => match r with Ok sc => scored iou (attrs_position a) p gts sc | Throw => fails x | UB => False end)); [| |auto|auto].
  { apply resolves_eq. destruct (rfold _ gts []) as [sc| |]; [|destruct HS as (gt & G1 & G2 & G3)|exact HS].
    - destruct HS as (sc' & -> & K). exact K.
    - exists a, l. split; [exact Ha|]. split; [exact Hl|]. right. left. exists p. split; [exact Ep|]. left. exists gt. auto. }
  intros sc Hsc.
  apply (resolves_then _ _ (fun r => match r with Ok m => overlaps_most iou less gts (attrs_position a) p (fst m) (snd m) | Throw => fails x | UB => False end)); [| |auto|auto].
  { apply resolves_eq. destruct (best less sc) as [m| |] eqn:Eb; [exact (best_ok iou less HW _ _ _ _ _ Hsc Eb)| |destruct sc; discriminate].
    destruct sc as [|q sc]; [|discriminate]. exists a, l. split; [exact Ha|]. split; [exact Hl|]. right. left. exists p. split; [exact Ep|]. right.
    intros gt Hgt. apply not_true_iff_false. intros F. destruct (scored_at iou _ p gts [] Hsc gt Hgt F) as (s & _ & K). apply elem_of_nil in K. exact K. }
  intros m Hm. assert (Hd : decided x (if below (snd m) then None else Some (gr_label (fst m)))) by (exists a, l, p, (fst m), (snd m); auto).
  destruct (below (snd m)).
  - split; [eauto|]. intros r ->. exact Hd.
  - split; [eauto|]. intros r ->. pose proof (set_label_ok a (gr_label (fst m))) as SL. destruct (attrs_set_label a _) as [a'|]; cbn.
    + exists (gr_label (fst m)), k, t, a. split; [exact Hd|]. split; [exact Ed|]. apply SL.
    + exists a, l. split; [exact Ha|]. split; [exact Hl|]. right. right. split; [exact SL|]. eauto.
Qed.
Lemma step_keep h D x : inv h D -> old_room g x -> x ∉ D -> decided x None -> inv h (x :: D).
Proof using Hg.
  intros H Hx HD Hd. split; try apply H.
  - intros y Hy. apply elem_of_cons in Hy as [->|Hy]; [exact Hx|apply (i_rooms _ _ H), Hy].
  - intros y Hy. apply (i_rest _ _ H). intros K. apply Hy. right. exact K.
  - intros y Hy. apply elem_of_cons in Hy as [->|Hy]; [|apply (i_done _ _ H), Hy].
    assert (Hk : g_has_node g x = true) by (apply known_node; [exact Hg|]; exists (key_static ROOMS); exact Hx).
    apply (data_known g x Hg) in Hk as [[[k t] a] Ed]. exists None, k, t, a, a. split; [exact Hd|]. split; [exact Ed|]. split; [reflexivity|].
    rewrite (i_rest _ _ H x HD). exact Ed.
Qed.
Lemma step_set h D x l k t a a' : inv h D -> old_room g x -> x ∉ D -> decided x (Some l) -> node_data g x = Some (k, t, a) -> relabelled l a a' ->
  exists b h1, g_set_node_attributes h x a' = Ok (b, h1) /\ inv h1 (x :: D).
Proof using Hg.
  intros H Hx HD Hd Ed Hl. destruct (set_attrs_effect h x a' (i_reach _ _ H)) as (b & h1 & E & R1 & E1 & _ & D1).
  exists b, h1. split; [exact E|].
  assert (DN : forall y, y <> x -> node_data h1 y = node_data h y) by (intros y Hy; rewrite D1; destruct (decide (y = x)) as [K|K]; [contradiction|reflexivity]).
  assert (DX : node_data h1 x = Some (k, t, a')) by (rewrite D1; destruct (decide (x = x)) as [K|K]; [|contradiction]; rewrite (i_rest _ _ H x HD), Ed; reflexivity).
  split.
  - exact R1.
  - intros u v. rewrite <- (i_edges _ _ H u v). apply E1.
  - intros m. rewrite (set_attrs_layers h x a' b h1 (i_reach _ _ H) E m). apply (i_layers _ _ H).
  - intros y. rewrite <- (i_layer _ _ H y), (data_layer h1 y R1), (data_layer h y (i_reach _ _ H)).
    destruct (N.eq_dec y x) as [->|Hy]; [|rewrite (DN y Hy); reflexivity]. rewrite DX, (i_rest _ _ H x HD), Ed. reflexivity.
  - intros y Hy. apply elem_of_cons in Hy as [->|Hy]; [exact Hx|apply (i_rooms _ _ H), Hy].
  - intros y Hy. apply not_elem_of_cons in Hy as [Hy1 Hy2]. rewrite (DN y Hy1). apply (i_rest _ _ H y Hy2).
  - intros y Hy. apply elem_of_cons in Hy as [->|Hy].
    + exists (Some l), k, t, a, a'. auto.
    + destruct (i_done _ _ H y Hy) as (o & k1 & t1 & a1 & a2 & Q1 & Q2 & Q3 & Q4). exists o, k1, t1, a1, a2. split; [exact Q1|]. split; [exact Q2|]. split; [exact Q3|].
      rewrite DN; [exact Q4|]. intros ->. contradiction.
Qed.
Definition loop_ok (l D : list N) (r : Graph * result unit) : Prop :=
  exists D', inv (fst r) D' /\ ((snd r = Ok tt /\ forall x, x ∈ l \/ x ∈ D -> x ∈ D') \/ (snd r = Throw /\ exists x, x ∈ l /\ fails x)).
Lemma loop_resolves l : forall h D, inv h D -> NoDup l -> (forall x, x ∈ l -> old_room g x /\ x ∉ D) ->
  (exists r, label_loop area iou less below gts true l h r) /\ forall r, label_loop area iou less below gts true l h r -> loop_ok l D r.
Proof using Hg HW.
  induction l as [|x l IH]; intros h D H HN Hl.
  - split; [eexists; constructor|]. intros r Hr. inversion Hr; subst. exists D. split; [exact H|]. left. split; [reflexivity|]. intros y [Hy|Hy]; [apply elem_of_nil in Hy; destruct Hy|exact Hy].
  - apply stdpp.list.NoDup_cons in HN as [HN1 HN2]. destruct (Hl x) as [Hx HD]; [left|].
    destruct (label_resolves h D x H Hx HD) as [[r0 H0] H1].
    assert (REST : forall h1, inv h1 (x :: D) -> (exists r, label_loop area iou less below gts true l h1 r) /\ forall r, label_loop area iou less below gts true l h1 r -> loop_ok (x :: l) D r).
    { intros h1 I1. destruct (IH h1 (x :: D) I1 HN2) as [E1 E2].
      { intros y Hy. destruct (Hl y) as [Y1 Y2]; [right; exact Hy|]. split; [exact Y1|]. apply not_elem_of_cons. split; [|exact Y2]. intros ->. contradiction. }
      split; [exact E1|]. intros r Hr. destruct (E2 r Hr) as (D' & J & [[K1 K2]|[K1 (y & Y1 & Y2)]]); exists D'; (split; [exact J|]).
      - left. split; [exact K1|]. intros y [Hy|Hy]; apply K2.
        + apply elem_of_cons in Hy as [->|Hy]; [right; left|left; exact Hy].
        + right. right. exact Hy.
      - right. split; [exact K1|]. exists y. split; [right; exact Y1|exact Y2]. }
    split.
    + pose proof (H1 r0 H0) as O. destruct r0 as [[a'|]| |]; cbn in O.
      * destruct O as (lb & k & t & a & O1 & O2 & O3). destruct (step_set h D x lb k t a a' H Hx HD O1 O2 O3) as (b & h1 & E & I1).
        destruct (REST h1 I1) as [[r Hr] _]. exists r. eapply label_set; eassumption.
      * destruct (REST h (step_keep h D x H Hx HD O)) as [[r Hr] _]. exists r. apply label_keep; assumption.
      * eexists. apply label_throw. exact H0.
      * destruct O.
    + intros r Hr. inversion Hr as [|? ? ? ? Q1 Q2|? ? ? a' b h1 ? Q1 Q2 Q3|? ? ? Q1|? ? ? Q1]; subst.
      * apply (REST h); [|exact Q2]. apply (step_keep h D x H Hx HD), (H1 _ Q1).
      * destruct (H1 _ Q1) as (lb & k & t & a & O1 & O2 & O3). destruct (step_set h D x lb k t a a' H Hx HD O1 O2 O3) as (b' & h' & E & I1).
        rewrite E in Q2. injection Q2 as <- <-. apply (REST h' I1), Q3.
      * exists D. split; [exact H|]. right. split; [reflexivity|]. exists x. split; [left|]. exact (H1 _ Q1).
      * destruct (H1 _ Q1).
Qed.
End label.
