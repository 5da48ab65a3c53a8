(** C79: add_gt_room_label writes the labels of the rooms. *)
From Coq Require Import NArith ZArith Bool List Lia.
From stdpp Require Import base list gmap.
From Verif.Model Require Import Types Mesh Attrs Node EdgeContainer SLayer DLayer Graph PyConvert Expand Repartition Label.
From Verif.Spec Require Import AbstractGraph GraphHistory GraphObs ExpandSpec RepartitionSpec LabelSpec.
From Verif.Proof Require Import GraphProps ExpandP ExpandP2 ExpandP3 RepartitionP RepartitionP2 RepartitionP3 LabelP.
From Verif.Properties Require Import ExGraph.
Local Open Scope N_scope.
Local Open Scope list_scope.
Set Default Proof Using "Type".

(** With use_hydra_polygon, whatever order the loops run in: only labels of rooms change, and each
    room gets the label of the first room of the house on its floor with the largest ratio, unless
    that is below the threshold.  If an exception leaves the loop, some room has no such label, and
    every room either has its label or is as before. *)
Theorem C79_add_gt_room_label : forall P S (area : list NodeAttrs -> option P) (iou : GtRoom -> P -> option S) less below gts g,
  strict_weak less -> reachable g -> g_has_layer g ROOMS = true ->
  (exists r, add_gt_room_label area iou less below gts true g r) /\
  forall g' r, add_gt_room_label area iou less below gts true g (g', r) ->
    reachable g' /\ same_edges g g' /\ (forall l, g_has_layer g' l = g_has_layer g l) /\ (forall x, layer_of g' x = layer_of g x) /\
    (forall x, ~ old_room g x -> node_data g' x = node_data g x) /\
    ((r = Ok tt /\ forall x, old_room g x -> settled area iou less below gts g x g') \/
     (r = Throw /\ (exists x, old_room g x /\ fails area iou less below gts g x) /\
      forall x, old_room g x -> settled area iou less below gts g x g' \/ node_data g' x = node_data g x)).
Proof.
  intros P S area iou less below gts g HW Hr HL.
  destruct (layer_nodes_ok g Hr g _ ROOMS (ext_refl g Hr) HL) as (ids & Ei & Hi). pose proof (layer_nodes_nodup g ROOMS ids Ei) as HN.
  assert (K : forall l, l ≡ₚ ids -> (exists r, label_loop area iou less below gts true l g r) /\
    forall r, label_loop area iou less below gts true l g r -> loop_ok area iou less below gts g l [] r).
  { intros l Hl. apply (loop_resolves area iou less below HW gts g Hr l g []); [apply inv_start, Hr|rewrite Hl; exact HN|].
    intros x Hx. split; [apply Hi; rewrite <- Hl; exact Hx|apply not_elem_of_nil]. }
  unfold add_gt_room_label. rewrite Ei. split.
  - destruct (K ids (reflexivity _)) as [[r H] _]. exists r, ids. split; [reflexivity|exact H].
  - intros g' r (l & Hl & H). destruct (K l Hl) as [_ H2]. destruct (H2 _ H) as (D & I & C). cbn [fst snd] in *.
    split; [apply (i_reach _ _ _ _ _ _ _ _ I)|]. split; [apply (i_edges _ _ _ _ _ _ _ _ I)|]. split; [apply (i_layers _ _ _ _ _ _ _ _ I)|].
    split; [apply (i_layer _ _ _ _ _ _ _ _ I)|]. split.
    + intros x Hx. apply (i_rest _ _ _ _ _ _ _ _ I). intros HD. apply Hx, (i_rooms _ _ _ _ _ _ _ _ I x HD).
    + destruct C as [[C1 C2]|[C1 (x & X1 & X2)]].
      * left. split; [exact C1|]. intros x Hx. apply (i_done _ _ _ _ _ _ _ _ I). apply C2. left. rewrite Hl. apply Hi, Hx.
      * right. split; [exact C1|]. split; [exists x; split; [apply Hi; rewrite <- Hl; exact X1|exact X2]|].
        intros y Hy. destruct (decide (y ∈ D)) as [HD|HD]; [left; apply (i_done _ _ _ _ _ _ _ _ I y HD)|right; apply (i_rest _ _ _ _ _ _ _ _ I y HD)].
Qed.
Print Assumptions C79_add_gt_room_label.

(** "With its default arguments it labels the rooms" is false: without use_hydra_polygon it raises
    as soon as there is a room, and changes nothing. *)
Theorem C79_default_refuted : forall P S (area : list NodeAttrs -> option P) (iou : GtRoom -> P -> option S) less below gts g,
  reachable g -> g_has_layer g ROOMS = true -> (exists x, old_room g x) ->
  (exists r, add_gt_room_label area iou less below gts false g r) /\
  forall r, add_gt_room_label area iou less below gts false g r -> r = (g, Throw).
Proof.
  intros P S area iou less below gts g Hr HL [x Hx].
  destruct (layer_nodes_ok g Hr g _ ROOMS (ext_refl g Hr) HL) as (ids & Ei & Hi).
  assert (T : forall y r, old_room g y -> (room_label area iou less below gts false g y r <-> r = Throw)).
  { intros y r Hy. destruct (get_node g y Hr) as (n & En & _); [apply known_node; [exact Hr|]; exists (key_static ROOMS); exact Hy|].
    unfold room_label, room_area. rewrite En. split.
    - intros [(n' & E & H)|[[E _]|[E _]]]; [|discriminate|discriminate]. destruct H as [(p & E2 & _)|[[_ ->]|[E2 _]]]; [discriminate|reflexivity|discriminate].
    - intros ->. left. exists n. split; [reflexivity|]. right. left. auto. }
  unfold add_gt_room_label. rewrite Ei. destruct ids as [|y ids]; [apply Hi, elem_of_nil in Hx; destruct Hx|]. split.
  - exists (g, Throw), (y :: ids). split; [reflexivity|]. apply label_throw, T; [apply Hi; left|reflexivity].
  - intros r (l & Hl & H). destruct l as [|z l]; [apply stdpp.list.Permutation_nil_l in Hl; discriminate|].
    assert (Hz : old_room g z) by (apply Hi; rewrite <- Hl; left).
    inversion H as [|? ? ? ? Q _|? ? ? ? ? ? ? Q _ _|? ? ? Q|? ? ? Q]; subst; apply (T z _ Hz) in Q; try discriminate. reflexivity.
Qed.
Print Assumptions C79_default_refuted.

Theorem C79_missing_layer : forall P S (area : list NodeAttrs -> option P) (iou : GtRoom -> P -> option S) less below gts polygon g r,
  g_has_layer g ROOMS = false -> (add_gt_room_label area iou less below gts polygon g r <-> r = (g, Throw)).
Proof.
  intros P S area iou less below gts polygon g r H. unfold add_gt_room_label, layer_nodes. unfold g_has_layer in H. apply bool_decide_eq_false in H.
  destruct (g_layers g !! ROOMS) eqn:E; [destruct H; eauto|]. reflexivity.
Qed.
Print Assumptions C79_missing_layer.

(** Room 20 is on the floor of the one room of the house, room 21 is not. *)
Definition ex_attrs (z : N) (label : N) : NodeAttrs :=
  ARoom (Attrs.mkRoom (mkSem (mkBase (mkVec3 0 0 z) 0 false false) [] (mkColor 0 0 0 255) (mkBBox 0 (mkVec3 0 0 0) (mkVec3 0 0 0) (mkMatrix 0 0 [])) label (mkMatrix 0 0 [])) ∅).
Definition ex_house : list GtRoom := [mkGt 97 (fun v => v_z v =? 0)].
Definition ex_two : Graph := match run_b ex_start [GEmplace ROOMS 20 (ex_attrs 0 5); GEmplace ROOMS 21 (ex_attrs 9 5); GEmplace PLACES 10 (base_at 0 0 0); GInsertEdge 10 20 None] with Some g => g | None => ex_start end.
Lemma ex_two_reachable : reachable ex_two.
Proof. apply run_b_start. vm_compute. reflexivity. Qed.
Notation ex_decided := (decided (fun _ : list NodeAttrs => Some tt) (fun _ _ => Some 1) N.ltb (fun s => s <? 1) ex_house ex_two).
Notation ex_fails := (fails (fun _ : list NodeAttrs => Some tt) (fun _ _ => Some 1) N.ltb (fun s => s <? 1) ex_house ex_two).
Lemma ltb_strict : strict_weak N.ltb.
Proof.
  split.
  - intros a b H. apply N.ltb_lt in H. apply N.ltb_ge. lia.
  - intros a b c H. apply N.ltb_lt in H. destruct (N.ltb_spec a b); [left; reflexivity|right; apply N.ltb_lt; lia].
Qed.
Lemma ex_data : node_data ex_two 20 = Some (key_static ROOMS, None, ex_attrs 0 5) /\ node_data ex_two 21 = Some (key_static ROOMS, None, ex_attrs 9 5).
Proof. split; vm_compute; reflexivity. Qed.
Lemma ex_has x k t a a' : node_data ex_two x = Some (k, t, a) -> has_attrs ex_two x a' -> a' = a.
Proof. intros E (n & Hn & <-). destruct (data_node ex_two x k t a ex_two_reachable E) as (m & Hm & <- & _). congruence. Qed.
Lemma ex_children : exists l, children_of ex_two 20 l.
Proof.
  destruct (get_node ex_two 20 ex_two_reachable) as (n & _ & Hn & _); [vm_compute; reflexivity|].
  assert (C : n_chd n = {[10]}). { assert (E : match node_at ex_two 20 with Some m => bool_decide (n_chd m = {[10]}) | None => false end = true) by (vm_compute; reflexivity).
    rewrite Hn in E. apply bool_decide_eq_true in E. exact E. }
  exists [base_at 0 0 0], [10]. split; [apply NoDup_singleton|]. split.
  - intros y. rewrite <- (chd_shown ex_two 20 n y ex_two_reachable Hn), C, elem_of_list_singleton, elem_of_singleton. reflexivity.
  - constructor; [|constructor]. assert (D : node_data ex_two 10 = Some (key_static PLACES, None, base_at 0 0 0)) by (vm_compute; reflexivity).
    destruct (data_node ex_two 10 _ _ _ ex_two_reachable D) as (m & Hm & Am & _). exists m. auto.
Qed.
Example C79_case : strict_weak N.ltb /\ reachable ex_two /\ g_has_layer ex_two ROOMS = true /\ old_room ex_two 20 /\ old_room ex_two 21 /\
  ex_decided 20 (Some 97) /\ ~ ex_fails 20 /\ ex_fails 21.
Proof.
  split; [exact ltb_strict|]. split; [exact ex_two_reachable|]. split; [vm_compute; reflexivity|]. split; [vm_compute; reflexivity|]. split; [vm_compute; reflexivity|].
  destruct ex_data as [D20 D21]. destruct ex_children as [l Hl].
  assert (H20 : has_attrs ex_two 20 (ex_attrs 0 5)) by (destruct (data_node ex_two 20 _ _ _ ex_two_reachable D20) as (n & Hn & An & _); exists n; auto).
  split.
  { exists (ex_attrs 0 5), l, tt, (mkGt 97 (fun v => v_z v =? 0)), 1. split; [exact H20|]. split; [exact Hl|]. split; [reflexivity|]. split; [|reflexivity].
    exists [], []. split; [reflexivity|]. split; [reflexivity|]. split; [reflexivity|]. split; intros o Ho; apply elem_of_nil in Ho; destruct Ho. }
  split.
  - intros (a & l' & Ha & _ & [E|[(p & _ & [(gt & _ & _ & E)|F])|[NL _]]]); [discriminate|discriminate| |].
    + apply (ex_has 20 _ _ _ _ D20) in Ha as ->. specialize (F (mkGt 97 (fun v => v_z v =? 0))). cbn in F. assert (true = false) by (apply F; left). discriminate.
    + apply (ex_has 20 _ _ _ _ D20) in Ha as ->. apply NL. exact Logic.I.
  - exists (ex_attrs 9 5), []. split; [destruct (data_node ex_two 21 _ _ _ ex_two_reachable D21) as (n & Hn & An & _); exists n; auto|].
    split.
    + exists []. split; [constructor|]. split; [|constructor]. intros y. split; [intros Hy; apply elem_of_nil in Hy; destruct Hy|]. intros Hy.
      destruct (get_node ex_two 21 ex_two_reachable) as (n & _ & Hn & _); [vm_compute; reflexivity|]. apply (chd_shown ex_two 21 n y ex_two_reachable Hn) in Hy.
      assert (E : match node_at ex_two 21 with Some m => bool_decide (n_chd m = ∅) | None => false end = true) by (vm_compute; reflexivity).
      rewrite Hn in E. apply bool_decide_eq_true in E. rewrite E in Hy. apply elem_of_empty in Hy. destruct Hy.
    + right. left. exists tt. split; [reflexivity|]. right. intros gt Hgt. apply elem_of_list_singleton in Hgt as ->. reflexivity.
Qed.

(** "If it raises, nothing has been changed" is false. *)
Theorem C79_all_or_nothing_refuted : exists P S (area : list NodeAttrs -> option P) (iou : GtRoom -> P -> option S) less below gts g g' x k t a a',
  strict_weak less /\ reachable g /\ g_has_layer g ROOMS = true /\ add_gt_room_label area iou less below gts true g (g', Throw) /\
  node_data g x = Some (k, t, a) /\ node_data g' x = Some (k, t, a') /\ a <> a'.
Proof.
  destruct C79_case as (HW & Hr & HL & H20 & H21 & D20 & F20 & F21). destruct ex_data as [E20 E21].
  set (area := fun _ : list NodeAttrs => Some tt) in *. set (iou := fun (_ : GtRoom) (_ : unit) => Some 1) in *. set (below := fun s : N => s <? 1) in *.
  assert (NoN : forall x, ~ decided area iou N.ltb below ex_house ex_two x None).
  { intros x (a & l & p & gt & s & _ & _ & _ & (pre & post & _ & _ & Es & _) & E). injection Es as <-. discriminate. }
  assert (No21 : forall o, ~ decided area iou N.ltb below ex_house ex_two 21 o).
  { intros o (a & l & p & gt & s & Ha & _ & _ & (pre & post & E & F & _) & _). apply (ex_has 21 _ _ _ _ E21) in Ha as ->.
    assert (Hgt : gt ∈ ex_house) by (rewrite E; apply elem_of_app; right; left). apply elem_of_list_singleton in Hgt as ->. discriminate. }
  destruct (label_resolves area iou N.ltb below HW ex_house ex_two Hr ex_two [] 20 (inv_start _ _ _ _ _ _ Hr) H20 (not_elem_of_nil _)) as [[r0 R0] R1].
  pose proof (R1 r0 R0) as O. destruct r0 as [[a'|]| |]; cbn in O; [|destruct (NoN 20 O)|contradiction|destruct O].
  destruct O as (lb & k & t & a & O1 & O2 & O3).
  destruct (step_set area iou N.ltb below ex_house ex_two Hr ex_two [] 20 lb k t a a' (inv_start _ _ _ _ _ _ Hr) H20 (not_elem_of_nil _) O1 O2 O3) as (b & h1 & E & I1).
  destruct (label_resolves area iou N.ltb below HW ex_house ex_two Hr h1 [20] 21 I1 H21) as [[r1 Q0] Q1]; [apply not_elem_of_cons; split; [discriminate|apply not_elem_of_nil]|].
  pose proof (Q1 r1 Q0) as O. destruct r1 as [[a2|]| |]; cbn in O; [destruct O as (? & ? & ? & ? & O & _); destruct (No21 _ O)|destruct (NoN _ O)| |destruct O].
  exists unit, N, area, iou, N.ltb, below, ex_house, ex_two, h1, 20, k, t, a, a'. split; [exact HW|]. split; [exact Hr|]. split; [exact HL|]. split.
  - unfold add_gt_room_label. assert (EL : exists ids, layer_nodes ex_two ROOMS = Ok ids /\ [20; 21] ≡ₚ ids).
    { assert (EL : match layer_nodes ex_two ROOMS with Ok l => bool_decide (l = [20; 21]) || bool_decide (l = [21; 20]) | _ => false end = true) by (vm_compute; reflexivity).
      destruct (layer_nodes ex_two ROOMS) as [l| |]; [|discriminate|discriminate]. exists l. split; [reflexivity|].
      apply orb_true_iff in EL as [EL|EL]; apply bool_decide_eq_true in EL as ->; [reflexivity|apply perm_swap]. }
    destruct EL as (ids & -> & Hp). exists [20; 21]. split; [exact Hp|].
    eapply label_set; [exact R0|exact E|]. apply label_throw. exact Q0.
  - split; [exact O2|]. assert (Hd : forall l0, decided area iou N.ltb below ex_house ex_two 20 (Some l0) -> l0 = 97).
    { intros l0 (? & ? & ? & gt & s & _ & _ & _ & (pre & post & Eg & _ & Es & _) & El). injection Es as <-. cbn in El. injection El as ->.
      assert (Hgt : gt ∈ ex_house) by (rewrite Eg; apply elem_of_app; right; left). apply elem_of_list_singleton in Hgt as ->. reflexivity. }
    pose proof (Hd lb O1) as ->. rewrite E20 in O2. injection O2 as <- <- <-.
    destruct (i_done _ _ _ _ _ _ _ _ I1 20) as (o & k2 & t2 & b1 & b2 & P1 & P2 & P3 & P4); [left|]. rewrite E20 in P2. injection P2 as <- <- <-.
    destruct o as [l2|]; [|destruct (NoN _ P1)]. pose proof (Hd l2 P1) as ->.
    assert (U : forall q, relabelled 97 (ex_attrs 0 5) q -> q = ex_attrs 0 97).
    { intros q Hq. unfold ex_attrs in Hq. inversion Hq as [| |? ? ? Hs| | |]; subst. inversion Hs; subst. reflexivity. }
    cbn in P3. rewrite (U _ P3) in P4. rewrite (U _ O3). split; [exact P4|]. discriminate.
Qed.
Print Assumptions C79_all_or_nothing_refuted.
