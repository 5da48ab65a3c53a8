(** Proofs about repartition_rooms, continued: its steps. *)
From Coq Require Import NArith ZArith Bool List Lia.
From stdpp Require Import base list gmap fin_sets.
From Verif.Model Require Import Types Mesh Attrs Node EdgeContainer SLayer DLayer Graph PyConvert Expand Repartition.
From Verif.Spec Require Import AbstractGraph GraphHistory GraphObs ExpandSpec RepartitionSpec.
From Verif.Proof Require Import GraphProps ExpandP ExpandP2 ExpandP3 RepartitionP.
From Verif.Properties Require Import P21_Queries.
Local Open Scope N_scope.
Local Open Scope list_scope.
Set Default Proof Using "Type".

Lemma total_pre {A S} (body : S -> A -> result S -> Prop) (Inv : list A -> S -> Prop) l : forall pre s, Inv pre s ->
  (forall d s x r, pre ++ l = d ++ x :: r -> Inv d s -> total (body s x) (Inv (d ++ [x]))) ->
  total (py_each body l s) (Inv (pre ++ l)).
Proof.
  induction l as [|x l IH]; intros pre s Hs HB.
  - rewrite app_nil_r. split; [eexists; constructor|]. intros r H. inversion H; subst. eauto.
  - destruct (HB pre s x l eq_refl Hs) as [[r0 H0] H1]. destruct (H1 _ H0) as (s1 & -> & Hs1).
    assert (HI : forall s1, Inv (pre ++ [x]) s1 -> total (py_each body l s1) (Inv (pre ++ x :: l))).
    { intros s2 Hs2. replace (pre ++ x :: l) with ((pre ++ [x]) ++ l) by (rewrite <- app_assoc; reflexivity). apply IH; [exact Hs2|].
      intros d s' y r E. apply (HB d s' y r). rewrite <- E, <- app_assoc. reflexivity. }
    split.
    + destruct (HI s1 Hs1) as [[r Hr] _]. exists r. eapply each_step; eauto.
    + intros r H. inversion H as [|? ? ? s2 ? B1 E1|? ? ? B1|? ? ? B1]; subst.
      * destruct (H1 _ B1) as (s' & E & Hs'). injection E as <-. exact (proj2 (HI _ Hs') _ E1).
      * destruct (H1 _ B1) as (s' & E & _). discriminate.
      * destruct (H1 _ B1) as (s' & E & _). discriminate.
Qed.
(** A loop in some order, over items that differ. *)
Lemma total_order {A S} (body : S -> A -> result S -> Prop) (Inv : list A -> S -> Prop) xs s : NoDup xs -> Inv [] s ->
  (forall d s x, x ∈ xs -> x ∉ d -> NoDup d -> Inv d s -> total (body s x) (Inv (d ++ [x]))) ->
  total (py_over body xs s) (fun s' => exists l, NoDup l /\ (forall x, x ∈ l <-> x ∈ xs) /\ Inv l s').
Proof.
  intros HN Hs HB.
  assert (K : forall l, l ≡ₚ xs -> total (py_each body l s) (Inv l)).
  { intros l Hl. apply (total_pre body Inv l [] s Hs). intros d s' x r E Hd. cbn in E.
    assert (Hx : NoDup (d ++ x :: r)) by (rewrite <- E, Hl; exact HN). apply NoDup_app in Hx as (H1 & H2 & _).
    apply HB; [rewrite <- Hl, E; apply elem_of_app; right; left| |exact H1|exact Hd].
    intros H. apply (H2 x H). left. }
  split.
  - destruct (K xs (Permutation_refl _)) as [[r Hr] _]. exists r, xs. auto.
  - intros r (l & Hl & Hr). destruct (K l Hl) as [_ H]. destruct (H r Hr) as (s' & -> & HI). exists s'. split; [reflexivity|].
    exists l. split; [rewrite Hl; exact HN|]. split; [|exact HI]. intros x. rewrite Hl. reflexivity.
Qed.
Lemma layer_nodes_nodup h l ids : layer_nodes h l = Ok ids -> NoDup ids.
Proof.
  unfold layer_nodes. destruct (at_ (g_layers h !! l)); cbn; try discriminate. intros [= <-]. apply NoDup_fst_map_to_list.
Qed.
Lemma layer_nodes_stg c B D A h l : reachable h -> stg c B D A h -> g_has_layer c l = true ->
  exists ids, layer_nodes h l = Ok ids /\ NoDup ids /\ forall x, x ∈ ids <-> key_of (D x) = Some (key_static l).
Proof.
  intros Hh H Hl. destruct (layer_nodes_ok h Hh h _ l (ext_refl h Hh)) as (ids & E & K); [rewrite (st_layers _ _ _ _ _ H); exact Hl|].
  exists ids. split; [exact E|]. split; [exact (layer_nodes_nodup h l ids E)|]. intros x. rewrite K, (stg_layer c B D A h x H). reflexivity.
Qed.

#[local] Instance old_dec g x : Decision (old_room g x).
Proof. unfold old_room. apply _. Defined.

Section steps.
Context (c : Graph) (Hc : reachable c) (rooms : list NewRoom).
Context (HD : no_dynamic_rooms c) (HF : ids_free c rooms) (LR : g_has_layer c ROOMS = true) (LP : g_has_layer c PLACES = true) (LB : g_has_layer c BUILDINGS = true).
Notation old := (old_room c).

(** *** The nodes and the links of each step *)
Definition D1 (x : N) : Data := if decide (old x) then None else node_data c x.
Definition A1 (u v : N) : Prop := adjacent c u v /\ ~ old u /\ ~ old v.
Fixpoint D2 (d : list NewRoom) : N -> Data :=
  match d with [] => D1 | r :: d => put (D2 d) (nr_id r) (Some (key_static ROOMS, None, nr_attrs r)) end.
Definition A2 (b : option N) (d : list NewRoom) (u v : N) : Prop :=
  A1 u v \/ (new_id d u /\ b = Some v) \/ (new_id d v /\ b = Some u).
Lemma D2_old d x : ~ new_id d x -> D2 d x = D1 x.
Proof.
  induction d as [|r d IH]; intros Hx; [reflexivity|]. cbn [D2]. unfold put. destruct (N.eqb_spec x (nr_id r)) as [->|H].
  - destruct Hx. exists r. split; [left|reflexivity].
  - apply IH. intros (r' & H1 & H2). apply Hx. exists r'. split; [right; exact H1|exact H2].
Qed.
Lemma D2_new d r : NoDup (map nr_id d) -> r ∈ d -> D2 d (nr_id r) = Some (key_static ROOMS, None, nr_attrs r).
Proof.
  induction d as [|q d IH]; intros HN Hr; [apply elem_of_nil in Hr; destruct Hr|]. cbn [map] in HN. apply stdpp.list.NoDup_cons in HN as [Hq HN].
  cbn [D2]. unfold put. apply elem_of_cons in Hr as [->|Hr]; [rewrite N.eqb_refl; reflexivity|].
  destruct (N.eqb_spec (nr_id r) (nr_id q)) as [E|E]; [|apply IH; assumption]. exfalso. apply Hq. rewrite <- E.
  apply elem_of_list_In, in_map, elem_of_list_In, Hr.
Qed.
Lemma D2_perm d d' x : NoDup (map nr_id d) -> NoDup (map nr_id d') -> (forall r, r ∈ d <-> r ∈ d') -> D2 d x = D2 d' x.
Proof.
  intros H1 H2 H. destruct (decide (x ∈ map nr_id d)) as [K|K].
  - apply elem_of_list_In, in_map_iff in K as (r & <- & K). apply elem_of_list_In in K. rewrite (D2_new d r H1 K).
    apply H in K. rewrite (D2_new d' r H2 K). reflexivity.
  - assert (F : forall l, (forall r, r ∈ d <-> r ∈ l) -> ~ new_id l x).
    { intros l Hl (r & Hr & <-). apply K. apply elem_of_list_In, in_map, elem_of_list_In, Hl, Hr. }
    rewrite (D2_old d x), (D2_old d' x); [reflexivity|apply F; exact H|apply F; reflexivity].
Qed.
Lemma key_cases x : key_of (D2 rooms x) =
  if decide (x ∈ map nr_id rooms) then Some (key_static ROOMS) else if decide (old x) then None else layer_of c x.
Proof using Hc HF.
  destruct (decide (x ∈ map nr_id rooms)) as [K|K].
  - apply elem_of_list_In, in_map_iff in K as (r & <- & K). apply elem_of_list_In in K. rewrite (D2_new rooms r (proj1 HF) K). reflexivity.
  - rewrite D2_old; [|intros (r & Hr & <-); apply K, elem_of_list_In, in_map, elem_of_list_In, Hr].
    unfold D1. destruct (decide _); [reflexivity|]. symmetry. apply data_layer, Hc.
Qed.
Lemma new_in x : new_id rooms x <-> x ∈ map nr_id rooms.
Proof.
  split.
  - intros (r & H & <-). apply elem_of_list_In, in_map, elem_of_list_In, H.
  - intros H. apply elem_of_list_In, in_map_iff in H as (r & H1 & H2). exists r. split; [apply elem_of_list_In, H2|exact H1].
Qed.
Lemma key_new x : new_id rooms x -> key_of (D2 rooms x) = Some (key_static ROOMS).
Proof using Hc HF. intros H. rewrite key_cases. apply new_in in H. destruct (decide _); [reflexivity|contradiction]. Qed.
Lemma key_room x : key_of (D2 rooms x) = Some (key_static ROOMS) <-> new_id rooms x.
Proof using Hc HF.
  split; [|apply key_new]. rewrite key_cases. intros H. apply new_in. destruct (decide (x ∈ map nr_id rooms)); [assumption|].
  destruct (decide (old x)) as [K|K]; [discriminate|destruct (K H)].
Qed.
(** Layers other than the rooms' are what they were. *)
Lemma key_other x k : lk_layer k <> ROOMS -> (key_of (D2 rooms x) = Some k <-> layer_of c x = Some k).
Proof using Hc HF.
  intros Hk. rewrite key_cases. destruct (decide (x ∈ map nr_id rooms)) as [K|K]; [|destruct (decide (old x)) as [K2|K2]].
  - split; [intros [= <-]; destruct Hk; reflexivity|]. intros H. apply new_in in K as (r & Hr & <-).
    destruct (proj2 HF r Hr) as [E|E]; [congruence|]. unfold old_room in E. rewrite E in H. injection H as <-. destruct Hk; reflexivity.
  - unfold old_room in K2. rewrite K2. split; [discriminate|]. intros [= <-]. destruct Hk; reflexivity.
  - reflexivity.
Qed.
Lemma data_place x k t a : lk_layer k <> ROOMS -> (D2 rooms x = Some (k, t, a) <-> node_data c x = Some (k, t, a)).
Proof using Hc HF.
  intros Hk. pose proof (key_other x k Hk) as H. rewrite (data_layer c x Hc) in H.
  assert (K : key_of (D2 rooms x) = Some k -> D2 rooms x = node_data c x).
  { intros E. rewrite D2_old; [|intros Hn; rewrite (key_new x Hn) in E; injection E as <-; destruct Hk; reflexivity].
    unfold D1. destruct (decide (old x)) as [O|O]; [|reflexivity]. apply H in E. unfold old_room in O. rewrite (data_layer c x Hc) in O.
    rewrite E in O. injection O as ->. destruct Hk; reflexivity. }
  split; intros E.
  - rewrite <- K; [exact E|]. rewrite E. reflexivity.
  - rewrite K; [exact E|]. apply H. rewrite E. reflexivity.
Qed.
Lemma D2_static : rooms_static (D2 rooms).
Proof using Hc HF HD.
  intros x k H Hk. rewrite key_cases in H. destruct (decide (x ∈ _)); [congruence|]. destruct (decide (old x)); [discriminate|]. exact (HD x k H Hk).
Qed.

(** *** The old rooms go *)
Lemma gone_total g : g_clone g = Ok c -> total (without_rooms g) (stg c old D1 A1).
Proof using Hc HD LR.
  intros Ec. unfold without_rooms. eapply total_then; [apply (total_eq _ c (fun v => v = c)); [exact Ec|reflexivity]|]. intros ? ->.
  destruct (layer_nodes_stg c _ _ _ c ROOMS Hc (stg_start c Hc) LR) as (ids & Ei & HN & Hi).
  eapply total_then; [apply (total_eq _ ids (fun v => v = ids)); [exact Ei|reflexivity]|]. intros ? ->.
  assert (HO : forall x, x ∈ ids <-> old x) by (intros x; rewrite Hi; unfold old_room; rewrite (data_layer c x Hc); reflexivity).
  assert (K : forall l, l ≡ₚ ids -> total (py_each drop_node l c) (stg c old D1 A1)).
  { intros l Hl. assert (HL : forall x, x ∈ l <-> old x) by (intros x; rewrite Hl; apply HO). eapply total_weaken.
    - apply (drops_total c (fun _ => False) (node_data c) (adjacent c) c).
      + intros x k. rewrite <- (data_layer c x Hc). apply HD.
      + apply stg_start, Hc.
      + rewrite Hl. exact HN.
      + intros x Hx. rewrite <- (data_layer c x Hc). apply HL, Hx.
    - intros k H. eapply stg_iff; [exact H| | |].
      + intros x. pose proof (HL x). cbn beta. tauto.
      + intros x. unfold D1. pose proof (HL x). destruct (decide (x ∈ l)), (decide (old x)); try reflexivity; tauto.
      + intros u v. unfold A1. pose proof (HL u). pose proof (HL v). cbn beta. tauto. }
  split.
  - destruct (K ids (Permutation_refl _)) as [[r Hr] _]. exists r, ids. auto.
  - intros r (l & Hl & Hr). exact (proj2 (K l Hl) r Hr).
Qed.

(** *** The new rooms come *)
Lemma come_total h : stg c old D1 A1 h -> total (with_rooms rooms h) (fun k => exists b, the_building c b /\ stg c old (D2 rooms) (A2 b rooms) k).
Proof using Hc HD HF LR LB.
  intros H. destruct (layer_nodes_stg c _ _ _ h BUILDINGS (st_reach _ _ _ _ _ H) H LB) as (ids & Ei & _ & Hi). unfold with_rooms.
  eapply total_then; [apply (total_eq _ ids (fun v => v = ids)); [exact Ei|reflexivity]|]. intros ? ->.
  assert (HB : forall x, x ∈ ids <-> layer_of c x = Some (key_static BUILDINGS)).
  { intros x. rewrite Hi. unfold D1. destruct (decide (old x)) as [O|O]; [|rewrite <- (data_layer c x Hc); reflexivity].
    unfold old_room in O. rewrite O. split; discriminate. }
  assert (K : forall l, l ≡ₚ ids -> total (py_each (add_room (head l)) rooms h) (fun k => exists b, the_building c b /\ stg c old (D2 rooms) (A2 b rooms) k)).
  { intros l Hl. assert (TB : the_building c (head l)).
    { destruct l as [|b l]; cbn.
      - intros x Hx. apply HB in Hx. rewrite <- Hl in Hx. apply elem_of_nil in Hx. exact Hx.
      - apply HB. rewrite <- Hl. left. }
    eapply total_weaken; [apply (total_pre _ (fun d k => stg c old (D2 (rev d)) (A2 (head l) d) k) rooms [])|].
    - eapply stg_iff; [exact H|reflexivity|reflexivity|]. intros u v. unfold A2.
      assert (NI : forall x, ~ new_id [] x) by (intros x (r & Hr & _); apply elem_of_nil in Hr; exact Hr). pose proof (NI u). pose proof (NI v). tauto.
    - intros d k r post E I. cbn in E. rewrite rev_app_distr. cbn [rev app].
      assert (Hr : r ∈ rooms) by (rewrite E; apply elem_of_app; right; left).
      assert (Hn : ~ new_id (rev d) (nr_id r)).
      { intros (q & Hq & Eq). pose proof (proj1 HF) as HN. rewrite E, map_app in HN. cbn [map] in HN. apply NoDup_app in HN as (_ & HN & _).
        apply (HN (nr_id r)); [|left]. rewrite <- Eq. apply elem_of_list_In, in_map. apply elem_of_list_In, in_rev in Hq. exact Hq. }
      assert (Hf : D2 (rev d) (nr_id r) = None).
      { rewrite (D2_old _ _ Hn). unfold D1. destruct (decide _) as [O|O]; [reflexivity|]. destruct (proj2 HF r Hr) as [F|F]; [|contradiction].
        rewrite (data_layer c _ Hc) in F. destruct (node_data c (nr_id r)); [discriminate|reflexivity]. }
      pose proof (stg_add c old (D2 (rev d)) (A2 (head l) d) k (nr_id r) (nr_attrs r) I LR Hf) as J. unfold add_room.
      assert (NA : forall x, new_id (d ++ [r]) x <-> new_id d x \/ x = nr_id r).
      { intros x. unfold new_id. split.
        - intros (q & Hq & <-). apply elem_of_app in Hq as [Hq|Hq]; [eauto|]. apply elem_of_list_singleton in Hq as ->. auto.
        - intros [(q & Hq & <-)| ->]; eexists; (split; [apply elem_of_app; [left; exact Hq] || (apply elem_of_app; right; left)|reflexivity]). }
      destruct (head l) as [b|] eqn:Eh.
      + assert (Kb : D2 (rev d) b = node_data c b).
        { rewrite D2_old.
          - unfold D1. destruct (decide (old b)) as [O|O]; [|reflexivity]. unfold old_room in O. cbn in TB. rewrite TB in O. discriminate.
          - intros (q & Hq & <-). cbn in TB. destruct (proj2 HF q) as [F|F].
            + rewrite E. apply elem_of_app. left. apply elem_of_list_In, in_rev, elem_of_list_In, Hq.
            + congruence.
            + unfold old_room in F. rewrite F in TB. discriminate. }
        cbn in TB. assert (Sb : is_Some (node_data c b)) by (rewrite (data_layer c b Hc) in TB; destruct (node_data c b); [eauto|discriminate]).
        assert (Nb : nr_id r <> b) by (intros <-; rewrite Hf in Kb; rewrite <- Kb in Sb; destruct Sb; discriminate).
        eapply total_weaken; [apply (stg_link c _ _ _ _ (nr_id r) b J Nb)|].
        * unfold put. rewrite N.eqb_refl. eauto.
        * unfold put. destruct (N.eqb_spec b (nr_id r)); [congruence|]. rewrite Kb. exact Sb.
        * intros k' K'. eapply stg_iff; [exact K'|reflexivity|reflexivity|]. intros u v. unfold A2. rewrite !NA.
          split; [intros [[H1|[[H1 H2]|[H1 H2]]]|[[-> ->]|[-> ->]]]; auto 10|].
          intros [H1|[[[H1|H1] H2]|[[H1|H1] H2]]]; auto 10; injection H2 as <-; auto 10.
      + apply total_ret. eapply stg_iff; [exact J|reflexivity|reflexivity|]. intros u v. unfold A2.
        split; (intros [H1|[[_ H1]|[_ H1]]]; [auto|discriminate|discriminate]).
    - intros k Hk. exists (head l). split; [exact TB|]. cbn [app] in Hk. eapply stg_iff; [exact Hk|reflexivity| |reflexivity].
      intros x. apply D2_perm; [|exact (proj1 HF)|].
      + rewrite map_rev. apply (proj2 (NoDup_ListNoDup _)). apply NoDup_rev, NoDup_ListNoDup, HF.
      + intros r. rewrite !elem_of_list_In, <- in_rev. reflexivity. }
  split.
  - destruct (K ids (Permutation_refl _)) as [[r Hr] _]. exists r, ids. auto.
  - intros r (l & Hl & Hr). exact (proj2 (K l Hl) r Hr).
Qed.

(** *** Each place gets the first room around it *)
Lemma find_split (f : NewRoom -> bool) l i : option_map nr_id (List.find f l) = Some i <->
  exists pre room post, l = pre ++ room :: post /\ nr_id room = i /\ f room = true /\ forall q, q ∈ pre -> f q = false.
Proof.
  induction l as [|r l IH]; cbn.
  - split; [discriminate|]. intros (pre & room & post & E & _). destruct pre; discriminate.
  - destruct (f r) eqn:Er.
    + split.
      * intros [= <-]. exists [], r, l. split; [reflexivity|]. split; [reflexivity|]. split; [exact Er|]. intros q Hq. apply elem_of_nil in Hq. destruct Hq.
      * intros (pre & room & post & E & H1 & H2 & H3). destruct pre as [|q pre]; cbn in E; injection E as <- _; [cbn; congruence|].
        rewrite (H3 r) in Er; [discriminate|left].
    + rewrite IH. split.
      * intros (pre & room & post & -> & H1 & H2 & H3). exists (r :: pre), room, post. split; [reflexivity|]. split; [exact H1|]. split; [exact H2|].
        intros q Hq. apply elem_of_cons in Hq as [->|Hq]; auto.
      * intros (pre & room & post & E & H1 & H2 & H3). destruct pre as [|q pre]; cbn in E; injection E as <- E; [congruence|].
        exists pre, room, post. split; [exact E|]. split; [exact H1|]. split; [exact H2|]. intros q Hq. apply H3. right. exact Hq.
Qed.
Notation falls := (falls_into c rooms).
Lemma falls_find x a i : is_place c x -> has_attrs c x a ->
  (falls x i <-> option_map nr_id (List.find (fun r => nr_inside r (attrs_position a)) rooms) = Some i).
Proof.
  intros Hp Ha. rewrite find_split. split.
  - intros (_ & a' & pre & room & post & Ha' & E & H1 & H2 & H3). assert (a' = a) as ->.
    { destruct Ha as (n & H4 & <-), Ha' as (n' & H5 & <-). congruence. }
    eauto 10.
  - intros (pre & room & post & E & H1 & H2 & H3). split; [exact Hp|]. exists a, pre, room, post. auto.
Qed.
Lemma falls_one x i j : falls x i -> falls x j -> i = j.
Proof using Type.
  intros Hi Hj. pose proof Hi as (Hp & a & _ & _ & _ & Ha & _). apply (falls_find x a i Hp Ha) in Hi. apply (falls_find x a j Hp Ha) in Hj. congruence.
Qed.
Lemma falls_new x i : falls x i -> new_id rooms i.
Proof. intros (_ & a & pre & room & post & _ & E & <- & _). exists room. split; [rewrite E; apply elem_of_app; right; left|reflexivity]. Qed.
Lemma place_data x : is_place c x -> exists t a, node_data c x = Some (key_static PLACES, t, a) /\ has_attrs c x a.
Proof using Hc.
  intros H. unfold is_place in H. rewrite (data_layer c x Hc) in H. destruct (node_data c x) as [[[k t] a]|] eqn:E; [|discriminate].
  cbn in H. injection H as ->. exists t, a. split; [reflexivity|]. destruct (data_node c x _ t a Hc E) as (n & H1 & H2 & _). exists n. auto.
Qed.
Definition A3 (b : option N) (u v : N) : Prop := A2 b rooms u v \/ falls u v \/ falls v u.
Lemma places_total b h : stg c old (D2 rooms) (A2 b rooms) h ->
  total (py_then (eq (layer_nodes h PLACES)) (fun ids => py_over (place_room rooms) ids h)) (stg c old (D2 rooms) (A3 b)).
Proof using Hc HF LP.
  intros H. destruct (layer_nodes_stg c _ _ _ h PLACES (st_reach _ _ _ _ _ H) H LP) as (ids & Ei & _ & Hi).
  eapply total_then; [apply (total_eq _ ids (fun v => v = ids)); [exact Ei|reflexivity]|]. intros ? ->.
  assert (HP : forall x, x ∈ ids <-> is_place c x) by (intros x; rewrite Hi; apply key_other; discriminate).
  eapply total_weaken.
  - apply (total_over _ (fun d k => stg c old (D2 rooms) (fun u v => A2 b rooms u v \/ (u ∈ d /\ falls u v) \/ (v ∈ d /\ falls v u)) k)).
    + eapply stg_iff; [exact H|reflexivity|reflexivity|]. intros u v. pose proof (not_elem_of_nil u). pose proof (not_elem_of_nil v). tauto.
    + intros d k x Hx I. apply HP in Hx. destruct (place_data x Hx) as (t & a & Hd & Ha). unfold place_room.
      assert (Hdk : D2 rooms x = Some (key_static PLACES, t, a)) by (apply data_place; [discriminate|exact Hd]).
      assert (Ep : g_get_position k x = Ok (attrs_position a)).
      { rewrite (proj1 (C24_queries k x (st_reach _ _ _ _ _ I))), (st_data _ _ _ _ _ I), Hdk. reflexivity. }
      eapply total_then; [apply (total_eq _ (attrs_position a) (fun v => v = attrs_position a)); [exact Ep|reflexivity]|]. intros ? ->.
      pose proof (falls_find x a) as FF.
      destruct (List.find (fun r => nr_inside r (attrs_position a)) rooms) as [room|] eqn:Ef.
      * assert (Fx : falls x (nr_id room)) by (apply FF; auto). pose proof (falls_new _ _ Fx) as Hn. pose proof (key_new _ Hn) as Kn.
        eapply total_weaken; [apply (stg_link c _ _ _ k x (nr_id room) I)|].
        -- intros E. rewrite <- E, Hdk in Kn. discriminate.
        -- rewrite Hdk. eauto.
        -- destruct (D2 rooms (nr_id room)); [eauto|discriminate].
        -- intros k' K. eapply stg_iff; [exact K|reflexivity|reflexivity|]. intros u v. cbn beta. rewrite !elem_of_cons.
           pose proof (fun j => falls_one x _ j Fx) as FO. split.
           ++ intros [H1|[[-> ->]|[-> ->]]]; [tauto|right; left; auto|right; right; auto].
           ++ intros [H1|[[[->|H1] H2]|[[->|H1] H2]]]; auto 10; apply FO in H2; subst; auto.
      * apply total_ret. eapply stg_iff; [exact I|reflexivity|reflexivity|]. intros u v. cbn beta. rewrite !elem_of_cons.
        assert (NF : forall i, ~ falls x i) by (intros i Hf; apply (FF i Hx Ha) in Hf; discriminate).
        split; [tauto|]. intros [H1|[[[->|H1] H2]|[[->|H1] H2]]]; auto; destruct (NF _ H2).
  - intros k (d & I & Hdd). eapply stg_iff; [exact I|reflexivity|reflexivity|]. intros u v. unfold A3. rewrite (Hdd u), (Hdd v), (HP u), (HP v).
    split; [tauto|]. intros [H1|[H1|H1]]; [auto| |]; pose proof (proj1 H1); auto.
Qed.

(** *** Bordering rooms are linked *)
Definition A4 (b : option N) (u v : N) : Prop := A3 b u v \/ meets c rooms u v \/ meets c rooms v u.
Lemma parents_now b h x p : stg c old (D2 rooms) (A3 b) h -> the_building c b -> low c x -> (is_parent_of h p x <-> parent_now c rooms x p).
Proof using Hc HF HD.
  intros H HB (kx & Hx & Lx).
  assert (Kx : layer_of h x = Some kx) by (rewrite (stg_layer c _ _ _ h x H); apply key_other; [rewrite Lx; discriminate|exact Hx]).
  assert (NO : ~ old x) by (intros O; unfold old_room in O; rewrite O in Hx; injection Hx as <-; discriminate).
  assert (NN : ~ new_id rooms x).
  { intros Hn. apply key_new in Hn. rewrite (stg_layer c _ _ _ h x H), Hn in Kx. injection Kx as <-. discriminate. }
  unfold is_parent_of. rewrite (st_adj _ _ _ _ _ H), Kx. split.
  - intros [Ha (kp & kc & Kp & [= <-] & Hl)]. rewrite (stg_layer c _ _ _ h p H) in Kp. destruct Ha as [[Ha|[[Hn Hb]|[Hn Hb]]]|[Ha|Ha]].
    + left. destruct Ha as (H1 & H2 & H3). split; [|exact H2]. split; [exact H1|].
      assert (Kp' : layer_of c p = Some kp).
      { destruct (decide (lk_layer kp = ROOMS)) as [E|E]; [|apply (key_other p kp E), Kp]. exfalso.
        rewrite key_cases in Kp. destruct (decide (p ∈ map nr_id rooms)) as [K|K].
        - apply new_in in K as (r & Hr & <-). destruct (proj2 HF r Hr) as [F|F]; [|contradiction].
          destruct (edge_ends c _ _ Hc H1) as (_ & H4 & _). apply known_node in H4 as [k4 H4]; [congruence|exact Hc].
        - destruct (decide (old p)) as [O|O]; [contradiction|]. destruct (O (HD p kp Kp E)) || (rewrite (HD p kp Kp E) in Kp; contradiction). }
      exists kp, kx. auto.
    + cbn in *. subst b. cbn in HB. exfalso. rewrite Hx in HB. injection HB as ->. discriminate.
    + contradiction.
    + exfalso. destruct Ha as (Hp & _). assert (K : key_of (D2 rooms p) = Some (key_static PLACES)) by (apply key_other; [discriminate|exact Hp]).
      rewrite Kp in K. injection K as ->. rewrite Lx in Hl. apply N.lt_irrefl in Hl. exact Hl.
    + right. exact Ha.
  - intros [[[H1 (kp & kc & K1 & K2 & K3)] H2]|Hf].
    + assert (kc = kx) as -> by congruence. split; [left; left; repeat split; assumption|].
      exists kp, kx. split; [|auto]. rewrite (stg_layer c _ _ _ h p H).
      destruct (decide (lk_layer kp = ROOMS)) as [E|E]; [|apply (key_other p kp E), K1].
      exfalso. apply H2. unfold old_room. rewrite (HD p kp K1 E) in K1. exact K1.
    + split; [right; right; exact Hf|]. exists (key_static ROOMS), kx. split; [|split; [reflexivity|rewrite Lx; reflexivity]].
      rewrite (stg_layer c _ _ _ h p H). apply key_new. eapply falls_new, Hf.
Qed.

End steps.
