(** Proofs about repartition_rooms, continued: bordering rooms, the rooms that are not kept, and
    the whole function. *)
From Coq Require Import NArith ZArith Bool List Lia.
From stdpp Require Import base list gmap fin_sets.
From Verif.Model Require Import Types Mesh Attrs Node EdgeContainer SLayer DLayer Graph PyConvert Expand Repartition.
From Verif.Spec Require Import AbstractGraph GraphHistory GraphObs ExpandSpec RepartitionSpec.
From Verif.Proof Require Import GraphProps ExpandP ExpandP2 ExpandP3 RepartitionP RepartitionP2.
Local Open Scope N_scope.
Local Open Scope list_scope.
Set Default Proof Using "Type".

Lemma chd_shown g x n y : reachable g -> node_at g x = Some n -> (y ∈ n_chd n <-> is_parent_of g x y).
Proof.
  intros Hr Hn. pose proof (node_at_known g x n Hr Hn) as Hx. apply known_node in Hx as [kx Hkx]; [|exact Hr].
  assert (M : forall m ky, node_at g y = Some m -> layer_of g y = Some ky -> (y ∈ n_chd n <-> adjacent g x y /\ lk_layer ky < lk_layer kx))
    by (intros m ky Hm Hky; exact (proj1 (links_mirror g x y n m kx ky Hr Hn Hm Hkx Hky))).
  split.
  - intros Hy. pose proof (links_known g x n y Hr Hn (or_introl Hy)) as Hk.
    destruct (get_node g y Hr Hk) as (m & _ & Hm & _). apply known_node in Hk as [ky Hky]; [|exact Hr].
    destruct (proj1 (M m ky Hm Hky) Hy) as [Ha Hl]. split; [exact Ha|]. exists kx, ky. auto.
  - intros [Ha (kx' & ky & Hkx' & Hky & Hl)]. destruct (edge_ends g x y Hr Ha) as (_ & _ & Hk).
    destruct (get_node g y Hr Hk) as (m & _ & Hm & _). apply (M m ky Hm Hky). split; [exact Ha|]. congruence.
Qed.

Section steps.
Context (c : Graph) (Hc : reachable c) (rooms : list NewRoom) (check : bool) (bad : NewRoom -> list NodeAttrs -> bool).
Context (HD : no_dynamic_rooms c) (HF : ids_free c rooms) (LR : g_has_layer c ROOMS = true) (LP : g_has_layer c PLACES = true) (LB : g_has_layer c BUILDINGS = true).
Notation old := (old_room c).
Notation D2 := (D2 c rooms).
Notation A3 := (A3 c rooms).
Notation A4 := (A4 c rooms).
Notation falls := (falls_into c rooms).

Lemma key_off x k : layer_of c x = Some k -> lk_layer k <> ROOMS -> ~ new_id rooms x /\ ~ old x.
Proof using Hc HF.
  intros Hx Hk. split.
  - intros Hn. apply (key_new c Hc rooms HF) in Hn. apply (key_other c Hc rooms HF x k Hk) in Hx. rewrite Hn in Hx. injection Hx as <-. destruct Hk; reflexivity.
  - intros O. unfold old_room in O. rewrite O in Hx. injection Hx as <-. destruct Hk; reflexivity.
Qed.
Lemma low_off x : low c x -> ~ new_id rooms x /\ ~ old x.
Proof using Hc HF. intros (k & H1 & H2). apply (key_off x k H1). rewrite H2. discriminate. Qed.
Lemma now_high x p : parent_now c rooms x p -> low c x -> exists k, key_of (D2 p) = Some k /\ PLACES < lk_layer k.
Proof using Hc HF HD.
  intros [[(H1 & kp & kx & H2 & H3 & H4) H5]|H] (k & K1 & K2).
  - exists kp. assert (kx = k) as -> by congruence. rewrite K2 in H4. split; [|exact H4].
    apply (key_other c Hc rooms HF); [|exact H2]. intros E. apply H5. unfold old_room. rewrite H2. f_equal. exact (HD p kp H2 E).
  - exists (key_static ROOMS). split; [|reflexivity]. apply (key_new c Hc rooms HF). eapply falls_new, H.
Qed.

Section borders.
Context (b : option N) (h : Graph) (H : stg c old D2 (A3 b) h) (HB : the_building c b).
Lemma places_same x : is_place h x <-> is_place c x.
Proof using H Hc HF. unfold is_place. rewrite (stg_layer c _ _ _ h x H). apply (key_other c Hc rooms HF). discriminate. Qed.
Lemma sib_same x y : low c x -> (siblings h x y <-> siblings c x y).
Proof using H Hc HF.
  intros Lx. pose proof (low_off x Lx) as [Nx Ox]. destruct Lx as (kx & Hx & Kx).
  assert (Hhx : layer_of h x = Some kx) by (rewrite (stg_layer c _ _ _ h x H); apply (key_other c Hc rooms HF); [rewrite Kx; discriminate|exact Hx]).
  unfold siblings. rewrite (st_adj _ _ _ _ _ H), Hhx, Hx. split.
  - intros [Ha (k & ky & [= <-] & Hy & E)]. rewrite (stg_layer c _ _ _ h y H) in Hy.
    assert (Ky : lk_layer ky <> ROOMS) by (rewrite <- E, Kx; discriminate). apply (key_other c Hc rooms HF y ky Ky) in Hy.
    pose proof (key_off y ky Hy Ky) as [Ny Oy]. destruct Ha as [[Ha|[[Ha _]|[Ha _]]]|[Ha|Ha]]; try contradiction.
    + split; [apply Ha|]. exists kx, ky. auto.
    + destruct Ny. eapply falls_new, Ha.
    + destruct Nx. eapply falls_new, Ha.
  - intros [Ha (k & ky & [= <-] & Hy & E)]. assert (Ky : lk_layer ky <> ROOMS) by (rewrite <- E, Kx; discriminate).
    pose proof (key_off y ky Hy Ky) as [Ny Oy]. split; [left; left; repeat split; assumption|]. exists kx, ky. split; [reflexivity|]. split; [|exact E].
    rewrite (stg_layer c _ _ _ h y H). apply (key_other c Hc rooms HF y ky Ky), Hy.
Qed.
Lemma after_now x p : low c x -> (room_after h (fun y => (∅ : gmap N N) !! y) x p <-> room_now c rooms x p).
Proof using H HB Hc HF HD.
  intros Lx. assert (K : forall q, parent_after h (fun y => (∅ : gmap N N) !! y) x q <-> parent_now c rooms x q).
  { intros q. unfold parent_after. rewrite lookup_empty, (parents_now c Hc rooms HD HF b h x q H HB Lx). split; [intros [?|?]; [assumption|discriminate]|auto]. }
  unfold room_after, room_now. rewrite K. split; intros [H1 H2]; (split; [exact H1|]); intros q Hq; apply H2, K, Hq.
Qed.
Lemma borders_meet x y : borders h (fun y => (∅ : gmap N N) !! y) x y <-> meets c rooms x y.
Proof using H HB Hc HF HD.
  unfold borders, meets. split; intros (H1 & u & v & H2 & H3 & H4 & H5); (split; [exact H1|]); exists u, v.
  - apply places_same in H2. pose proof (place_low c u H2) as Lu. apply (sib_same u v Lu) in H3. pose proof (sib_low c u v Lu H3) as Lv.
    split; [exact H2|]. split; [exact H3|]. split; apply after_now; assumption.
  - pose proof (place_low c u H2) as Lu. pose proof (sib_low c u v Lu H3) as Lv.
    split; [apply places_same, H2|]. split; [apply (sib_same u v Lu), H3|]. split; apply after_now; assumption.
Qed.
Lemma borders_total : total (assign_room_edges h) (stg c old D2 (A4 b)).
Proof using H HB Hc HF HD LP.
  pose proof (st_reach _ _ _ _ _ H) as Hh.
  destruct (layer_nodes_ok h Hh h _ PLACES (ext_refl h Hh)) as (ids & Ei & Hi); [rewrite (st_layers _ _ _ _ _ H); exact LP|].
  unfold assign_room_edges. eapply total_then; [apply (total_eq _ ids (fun v => v = ids)); [exact Ei|reflexivity]|]. intros ? ->.
  eapply total_weaken; [apply (room_edges_total h Hh ∅)|].
  - intros x r E. rewrite lookup_empty in E. discriminate.
  - eapply ext_iff; [apply ext_refl, Hh|]. intros u v. rewrite !lookup_empty. split; [tauto|]. intros [E|E]; discriminate.
  - exact Hi.
  - intros k Hk. eapply stg_iff; [exact (stg_ext c _ _ _ h _ k H Hk)|reflexivity|reflexivity|]. intros u v. unfold A4.
    rewrite !lookup_empty, (borders_meet u v), (borders_meet v u). split.
    + intros [H1|[[H1|H1]|[H1|H1]]]; auto; discriminate.
    + intros [H1|[H1|H1]]; auto.
Qed.
End borders.

Section checks.
Context (b : option N) (h : Graph) (H : stg c old D2 (A4 b) h) (HB : the_building c b).
Lemma children_fall r v : new_id rooms r -> (is_parent_of h r v <-> falls v r).
Proof using H HB Hc HF HD.
  intros Hr. pose proof (key_new c Hc rooms HF r Hr) as Kr.
  assert (Lr : layer_of h r = Some (key_static ROOMS)) by (rewrite (stg_layer c _ _ _ h r H); exact Kr).
  unfold is_parent_of. rewrite (st_adj _ _ _ _ _ H), Lr. split.
  - intros [Ha (k & kv & [= <-] & Kv & Hl)]. rewrite (stg_layer c _ _ _ h v H) in Kv. change (lk_layer (key_static ROOMS)) with ROOMS in Hl.
    assert (NB : forall x, key_of (D2 x) = Some (key_static BUILDINGS) -> x <> r /\ x <> v).
    { intros x K. split; intros ->; [rewrite Kr in K; discriminate|]. rewrite Kv in K. injection K as ->. vm_compute in Hl. discriminate. }
    assert (KB : forall x, b = Some x -> x <> r /\ x <> v).
    { intros x ->. apply NB. apply (key_other c Hc rooms HF); [discriminate|exact HB]. }
    assert (NM : forall x, low c x -> ~ parent_now c rooms x v).
    { intros x Lx Hp. destruct (now_high x v Hp Lx) as (k & K & G). rewrite Kv in K. injection K as <-.
      unfold PLACES, ROOMS in *. lia. }
    destruct Ha as [[[Ha|[[_ Ha]|[_ Ha]]]|[Ha|Ha]]|[Ha|Ha]].
    + exfalso. destruct Ha as (H1 & H2 & _). destruct Hr as (room & Hr & <-). destruct (proj2 HF room Hr) as [F|F]; [|contradiction].
      destruct (edge_ends c _ _ Hc H1) as (_ & H4 & _). apply known_node in H4 as [k4 H4]; [congruence|exact Hc].
    + destruct (KB v Ha) as [_ []]. reflexivity.
    + destruct (KB r Ha) as [[] _]. reflexivity.
    + exfalso. destruct Ha as (Hp & _). apply (proj1 (low_off r (place_low c r Hp))), Hr.
    + exact Ha.
    + exfalso. destruct Ha as (_ & x & y & H2 & H3 & _ & H5). apply (NM y); [eapply sib_low; [apply place_low, H2|exact H3]|apply H5].
    + exfalso. destruct Ha as (_ & x & y & H2 & _ & H4 & _). apply (NM x); [apply place_low, H2|apply H4].
  - intros Hf. split; [left; right; right; exact Hf|]. exists (key_static ROOMS), (key_static PLACES). split; [reflexivity|]. split; [|reflexivity].
    rewrite (stg_layer c _ _ _ h v H). apply (key_other c Hc rooms HF); [discriminate|]. apply Hf.
Qed.
Lemma gt_ok room : room ∈ rooms -> gt_room rooms (nr_id room) = Some room.
Proof using HF.
  intros Hr. unfold gt_room. pose proof (proj1 HF) as HN.
  assert (U : forall q, q ∈ rooms -> nr_id q = nr_id room -> q = room).
  { revert HN Hr. generalize rooms. clear. intros l. induction l as [|x l IH]; cbn [map]; intros HN Hr q Hq E; [apply elem_of_nil in Hq; destruct Hq|].
    apply stdpp.list.NoDup_cons in HN as [HN1 HN2].
    assert (NI : forall z, z ∈ l -> nr_id z <> nr_id x) by (intros z Hz Ez; apply HN1; rewrite <- Ez; apply elem_of_list_In, in_map, elem_of_list_In, Hz).
    apply elem_of_cons in Hq as [->|Hq], Hr as [->|Hr]; [reflexivity| | |apply (IH HN2 Hr q Hq E)].
    - destruct (NI room Hr). symmetry. exact E.
    - destruct (NI q Hq E). }
  destruct (List.find (fun q => nr_id q =? nr_id room) (rev rooms)) as [q|] eqn:E.
  - apply find_some in E as [H1 H2]. apply in_rev, elem_of_list_In in H1. apply N.eqb_eq in H2. rewrite (U q H1 H2). reflexivity.
  - assert (Hi : In room (rev rooms)) by (apply in_rev; rewrite rev_involutive; apply elem_of_list_In, Hr).
    pose proof (find_none _ _ E room Hi) as K. cbn in K. rewrite N.eqb_refl in K. discriminate.
Qed.
Definition verdict (acc : list N) (room : NewRoom) : Prop :=
  exists l, places_of c rooms (nr_id room) l /\ (nr_id room ∈ acc <-> l = [] \/ (check = true /\ bad room l = true)).
Lemma checks_total : total (py_then (eq (layer_nodes h ROOMS)) (fun ids => py_over (check_room rooms check bad h) ids []))
  (fun acc => NoDup acc /\ (forall x, x ∈ acc -> new_id rooms x) /\ forall room, room ∈ rooms -> verdict acc room).
Proof using H HB Hc HF HD LR.
  pose proof (st_reach _ _ _ _ _ H) as Hh.
  destruct (layer_nodes_stg c _ _ _ h ROOMS Hh H LR) as (ids & Ei & HN & Hi).
  eapply total_then; [apply (total_eq _ ids (fun v => v = ids)); [exact Ei|reflexivity]|]. intros ? ->.
  assert (HI : forall x, x ∈ ids <-> new_id rooms x) by (intros x; rewrite Hi; apply (key_room c Hc rooms HF)).
  eapply total_weaken.
  - apply (total_order _ (fun d acc => NoDup acc /\ (forall x, x ∈ acc -> x ∈ d) /\ forall room, room ∈ rooms -> nr_id room ∈ d -> verdict acc room) ids []).
    + exact HN.
    + split; [constructor|]. split; [auto|]. intros room _ K. apply elem_of_nil in K. destruct K.
    + intros d acc x Hx Hd _ (I1 & I2 & I3). apply HI in Hx. pose proof Hx as (room & Hr & <-).
      assert (Kx : g_has_node h (nr_id room) = true).
      { apply (stg_known c _ _ _ h _ H). pose proof (key_new c Hc rooms HF _ Hx) as K. destruct (D2 (nr_id room)); [eauto|discriminate]. }
      destruct (get_node h _ Hh Kx) as (n & En & Hn & _). unfold check_room.
      eapply total_then; [apply (total_eq _ n (fun v => v = n)); [exact En|reflexivity]|]. intros ? ->.
      assert (CF : forall v, v ∈ elements (n_chd n) <-> falls v (nr_id room)) by (intros v; rewrite elem_of_elements, (chd_shown h _ n v Hh Hn); apply children_fall, Hx).
      eapply total_then.
      * apply (total_order _ (fun d l => Forall2 (has_attrs c) d l) (elements (n_chd n)) []).
        -- apply NoDup_elements.
        -- constructor.
        -- intros d' l v Hv _ _ F. apply CF in Hv. pose proof Hv as (Hp & _).
           destruct (place_data c Hc v Hp) as (t & a & E & Ha). assert (E2 : node_data h v = Some (key_static PLACES, t, a)).
           { rewrite (st_data _ _ _ _ _ H). apply (data_place c Hc rooms HF); [discriminate|exact E]. }
           destruct (data_node h v _ t a Hh E2) as (m & Hm & Am & _).
           destruct (get_node h v Hh (node_at_known h v m Hh Hm)) as (m' & Em & Hm' & _). assert (m' = m) as -> by congruence.
           unfold child_attrs. eapply total_then; [apply (total_eq _ m (fun v => v = m)); [exact Em|reflexivity]|]. intros ? ->.
           apply total_ret. apply Forall2_app; [exact F|]. constructor; [|constructor]. rewrite Am. exact Ha.
      * intros l (ch & C1 & C2 & C3). cbn beta in C3.
        assert (PO : places_of c rooms (nr_id room) l) by (exists ch; split; [exact C1|]; split; [intros v; rewrite C2; apply CF|exact C3]).
        assert (OTH : forall acc', (forall y, y <> nr_id room -> (y ∈ acc' <-> y ∈ acc)) -> forall q, q ∈ rooms -> nr_id q <> nr_id room -> nr_id q ∈ d -> verdict acc' q).
        { intros acc' E q Hq Nq Dq. destruct (I3 q Hq Dq) as (l' & L1 & L2). exists l'. split; [exact L1|]. rewrite (E _ Nq). exact L2. }
        assert (FIN : forall acc', NoDup acc' -> (forall y, y <> nr_id room -> (y ∈ acc' <-> y ∈ acc)) -> (nr_id room ∈ acc' <-> l = [] \/ (check = true /\ bad room l = true)) ->
          NoDup acc' /\ (forall x, x ∈ acc' -> x ∈ d ++ [nr_id room]) /\ forall q, q ∈ rooms -> nr_id q ∈ d ++ [nr_id room] -> verdict acc' q).
        { intros acc' N1 E1 V1. split; [exact N1|]. split.
          - intros y Hy. apply elem_of_app. destruct (N.eq_dec y (nr_id room)) as [->|Ny]; [right; left|]. left. apply I2, (E1 y Ny), Hy.
          - intros q Hq Dq. destruct (N.eq_dec (nr_id q) (nr_id room)) as [Eq|Nq].
            + pose proof (gt_ok q Hq) as G1. pose proof (gt_ok room Hr) as G2. rewrite Eq, G2 in G1. injection G1 as <-. exists l. auto.
            + apply (OTH acc' E1 q Hq Nq). apply elem_of_app in Dq as [Dq|Dq]; [exact Dq|]. apply elem_of_list_singleton in Dq. contradiction. }
        assert (NA : nr_id room ∉ acc) by (intros K; apply Hd, I2, K).
        assert (IN : NoDup (acc ++ [nr_id room]) /\ (forall y, y <> nr_id room -> (y ∈ acc ++ [nr_id room] <-> y ∈ acc)) /\ nr_id room ∈ acc ++ [nr_id room]).
        { split; [|split].
          - apply NoDup_app. split; [exact I1|]. split; [|apply NoDup_singleton]. intros y Hy K. apply elem_of_list_singleton in K as ->. contradiction.
          - intros y Ny. rewrite elem_of_app, elem_of_list_singleton. tauto.
          - apply elem_of_app. right. left. }
        destruct IN as (IN1 & IN2 & IN3).
        destruct l as [|a0 l0]; [apply total_ret, FIN; auto; tauto|].
        destruct check; [|apply total_ret, FIN; auto; try reflexivity; split; [contradiction|]; intros [K|[K _]]; discriminate].
        rewrite (gt_ok room Hr). apply total_ret. destruct (bad room (a0 :: l0)) eqn:Eb; apply FIN; auto; try tauto.
        split; [contradiction|]. intros [K|[_ K]]; [discriminate|congruence].
  - intros acc (d & _ & D & I1 & I2 & I3). split; [exact I1|]. split.
    + intros x Hx. apply HI, D, I2, Hx.
    + intros room Hr. apply (I3 room Hr). apply D, HI. exists room. auto.
Qed.
End checks.

(** ** The function *)
Lemma repartition_total g : g_clone g = Ok c -> total (repartition_rooms rooms check bad g) (fun k => exists b acc, the_building c b /\
  NoDup acc /\ (forall x, x ∈ acc -> new_id rooms x) /\ (forall room, room ∈ rooms -> verdict acc room) /\
  stg c (fun x => old x \/ x ∈ acc) (fun x => if decide (x ∈ acc) then None else D2 x) (fun u v => A4 b u v /\ u ∉ acc /\ v ∉ acc) k).
Proof using Hc HF HD LR LP LB.
  intros Ec. unfold repartition_rooms.
  eapply total_then; [exact (gone_total c Hc HD LR g Ec)|]. intros h1 H1.
  eapply total_then; [exact (come_total c Hc rooms HD HF LR LB h1 H1)|]. intros h2 (b & HB & H2).
  eapply total_then; [exact (places_total c Hc rooms HF LP b h2 H2)|]. intros h3 H3.
  eapply total_then; [exact (borders_total b h3 H3 HB)|]. intros h4 H4.
  eapply total_then; [exact (checks_total b h4 H4 HB)|]. intros acc (C1 & C2 & C3).
  eapply total_weaken; [apply (drops_total c old D2 (A4 b) h4 (D2_static c Hc rooms HD HF) acc H4 C1)|].
  - intros x Hx. apply (key_new c Hc rooms HF), C2, Hx.
  - intros k Hk. exists b, acc. auto.
Qed.
End steps.
