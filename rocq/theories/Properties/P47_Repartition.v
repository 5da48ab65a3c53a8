(** C78: repartition_rooms replaces the rooms. *)
From Coq Require Import NArith ZArith Bool List Lia.
From stdpp Require Import base list gmap.
From Verif.Model Require Import Types Mesh Attrs Node EdgeContainer SLayer DLayer Graph PyConvert Expand Repartition.
From Verif.Spec Require Import AbstractGraph GraphHistory GraphObs ExpandSpec RepartitionSpec.
From Verif.Proof Require Import GraphProps ExpandP ExpandP2 ExpandP3 RepartitionP RepartitionP2 RepartitionP3.
From Verif.Properties Require Import ExGraph P46_Expand.
Local Open Scope N_scope.
Local Open Scope list_scope.
Set Default Proof Using "Type".

Lemma attrs_data g x a : reachable g -> (has_attrs g x a <-> exists k t, node_data g x = Some (k, t, a)).
Proof.
  intros Hr. split.
  - intros (n & Hn & <-). pose proof (node_at_known g x n Hr Hn) as Hk. apply known_node in Hk as [k Hk]; [|exact Hr].
    exists k, (n_time n). unfold node_data. rewrite Hk, Hn. reflexivity.
  - intros (k & t & E). destruct (data_node g x k t a Hr E) as (n & H1 & H2 & _). exists n. auto.
Qed.
Section alike.
Context (g c : Graph) (HA : agree g c) (HT : forall x a, has_attrs c x a <-> has_attrs g x a) (rooms : list NewRoom).
Lemma alike_old x : old_room c x <-> old_room g x.
Proof using HA. unfold old_room. rewrite (proj2 HA). reflexivity. Qed.
Lemma alike_falls x i : falls_into c rooms x i <-> falls_into g rooms x i.
Proof using HA HT.
  unfold falls_into. rewrite (agree_place g c HA). split; intros (H1 & a & pre & room & post & H2 & H3); (split; [exact H1|]);
    exists a, pre, room, post; (split; [apply HT, H2|exact H3]).
Qed.
Lemma alike_places i l : places_of c rooms i l <-> places_of g rooms i l.
Proof using HA HT.
  unfold places_of. split; intros (ids & H1 & H2 & H3); exists ids; (split; [exact H1|]; split; [intros x; rewrite H2; apply alike_falls || (symmetry; apply alike_falls)|]);
    (eapply Forall2_impl; [exact H3|]; intros x a; apply HT).
Qed.
Lemma alike_parent x p : parent_now c rooms x p <-> parent_now g rooms x p.
Proof using HA HT. unfold parent_now. rewrite (agree_parent g c HA), alike_old, alike_falls. reflexivity. Qed.
Lemma alike_room x p : room_now c rooms x p <-> room_now g rooms x p.
Proof using HA HT. unfold room_now. rewrite alike_parent. split; intros [H1 H2]; (split; [exact H1|]); intros q Hq; apply H2, alike_parent, Hq. Qed.
Lemma alike_meets a b : meets c rooms a b <-> meets g rooms a b.
Proof using HA HT.
  unfold meets. split; intros (H1 & x & y & H2 & H3 & H4 & H5); (split; [exact H1|]); exists x, y;
    (split; [apply (agree_place g c HA), H2|]; split; [apply (agree_sib g c HA), H3|]; split; apply alike_room; assumption).
Qed.
End alike.

(** Whatever order the loops run in: the call returns, and what it returns is the given graph with
    its rooms gone, the new rooms that are kept, and the links of those. *)
Theorem C78_repartition_rooms : forall rooms check bad g, reachable g ->
  g_has_layer g ROOMS = true -> g_has_layer g PLACES = true -> g_has_layer g BUILDINGS = true -> no_dynamic_rooms g -> ids_free g rooms ->
  (exists r, repartition_rooms rooms check bad g r) /\
  forall r, repartition_rooms rooms check bad g r -> exists g' b (kept : N -> Prop), r = Ok g' /\ reachable g' /\ the_building g b /\
    (forall x, kept x -> new_id rooms x) /\
    (forall room, room ∈ rooms -> exists l, places_of g rooms (nr_id room) l /\
       (kept (nr_id room) <-> l <> [] /\ ~ (check = true /\ bad room l = true))) /\
    (forall l, g_has_layer g' l = g_has_layer g l) /\
    (forall x, ~ old_room g x -> ~ new_id rooms x -> shown <$> node_data g' x = shown <$> node_data g x) /\
    (forall room, room ∈ rooms -> kept (nr_id room) -> node_data g' (nr_id room) = Some (key_static ROOMS, None, nr_attrs room)) /\
    (forall x, old_room g x \/ new_id rooms x -> ~ kept x -> node_data g' x = None) /\
    (forall u v, adjacent g' u v <-> ((adjacent g u v /\ ~ old_room g u /\ ~ old_room g v) \/ new_link g rooms b u v \/ new_link g rooms b v u) /\
       (new_id rooms u -> kept u) /\ (new_id rooms v -> kept v)) /\
    (forall u v e, edge_at g u v = Some e -> ~ old_room g u -> ~ old_room g v -> edge_at g' u v = Some e) /\
    (forall u v e, edge_at g' u v = Some e -> edge_at g u v = None \/ old_room g u \/ old_room g v -> e_info e = ea_default).
Proof.
  intros rooms check bad g Hr HR HP HB HD HF. destruct (clone_total g Hr) as (c & Ec & Hc & HL). pose proof (looks_agree g c Hr Hc HL) as HA.
  destruct HL as (L1 & L2 & L3).
  assert (HT : forall x a, has_attrs c x a <-> has_attrs g x a).
  { intros x a. rewrite (attrs_data c x a Hc), (attrs_data g x a Hr). specialize (L1 x). clear -L1.
    destruct (node_data c x) as [[[k t] a1]|], (node_data g x) as [[[k' t'] a2]|]; cbn in L1; try discriminate.
    - injection L1 as -> _ ->. split; intros (k1 & t1 & [= -> -> ->]); eauto.
    - reflexivity. }
  assert (HDc : no_dynamic_rooms c) by (intros x k Hk; apply (HD x k); rewrite <- (proj2 HA); exact Hk).
  assert (HFc : ids_free c rooms).
  { split; [exact (proj1 HF)|]. intros room Hr'. rewrite (proj2 HA), (alike_old g c HA). apply (proj2 HF room Hr'). }
  destruct (repartition_total c Hc rooms check bad HDc HFc) with (g := g) as [H1 H2]; [rewrite L3; exact HR|rewrite L3; exact HP|rewrite L3; exact HB|exact Ec|].
  split; [exact H1|]. intros r Er. destruct (H2 r Er) as (g' & -> & b & acc & B1 & _ & B3 & B4 & X).
  pose proof (st_reach _ _ _ _ _ X) as Hr'. pose proof (st_data _ _ _ _ _ X) as XD. cbn beta in XD.
  assert (NE : forall room, room ∈ rooms -> new_id rooms (nr_id room)) by (intros room H; exists room; auto).
  assert (EX : forall u v, edge_at c u v = edge_at g u v) by exact L2.
  assert (OFF : forall u v e, edge_at g u v = Some e -> u ∉ acc \/ old_room g u).
  { intros u v e He. destruct (decide (u ∈ acc)) as [Ha|Ha]; [right|left; exact Ha]. destruct (B3 u Ha) as (room & Hm & <-).
    destruct (proj2 HF room Hm) as [F|F]; [|exact F]. exfalso.
    assert (Adj : adjacent g (nr_id room) v) by (apply adj_edge; eauto). destruct (edge_ends g _ _ Hr Adj) as (_ & K & _).
    apply known_node in K as [k K]; [congruence|exact Hr]. }
  assert (OFF2 : forall u v e, edge_at g u v = Some e -> v ∉ acc \/ old_room g v).
  { intros u v e He. apply (OFF v u e). rewrite <- He. symmetry. apply (edges_symmetric g u v Hr). }
  exists g', b, (fun x => new_id rooms x /\ x ∉ acc). split; [reflexivity|]. split; [exact Hr'|].
  split. { destruct b as [b|]; cbn in *; [rewrite <- (proj2 HA); exact B1|]. intros x. rewrite <- (proj2 HA). apply B1. }
  split; [tauto|]. split.
  { intros room Hm. destruct (B4 room Hm) as (l & P1 & P2). exists l. split; [apply (alike_places g c HA HT), P1|]. rewrite P2.
    pose proof (NE room Hm). clear -H. tauto. }
  split. { intros l. rewrite (st_layers _ _ _ _ _ X). apply L3. }
  split.
  { intros x Ho Hn. rewrite XD. destruct (decide (x ∈ acc)) as [Ha|Ha]; [destruct Hn; apply B3, Ha|].
    rewrite (D2_old c rooms x Hn). unfold D1. destruct (decide (old_room c x)) as [O|O]; [destruct Ho; apply (alike_old g c HA), O|]. apply L1. }
  split.
  { intros room Hm [_ Ha]. rewrite XD. destruct (decide (nr_id room ∈ acc)) as [K|K]; [contradiction|]. apply D2_new; [exact (proj1 HF)|exact Hm]. }
  split.
  { intros x Hx Hk. rewrite XD. destruct (decide (x ∈ acc)) as [Ha|Ha]; [reflexivity|]. assert (Hn : ~ new_id rooms x) by tauto.
    rewrite (D2_old c rooms x Hn). unfold D1. destruct (decide (old_room c x)) as [O|O]; [reflexivity|]. rewrite (alike_old g c HA) in O. tauto. }
  split.
  { intros u v. rewrite (st_adj _ _ _ _ _ X). cbn beta. unfold A4, A3, A2, A1, new_link.
    rewrite (proj1 HA), !(alike_old g c HA), !(alike_falls g c HA HT), !(alike_meets g c HA HT).
    assert (S : forall x, (x ∉ acc) <-> (new_id rooms x -> new_id rooms x /\ x ∉ acc)).
    { intros x. split; [auto|]. intros K Ha. apply (K (B3 x Ha)), Ha. }
    rewrite <- (S u), <- (S v). tauto. }
  split.
  - intros u v e He Hu Hv. apply (st_old _ _ _ _ _ X); [rewrite EX; exact He| |]; rewrite (alike_old g c HA); destruct (OFF u v e He), (OFF2 u v e He); tauto.
  - intros u v e He Ho. apply (st_new _ _ _ _ _ X u v e He). rewrite EX, !(alike_old g c HA). tauto.
Qed.
Print Assumptions C78_repartition_rooms.

(** Without the layer of the rooms, of the buildings or of the places the call throws. *)
Definition throws {S} (P : result S -> Prop) : Prop := (exists r, P r) /\ forall r, P r -> r = Throw.
Lemma throws_now {S T} (P : result S -> Prop) (Q : S -> result T -> Prop) : throws P -> throws (py_then P Q).
Proof.
  intros [[r0 H0] H]. pose proof (H r0 H0) as ->. split; [exists Throw; right; left; auto|].
  intros r [(s & HP & _)|[[_ ->]|[HP _]]]; [apply H in HP; discriminate|reflexivity|apply H in HP; discriminate].
Qed.
Lemma throws_then {S T} (P : result S -> Prop) (Q : S -> result T -> Prop) G : total P G -> (forall s, G s -> throws (Q s)) -> throws (py_then P Q).
Proof.
  intros [[r0 H0] H] HQ. split.
  - destruct (H r0 H0) as (s & -> & HG). destruct (HQ s HG) as [[r Hr] _]. exists r. left. eauto.
  - intros r [(s & HP & Hr)|[[HP _]|[HP _]]]; destruct (H _ HP) as (s' & E & HG); try discriminate. injection E as <-. apply (HQ s HG), Hr.
Qed.
Lemma throws_layer {T} g l (Q : list N -> result T -> Prop) : g_has_layer g l = false -> throws (py_then (eq (layer_nodes g l)) Q).
Proof.
  intros H. apply throws_now. assert (E : layer_nodes g l = Throw).
  { unfold g_has_layer in H. apply bool_decide_eq_false in H. unfold layer_nodes. destruct (g_layers g !! l) eqn:E; [destruct H; eauto|reflexivity]. }
  rewrite E. split; [eauto|]. auto.
Qed.
Theorem C78_missing_layer : forall rooms check bad g, reachable g -> no_dynamic_rooms g -> ids_free g rooms ->
  g_has_layer g ROOMS = false \/ g_has_layer g BUILDINGS = false \/ g_has_layer g PLACES = false ->
  (exists r, repartition_rooms rooms check bad g r) /\ forall r, repartition_rooms rooms check bad g r -> r = Throw.
Proof.
  intros rooms check bad g Hr HD HF HL. destruct (clone_total g Hr) as (c & Ec & Hc & HA). pose proof (looks_agree g c Hr Hc HA) as HG.
  destruct HA as (_ & _ & L3). rewrite <- !L3 in HL.
  assert (HDc : no_dynamic_rooms c) by (intros x k Hk; apply (HD x k); rewrite <- (proj2 HG); exact Hk).
  assert (HFc : ids_free c rooms).
  { split; [exact (proj1 HF)|]. intros room Hm. rewrite (proj2 HG), (alike_old g c HG). apply (proj2 HF room Hm). }
  change (throws (repartition_rooms rooms check bad g)). unfold repartition_rooms.
  destruct (g_has_layer c ROOMS) eqn:LR.
  2:{ apply throws_now. unfold without_rooms. eapply throws_then; [apply (total_eq _ c (fun v => v = c)); [exact Ec|reflexivity]|]. intros ? ->. apply throws_layer, LR. }
  eapply throws_then; [exact (gone_total c Hc HDc LR g Ec)|]. intros h1 H1.
  destruct (g_has_layer c BUILDINGS) eqn:LB.
  2:{ apply throws_now. unfold with_rooms. apply throws_layer. rewrite (st_layers _ _ _ _ _ H1). exact LB. }
  eapply throws_then; [exact (come_total c Hc rooms HDc HFc LR LB h1 H1)|]. intros h2 (b & HB & H2).
  apply throws_now. apply throws_layer. rewrite (st_layers _ _ _ _ _ H2). destruct HL as [?|[?|?]]; [discriminate|discriminate|assumption].
Qed.
Print Assumptions C78_missing_layer.

(** The parents of the places: what is not a room stays, and the new room comes if it is kept. *)
Theorem C78_rooms_of_places : forall rooms check bad g g' x p, reachable g ->
  g_has_layer g ROOMS = true -> g_has_layer g PLACES = true -> g_has_layer g BUILDINGS = true -> no_dynamic_rooms g -> ids_free g rooms ->
  repartition_rooms rooms check bad g (Ok g') -> is_place g x ->
  (is_parent_of g' p x <-> (is_parent_of g p x /\ ~ old_room g p) \/ (falls_into g rooms x p /\ g_has_node g' p = true)).
Proof.
  intros rooms check bad g g' x p Hr HR HP HB HD HF He Hx.
  destruct (C78_repartition_rooms rooms check bad g Hr HR HP HB HD HF) as [_ H]. destruct (H _ He) as (g2 & b & kept & E & Hr' & B1 & _ & B2 & _ & N1 & N2 & N3 & A & _).
  injection E as <-. clear H He.
  assert (OFF : forall y k, layer_of g y = Some k -> ~ old_room g y -> ~ new_id rooms y).
  { intros y k Hy Ho (room & Hm & <-). destruct (proj2 HF room Hm) as [F|F]; [congruence|contradiction]. }
  assert (Ox : ~ old_room g x) by (intros O; unfold old_room, is_place in *; congruence || (rewrite O in Hx; discriminate)).
  pose proof (OFF x _ Hx Ox) as Nx.
  assert (LS : forall y, ~ old_room g y -> ~ new_id rooms y -> layer_of g' y = layer_of g y).
  { intros y H1 H2. specialize (N1 y H1 H2). rewrite (data_layer g' y Hr'), (data_layer g y Hr). clear -N1.
    destruct (node_data g' y) as [[[k t] a]|], (node_data g y) as [[[k' t'] a']|]; cbn in *; congruence. }
  assert (Lx : layer_of g' x = Some (key_static PLACES)) by (rewrite (LS x Ox Nx); exact Hx).
  assert (KN : forall y, new_id rooms y -> (kept y <-> g_has_node g' y = true) /\ (kept y -> layer_of g' y = Some (key_static ROOMS))).
  { intros y Hy. pose proof Hy as (room & Hm & <-). pose proof (N2 room Hm) as K2. split; [split|]; intros K.
    - apply data_known; [exact Hr'|]. rewrite (K2 K). eauto.
    - destruct (decide (g_has_node g' (nr_id room) = true)) as [_|K3]; [|contradiction].
      apply data_known in K; [|exact Hr']. destruct (B2 room Hm) as (l & P1 & P2).
      destruct (list_eq_nil_dec l) as [->|Hl].
      + exfalso. rewrite N3 in K; [destruct K; discriminate|right; exact Hy|]. intros K4. apply P2 in K4. tauto.
      + apply P2. split; [exact Hl|]. intros [C1 C2]. rewrite N3 in K; [destruct K; discriminate|right; exact Hy|]. intros K4. apply P2 in K4. tauto.
    - rewrite (data_layer g' _ Hr'), (K2 K). reflexivity. }
  assert (NM : forall y, is_place g y \/ (exists z, is_place g z /\ siblings g z y) -> ~ parent_now g rooms y x).
  { intros y Hy [[(_ & kp & kc & H1 & H2 & H3) _]|H].
    - assert (Ky : exists k, layer_of g y = Some k /\ lk_layer k = PLACES).
      { destruct Hy as [Hy|(z & Hz & Hs)]; [apply (place_low g y Hy)|apply (sib_low g z y); [apply place_low, Hz|exact Hs]]. }
      destruct Ky as (k & K1 & K2). assert (kc = k) as -> by congruence. unfold is_place in Hx. assert (kp = key_static PLACES) as -> by congruence.
      rewrite K2 in H3. apply N.lt_irrefl in H3. exact H3.
    - apply Nx. eapply falls_new, H. }
  unfold is_parent_of. rewrite A, Lx. split.
  - intros [[H1 [H2 _]] (kp & kc & K1 & [= <-] & K3)]. destruct H1 as [(H1 & H3 & _)|[H1|H1]].
    + left. split; [|exact H3]. split; [exact H1|].
      destruct (edge_ends g p x Hr H1) as (_ & Hk & _). apply known_node in Hk as [k Hk]; [|exact Hr].
      rewrite (LS p H3 (OFF p k Hk H3)) in K1. exists kp, (key_static PLACES). auto.
    + exfalso. destruct H1 as [[_ ->]|[H1|(_ & y & z & H3 & H4 & _ & H5)]].
      * cbn in B1. unfold is_place in Hx. rewrite B1 in Hx. discriminate.
      * apply Nx. eapply falls_new, H1.
      * apply (NM z); [right; eauto|apply H5].
    + destruct H1 as [[H1 _]|[H1|(_ & y & z & H3 & H4 & H5 & _)]]; [contradiction| |].
      * right. split; [exact H1|]. apply KN; [eapply falls_new, H1|]. apply H2. eapply falls_new, H1.
      * exfalso. apply (NM y); [left; exact H3|apply H5].
  - intros [[[H1 (kp & kc & K1 & K2 & K3)] H2]|[H1 H2]].
    + pose proof (OFF p kp K1 H2) as Np. split; [split; [left; auto|tauto]|]. exists kp, (key_static PLACES).
      rewrite (LS p H2 Np). unfold is_place in Hx. assert (kc = key_static PLACES) as -> by congruence. auto.
    + pose proof (falls_new g rooms x p H1) as Np. destruct (KN p Np) as [K1 K2]. apply K1 in H2. split; [split; [right; right; right; left; exact H1|tauto]|].
      exists (key_static ROOMS), (key_static PLACES). split; [apply K2, H2|]. split; [reflexivity|]. reflexivity.
Qed.
Print Assumptions C78_rooms_of_places.

(** The example of C77, with two new rooms: every place falls into the first one, which has the id
    of an old room, and none into the other. *)
Definition ex_new : list NewRoom := [mkRoom 20 (base_at 1 0 0) (fun _ => true); mkRoom 30 (base_at 2 0 0) (fun _ => true)].
Lemma ex_new_ok : no_dynamic_rooms ex_places /\ ids_free ex_places ex_new.
Proof.
  split; [|split].
  - intros x k Hk Hl. pose proof (data_layer ex_places x ex_places_reachable) as D.
    assert (A : forallb (fun kv : N * LayerKey => negb (lk_layer (snd kv) =? ROOMS) || bool_decide (snd kv = key_static ROOMS)) (map_to_list (g_lookup ex_places)) = true) by (vm_compute; reflexivity).
    clear D. unfold layer_of, g_layer_for_node in Hk. revert A Hk. generalize (g_lookup ex_places). intros m A Hk. rewrite forallb_forall in A.
    specialize (A (x, k)). cbn [snd] in A. rewrite Hl, N.eqb_refl in A. cbn in A. apply (bool_decide_eq_true_1 _). apply A.
    apply elem_of_list_In, elem_of_map_to_list, Hk.
  - apply (bool_decide_eq_true_1 _). vm_compute. reflexivity.
  - intros room Hm. apply elem_of_cons in Hm as [->|Hm]; [right; vm_compute; reflexivity|].
    apply elem_of_list_singleton in Hm as ->. left. vm_compute. reflexivity.
Qed.
Lemma falls_20 x : is_place ex_places x -> forall i, falls_into ex_places ex_new x i <-> i = 20.
Proof.
  intros Hx i. destruct (place_data ex_places ex_places_reachable x Hx) as (t & a & _ & Ha).
  rewrite (falls_find ex_places ex_new x a i Hx Ha). cbn. split; [intros [= <-]; reflexivity|intros ->; reflexivity].
Qed.
Example C78_case : reachable ex_places /\ g_has_layer ex_places ROOMS = true /\ g_has_layer ex_places PLACES = true /\ g_has_layer ex_places BUILDINGS = true /\
  no_dynamic_rooms ex_places /\ ids_free ex_places ex_new /\ is_place ex_places 13 /\ falls_into ex_places ex_new 13 20 /\ is_parent_of ex_places 21 13.
Proof.
  split; [exact ex_places_reachable|]. split; [vm_compute; reflexivity|]. split; [vm_compute; reflexivity|]. split; [vm_compute; reflexivity|].
  split; [apply ex_new_ok|]. split; [apply ex_new_ok|]. assert (H : is_place ex_places 13) by (vm_compute; reflexivity).
  split; [exact H|]. split; [apply (falls_20 13 H); reflexivity|].
  split; [vm_compute; reflexivity|]. exists (key_static ROOMS), (key_static PLACES). repeat split; vm_compute; reflexivity.
Qed.

(** A graph of a place and a room without a layer of buildings. *)
Example C78_missing_layer_case : exists g, reachable g /\ no_dynamic_rooms g /\ ids_free g ex_new /\ g_has_layer g BUILDINGS = false /\
  g_has_layer g ROOMS = true /\ g_has_layer g PLACES = true /\ is_place g 10 /\ old_room g 20.
Proof.
  pose (g0 := match g_new [PLACES; ROOMS] with Ok g => g | _ => ex_start end).
  assert (R0 : reachable g0).
  { apply (reach_new [PLACES; ROOMS]); [reflexivity|]. apply (bool_decide_eq_false_1 (UNKNOWN_LAYER ∈ [PLACES; ROOMS])). vm_compute. reflexivity. }
  destruct (run_b g0 [GEmplace PLACES 10 (base_at 0 0 0); GEmplace ROOMS 20 (base_at 0 0 0)]) as [g|] eqn:E; [|vm_compute in E; discriminate].
  assert (Hr : reachable g) by exact (run_b_reachable _ _ _ R0 E).
  exists g. split; [exact Hr|]. clear Hr R0. vm_compute in E. injection E as <-.
  split; [|split; [split|]].
  - intros x k Hk Hl. unfold layer_of, g_layer_for_node in Hk. cbn [g_lookup] in Hk.
    match type of Hk with ?m !! x = _ => assert (A : map_Forall (fun _ q => lk_layer q = ROOMS -> q = key_static ROOMS) m) by (apply (bool_decide_eq_true_1 _); vm_compute; reflexivity) end.
    exact (A x k Hk Hl).
  - apply (bool_decide_eq_true_1 _). vm_compute. reflexivity.
  - intros room Hm. apply elem_of_cons in Hm as [->|Hm]; [right; vm_compute; reflexivity|].
    apply elem_of_list_singleton in Hm as ->. left. vm_compute. reflexivity.
  - repeat split; vm_compute; reflexivity.
Qed.

(** "Every new room is a node of the result" is false: a room without places is dropped.  So is
    "an area in several rooms goes to all of them": the first of the list wins. *)
Theorem C78_empty_room_refuted : exists g rooms i j, reachable g /\ ids_free g rooms /\ new_id rooms i /\ new_id rooms j /\
  (exists g', repartition_rooms rooms false (fun _ _ => true) g (Ok g')) /\
  forall g', repartition_rooms rooms false (fun _ _ => true) g (Ok g') -> g_has_node g' i = true /\ g_has_node g' j = false.
Proof.
  exists ex_places, ex_new, 20, 30. destruct C78_case as (Hr & HR & HP & HB & HD & HF & H13 & F13 & _).
  assert (N1 : new_id ex_new 20) by (exists (mkRoom 20 (base_at 1 0 0) (fun _ => true)); split; [left|reflexivity]).
  assert (N2 : mkRoom 30 (base_at 2 0 0) (fun _ => true) ∈ ex_new) by (right; left).
  assert (N1' : mkRoom 20 (base_at 1 0 0) (fun _ => true) ∈ ex_new) by left.
  split; [exact Hr|]. split; [exact HF|]. split; [exact N1|]. split; [exists (mkRoom 30 (base_at 2 0 0) (fun _ => true)); split; [exact N2|reflexivity]|].
  pose proof falls_20 as F20. revert Hr HR HP HB HD HF H13 F13 F20. generalize ex_places as g. intros g Hr HR HP HB HD HF H13 F13 F20.
  destruct (C78_repartition_rooms ex_new false (fun _ _ => true) g Hr HR HP HB HD HF) as [[r Hx] H]. split.
  { destruct (H r Hx) as (g' & _ & _ & -> & _). eauto. }
  intros g' He. destruct (H _ He) as (g2 & b & kept & E & Hr' & _ & _ & K & _ & _ & K2 & K3 & _). injection E as <-. split.
  - apply data_known; [exact Hr'|]. pose proof (K2 _ N1') as Q. cbn [nr_id] in Q. rewrite Q; [eauto|].
    destruct (K _ N1') as (l & (ids & _ & P1 & P2) & P3). cbn [nr_id] in *. apply P3. split; [|intros [C _]; discriminate].
    intros ->. inversion P2; subst. apply P1 in F13. apply elem_of_nil in F13. exact F13.
  - apply not_true_iff_false. intros Q. apply data_known in Q; [|exact Hr']. rewrite K3 in Q; [destruct Q; discriminate| |].
    + right. exists (mkRoom 30 (base_at 2 0 0) (fun _ => true)). split; [exact N2|reflexivity].
    + intros Hk. destruct (K _ N2) as (l & (ids & _ & P1 & P2) & P3). cbn [nr_id] in *. pose proof (proj1 (proj1 P3 Hk)) as Hl. apply Hl.
      destruct ids as [|y ids]; [exact (Forall2_nil_inv_l _ _ P2)|]. assert (Hy : falls_into g ex_new y 30) by (apply P1; left).
      pose proof (proj1 Hy) as Py. apply (F20 y Py) in Hy. discriminate.
Qed.
Print Assumptions C78_empty_room_refuted.
