(** C77: expand_rooms gives the places that can be reached from a room that room, and changes
    nothing else but edges between rooms. *)
From Coq Require Import NArith ZArith Bool List Lia.
From stdpp Require Import base list gmap.
From Verif.Model Require Import Types Attrs Node EdgeContainer SLayer DLayer Graph PyConvert Expand.
From Verif.Spec Require Import AbstractGraph GraphHistory GraphObs ExpandSpec.
From Verif.Proof Require Import GraphProps GraphRep CloneP ExpandP ExpandP2 ExpandP3.
From Verif.Properties Require Import ExGraph P14_GraphFiles.
Local Open Scope N_scope.
Set Default Proof Using "Type".

(** Whatever order the loops run in and whatever the heap yields: the call returns, and what it
    returns is the given graph with one new parent for each node of the places' level that can
    be reached, and an edge for each pair of bordering rooms. *)
Theorem C77_expand_rooms : forall g, reachable g -> g_has_layer g PLACES = true -> g_has_layer g ROOMS = true ->
  (exists r, expand_rooms g r) /\
  forall r, expand_rooms g r -> exists g' new, r = Ok g' /\ reachable g' /\
    (forall x r, new x = Some r -> spreads g r x) /\ (forall x r, spreads g r x -> exists r', new x = Some r') /\
    (forall x, shown <$> node_data g' x = shown <$> node_data g x) /\ (forall l, g_has_layer g' l = g_has_layer g l) /\
    (forall u v e, edge_at g u v = Some e -> edge_at g' u v = Some e) /\
    (forall u v e, edge_at g u v = None -> edge_at g' u v = Some e -> e_info e = ea_default) /\
    (forall u v, adjacent g' u v <->
       adjacent g u v \/ (new u = Some v \/ new v = Some u) \/ borders g new u v \/ borders g new v u) /\
    (forall x k p, layer_of g x = Some k -> lk_layer k = PLACES -> (room_of g' x p <-> room_after g new x p)).
Proof.
  intros g Hr HP HR. destruct (clone_total g Hr) as (c & Ec & Hc & HL). pose proof (looks_agree g c Hr Hc HL) as HA.
  destruct HL as (L1 & L2 & L3). destruct (expand_total g c Hc Ec) as [H1 H2]; [rewrite L3; exact HP|rewrite L3; exact HR|].
  split; [exact H1|]. intros r Er. destruct (H2 r Er) as (g' & -> & m & M1 & M2 & X). exists g', (fun x => m !! x).
  split; [reflexivity|]. split; [exact (ext_reach _ _ _ X)|]. split; [|split; [|split; [|split; [|split; [|split; [|split]]]]]].
  - intros x r0 H. apply (agree_spreads c g r0 x (agree_sym g c HA)). apply M1, H.
  - intros x r0 H. apply (agree_spreads g c r0 x HA) in H. apply M2 in H as [r' H]. eauto.
  - intros x. rewrite (ext_nodes _ _ _ X x). apply L1.
  - intros l. rewrite (ext_layers _ _ _ X). apply L3.
  - intros u v e He. apply (ext_old _ _ _ X). rewrite (L2 u v). exact He.
  - intros u v e He. apply (ext_new _ _ _ X). rewrite (L2 u v). exact He.
  - intros u v. rewrite (ext_adj _ _ _ X), (proj1 HA), !(agree_borders g c HA). tauto.
  - intros x k p Hk Hl. rewrite <- (agree_after g c HA). apply (rooms_shown c Hc m M1 g' (borders c (fun x => m !! x)) x p X).
    + intros u v (B1 & x1 & y1 & B2 & B3 & B4 & B5). apply (seen_high c m M1 [x1] u v). split; [exact B1|]. exists x1, y1. split; [left|]. auto.
    + exists k. rewrite (proj2 HA). auto.
Qed.
Print Assumptions C77_expand_rooms.

(** What this says about the rooms of a place: a room is kept, a place without any gets one that
    spreads to it, and a place that no room spreads to keeps its parents. *)
Theorem C77_rooms_of_places : forall g g' x k, reachable g -> g_has_layer g PLACES = true -> g_has_layer g ROOMS = true ->
  expand_rooms g (Ok g') -> layer_of g x = Some k -> lk_layer k = PLACES ->
  (forall p, room_of g x p -> room_of g' x p) /\
  ((forall p, ~ is_parent_of g p x) -> forall r, spreads g r x -> exists p, room_of g' x p /\ spreads g p x) /\
  ((forall r, ~ spreads g r x) -> forall p, is_parent_of g' p x <-> is_parent_of g p x).
Proof.
  intros g g' x k Hr HP HR He Hk Hl. destruct (clone_total g Hr) as (c & Ec & Hc & HL). pose proof (looks_agree g c Hr Hc HL) as HA.
  destruct HL as (L1 & L2 & L3). destruct (expand_total g c Hc Ec) as [_ H2]; [rewrite L3; exact HP|rewrite L3; exact HR|].
  destruct (H2 _ He) as (g2 & E & m & M1 & M2 & X). injection E as <-.
  assert (Lx : low c x) by (exists k; rewrite (proj2 HA); auto).
  assert (BH : forall u v, borders c (fun x => m !! x) u v -> high c u /\ high c v).
  { intros u v (B1 & x1 & y1 & B2 & B3 & B4 & B5). apply (seen_high c m M1 [x1] u v). split; [exact B1|]. exists x1, y1. split; [left|]. auto. }
  assert (RX : forall p, room_of g' x p <-> room_after c (fun x => m !! x) x p) by (intros p; exact (rooms_shown c Hc m M1 g' _ x p X BH Lx)).
  split; [|split].
  - intros p Hp. apply RX. apply (agree_room g c HA) in Hp. split; [left; apply Hp|]. intros q [Hq|Hq]; [apply Hp, Hq|].
    apply M1, spreads_facts in Hq. destruct Hq as (_ & _ & Hq). destruct (Hq p Hp).
  - intros Hn r Hs. apply (agree_spreads g c r x HA) in Hs. apply M2 in Hs as [p Hp]. exists p. split.
    + apply RX. split; [right; exact Hp|]. intros q [Hq|Hq]; [|cbn in Hq; congruence]. apply (agree_parent g c HA) in Hq. destruct (Hn q Hq).
    + apply (agree_spreads c g p x (agree_sym g c HA)), M1, Hp.
  - intros Hn p. rewrite (ext_parents c Hc g' _ x p X); [|intros u v [H|H]; [exact (assigns_high c m M1 u v H)|apply (BH u v H)]|exact Lx].
    rewrite (agree_parent g c HA). split; [|auto]. intros [H|[H|H]]; [exact H| |].
    + destruct (Hn p). apply (agree_spreads c g p x (agree_sym g c HA)), M1, H.
    + destruct (low_high c x Lx). apply (BH x p H).
Qed.
Print Assumptions C77_rooms_of_places.

(** The flood fill comes to an end: there is no infinite run of its loop. *)
Theorem C77_flood_ends : forall g s, reachable g -> g_has_layer g PLACES = true -> expand_start g (Ok s) ->
  Acc (fun s2 s1 => flood_step s1 (Ok s2)) (mkFlood (fst s) ∅ (snd s)).
Proof.
  intros g s Hr HP Hs. destruct (clone_total g Hr) as (c & Ec & Hc & (_ & _ & L3)).
  destruct (start_total g c Hc Ec) as [_ H]; [rewrite L3; exact HP|]. destruct (H _ Hs) as (s' & E & HI). injection E as <-.
  exact (loop_ends c Hc _ HI).
Qed.
Print Assumptions C77_flood_ends.

(** Without one of the two layers the call throws. *)
Theorem C77_missing_layer : forall g, reachable g -> g_has_layer g PLACES = false \/ g_has_layer g ROOMS = false ->
  (exists r, expand_rooms g r) /\ forall r, expand_rooms g r -> r = Throw.
Proof.
  intros g Hr HL. destruct (clone_total g Hr) as (c & Ec & Hc & (_ & _ & L3)).
  assert (NL : forall h l, g_has_layer h l = false -> layer_nodes h l = Throw).
  { intros h l H. unfold g_has_layer in H. apply bool_decide_eq_false in H. unfold layer_nodes. destruct (g_layers h !! l) eqn:E; [destruct H; eauto|reflexivity]. }
  unfold expand_rooms. destruct (g_has_layer g PLACES) eqn:HP.
  - destruct HL as [HL|HL]; [discriminate|]. rewrite <- L3 in HP, HL.
    assert (T : total (py_then (expand_start g) (fun s => flood_loop (mkFlood (fst s) ∅ (snd s)))) (fun h => g_has_layer h ROOMS = false)).
    { eapply total_then; [apply (start_total g c Hc Ec HP)|]. intros s HI. eapply total_weaken; [apply (loop_total c Hc _ HI)|].
      intros h (m & [F1 _ _] & _). cbn beta in F1. rewrite (ext_layers _ _ _ F1). exact HL. }
    destruct T as [[r0 H0] H1]. split.
    + destruct (H1 _ H0) as (h & -> & Hh). exists Throw. destruct H0 as [(s & S1 & S2)|[[_ S2]|[_ S2]]]; [|discriminate|discriminate].
      left. exists s. split; [exact S1|]. left. exists h. split; [exact S2|]. right. left. split; [apply NL, Hh|reflexivity].
    + intros r [(s & S1 & S2)|[[_ ->]|[S1 _]]]; [|reflexivity|].
      * destruct S2 as [(h & S2 & S3)|[[_ ->]|[S2 _]]]; [|reflexivity|].
        -- destruct (H1 (Ok h)) as (h' & E & Hh); [left; eauto|]. injection E as <-. apply NL in Hh.
           destruct S3 as [(a & E & _)|[[_ ->]|[E _]]]; [congruence|reflexivity|congruence].
        -- destruct (H1 UB) as (h' & E & _); [left; eauto|]. discriminate.
      * destruct (H1 UB) as (h' & E & _); [right; right; eauto|]. discriminate.
  - rewrite <- L3 in HP. pose proof (NL c PLACES HP) as EP.
    assert (ES : forall r, expand_start g r <-> r = Throw).
    { intros r. unfold expand_start. rewrite Ec. split.
      - intros [(a & E & S)|[[E _]|[E _]]]; [|discriminate|discriminate]. injection E as <-. rewrite EP in S.
        destruct S as [(a & E & _)|[[_ ->]|[E _]]]; [discriminate|reflexivity|discriminate].
      - intros ->. left. exists c. split; [reflexivity|]. right. left. auto. }
    split.
    + exists Throw. right. left. split; [apply ES|]; reflexivity.
    + intros r [(s & S & _)|[[_ ->]|[S _]]]; [apply ES in S; discriminate|reflexivity|apply ES in S; discriminate].
Qed.
Print Assumptions C77_missing_layer.

(** Places 10 - 11 - 12 - 13 with room 20 above 10 and room 21 above 13, 14 alone, and 15 - 16
    with the rooms 20 and 21 above 15 and room 22 above 16. *)
Definition ex_rooms : list gop :=
  map (fun x => GEmplace PLACES x (base_at 0 0 0)) [10; 11; 12; 13; 14; 15; 16] ++
  map (fun x => GEmplace ROOMS x (base_at 0 0 0)) [20; 21; 22] ++
  map (fun p => GInsertEdge (fst p) (snd p) None)
    [(10, 11); (11, 12); (12, 13); (15, 16); (20, 10); (13, 21); (15, 20); (15, 21); (16, 22)].
Definition ex_places : Graph := match run_b ex_start ex_rooms with Some g => g | None => ex_start end.
Lemma ex_places_reachable : reachable ex_places.
Proof. apply run_b_start. vm_compute. reflexivity. Qed.
(** What a node of the example shows. *)
Lemma sib_of x n l : node_at ex_places x = Some n -> elements (n_sib n) = l -> forall y, siblings ex_places x y <-> y ∈ l.
Proof. intros Hn <- y. rewrite elem_of_elements. symmetry. apply (sib_shown ex_places x n y ex_places_reachable Hn). Qed.
Definition sibs (x : N) : list N := match node_at ex_places x with Some n => elements (n_sib n) | None => [] end.
Definition room (x : N) : option N := match node_at ex_places x with Some n => node_get_parent n | None => None end.
Lemma sibs_ok x : is_Some (node_at ex_places x) -> forall y, siblings ex_places x y <-> y ∈ sibs x.
Proof. intros [n Hn]. apply (sib_of x n); [exact Hn|]. unfold sibs. rewrite Hn. reflexivity. Qed.
Lemma room_ok x p : is_Some (node_at ex_places x) -> (room x = Some p <-> room_of ex_places x p).
Proof. intros [n Hn]. unfold room. rewrite Hn. apply (parent_shown ex_places x n p ex_places_reachable Hn). Qed.
Lemma no_room_ok x : is_Some (node_at ex_places x) -> room x = None -> unassigned ex_places x.
Proof. intros [n Hn]. unfold room. rewrite Hn. apply (no_parent_shown ex_places x n ex_places_reachable Hn). Qed.
Ltac there := match goal with |- is_Some (node_at ex_places ?x) =>
  let H := fresh in assert (H : match node_at ex_places x with Some _ => true | None => false end = true) by (vm_compute; reflexivity);
  destruct (node_at ex_places x); [eauto|discriminate H] end.
Ltac by_sib := apply sibs_ok; [there|]; apply (bool_decide_eq_true_1 _); vm_compute; reflexivity.

(** Rooms spread to 11, 12 and 15; nothing spreads to 14. *)
Lemma spreads_11 : spreads ex_places 20 11.
Proof.
  eapply spreads_first with (p := 10); [vm_compute; reflexivity| | |].
  - apply room_ok; [there|]. vm_compute. reflexivity.
  - by_sib.
  - apply no_room_ok; [there|]. vm_compute. reflexivity.
Qed.
Lemma spreads_12 : spreads ex_places 20 12 /\ spreads ex_places 21 12.
Proof.
  split.
  - eapply spreads_next; [exact spreads_11|by_sib|]. apply no_room_ok; [there|]. vm_compute. reflexivity.
  - eapply spreads_first with (p := 13); [vm_compute; reflexivity| | |].
    + apply room_ok; [there|]. vm_compute. reflexivity.
    + by_sib.
    + apply no_room_ok; [there|]. vm_compute. reflexivity.
Qed.
Lemma siblings_back x y : siblings ex_places x y -> siblings ex_places y x.
Proof.
  intros [H (kx & ky & H1 & H2 & H3)]. split; [|exists ky, kx; auto].
  unfold adjacent in *. rewrite <- (proj1 (edges_symmetric ex_places x y ex_places_reachable)). exact H.
Qed.
Lemma spreads_14 r : ~ spreads ex_places r 14.
Proof.
  assert (NS : forall x, ~ siblings ex_places x 14).
  { intros x H. apply siblings_back, sibs_ok in H; [|there]. assert (E : sibs 14 = []) by (vm_compute; reflexivity). rewrite E in H. apply elem_of_nil in H. exact H. }
  intros H. inversion H as [p x H1 H2 H3 H4|x y H1 H2 H3]; subst; eapply NS; eauto.
Qed.
Example C77_case : reachable ex_places /\ g_has_layer ex_places PLACES = true /\ g_has_layer ex_places ROOMS = true /\
  spreads ex_places 20 11 /\ (spreads ex_places 20 12 /\ spreads ex_places 21 12) /\ (forall r, ~ spreads ex_places r 14) /\
  (* a possible outcome: 20 for 11, 21 for 12; then 20 and 21 border on each other *)
  borders ex_places (fun x => if x =? 11 then Some 20 else if x =? 12 then Some 21 else None) 20 21.
Proof.
  split; [exact ex_places_reachable|]. split; [vm_compute; reflexivity|]. split; [vm_compute; reflexivity|].
  split; [exact spreads_11|]. split; [exact spreads_12|]. split; [exact spreads_14|].
  assert (NP : forall x, is_Some (node_at ex_places x) -> match node_at ex_places x with Some n => elements (n_par n) | None => [] end = [] -> forall p, ~ is_parent_of ex_places p x).
  { intros x [n Hn] E p (Ha & kp & kx & K1 & K2 & K3). rewrite Hn in E.
    destruct (edge_ends ex_places p x ex_places_reachable Ha) as (_ & Hp & _). destruct (get_node ex_places p ex_places_reachable Hp) as (np & _ & Hnp & _).
    assert (H : p ∈ n_par n) by (apply (links_mirror ex_places p x np n kp kx ex_places_reachable Hnp Hn K1 K2); auto).
    apply elem_of_elements in H. rewrite E in H. apply elem_of_nil in H. exact H. }
  split; [discriminate|]. exists 11, 12. split; [vm_compute; reflexivity|]. split; [by_sib|]. split; (split; [right; reflexivity|]);
    intros q [Hq|Hq]; try (cbn in Hq; congruence); exfalso; revert Hq; apply NP; try there; vm_compute; reflexivity.
Qed.

(** "Only places without a room get one" is false: 15, which has two, gets a third one. *)
Theorem C77_two_rooms_refuted : exists g, reachable g /\ is_parent_of g 20 15 /\ is_parent_of g 21 15 /\ ~ is_parent_of g 22 15 /\
  forall g', expand_rooms g (Ok g') -> is_parent_of g' 20 15 /\ is_parent_of g' 21 15 /\ is_parent_of g' 22 15.
Proof.
  exists ex_places. split; [exact ex_places_reachable|].
  assert (LX : layer_of ex_places 15 = Some (key_static PLACES)) by (vm_compute; reflexivity).
  assert (LR : forall r, r ∈ [20; 21; 22] -> layer_of ex_places r = Some (key_static ROOMS)).
  { intros r H. repeat (apply elem_of_cons in H as [->|H]; [vm_compute; reflexivity|]). apply elem_of_nil in H. destruct H. }
  assert (A : g_has_edge ex_places 20 15 = Ok true /\ g_has_edge ex_places 21 15 = Ok true /\ g_has_edge ex_places 22 15 = Ok false) by (split; [|split]; vm_compute; reflexivity).
  destruct A as (A1 & A2 & A3).
  assert (PA : forall g r, adjacent g r 15 -> layer_of g 15 = Some (key_static PLACES) -> layer_of g r = Some (key_static ROOMS) -> is_parent_of g r 15).
  { intros g r H H1 H2. split; [exact H|]. exists (key_static ROOMS), (key_static PLACES). split; [exact H2|]. split; [exact H1|reflexivity]. }
  assert (EL : forall r, r = 20 \/ r = 21 \/ r = 22 -> r ∈ [20; 21; 22]).
  { intros r [->|[->| ->]]; [left|right; left|right; right; left]. }
  split; [apply PA; auto|]. split; [apply PA; auto|].
  split; [intros [H _]; unfold adjacent in H; congruence|].
  assert (R16 : room_of ex_places 16 22) by (apply room_ok; [there|]; vm_compute; reflexivity).
  assert (S15 : forall p, siblings ex_places p 15 -> p = 16).
  { intros p H. apply siblings_back, sibs_ok in H; [|there]. assert (E : sibs 15 = [16]) by (vm_compute; reflexivity). rewrite E in H. apply elem_of_list_singleton in H. exact H. }
  assert (ONLY : forall r, spreads ex_places r 15 -> r = 22).
  { intros r H. inversion H as [p x H1 H2 H3 H4|x y H1 H2 H3]; subst.
    - apply S15 in H3 as ->. apply R16. apply H2.
    - apply S15 in H2 as ->. inversion H1 as [p' x' K1 K2 K3 K4|x' y' K1 K2 K3]; subst; destruct (K4 22 R16) || destruct (K3 22 R16). }
  assert (S22 : spreads ex_places 22 15).
  { eapply spreads_first with (p := 16); [vm_compute; reflexivity|exact R16|by_sib|]. apply no_room_ok; [there|]. vm_compute. reflexivity. }
  assert (HP : g_has_layer ex_places PLACES = true) by (vm_compute; reflexivity).
  assert (HR : g_has_layer ex_places ROOMS = true) by (vm_compute; reflexivity).
  pose proof ex_places_reachable as HRe. revert LX LR A1 A2 ONLY S22 HP HR HRe. clear A3 R16 S15. generalize ex_places as g. intros g LX LR A1 A2 ONLY S22 HP HR HRe g' He.
  destruct (C77_expand_rooms g HRe HP HR) as [_ H]. destruct (H _ He) as (g2 & new & E & Hr' & N1 & N2 & ND & _ & _ & _ & HA & _). injection E as <-.
  destruct (N2 15 22 S22) as [r' Hn]. assert (r' = 22) as -> by (apply ONLY, N1, Hn).
  assert (LE : forall x k, layer_of g x = Some k -> layer_of g' x = Some k).
  { intros x k Hk. destruct (get_node g x HRe) as (n & _ & En & _); [apply known_node; eauto|]. specialize (ND x). unfold node_data in ND. rewrite Hk, En in ND.
    cbn in ND. destruct (layer_of g' x) as [k'|] eqn:Ek; [|discriminate]. destruct (node_at g' x) as [n'|]; [|discriminate]. cbn in ND. injection ND as -> _ _. reflexivity. }
  split; [|split]; (apply PA; [apply HA; auto|apply LE; exact LX|apply LE, LR, EL; auto]).
Qed.
Print Assumptions C77_two_rooms_refuted.
