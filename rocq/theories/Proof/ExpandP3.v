(** Proofs about expand_rooms, continued: the edges between rooms, and the whole function. *)
From Coq Require Import NArith Bool List Lia.
From stdpp Require Import base list gmap fin_sets.
From Verif.Model Require Import Types Attrs Node EdgeContainer SLayer DLayer Graph PyConvert Expand.
From Verif.Spec Require Import GraphObs ExpandSpec.
From Verif.Proof Require Import GraphProps CloneP ExpandP ExpandP2.
Local Open Scope N_scope.
Set Default Proof Using "Type".

Section rooms.
Context (c : Graph) (Hc : reachable c) (m : gmap N N).
Notation new := (fun x => m !! x).
(** Borders seen from the places [d]. *)
Definition seen (d : list N) (a b : N) : Prop :=
  a <> b /\ exists x y, x ∈ d /\ is_place c x /\ siblings c x y /\ room_after c new x a /\ room_after c new y b.
Context (Hm : forall x r, m !! x = Some r -> spreads c r x).

Lemma after_high x p : low c x -> room_after c new x p -> high c p.
Proof using Hm.
  intros Hx [[H|H] _]; [eapply room_high; eauto|]. apply Hm in H. apply spreads_facts in H. tauto.
Qed.
Lemma seen_high d a b : seen d a b -> high c a /\ high c b.
Proof using Hm.
  intros (_ & x & y & _ & Hp & Hs & Ha & Hb). apply place_low in Hp. split; [exact (after_high x a Hp Ha)|].
  exact (after_high y b (sib_low c x y Hp Hs) Hb).
Qed.
(** A graph with room edges shows the rooms of the assignment. *)
Lemma rooms_shown k (J : N -> N -> Prop) x p : ext c (fun u v => m !! u = Some v \/ J u v) k -> (forall u v, J u v -> high c u /\ high c v) -> low c x ->
  (room_of k x p <-> room_after c new x p).
Proof using Hc Hm.
  intros HE HJ Hx. rewrite (ext_rooms c Hc k _ x p HE); [|intros u v [H|H]; [eapply assigns_high; eauto|apply (HJ u v H)]|exact Hx].
  assert (NJ : forall q, ~ J x q) by (intros q H; apply (low_high c x Hx), (HJ x q H)).
  unfold room_after, parent_after. split.
  - intros [[H|[H|H]] K]; try (destruct (NJ _ H)); split; auto; intros q [Hq|Hq]; apply K; auto.
  - intros [[H|H] K]; split; auto; intros q [Hq|[Hq|Hq]]; auto; destruct (NJ _ Hq).
Qed.

Lemma neighbors_ok k (J : N -> N -> Prop) x n room : ext c (fun u v => m !! u = Some v \/ J u v) k -> (forall u v, J u v -> high c u /\ high c v) ->
  low c x -> node_at k x = Some n ->
  exists ns, neighbor_rooms k n room = Ok ns /\ forall p, p ∈ ns <-> p <> room /\ exists y, siblings c x y /\ room_after c new y p.
Proof using Hc Hm.
  intros HE HJ Hx Hn. pose proof (ext_reach _ _ _ HE) as Hr. unfold neighbor_rooms.
  assert (HH : forall u v, (m !! u = Some v \/ J u v) -> high c v) by (intros u v [H|H]; [eapply assigns_high; eauto|apply (HJ u v H)]).
  assert (SX : forall s, s ∈ elements (n_sib n) <-> siblings c x s).
  { intros s. rewrite elem_of_elements, (sib_shown k x n s Hr Hn). apply (ext_siblings c Hc k _ x s HE HH Hx). }
  assert (HG : forall (l : list N) (acc : gset N), (forall s, s ∈ l -> siblings c x s) ->
    exists ns : gset N, rfold (fun acc i => let! n := g_get_node k i in
      Ok (match node_get_parent n with Some p => if p =? room then acc else {[p]} ∪ acc | None => acc end)) l acc = Ok ns /\
      forall p, p ∈ ns <-> p ∈ acc \/ (p <> room /\ exists y, y ∈ l /\ room_after c new y p)).
  { induction l as [|s l IH]; intros acc Hl.
    - exists acc. split; [reflexivity|]. intros p. split; [auto|]. intros [H|(_ & y & H & _)]; [exact H|]. apply elem_of_nil in H. destruct H.
    - assert (Ls : low c s) by (eapply sib_low; [exact Hx|apply Hl; left]).
      destruct (get_node k s Hr (low_known c Hc k _ s HE Ls)) as (sn & Es & Hsn & _). cbn [rfold]. rewrite Es. cbn [rbind].
      assert (RS : forall p, node_get_parent sn = Some p <-> room_after c new s p).
      { intros p. rewrite (parent_shown k s sn p Hr Hsn). apply (rooms_shown k J s p HE HJ Ls). }
      destruct (IH (match node_get_parent sn with Some p => if p =? room then acc else {[p]} ∪ acc | None => acc end)) as (ns & E & Hns).
      { intros y Hy. apply Hl. right. exact Hy. }
      exists ns. split; [exact E|]. intros p. rewrite Hns. clear E Hns IH. split.
      + intros [H|(H1 & y & Hy & H2)]; [|right; split; [exact H1|]; exists y; split; [right; exact Hy|exact H2]].
        destruct (node_get_parent sn) as [q|] eqn:Eq; [|left; exact H]. destruct (q =? room) eqn:Er; [left; exact H|].
        apply elem_of_union in H as [H|H]; [|left; exact H]. apply elem_of_singleton in H as ->. apply N.eqb_neq in Er.
        right. split; [exact Er|]. exists s. split; [left|]. apply RS. reflexivity.
      + intros [H|(H1 & y & Hy & H2)].
        * left. destruct (node_get_parent sn) as [q|]; [|exact H]. destruct (q =? room); [exact H|]. apply elem_of_union. right. exact H.
        * apply elem_of_cons in Hy as [->|Hy]; [|right; eauto]. apply RS in H2. rewrite H2. apply N.eqb_neq in H1. rewrite H1.
          left. apply elem_of_union. left. apply elem_of_singleton. reflexivity. }
  destruct (HG (elements (n_sib n)) ∅) as (ns & E & H); [intros s; apply SX|]. exists ns. split; [exact E|]. intros p. rewrite H, elem_of_empty.
  split; [intros [[]|(H1 & y & Hy & H2)]|intros (H1 & y & Hy & H2); right]; (split; [exact H1|]); exists y; (split; [apply SX, Hy|exact H2]).
Qed.

Lemma room_edges_total ids h : ext c (fun u v => m !! u = Some v) h -> (forall x, x ∈ ids <-> is_place c x) ->
  total (py_over room_edges_of ids h) (fun k => ext c (fun u v => m !! u = Some v \/ borders c new u v) k).
Proof using Hc Hm.
  intros HE Hids. eapply total_weaken.
  - apply (total_over _ (fun d k => ext c (fun u v => m !! u = Some v \/ seen d u v) k)).
    { eapply ext_iff; [exact HE|]. intros u v.
      assert (NS : forall a b, ~ seen [] a b) by (intros a b (_ & x & y & H & _); apply elem_of_nil in H; destruct H).
      split; [tauto|]. intros [[H|H]|[H|H]]; auto; destruct (NS _ _ H). }
    intros d k x Hx I1. apply Hids in Hx. pose proof (place_low c x Hx) as Lx. pose proof (ext_reach _ _ _ I1) as Hr.
    destruct (get_node k x Hr (low_known c Hc k _ x I1 Lx)) as (n & En & Hn & _). unfold room_edges_of.
    eapply total_then; [apply (total_eq _ n (fun v => v = n)); [exact En|reflexivity]|]. intros ? ->.
    assert (RX : forall p, node_get_parent n = Some p <-> room_after c new x p).
    { intros p. rewrite (parent_shown k x n p Hr Hn). apply (rooms_shown k (seen d) x p I1 (seen_high d) Lx). }
    assert (SC : forall a b, seen (x :: d) a b <-> seen d a b \/ (a <> b /\ room_after c new x a /\ exists y, siblings c x y /\ room_after c new y b)).
    { intros a b. unfold seen. split.
      - intros (H1 & z & y & Hz & H2 & H3 & H4 & H5). apply elem_of_cons in Hz as [->|Hz]; [right|left]; eauto 10.
      - intros [(H1 & z & y & Hz & H2)|(H1 & H2 & y & H3 & H4)]; (split; [exact H1|]).
        + exists z, y. split; [right; exact Hz|exact H2].
        + exists x, y. split; [left|]. auto. }
    destruct (node_get_parent n) as [room|] eqn:Eg.
    + assert (Rx : room_after c new x room) by (apply RX; reflexivity).
      destruct (neighbors_ok k (seen d) x n room I1 (seen_high d) Lx Hn) as (ns & Ens & Hns).
      eapply total_then; [apply (total_eq _ ns (fun v => v = ns)); [exact Ens|reflexivity]|]. intros ? ->.
      assert (HN : forall p, p ∈ elements ns <-> p <> room /\ exists y, siblings c x y /\ room_after c new y p) by (intros p; rewrite elem_of_elements; apply Hns).
      eapply total_weaken.
      * apply (total_over _ (fun d' k' => ext c (fun u v => (m !! u = Some v \/ seen d u v) \/ (u = room /\ v ∈ d')) k')).
        { eapply ext_iff; [exact I1|]. intros u v. split; [tauto|].
          intros [[H|[_ H]]|[H|[_ H]]]; auto; apply elem_of_nil in H; destruct H. }
        intros d' k' p Hp J1. apply HN in Hp as (Hp & y & Hy & Hyp). unfold join_room.
        pose proof (after_high x room Lx Rx) as H1. pose proof (after_high y p (sib_low c x y Lx Hy) Hyp) as H2.
        destruct (insert_ext k' room p (ext_reach _ _ _ J1) (fun e => Hp (eq_sym e)) (high_known c Hc k' _ room J1 H1) (high_known c Hc k' _ p J1 H2)) as (b & k2 & E2 & X2).
        eapply total_then; [apply (total_eq _ (b, k2) (fun v => v = (b, k2))); [exact E2|reflexivity]|]. intros ? ->. apply total_ret. cbn [snd].
        eapply ext_iff; [eapply ext_trans; [exact J1|exact X2]|]. intros u v. rewrite !elem_of_cons. tauto.
      * intros k' (d' & J1 & Hd'). eapply ext_iff; [exact J1|]. intros u v.
        assert (K : forall a b, ((m !! a = Some b \/ seen d a b) \/ a = room /\ b ∈ d') <-> (m !! a = Some b \/ seen (x :: d) a b)).
        { intros a b. rewrite SC, Hd', HN. split.
          - intros [[H|H]|(-> & H1 & H2)]; auto.
          - intros [H|[H|(H1 & H2 & H3)]]; auto. right. assert (a = room) as ->; [|auto]. apply Rx. apply H2. }
        rewrite (K u v), (K v u). reflexivity.
    + apply total_ret. eapply ext_iff; [exact I1|].
      assert (K : forall a b, (m !! a = Some b \/ seen d a b) <-> (m !! a = Some b \/ seen (x :: d) a b)).
      { intros a b. rewrite SC. split; [tauto|]. intros [H|[H|(_ & H & _)]]; auto. apply RX in H. discriminate. }
      intros u v. rewrite (K u v), (K v u). reflexivity.
  - intros k (d & J1 & Hd).
    assert (K : forall a b, seen d a b <-> borders c new a b).
    { intros a b. unfold seen, borders. split.
      - intros (H1 & x & y & _ & H2). eauto.
      - intros (H1 & x & y & H2 & H3). split; [exact H1|]. exists x, y. split; [apply Hd, Hids, H2|auto]. }
    eapply ext_iff; [exact J1|]. intros u v. cbn beta. rewrite (K u v), (K v u). reflexivity.
Qed.
End rooms.

(** ** The same facts about graphs that agree *)
Definition agree (g c : Graph) : Prop := (forall u v, adjacent c u v <-> adjacent g u v) /\ forall x, layer_of c x = layer_of g x.
Lemma looks_agree g c : reachable g -> reachable c -> looks_like g c -> agree g c.
Proof.
  intros Hg Hc (H1 & H2 & _). split.
  - intros u v. rewrite (proj1 (proj2 (proj2 (edges_symmetric c u v Hc)))), (proj1 (proj2 (proj2 (edges_symmetric g u v Hg)))), (H2 u v). reflexivity.
  - intros x. specialize (H1 x). unfold node_data in H1.
    assert (K : forall f, reachable f -> (exists k, layer_of f x = Some k) -> exists n, node_at f x = Some n).
    { intros f Hf Hk. apply known_node in Hk; [|exact Hf]. destruct (get_node f x Hf Hk) as (n & _ & Hn & _). eauto. }
    pose proof (K g Hg) as Kg. pose proof (K c Hc) as Kc.
    destruct (layer_of g x) as [kg|] eqn:Eg, (layer_of c x) as [kh|] eqn:Eh; try reflexivity.
    + destruct Kg as [n Hn]; [eauto|]. destruct Kc as [n' Hn']; [eauto|]. rewrite Hn, Hn' in H1. cbn in H1. injection H1 as -> _ _. reflexivity.
    + destruct Kg as [n Hn]; [eauto|]. rewrite Hn in H1. discriminate.
    + destruct Kc as [n Hn]; [eauto|]. rewrite Hn in H1. discriminate.
Qed.
Lemma agree_sym g c : agree g c -> agree c g.
Proof. intros [H1 H2]. split; [intros; symmetry; auto|auto]. Qed.
Section agreeing.
Context (g c : Graph) (H : agree g c).
Lemma agree_parent p x : is_parent_of c p x <-> is_parent_of g p x.
Proof using H. unfold is_parent_of. rewrite (proj1 H), !(proj2 H). reflexivity. Qed.
Lemma agree_room x p : room_of c x p <-> room_of g x p.
Proof using H. unfold room_of. rewrite agree_parent. split; intros [H1 H2]; (split; [exact H1|]); intros q Hq; apply H2, agree_parent, Hq. Qed.
Lemma agree_sib x y : siblings c x y <-> siblings g x y.
Proof using H. unfold siblings. rewrite (proj1 H), !(proj2 H). reflexivity. Qed.
Lemma agree_place x : is_place c x <-> is_place g x.
Proof using H. unfold is_place. rewrite (proj2 H). reflexivity. Qed.
Lemma agree_unassigned x : unassigned c x <-> unassigned g x.
Proof using H. unfold unassigned. split; intros K p Hp; apply (K p), agree_room, Hp. Qed.
Lemma agree_after new x p : room_after c new x p <-> room_after g new x p.
Proof using H.
  unfold room_after, parent_after. rewrite agree_parent. split; intros [H1 H2]; (split; [exact H1|]); intros q [Hq|Hq]; apply H2; auto; left; apply agree_parent, Hq.
Qed.
Lemma agree_borders new a b : borders c new a b <-> borders g new a b.
Proof using H.
  unfold borders. split; intros (H1 & x & y & H2 & H3 & H4 & H5); (split; [exact H1|]); exists x, y;
    (split; [apply agree_place, H2|]; split; [apply agree_sib, H3|]; split; apply agree_after; assumption).
Qed.
End agreeing.
Lemma agree_spreads g c r x : agree g c -> spreads g r x -> spreads c r x.
Proof.
  intros HA. induction 1 as [p x H1 H2 H3 H4|x y _ IH H3 H4].
  - eapply spreads_first; [apply (agree_place g c HA), H1|apply (agree_room g c HA), H2|apply (agree_sib g c HA), H3|apply (agree_unassigned g c HA), H4].
  - eapply spreads_next; [exact IH|apply (agree_sib g c HA), H3|apply (agree_unassigned g c HA), H4].
Qed.

(** ** The function *)
Lemma clone_total g : reachable g -> exists c, g_clone g = Ok c /\ reachable c /\ looks_like g c.
Proof.
  intros Hr. destruct (clone_behaves g [] [] g Hr Logic.I (List.Forall_nil _) eq_refl) as (c & c' & H1 & H2 & H3 & _). eauto.
Qed.
Lemma start_total g c : reachable c -> g_clone g = Ok c -> g_has_layer c PLACES = true -> total (expand_start g) (fun s => LInv c (mkFlood (fst s) ∅ (snd s))).
Proof.
  intros Hc Ec HP. unfold expand_start. eapply total_then; [apply (total_eq _ c (fun v => v = c)); [exact Ec|reflexivity]|]. intros ? ->.
  destruct (layer_nodes_ok c Hc c _ PLACES (ext_refl c Hc) HP) as (ids & Ei & Hi).
  eapply total_then; [apply (total_eq _ ids (fun v => v = ids)); [exact Ei|reflexivity]|]. intros ? ->.
  apply (first_total c Hc ids Hi).
Qed.
Lemma expand_total g c : reachable c -> g_clone g = Ok c -> g_has_layer c PLACES = true -> g_has_layer c ROOMS = true ->
  total (expand_rooms g) (fun k => exists m : gmap N N, (forall x r, m !! x = Some r -> spreads c r x) /\ (forall x r, spreads c r x -> is_Some (m !! x)) /\
    ext c (fun u v => m !! u = Some v \/ borders c (fun x => m !! x) u v) k).
Proof.
  intros Hc Ec HP HR. unfold expand_rooms. eapply total_then; [apply (start_total g c Hc Ec HP)|]. intros [f h] HI. cbn [fst snd] in *.
  eapply total_then; [apply (loop_total c Hc _ HI)|]. intros h' (m & [F1 F2 _] & HC).
  destruct (layer_nodes_ok c Hc h' _ ROOMS F1 HR) as (rs & Er & _).
  eapply total_then; [apply (total_eq _ rs (fun v => v = rs)); [exact Er|reflexivity]|]. intros ? ->.
  destruct (layer_nodes_ok c Hc h' _ PLACES F1 HP) as (ids & Ei & Hi). unfold assign_room_edges.
  eapply total_then; [apply (total_eq _ ids (fun v => v = ids)); [exact Ei|reflexivity]|]. intros ? ->.
  eapply total_weaken; [apply (room_edges_total c Hc m F2 ids h' F1 Hi)|]. intros k Hk. exists m. split; [exact F2|]. split; [|exact Hk].
  intros x r Hx. eapply closed_all; eauto.
Qed.
