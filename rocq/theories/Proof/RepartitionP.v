(** Proofs about repartition_rooms (Model/Repartition.v). *)
From Coq Require Import NArith ZArith Bool List Lia.
From stdpp Require Import base list gmap fin_sets.
From Verif.Model Require Import Types Mesh Attrs Node EdgeContainer SLayer DLayer Graph PyConvert Expand Repartition.
From Verif.Spec Require Import AbstractGraph GraphHistory GraphObs ExpandSpec RepartitionSpec.
From Verif.Proof Require Import GraphProps GraphProps2 GraphRep GraphObsP ExpandP.
Local Open Scope N_scope.
Set Default Proof Using "Type".

Notation Data := (option (LayerKey * option Z * NodeAttrs)).
Definition key_of (d : Data) : option LayerKey := option_map (fun d => fst (fst d)) d.
Lemma data_layer g x : reachable g -> layer_of g x = key_of (node_data g x).
Proof.
  intros Hr. unfold node_data. destruct (layer_of g x) as [k|] eqn:E; [|reflexivity].
  destruct (get_node g x Hr) as (n & _ & -> & _); [apply known_node; eauto|]. reflexivity.
Qed.
Lemma data_known g x : reachable g -> (g_has_node g x = true <-> is_Some (node_data g x)).
Proof.
  intros Hr. rewrite known_node by exact Hr. rewrite (data_layer g x Hr). destruct (node_data g x) as [d|]; cbn; split; intros [k Hk]; eauto; discriminate.
Qed.
Lemma data_node g x k t a : reachable g -> node_data g x = Some (k, t, a) -> exists n, node_at g x = Some n /\ n_attrs n = a /\ n_time n = t.
Proof.
  intros Hr. unfold node_data. destruct (layer_of g x); [|discriminate]. destruct (node_at g x) as [n|]; [|discriminate]. intros [= -> <- <-]. eauto.
Qed.
Lemma same_layers g g' : (exists a a', Rep g a /\ Rep g' a' /\ ag_layers a' = ag_layers a) -> forall l, g_has_layer g' l = g_has_layer g l.
Proof. intros (a & a' & H & H' & E). eapply has_layer_rep; eauto. Qed.
Lemma emplace_layers g l id at_ : reachable g -> forall m, g_has_layer (snd (g_emplace_node g l id at_)) m = g_has_layer g m.
Proof.
  intros Hr. assert (Ha : allowed g (GEmplace l id at_)) by exact Logic.I. destruct (reachable_step g _ Hr Ha) as (a & [HR _] & H). cbn [g_step] in H.
  destruct (g_emplace_node g l id at_) as [b g']. destruct H as (_ & [HR' _] & _). apply same_layers. exists a, (snd (a_step a (GEmplace l id at_))). split; [exact HR|]. split; [exact HR'|].
  cbn. unfold a_emplace. destruct (decide _); [reflexivity|]. destruct (decide _); reflexivity.
Qed.
Lemma remove_layers g n b g' : reachable g -> allowed g (GRemoveNode n) -> g_remove_node g n = Ok (b, g') -> forall m, g_has_layer g' m = g_has_layer g m.
Proof.
  intros Hr Ha E. destruct (reachable_step g _ Hr Ha) as (a & [HR _] & H). cbn [g_step] in H. rewrite E in H.
  destruct H as (_ & [HR' _] & _). apply same_layers. exists a, (snd (a_step a (GRemoveNode n))). split; [exact HR|]. split; [exact HR'|].
  cbn. unfold a_remove_node. destruct (decide _); [|reflexivity]. cbn. unfold a_chain. repeat first [reflexivity | case_match; cbn]. unfold a_insert_edge. clear. case_match; reflexivity.
Qed.

(** ** A graph on the way: the nodes [D], the links [A], and of the edges of [c] those off [B] *)
Record stg (c : Graph) (B : N -> Prop) (D : N -> Data) (A : N -> N -> Prop) (k : Graph) : Prop := {
  st_reach : reachable k;
  st_data : forall x, node_data k x = D x;
  st_layers : forall l, g_has_layer k l = g_has_layer c l;
  st_adj : forall u v, adjacent k u v <-> A u v;
  st_old : forall u v e, edge_at c u v = Some e -> ~ B u -> ~ B v -> edge_at k u v = Some e;
  st_new : forall u v e, edge_at k u v = Some e -> edge_at c u v = None \/ B u \/ B v -> e_info e = ea_default
}.
Lemma adj_edge g u v : reachable g -> (adjacent g u v <-> is_Some (edge_at g u v)).
Proof. intros Hr. apply edges_symmetric, Hr. Qed.
Lemma stg_start c : reachable c -> stg c (fun _ => False) (node_data c) (adjacent c) c.
Proof. intros Hr. split; auto; try tauto. intros u v e H [H1|[[]|[]]]. congruence. Qed.
Lemma stg_iff c (B B' : N -> Prop) D D' (A A' : N -> N -> Prop) k : stg c B D A k -> (forall x, B x <-> B' x) -> (forall x, D x = D' x) -> (forall u v, A u v <-> A' u v) -> stg c B' D' A' k.
Proof.
  intros [H1 H2 H3 H4 H5 H6] HB HD HA. split; [exact H1| |exact H3| | |].
  - intros x. rewrite H2. apply HD.
  - intros u v. rewrite H4. apply HA.
  - intros u v e He Hu Hv. apply H5; [exact He| |]; rewrite HB; assumption.
  - intros u v e He Hu. apply (H6 u v e He). rewrite !HB. exact Hu.
Qed.
Lemma stg_layer c B D A k x : stg c B D A k -> layer_of k x = key_of (D x).
Proof. intros H. rewrite (data_layer k x (st_reach _ _ _ _ _ H)), (st_data _ _ _ _ _ H). reflexivity. Qed.
Lemma stg_known c B D A k x : stg c B D A k -> (g_has_node k x = true <-> is_Some (D x)).
Proof. intros H. rewrite (data_known k x (st_reach _ _ _ _ _ H)), (st_data _ _ _ _ _ H). reflexivity. Qed.

(** More links. *)
Lemma stg_ext c B D A k E k' : stg c B D A k -> ext k E k' -> stg c B D (fun u v => A u v \/ E u v \/ E v u) k'.
Proof.
  intros [H1 H2 H3 H4 H5 H6] [E1 E2 E3 E4 E5 E6]. split; [exact E1| | | | |].
  - intros x. rewrite (E2 x). apply H2.
  - intros l. rewrite E3. apply H3.
  - intros u v. rewrite E4, H4. reflexivity.
  - intros u v e He Hu Hv. apply E5, H5; assumption.
  - intros u v e He Hn. destruct (edge_at k u v) as [e'|] eqn:Ek; [|exact (E6 u v e Ek He)].
    assert (e = e') as -> by (apply E5 in Ek; congruence). exact (H6 u v e' Ek Hn).
Qed.
Lemma stg_link c B D A k u v : stg c B D A k -> u <> v -> is_Some (D u) -> is_Some (D v) ->
  total (join_room u k v) (stg c B D (fun x y => A x y \/ (x = u /\ y = v) \/ (y = u /\ x = v))).
Proof.
  intros H Huv Hu Hv. destruct (insert_ext k u v (st_reach _ _ _ _ _ H) Huv) as (b & k2 & E2 & X2); [apply (stg_known c B D A k u H), Hu|apply (stg_known c B D A k v H), Hv|].
  unfold join_room. eapply total_then; [apply (total_eq _ (b, k2) (fun v => v = (b, k2))); [exact E2|reflexivity]|]. intros ? ->. apply total_ret. cbn [snd].
  exact (stg_ext c B D A k _ k2 H X2).
Qed.
(** A new room. *)
Definition put (D : N -> Data) (n : N) (d : Data) (x : N) : Data := if x =? n then d else D x.
Lemma stg_add c B D A k n a : stg c B D A k -> g_has_layer c ROOMS = true -> D n = None ->
  stg c B (put D n (Some (key_static ROOMS, None, a))) A (snd (g_emplace_node k ROOMS n a)).
Proof.
  intros H HL Hn. pose proof (st_reach _ _ _ _ _ H) as Hr. pose proof (emplace_effect k ROOMS n a Hr) as K. pose proof (emplace_layers k ROOMS n a Hr) as L.
  destruct (g_emplace_node k ROOMS n a) as [b k']. cbn [snd] in *. destruct K as (K1 & K2 & K3 & _ & K5).
  assert (b = true) as ->.
  { apply K3. split; [|rewrite (st_layers _ _ _ _ _ H); exact HL]. apply not_true_iff_false. rewrite (stg_known c B D A k n H), Hn. intros [? ?]. discriminate. }
  destruct (K5 eq_refl) as (_ & K6 & K7). split; [exact K1| | | | |].
  - intros x. unfold put. destruct (N.eqb_spec x n) as [->|Hx]; [exact K6|]. rewrite (K7 x Hx). apply (st_data _ _ _ _ _ H).
  - intros l. rewrite L. apply (st_layers _ _ _ _ _ H).
  - intros u v. rewrite <- (st_adj _ _ _ _ _ H), (adj_edge k' u v K1), (adj_edge k u v Hr), (K2 u v). reflexivity.
  - intros u v e. rewrite (K2 u v). apply (st_old _ _ _ _ _ H).
  - intros u v e. rewrite (K2 u v). apply (st_new _ _ _ _ _ H).
Qed.
(** A room less. *)
Definition rooms_static (D : N -> Data) : Prop := forall x k, key_of (D x) = Some k -> lk_layer k = ROOMS -> k = key_static ROOMS.
Lemma stg_drop c B D A k n : stg c B D A k -> rooms_static D -> key_of (D n) = Some (key_static ROOMS) ->
  total (drop_node k n) (stg c (fun x => B x \/ x = n) (put D n None) (fun u v => A u v /\ u <> n /\ v <> n)).
Proof.
  intros H HS Hn. pose proof (st_reach _ _ _ _ _ H) as Hr.
  assert (HL : forall x, layer_of k x = key_of (D x)) by (intros x; exact (stg_layer c B D A k x H)).
  assert (Ha : allowed k (GRemoveNode n)).
  { intros v k1 k2 _ H1 H2 H3. rewrite HL in H1, H2. assert (k1 = key_static ROOMS) as -> by congruence. apply (HS v); [exact H2|]. symmetry. exact H3. }
  destruct (remove_node_effect k n Hr Ha) as (b & k' & E & R1 & Rb & _ & R).
  assert (Hk : g_has_node k n = true) by (apply known_node; [exact Hr|]; exists (key_static ROOMS); rewrite HL; exact Hn).
  rewrite Hk in Rb. subst b. destruct (R eq_refl) as (R2 & R3 & R4 & _ & R6).
  assert (NR : forall p q, ~ reconnects k n p q).
  { intros p q (k1 & H1 & H2 & _). rewrite HL in H2. assert (k1 = key_static ROOMS) as -> by congruence. discriminate. }
  assert (EK : forall u v, u <> n -> v <> n -> edge_at k' u v = edge_at k u v).
  { intros u v Hu Hv. destruct (R6 u v Hu Hv) as [[H1 _]|(_ & p & q & H1 & _)]; [exact H1|]. destruct (NR p q H1). }
  unfold drop_node. eapply total_then; [apply (total_eq _ (true, k') (fun v => v = (true, k'))); [exact E|reflexivity]|]. intros ? ->. apply total_ret. cbn [snd].
  split; [exact R1| | | | |].
  - intros x. unfold put. destruct (N.eqb_spec x n) as [->|Hx]; [|rewrite (R3 x Hx); apply (st_data _ _ _ _ _ H)].
    destruct (node_data k' n) as [d|] eqn:Ed; [|reflexivity]. assert (g_has_node k' n = true) by (apply (data_known k' n R1); eauto). congruence.
  - intros l. rewrite (remove_layers k n true k' Hr Ha E). apply (st_layers _ _ _ _ _ H).
  - intros u v. rewrite <- (st_adj _ _ _ _ _ H). destruct (N.eq_dec u n) as [->|Hu]; [|destruct (N.eq_dec v n) as [->|Hv]].
    + split; [|tauto]. intros H1. destruct (R4 n v (or_introl eq_refl)) as [H2 _]. destruct (H2 H1).
    + split; [|tauto]. intros H1. destruct (R4 u n (or_intror eq_refl)) as [H2 _]. destruct (H2 H1).
    + rewrite (adj_edge k' u v R1), (adj_edge k u v Hr), (EK u v Hu Hv). tauto.
  - intros u v e He Hu Hv. rewrite EK by (intros ->; tauto). apply (st_old _ _ _ _ _ H); tauto.
  - intros u v e He Ho.
    assert (Hu : u <> n) by (intros ->; destruct (R4 n v (or_introl eq_refl)) as [_ H2]; congruence).
    assert (Hv : v <> n) by (intros ->; destruct (R4 u n (or_intror eq_refl)) as [_ H2]; congruence).
    rewrite (EK u v Hu Hv) in He. apply (st_new _ _ _ _ _ H u v e He). tauto.
Qed.

(** Several rooms less. *)
Fixpoint wipe (D : N -> Data) (l : list N) : N -> Data := match l with [] => D | n :: l => put (wipe D l) n None end.
Lemma wipe_at D l x : wipe D l x = if decide (x ∈ l) then None else D x.
Proof.
  induction l as [|n l IH]; cbn [wipe].
  - destruct (decide _) as [H|H]; [apply elem_of_nil in H; destruct H|reflexivity].
  - unfold put. destruct (N.eqb_spec x n) as [->|Hx].
    + destruct (decide (n ∈ n :: l)) as [H|H]; [reflexivity|]. destruct H. left.
    + rewrite IH. destruct (decide (x ∈ l)) as [H|H], (decide (x ∈ n :: l)) as [K|K]; try reflexivity.
      * destruct K. right. exact H.
      * apply elem_of_cons in K as [K|K]; contradiction.
Qed.
Section drops.
Context (c : Graph) (B : N -> Prop) (D : N -> Data) (A : N -> N -> Prop) (h : Graph) (HS : rooms_static D).
Definition dropped (d : list N) (k : Graph) : Prop :=
  stg c (fun x => B x \/ x ∈ d) (wipe D d) (fun u v => A u v /\ u ∉ d /\ v ∉ d) k /\ List.NoDup d.
Lemma drop_one (ids d : list N) k n : dropped d k -> (forall x, x ∈ ids -> key_of (D x) = Some (key_static ROOMS)) -> n ∈ ids -> n ∉ d ->
  total (drop_node k n) (dropped (n :: d)).
Proof using HS.
  intros [H HN] Hi Hn Hd. eapply total_weaken.
  - apply (stg_drop c _ _ _ k n H).
    + intros x kx. rewrite wipe_at. destruct (decide _); [discriminate|apply HS].
    + rewrite wipe_at. destruct (decide _); [contradiction|apply Hi, Hn].
  - intros k' Hk. split; [|constructor; [rewrite <- elem_of_list_In; exact Hd|exact HN]]. eapply stg_iff; [exact Hk| | |].
    + intros x. rewrite elem_of_cons. tauto.
    + reflexivity.
    + intros u v. rewrite !not_elem_of_cons. tauto.
Qed.
Lemma drops_each (l : list N) : forall (d : list N) k, dropped d k -> NoDup l -> (forall x, x ∈ l -> x ∉ d) -> (forall x, x ∈ l -> key_of (D x) = Some (key_static ROOMS)) ->
  total (py_each drop_node l k) (fun k' => stg c (fun x => B x \/ x ∈ d \/ x ∈ l) (fun x => if decide (x ∈ d \/ x ∈ l) then None else D x) (fun u v => A u v /\ (u ∉ d /\ u ∉ l) /\ (v ∉ d /\ v ∉ l)) k').
Proof using HS.
  induction l as [|n l IH]; intros d k H HN Hd Hi.
  - assert (K : stg c (fun x => B x \/ x ∈ d \/ x ∈ []) (fun x => if decide (x ∈ d \/ x ∈ []) then None else D x) (fun u v => A u v /\ (u ∉ d /\ u ∉ []) /\ (v ∉ d /\ v ∉ [])) k).
    { destruct H as [H _]. eapply stg_iff; [exact H| | |].
      - intros x. split; [tauto|]. intros [H1|[H1|H1]]; auto. apply elem_of_nil in H1. destruct H1.
      - intros x. rewrite wipe_at. destruct (decide _) as [H1|H1], (decide _) as [H2|H2]; try reflexivity; [tauto|]. destruct H2 as [H2|H2]; [tauto|]. apply elem_of_nil in H2. destruct H2.
      - intros u v. pose proof (not_elem_of_nil u). pose proof (not_elem_of_nil v). tauto. }
    split; [eexists; constructor|]. intros r Hr. inversion Hr; subst. eauto.
  - apply stdpp.list.NoDup_cons in HN as [Hn HN].
    destruct (drop_one (n :: l) d k n H Hi) as [[r0 H0] H1]; [left|apply Hd; left|].
    assert (HI : forall k', dropped (n :: d) k' -> total (py_each drop_node l k') (stg c (fun x => B x \/ x ∈ d \/ x ∈ n :: l) (fun x => if decide (x ∈ d \/ x ∈ n :: l) then None else D x) (fun u v => A u v /\ (u ∉ d /\ u ∉ n :: l) /\ (v ∉ d /\ v ∉ n :: l)))).
    { intros k' Hk. eapply total_weaken; [apply (IH (n :: d) k' Hk HN)|].
      - intros x Hx. rewrite elem_of_cons. intros [->|Hd']; [contradiction|]. apply (Hd x); [right; exact Hx|exact Hd'].
      - intros x Hx. apply Hi. right. exact Hx.
      - intros k2 K. eapply stg_iff; [exact K| | |].
        + intros x. rewrite !elem_of_cons. tauto.
        + intros x. destruct (decide _) as [H2|H2], (decide _) as [H3|H3]; try reflexivity; [destruct H3|destruct H2]; rewrite elem_of_cons in *; tauto.
        + intros u v. rewrite !not_elem_of_cons. tauto. }
    destruct (H1 _ H0) as (s1 & -> & Hs1). split.
    + destruct (HI s1 Hs1) as [[r Hr] _]. exists r. eapply each_step; eauto.
    + intros r E. inversion E as [|? ? ? s2 ? B1 E1|? ? ? B1|? ? ? B1]; subst.
      * destruct (H1 _ B1) as (s' & E2 & Hs'). injection E2 as <-. exact (proj2 (HI _ Hs') _ E1).
      * destruct (H1 _ B1) as (s' & E2 & _). discriminate.
      * destruct (H1 _ B1) as (s' & E2 & _). discriminate.
Qed.
Lemma drops_total (l : list N) : stg c B D A h -> NoDup l -> (forall x, x ∈ l -> key_of (D x) = Some (key_static ROOMS)) ->
  total (py_each drop_node l h) (fun k' => stg c (fun x => B x \/ x ∈ l) (fun x => if decide (x ∈ l) then None else D x) (fun u v => A u v /\ u ∉ l /\ v ∉ l) k').
Proof using HS.
  intros H HN Hi. eapply total_weaken; [apply (drops_each l [] h)|].
  - split; [|constructor]. eapply stg_iff; [exact H| |reflexivity|].
    + intros x. split; [auto|]. intros [H1|H1]; [exact H1|]. apply elem_of_nil in H1. destruct H1.
    + intros u v. pose proof (not_elem_of_nil u). pose proof (not_elem_of_nil v). tauto.
  - exact HN.
  - intros x _. apply not_elem_of_nil.
  - exact Hi.
  - intros k K. eapply stg_iff; [exact K| | |].
    + intros x. pose proof (not_elem_of_nil x). tauto.
    + intros x. pose proof (not_elem_of_nil x). destruct (decide _) as [H2|H2], (decide _) as [H3|H3]; try reflexivity; tauto.
    + intros u v. pose proof (not_elem_of_nil u). pose proof (not_elem_of_nil v). tauto.
Qed.
End drops.
