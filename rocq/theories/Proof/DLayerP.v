(** Dynamic layers: invariant, and simulation of their edge operations by those of a static
    layer holding the live nodes. *)
From Coq Require Import NArith ZArith Bool List Lia.
From stdpp Require Import base list gmap fin_maps tactics.
From Verif.Model Require Import Types Mesh Attrs Node EdgeContainer SLayer DLayer.
From Verif.Proof Require Import Arith Keys SLayerP.
Local Open Scope N_scope.

(** The live nodes of a dynamic layer, by id. *)
Definition dl_nmap (d : DLayer) : gmap N Node :=
  list_to_map (omap (fun o : option Node => match o with Some n => Some (n_id n, n) | None => None end) (dl_nodes d)).

(** A dynamic layer seen as a set of nodes and edges. *)
Definition dl_view (d : DLayer) : SLayer :=
  mkSL (dl_id d) (dl_nmap d) ((fun _ => NVisible) <$> dl_nmap d) (dl_edges d).

Record dl_core (d : DLayer) : Prop := {
  dlc_prefix : dl_prefix d < two32;
  dlc_size : dl_size d <= two32;
  dlc_node : forall i n, dl_nodes d !! i = Some (Some n) ->
    n_id n = prefix_make_id (dl_prefix d) (N.of_nat i) /\ n_layer n = dl_id d /\
    exists t, n_time n = Some t;
  dlc_status : forall i, dl_has_index d i = true <-> exists n, dl_nodes d !! N.to_nat i = Some (Some n);
  dlc_status_ok : forall i s, dl_status d !! i = Some s -> s = NNew \/ s = NVisible \/ s = NDeleted;
  dlc_times : forall t, t ∈ dl_times d <-> exists i n, dl_nodes d !! i = Some (Some n) /\ n_time n = Some t;
  dlc_times_inj : forall i j n m, dl_nodes d !! i = Some (Some n) -> dl_nodes d !! j = Some (Some m) ->
    n_time n = n_time m -> i = j
}.

Definition dl_wf (d : DLayer) : Prop := dl_core d /\ sl_wf (dl_view d).

Lemma dl_index_lt d i n : dl_core d -> dl_nodes d !! i = Some (Some n) -> N.of_nat i < two32.
Proof.
  intros H Hi. pose proof (dlc_size _ H). unfold dl_size in *. apply lookup_lt_Some in Hi. lia.
Qed.

Lemma dl_nmap_Some d x n : dl_core d ->
  (dl_nmap d !! x = Some n <-> exists i, dl_nodes d !! i = Some (Some n) /\ x = prefix_make_id (dl_prefix d) (N.of_nat i)).
Proof.
  intros H. unfold dl_nmap.
  set (f := fun o : option Node => match o with Some n => Some (n_id n, n) | None => None end).
  assert (Huniq : forall k a b, (k, a) ∈ omap f (dl_nodes d) -> (k, b) ∈ omap f (dl_nodes d) -> a = b).
  { intros k a b Ha Hb. apply elem_of_list_omap in Ha as ([na|] & Ha & Fa); [|discriminate].
    apply elem_of_list_omap in Hb as ([nb|] & Hb & Fb); [|discriminate]. cbn in Fa, Fb.
    assert (na = a /\ n_id na = k) as [-> <-] by (split; congruence).
    assert (nb = b /\ n_id nb = n_id a) as [-> Hk] by (split; congruence).
    apply elem_of_list_lookup in Ha as [i Ha], Hb as [j Hb].
    destruct (dlc_node _ H _ _ Ha) as [Ia _]. destruct (dlc_node _ H _ _ Hb) as [Ib _].
    rewrite Ia, Ib in Hk. apply make_id_inj in Hk; [|apply H|eapply dl_index_lt; eassumption..].
    assert (i = j) by lia. congruence. }
  split.
  - intros Hx. apply elem_of_list_to_map_2 in Hx.
    apply elem_of_list_omap in Hx as ([n'|] & Ha & Fa); [|discriminate]. cbn in Fa.
    assert (n' = n /\ n_id n' = x) as [-> <-] by (split; congruence).
    apply elem_of_list_lookup in Ha as [i Ha]. exists i. split; [assumption|]. apply (dlc_node _ H _ _ Ha).
  - intros (i & Hi & ->). apply elem_of_list_to_map_1'.
    + intros y Hy. eapply Huniq; [|exact Hy]. apply elem_of_list_omap. exists (Some n).
      split; [eapply elem_of_list_lookup_2; eassumption|]. cbn. rewrite (proj1 (dlc_node _ H _ _ Hi)). reflexivity.
    + apply elem_of_list_omap. exists (Some n).
      split; [eapply elem_of_list_lookup_2; eassumption|]. cbn. rewrite (proj1 (dlc_node _ H _ _ Hi)). reflexivity.
Qed.

Lemma dl_nmap_slot d x n : dl_core d -> dl_nmap d !! x = Some n ->
  dl_nodes d !! N.to_nat (prefix_index x) = Some (Some n) /\ prefix_from_id x = dl_prefix d /\ x < two64.
Proof.
  intros H Hx. apply dl_nmap_Some in Hx as (i & Hi & ->); [|assumption].
  pose proof (dl_index_lt _ _ _ H Hi) as Hlt.
  rewrite make_id_index, make_id_from by (assumption || apply H). rewrite Nat2N.id.
  split; [assumption|]. split; [reflexivity|]. apply make_id_lt; apply H.
Qed.

Lemma dl_nmap_lookup d x : dl_core d -> x < two64 -> prefix_from_id x = dl_prefix d ->
  dl_nmap d !! x = match dl_nodes d !! N.to_nat (prefix_index x) with Some o => o | None => None end.
Proof.
  intros H Hx Hp. destruct (dl_nmap d !! x) as [n|] eqn:E.
  - apply dl_nmap_slot in E as (-> & _); [reflexivity|assumption].
  - destruct (dl_nodes d !! N.to_nat (prefix_index x)) as [[n|]|] eqn:E2; [|reflexivity|reflexivity].
    exfalso. assert (dl_nmap d !! x = Some n); [|congruence].
    apply dl_nmap_Some; [assumption|]. eexists. split; [exact E2|]. rewrite N2Nat.id.
    symmetry. apply make_id_of_id; [apply H|assumption|congruence].
Qed.

Lemma dl_has_node_true d x : dl_core d -> x < two64 ->
  (dl_has_node d x = true <-> is_Some (dl_nmap d !! x)).
Proof.
  intros H Hx. unfold dl_has_node. rewrite andb_true_iff, prefix_matches_from, (dlc_status _ H).
  split.
  - intros (Hp & n & Hn). rewrite dl_nmap_lookup by (assumption || congruence). rewrite Hn. eauto.
  - intros (n & Hn). apply dl_nmap_slot in Hn as (Hs & Hp & _); [|assumption]. eauto.
Qed.
Lemma dl_has_node_eq d x : dl_core d -> x < two64 -> dl_has_node d x = sl_has_node (dl_view d) x.
Proof.
  intros H Hx. apply eq_true_iff_eq. rewrite (dl_has_node_true _ _ H Hx), sl_has_node_true. reflexivity.
Qed.

Lemma dl_slot_lookup d i : dl_slot d i = dl_nodes d !! N.to_nat i.
Proof.
  unfold dl_slot, dl_size. destruct (N.ltb_spec i (N.of_nat (length (dl_nodes d)))) as [Hl|Hl]; [reflexivity|].
  symmetry. apply lookup_ge_None_2. lia.
Qed.

(** Everything except the node contents and edges. *)
Definition dl_same (d d' : DLayer) : Prop :=
  dl_id d' = dl_id d /\ dl_prefix d' = dl_prefix d /\ dl_times d' = dl_times d /\
  dl_status d' = dl_status d /\ dl_next d' = dl_next d /\ length (dl_nodes d') = length (dl_nodes d).
Lemma dl_same_refl d : dl_same d d. Proof. repeat split. Qed.
Lemma dl_same_trans a b c : dl_same a b -> dl_same b c -> dl_same a c.
Proof. unfold dl_same. intuition congruence. Qed.

(** Node updates that keep the identity of the node. *)
Definition benign (f : Node -> Node) : Prop :=
  forall n, n_id (f n) = n_id n /\ n_layer (f n) = n_layer n /\ n_time (f n) = n_time n.
Lemma benign_add_sib v : benign (add_sib v). Proof. repeat split. Qed.
Lemma benign_del_sib v : benign (del_sib v). Proof. repeat split. Qed.
Lemma benign_add_par v : benign (add_par v). Proof. repeat split. Qed.
Lemma benign_del_par v : benign (del_par v). Proof. repeat split. Qed.
Lemma benign_add_chd v : benign (add_chd v). Proof. repeat split. Qed.
Lemma benign_del_chd v : benign (del_chd v). Proof. repeat split. Qed.
Lemma benign_set_attrs a : benign (set_attrs a). Proof. repeat split. Qed.
#[global] Hint Resolve benign_add_sib benign_del_sib benign_add_par benign_del_par benign_add_chd
  benign_del_chd benign_set_attrs : core.

Lemma dl_core_upd d i n f : dl_core d -> dl_nodes d !! i = Some (Some n) -> benign f ->
  dl_core (dl_with_nodes d (<[i := Some (f n)]> (dl_nodes d))).
Proof.
  intros H Hi Hf. destruct (Hf n) as (F1 & F2 & F3).
  pose proof (lookup_lt_Some _ _ _ Hi) as Hlt.
  assert (Hlk : forall j m, <[i:=Some (f n)]> (dl_nodes d) !! j = Some (Some m) ->
     exists m0, dl_nodes d !! j = Some (Some m0) /\ n_id m = n_id m0 /\ n_layer m = n_layer m0 /\ n_time m = n_time m0).
  { intros j m. rewrite list_lookup_insert_Some. intros [(<- & Hm & _)|(_ & Hm)].
    - exists n. assert (m = f n) as -> by congruence. auto.
    - exists m. auto. }
  assert (Hlk' : forall j m0, dl_nodes d !! j = Some (Some m0) ->
     exists m, <[i:=Some (f n)]> (dl_nodes d) !! j = Some (Some m) /\ n_time m = n_time m0).
  { intros j m0 Hm0. destruct (decide (i = j)) as [<-|Hne].
    - exists (f n). rewrite list_lookup_insert by assumption. split; [reflexivity|]. congruence.
    - exists m0. rewrite list_lookup_insert_ne by assumption. auto. }
  split; cbn.
  - apply H.
  - pose proof (dlc_size _ H). unfold dl_size in *; cbn. rewrite insert_length. assumption.
  - intros j m Hm. destruct (Hlk _ _ Hm) as (m0 & Hm0 & -> & -> & ->). apply (dlc_node _ H _ _ Hm0).
  - intros j. change (dl_has_index (dl_with_nodes d _) j) with (dl_has_index d j).
    rewrite (dlc_status _ H). split.
    + intros (m0 & Hm0). destruct (Hlk' _ _ Hm0) as (m & Hm & _). eauto.
    + intros (m & Hm). destruct (Hlk _ _ Hm) as (m0 & Hm0 & _). eauto.
  - apply H.
  - intros t. rewrite (dlc_times _ H). split.
    + intros (j & m0 & Hm0 & Ht). destruct (Hlk' _ _ Hm0) as (m & Hm & Htm). exists j, m. split; [assumption|congruence].
    + intros (j & m & Hm & Ht). destruct (Hlk _ _ Hm) as (m0 & Hm0 & _ & _ & Htm). exists j, m0. split; [assumption|congruence].
  - intros j k a b Ha Hb Heq. destruct (Hlk _ _ Ha) as (a0 & Ha0 & _ & _ & Ta).
    destruct (Hlk _ _ Hb) as (b0 & Hb0 & _ & _ & Tb). eapply (dlc_times_inj _ H); [eassumption..|congruence].
Qed.

Lemma dl_nmap_upd d x n f : dl_core d -> dl_nmap d !! x = Some n -> benign f ->
  dl_nmap (dl_with_nodes d (<[N.to_nat (prefix_index x) := Some (f n)]> (dl_nodes d))) = alter f x (dl_nmap d).
Proof.
  intros H Hx Hf. destruct (dl_nmap_slot _ _ _ H Hx) as (Hs & Hp & Hlt).
  pose proof (dl_core_upd _ _ _ f H Hs Hf) as H'.
  apply map_eq. intros y.
  destruct (decide (y < two64 /\ prefix_from_id y = dl_prefix d)) as [[Hy Hpy]|Hbad].
  - rewrite dl_nmap_lookup by assumption. cbn.
    destruct (decide (x = y)) as [<-|Hne].
    + rewrite list_lookup_insert by (eapply lookup_lt_Some; eassumption). rewrite lookup_alter, Hx. reflexivity.
    + rewrite lookup_alter_ne by assumption. rewrite list_lookup_insert_ne.
      * rewrite dl_nmap_lookup by assumption. reflexivity.
      * intros Heq. apply Hne. rewrite <- (make_id_of_id (dl_prefix d) (dlc_prefix _ H) x),
          <- (make_id_of_id (dl_prefix d) (dlc_prefix _ H) y) by assumption. f_equal. lia.
  - assert (forall d0, dl_core d0 -> dl_prefix d0 = dl_prefix d -> dl_nmap d0 !! y = None) as Hnone.
    { intros d0 H0 Hp0. destruct (dl_nmap d0 !! y) as [m|] eqn:E; [|reflexivity].
      apply dl_nmap_slot in E as (_ & ? & ?); [|assumption]. exfalso. apply Hbad. split; [assumption|congruence]. }
    rewrite Hnone by (assumption || reflexivity).
    destruct (decide (x = y)) as [<-|Hne]; [tauto|]. rewrite lookup_alter_ne by assumption.
    symmetry. apply Hnone; [assumption|reflexivity].
Qed.

Lemma dl_upd_ok d x n f : dl_core d -> dl_nmap d !! x = Some n -> benign f ->
  exists d', dl_upd d (prefix_index x) f = Ok d' /\ dl_core d' /\ dl_nmap d' = alter f x (dl_nmap d) /\
    dl_same d d' /\ dl_edges d' = dl_edges d.
Proof.
  intros H Hx Hf. destruct (dl_nmap_slot _ _ _ H Hx) as (Hs & Hp & Hlt).
  unfold dl_upd. rewrite dl_slot_lookup, Hs. eexists. split; [reflexivity|].
  split; [apply dl_core_upd; assumption|]. split; [apply dl_nmap_upd; assumption|].
  split; [|reflexivity]. repeat split. cbn. apply insert_length.
Qed.

Lemma fmap_const_alter {A B} (c : B) (f : A -> A) k (m : gmap N A) :
  (fun _ => c) <$> alter f k m = (fun _ : A => c) <$> m.
Proof.
  apply map_eq. intros i. rewrite !lookup_fmap. destruct (decide (k = i)) as [->|Hne].
  - rewrite lookup_alter. destruct (m !! i); reflexivity.
  - rewrite lookup_alter_ne by assumption. reflexivity.
Qed.

Lemma dl_view_upd d d' x f : dl_nmap d' = alter f x (dl_nmap d) -> dl_same d d' -> dl_edges d' = dl_edges d ->
  dl_view d' = sl_with_nodes (dl_view d) (alter f x (sl_nodes (dl_view d))).
Proof.
  intros Hn Hs He. unfold dl_view, sl_with_nodes; cbn. rewrite Hn, He, (proj1 Hs), fmap_const_alter. reflexivity.
Qed.

Lemma dl_core_with_edges d e : dl_core d -> dl_core (dl_with_edges d e).
Proof. intros [A B C D E F G]. split; assumption. Qed.
Lemma dl_view_with_edges d e : dl_view (dl_with_edges d e) = sl_with_edges (dl_view d) e.
Proof. reflexivity. Qed.

Lemma dl_nmap_with_edges d e : dl_nmap (dl_with_edges d e) = dl_nmap d.
Proof. reflexivity. Qed.

(** *** insertEdge *)
Lemma dl_insert_edge_sim d s t i : dl_core d -> s < two64 -> t < two64 ->
  exists b l d', sl_insert_edge (dl_view d) s t i = Ok (b, l) /\
    dl_insert_edge d s t i = Ok (b, d') /\ dl_view d' = l /\ dl_core d' /\ dl_same d d' /\ (b = false -> d' = d).
Proof.
  intros H Hs Ht. destruct (decide (sl_can_insert (dl_view d) s t)) as [Hc|Hc].
  - rewrite (sl_insert_edge_ok _ _ _ _ Hc). exists true, (sl_inserted (dl_view d) s t i).
    destruct Hc as (Hne & Hno & [ns Hns] & [nt Hnt]). cbn in Hno, Hns, Hnt.
    unfold dl_insert_edge, dl_has_edge.
    destruct (N.eqb_spec s t); [contradiction|].
    rewrite (proj2 (ec_contains_false _ _ _) Hno).
    rewrite (proj2 (dl_has_node_true d s H Hs)), (proj2 (dl_has_node_true d t H Ht)) by eauto. cbn [negb orb].
    destruct (dl_upd_ok d s ns (add_sib t) H Hns) as (d1 & -> & H1 & N1 & S1 & E1); [auto|]. cbn [rbind].
    destruct (dl_upd_ok d1 t nt (add_sib s) H1) as (d2 & -> & H2 & N2 & S2 & E2).
    { rewrite N1, lookup_alter_ne by congruence. assumption. } { auto. }
    cbn [rbind]. eexists. split; [reflexivity|]. split; [reflexivity|].
    split; [|split; [apply dl_core_with_edges; assumption|split; [|discriminate]]].
    + rewrite dl_view_with_edges. unfold dl_view, sl_with_edges, sl_inserted, link_sib;
        cbn [sl_id sl_nodes sl_status sl_edges]. rewrite N2, N1, E2, E1, !fmap_const_alter.
      f_equal. destruct S1 as [? _], S2 as [? _]. congruence.
    + eapply dl_same_trans; [exact S1|]. eapply dl_same_trans; [exact S2|]. repeat split.
  - rewrite (sl_insert_edge_noop _ _ _ _ Hc). exists false, (dl_view d), d.
    split; [reflexivity|]. split; [|split; [reflexivity|split; [assumption|split; [apply dl_same_refl|reflexivity]]]].
    unfold dl_insert_edge, dl_has_edge. destruct (N.eqb_spec s t); [reflexivity|].
    destruct (ec_contains (dl_edges d) s t) eqn:E1; [reflexivity|].
    rewrite !dl_has_node_eq by assumption.
    destruct (sl_has_node (dl_view d) s) eqn:E2; [|reflexivity].
    destruct (sl_has_node (dl_view d) t) eqn:E3; [|reflexivity].
    exfalso. apply Hc. apply ec_contains_false in E1. apply sl_has_node_true in E2, E3. repeat split; assumption.
Qed.

(** *** removeEdge *)
Lemma dl_remove_edge_sim d s t : dl_wf d ->
  exists b l d', sl_remove_edge (dl_view d) s t = Ok (b, l) /\
    dl_remove_edge d s t = Ok (b, d') /\ dl_view d' = l /\ dl_core d' /\ dl_same d d' /\ (b = false -> d' = d).
Proof.
  intros [H Hwf]. destruct (decide (is_Some (ec_edges (dl_edges d) !! edge_key s t))) as [He|He].
  - rewrite (sl_remove_edge_ok _ _ _ Hwf He). exists true, (sl_removed (dl_view d) s t).
    destruct (sl_edge_key _ _ _ Hwf He) as (Hne & [ns Hns] & [nt Hnt]). cbn in Hns, Hnt.
    unfold dl_remove_edge, dl_has_edge. rewrite (proj2 (ec_contains_true _ _ _) He). cbn [negb].
    destruct (dl_upd_ok d s ns (del_sib t) H Hns) as (d1 & -> & H1 & N1 & S1 & E1); [auto|]. cbn [rbind].
    destruct (dl_upd_ok d1 t nt (del_sib s) H1) as (d2 & -> & H2 & N2 & S2 & E2).
    { rewrite N1, lookup_alter_ne by congruence. assumption. } { auto. }
    cbn [rbind]. rewrite E2, E1. rewrite ec_remove_ok; [|apply (slw_ec _ Hwf)|exact He]. cbn [rbind].
    eexists. split; [reflexivity|]. split; [reflexivity|].
    split; [|split; [apply dl_core_with_edges; assumption|split; [|discriminate]]].
    + rewrite dl_view_with_edges. unfold dl_view, sl_with_edges, sl_removed, unlink_sib;
        cbn [sl_id sl_nodes sl_status sl_edges]. rewrite N2, N1, !fmap_const_alter.
      f_equal. destruct S1 as [? _], S2 as [? _]. congruence.
    + eapply dl_same_trans; [exact S1|]. eapply dl_same_trans; [exact S2|]. repeat split.
  - apply eq_None_not_Some in He. rewrite (sl_remove_edge_noop (dl_view d) _ _ He). exists false, (dl_view d), d.
    split; [reflexivity|]. split; [|split; [reflexivity|split; [assumption|split; [apply dl_same_refl|reflexivity]]]].
    unfold dl_remove_edge, dl_has_edge. rewrite (proj2 (ec_contains_false _ _ _) He). reflexivity.
Qed.
