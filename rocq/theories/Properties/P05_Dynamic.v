(** C13-C15: dynamic layers. *)
From Coq Require Import NArith ZArith Bool List Lia.
From stdpp Require Import base list gmap fin_maps.
From Verif.Model Require Import Types Mesh Attrs Node EdgeContainer SLayer DLayer Graph.
From Verif.Spec Require Import AbstractGraph GraphHistory GraphObs.
From Verif.Proof Require Import Arith Keys SLayerP DLayerP DLayerOps GraphRep GraphSim GraphObsP GraphProps GraphProps2 GraphCounts.
From Verif.Properties Require Import ExGraph P03_Graph.
Local Open Scope N_scope.

(** C13: in every dynamic layer of a reachable graph, ids, positions, times, hasNode, findNode
    and numNodes agree. *)
Theorem C13_dynamic_layer_consistent : forall g l p d, reachable g -> g_dlayer g l p = Some d ->
  (* the node in slot [i] has id makeId(i) and a time *)
  (forall i n, dl_nodes d !! i = Some (Some n) -> n_id n = prefix_make_id p (N.of_nat i) /\ n_layer n = l /\ is_Some (n_time n)) /\
  (* no two live nodes share a time *)
  (forall i j n m, dl_nodes d !! i = Some (Some n) -> dl_nodes d !! j = Some (Some m) -> n_time n = n_time m -> i = j) /\
  (* hasNode and findNode agree on ids with this prefix *)
  (forall i, i < 2 ^ 32 -> let x := prefix_make_id p i in
     (dl_has_node d x = true <-> is_Some (dl_find_node d x)) /\ (dl_has_node d x = true <-> layer_of g x = Some (key_dynamic l p))) /\
  (* numNodes is the number of filled slots *)
  dl_num_nodes d = length (List.filter (fun o : option Node => bool_decide (is_Some o)) (dl_nodes d)).
Proof.
  intros g l p d Hr Hd. destruct (reachable_RepL g Hr) as [a [HR _]].
  destruct (rp_dinv _ _ HR _ _ _ Hd) as (Hcore & Hid & Hp & Hrest).
  split; [|split; [|split]].
  - intros i n Hi. destruct (dlc_node _ Hcore _ _ Hi) as (H1 & H2 & t & H3). split; [congruence|]. split; [congruence|eauto].
  - intros i j n m. apply (dlc_times_inj _ Hcore).
  - intros i Hi x.
    assert (Hpl : p < two32) by (rewrite <- Hp; apply Hcore).
    assert (Hx : x < two64) by (apply make_id_lt; assumption).
    split.
    + rewrite (dl_has_node_true d x Hcore Hx). unfold dl_find_node. rewrite dl_slot_lookup.
      rewrite dl_nmap_lookup; [reflexivity|assumption|assumption|]. rewrite Hp. apply make_id_from; assumption.
    + rewrite <- (obs_stored g a HR). unfold stored_in. cbn. split.
      * intros H. split; [exact Hx|]. eauto.
      * intros (_ & d' & Hd' & H). congruence.
  - rewrite (dl_num_nodes_live d Hcore).
    unfold dl_nmap. 
    assert (Hnd : NoDup (omap (fun o : option Node => match o with Some n => Some (n_id n, n) | None => None end) (dl_nodes d)).*1).
    { assert (Hgen : forall k (xs : list (option Node)),
        (forall i n, xs !! i = Some (Some n) -> n_id n = prefix_make_id p (N.of_nat (k + i)) /\ N.of_nat (k + i) < two32) ->
        NoDup (omap (fun o : option Node => match o with Some n => Some (n_id n, n) | None => None end) xs).*1).
      { intros k xs. revert k. induction xs as [|o xs IH]; intros k Hxs; [constructor|].
        assert (Htl : NoDup (omap (fun o : option Node => match o with Some n => Some (n_id n, n) | None => None end) xs).*1).
        { apply (IH (S k)). intros i n Hi. specialize (Hxs (S i) n Hi). replace (S k + i)%nat with (k + S i)%nat by lia. exact Hxs. }
        destruct o as [n0|]; cbn; [|exact Htl]. constructor; [|exact Htl].
        intros Hin. apply elem_of_list_fmap in Hin as ([y n] & Hy & Hin). cbn in Hy.
        apply elem_of_list_omap in Hin as ([n1|] & Hin & Heq); [|discriminate]. injection Heq as Hy1 Hy2. subst n1.
        apply elem_of_list_lookup in Hin as [i Hi]. destruct (Hxs (S i) n Hi) as [E1 B1]. destruct (Hxs 0%nat n0 eq_refl) as [E0 B0].
        rewrite <- Hy in Hy1. rewrite E1, E0 in Hy1. apply make_id_inj in Hy1; [lia| |assumption|assumption]. rewrite <- Hp. apply Hcore. }
      apply (Hgen 0%nat). intros i n Hi. split; [|eapply dl_index_lt; eassumption].
      destruct (dlc_node _ Hcore _ _ Hi) as (H1 & _). rewrite H1, Hp. reflexivity. }
    rewrite <- map_to_list_len, (Permutation.Permutation_length (map_to_list_to_map _ Hnd)).
    clear. induction (dl_nodes d) as [|[n|] xs IH]; [reflexivity|cbn; rewrite IH; reflexivity|exact IH].
Qed.
Print Assumptions C13_dynamic_layer_consistent.
Example C13_consistent_case : exists d, g_dlayer ex_graph AGENTS pfx_a = Some d /\ dl_num_nodes d = 3%nat.
Proof. destruct (g_dlayer ex_graph AGENTS pfx_a) as [d|] eqn:E; [exists d; split; [reflexivity|]|vm_compute in E; discriminate].
  assert (H : (dl_num_nodes <$> g_dlayer ex_graph AGENTS pfx_a) = Some 3%nat) by (vm_compute; reflexivity).
  rewrite E in H. injection H as H. exact H. Qed.

(** C13: slots are never taken back, so (with C13_emplace_dynamic) an index is never reused by
    emplaceNode; only clear() starts over. *)
Theorem C13_slots_never_shrink : forall g o b g' l p, reachable g -> allowed g o -> o <> GClear ->
  g_step g o = Ok (b, g') -> num_slots g l p <= num_slots g' l p.
Proof.
  intros g o b g' l p Hr Ha Hc Hs. destruct (reachable_step g o Hr Ha) as (a & [HR _] & H). rewrite Hs in H.
  destruct H as (_ & [HR' _] & _).
  assert (Hn : forall g0 a0, Rep g0 a0 -> num_slots g0 l p = match ag_dyn a0 !! (l, p) with Some (_, s) => s | None => 0 end).
  { intros g0 a0 H0. rewrite (rp_dyn _ _ H0). unfold num_slots, dinfo. destruct (g_dlayer g0 l p); reflexivity. }
  rewrite (Hn _ _ HR), (Hn _ _ HR'). clear Hn HR' Hs Ha.
  assert (Hcd : forall a0 l0 p0, (match ag_dyn a0 !! (l, p) with Some (_, s) => s | None => 0 end) <=
             match ag_dyn (snd (a_create_dyn a0 l0 p0)) !! (l, p) with Some (_, s) => s | None => 0 end).
  { intros a0 l0 p0. unfold a_create_dyn. destruct (ag_dyn a0 !! (l0, p0)) eqn:E; cbn; [lia|].
    destruct (decide ((l0, p0) = (l, p))) as [Heq|Hne].
    - rewrite <- Heq, E. lia.
    - rewrite lookup_insert_ne by assumption. lia. }
  assert (Hup : forall a0 l0 p0 nx sl, (match ag_dyn a0 !! (l0, p0) with Some (_, s) => s | None => 0 end) <= sl ->
      (match ag_dyn a0 !! (l, p) with Some (_, s) => s | None => 0 end) <=
      match <[(l0, p0) := (nx, sl)]> (ag_dyn a0) !! (l, p) with Some (_, s) => s | None => 0 end).
  { intros a0 l0 p0 nx sl Hle. destruct (decide ((l0, p0) = (l, p))) as [Heq|Hne].
    - rewrite <- Heq, lookup_insert. exact Hle.
    - rewrite lookup_insert_ne by assumption. lia. }
  assert (Hie : forall a0 u v i, ag_dyn (snd (a_insert_edge a0 u v i)) = ag_dyn a0).
  { intros a0 u v i. unfold a_insert_edge. destruct (decide _); reflexivity. }
  assert (Hprev : forall a0 l0 id t at_, (match ag_dyn a0 !! (l, p) with Some (_, s) => s | None => 0 end) <=
             match ag_dyn (snd (a_emplace_prev a0 l0 id t at_)) !! (l, p) with Some (_, s) => s | None => 0 end).
  { intros a0 l0 id t at_. unfold a_emplace_prev. destruct (decide _); cbn [snd]; [lia|].
    etransitivity; [apply (Hcd a0 l0 (prefix_from_id id))|].
    destruct (ag_dyn (snd (a_create_dyn a0 l0 (prefix_from_id id))) !! (l0, prefix_from_id id)) as [[nx sl]|] eqn:E; cbn [default snd ag_dyn a_with_dyn].
    - apply (Hup (snd (a_create_dyn a0 l0 (prefix_from_id id)))). unfold LayerId in *. rewrite E. lia.
    - apply (Hup (snd (a_create_dyn a0 l0 (prefix_from_id id)))). unfold LayerId in *. rewrite E. lia. }
  destruct o; cbn [a_step ab snd]; try (apply N.le_refl); try contradiction.
  - unfold a_emplace. destruct (decide _); [apply N.le_refl|]. destruct (decide _); apply N.le_refl.
  - unfold a_emplace. destruct (decide _); [apply N.le_refl|]. destruct (decide _); apply N.le_refl.
  - unfold a_emplace_dyn. destruct (default (0, 0) (ag_dyn a !! (l0, p0))) as [nx sl] eqn:Edf.
    destruct (decide _); [apply N.le_refl|]. destruct (decide _); cbn [snd]; [apply Hcd|].
    assert (Hgoal : match ag_dyn a !! (l, p) with Some (_, s) => s | None => 0 end <=
       match <[(l0, p0) := (nx + 1, sl + 1)]> (ag_dyn (snd (a_create_dyn a l0 p0))) !! (l, p) with Some (_, s) => s | None => 0 end).
    { etransitivity; [apply (Hcd a l0 p0)|]. apply Hup. unfold a_create_dyn.
      destruct (ag_dyn a !! (l0, p0)) as [[n2 s2]|] eqn:E; cbn in *.
      - injection Edf as <- <-. unfold LayerId in *. rewrite E. lia.
      - unfold LayerId in *. rewrite lookup_insert. lia. }
    destruct (decide _); [rewrite Hie|]; exact Hgoal.
  - apply Hprev.
  - apply Hcd.
  - unfold a_add_or_update_node. destruct (decide _); [|apply N.le_refl]. destruct (decide _).
    + unfold a_set_node_attrs. destruct (ag_nodes a !! id); apply N.le_refl.
    + destruct t; [apply Hprev|]. unfold a_emplace. destruct (decide _); [apply N.le_refl|]. destruct (decide _); apply N.le_refl.
  - unfold a_set_node_attrs. destruct (ag_nodes a !! id); apply N.le_refl.
  - rewrite Hie. apply N.le_refl.
  - unfold a_insert_parent_edge. destruct (a_key a u), (a_key a v); try apply N.le_refl. destruct (decide _); apply N.le_refl.
  - unfold a_add_or_update_edge, a_set_edge_attrs. destruct (decide _).
    + destruct (decide _); [destruct (ag_edges a !! edge_key u v)|]; apply N.le_refl.
    + pose proof (Hie a u v (Some i)) as H. destruct (a_insert_edge a u v (Some i)). cbn in *. rewrite H. apply N.le_refl.
  - unfold a_set_edge_attrs. destruct (decide _); [destruct (ag_edges a !! edge_key u v)|]; apply N.le_refl.
  - unfold a_remove_edge. destruct (decide _); apply N.le_refl.
  - unfold a_remove_node, a_chain. destruct (decide _); [|apply N.le_refl]. cbn [snd ag_dyn].
    destruct (a_key a n); [|apply N.le_refl]. destruct (decide _); [rewrite Hie|]; apply N.le_refl.
  - unfold a_merge_nodes. destruct (a_key a from), (a_key a to); try apply N.le_refl. destruct (decide _); apply N.le_refl.
  - destruct (decide _); apply N.le_refl.
Qed.
Print Assumptions C13_slots_never_shrink.

(** C14: removing an intermediate node of a dynamic layer keeps its neighbours connected. *)
Theorem C14_odometry_chain_stays_connected : forall g n p q, reachable g -> allowed g (GRemoveNode n) ->
  reconnects g n p q -> p <> q ->
  exists g', g_remove_node g n = Ok (true, g') /\ reachable g' /\
    adjacent g' p q /\
    (forall v, ~ adjacent g' n v) /\
    (edge_at g p q <> None -> edge_at g' p q = edge_at g p q) /\
    (edge_at g p q = None -> edge_at g' p q = Some (mkEdge p q ea_default)) /\
    (forall u v, u <> n -> v <> n -> ~ same_pair u v p q -> edge_at g' u v = edge_at g u v).
Proof.
  intros g n p q Hr Ha Hrc Hpq. pose proof Hrc as (k & Hdyn & Hkn & Hkp & Hkq & Hp & Hq & Hnp & Hnq).
  destruct (C18_remove_node g n Hr Ha) as (b & g' & Hok & Hr' & Hb & _ & Htrue).
  destruct (reachable_RepL g Hr) as [a [HR _]]. destruct (reachable_RepL g' Hr') as [a' [HR' _]].
  assert (Hkn' : g_has_node g n = true).
  { apply (obs_known g a HR). rewrite (obs_layer g a HR) in Hkn. apply a_known_key. eauto. }
  rewrite Hkn' in Hb. subst b. exists g'. split; [exact Hok|]. split; [exact Hr'|].
  destruct (Htrue eq_refl) as (_ & _ & Hno & _ & Hed).
  assert (Hne : p <> n /\ q <> n).
  { destruct (edge_ends g n p Hr Hnp) as (? & _). destruct (edge_ends g n q Hr Hnq) as (? & _). split; congruence. }
  destruct Hne as [Hpn Hqn].
  assert (Huq : forall p' q', reconnects g n p' q' -> p' = p /\ q' = q).
  { intros p' q' (k' & _ & _ & _ & _ & Hp' & Hq' & _). split; congruence. }
  assert (Hgp : edge_at g' p q <> None /\ (edge_at g p q <> None -> edge_at g' p q = edge_at g p q) /\
     (edge_at g p q = None -> edge_at g' p q = Some (mkEdge p q ea_default))).
  { destruct (Hed p q Hpn Hqn) as [[Heq Hnot]|(Hnone & p' & q' & Hrc' & _ & Heq)].
    - assert (edge_at g p q <> None).
      { intros Hn. apply Hnot. split; [exact Hn|]. exists p, q. split; [exact Hrc|]. left. auto. }
      rewrite Heq. split; [assumption|]. split; [auto|]. intros; contradiction.
    - apply Huq in Hrc' as [-> ->]. rewrite Heq. split; [discriminate|]. split; [|auto]. intros; contradiction. }
  destruct Hgp as (H1 & H2 & H3). split.
  { apply (obs_adjacent g' a' HR'). unfold a_linked. rewrite <- (obs_edge g' a' HR'). destruct (edge_at g' p q); [eauto|contradiction]. }
  split; [intros v; apply (Hno n v); auto|]. split; [exact H2|]. split; [exact H3|].
  intros u v Hu Hv Hns. destruct (Hed u v Hu Hv) as [[Heq _]|(_ & p' & q' & Hrc' & Hsp & _)]; [exact Heq|].
  apply Huq in Hrc' as [-> ->]. contradiction.
Qed.
Print Assumptions C14_odometry_chain_stays_connected.
Example C14_case : allowed ex_graph (GRemoveNode (agent 1)) /\ reconnects ex_graph (agent 1) (agent 0) (agent 2) /\
  edge_at ex_graph (agent 0) (agent 2) = None /\ agent 0 <> agent 2.
Proof.
  destruct C18_case as (H1 & _ & H2 & _). split; [exact H1|]. split; [exact H2|]. vm_compute. split; [reflexivity|discriminate].
Qed.

(** C15: emplaceNodeAtIndex, exactly, on any layer.  A live index is refused; otherwise the node is
    added, no other slot and no edge changes, and numNodes grows by one if the time is unused (a used
    time is accepted, and then numNodes does not count the node).  The removal report gains the
    padding indices *shifted by one*. *)
Theorem C15_emplace_at_index : forall d t i a, (dl_has_index d i = true -> dl_emplace_at d t i a = (false, d)) /\ (dl_has_index d i = false ->
  let d' := snd (dl_emplace_at d t i a) in
  fst (dl_emplace_at d t i a) = true /\
  dl_nodes d' !! N.to_nat i = Some (Some (node_new (prefix_make_id (dl_prefix d) i) (dl_id d) (Some t) a)) /\
  (forall j n, j <> N.to_nat i -> (dl_nodes d' !! j = Some (Some n) <-> dl_nodes d !! j = Some (Some n))) /\
  dl_num_nodes d' = (if decide (t ∈ dl_times d) then dl_num_nodes d else S (dl_num_nodes d)) /\
  dl_next d' = dl_next d /\ dl_edges d' = dl_edges d /\ dl_id d' = dl_id d /\ dl_prefix d' = dl_prefix d /\ dl_times d' = {[t]} ∪ dl_times d /\
  (forall j, dl_status d' !! j =
     if decide (j = i) then Some NNew
     else if decide (dl_size d <= i /\ dl_size d < j <= i + 1) then Some NDeleted
     else dl_status d !! j)).
Proof.
  intros d t i a. split; [intros H; unfold dl_emplace_at; rewrite H; reflexivity|]. intros Hidx. unfold dl_emplace_at. rewrite Hidx.
  destruct (if dl_size d <=? i then _ else _) as [nodes st] eqn:Epad.
  assert (Hfacts : (N.to_nat i < length nodes)%nat /\
     (forall j n, nodes !! j = Some (Some n) <-> dl_nodes d !! j = Some (Some n)) /\
     (forall j, st !! j = if decide (dl_size d <= i /\ dl_size d < j <= i + 1) then Some NDeleted else dl_status d !! j)).
  { destruct (N.leb_spec (dl_size d) i) as [Hle|Hle].
    - pose proof (f_equal fst Epad) as E1. pose proof (f_equal snd Epad) as E2. cbn [fst snd] in E1, E2.
      rewrite dl_pad_nodes in E1. subst nodes. split; [|split].
      + rewrite app_length, replicate_length. unfold dl_size in *. lia.
      + intros j n. rewrite lookup_app_Some. split; [intros [H|[_ H]]; [exact H|]|auto].
        apply lookup_replicate in H as [? _]. discriminate.
      + intros j. rewrite <- E2, dl_pad_status. unfold dl_size in *.
        destruct (decide _) as [H|H], (decide _) as [H'|H']; try reflexivity; exfalso; lia.
    - injection Epad as <- <-. unfold dl_size in *. split; [lia|]. split; [reflexivity|]. intros j. rewrite decide_False by lia. reflexivity. }
  clear Epad. destruct Hfacts as (Hlen & Hn & Hst). cbn [fst snd dl_nodes dl_next dl_status dl_edges dl_id dl_prefix dl_times].
  split; [reflexivity|]. split; [apply list_lookup_insert, Hlen|]. split.
  { intros j n Hj. rewrite list_lookup_insert_ne by congruence. apply Hn. }
  split. { unfold dl_num_nodes. cbn. destruct (decide (t ∈ dl_times d)) as [Ht|Ht]; [f_equal; set_solver|]. rewrite size_union; [rewrite size_singleton; reflexivity|]. set_solver. }
  do 5 (split; [reflexivity|]). intros j. destruct (decide (j = i)) as [->|Hne]; [apply lookup_insert|].
  rewrite lookup_insert_ne by congruence. apply Hst.
Qed.
Print Assumptions C15_emplace_at_index.

(** Any sequence of calls with different indices and different times on a new layer, as loading and
    cloning make them: every call succeeds, and the layer holds exactly these nodes. *)
Definition emplace_all (d : DLayer) (cs : list (Z * N * NodeAttrs)) : list bool * DLayer :=
  fold_left (fun s c => let r := dl_emplace_at (snd s) (fst (fst c)) (snd (fst c)) (snd c) in (fst s ++ [fst r], snd r)) cs ([], d).
Theorem C15_sequence : forall l p cs, NoDup (map (fun c => fst (fst c)) cs) -> NoDup (map (fun c => snd (fst c)) cs) ->
  let r := emplace_all (dl_new l p) cs in
  Forall (eq true) (fst r) /\ dl_num_nodes (snd r) = length cs /\ forall i n, dl_nodes (snd r) !! N.to_nat i = Some (Some n) <->
    exists t a, (t, i, a) ∈ cs /\ n = node_new (prefix_make_id p i) l (Some t) a.
Proof.
  intros l p cs HT HI. unfold emplace_all.
  assert (K : forall todo done bs d, NoDup (map (fun c => fst (fst c)) (done ++ todo)) -> NoDup (map (fun c => snd (fst c)) (done ++ todo)) ->
    Forall (eq true) bs -> dl_num_nodes d = length done -> dl_id d = l -> dl_prefix d = p ->
    (forall t, t ∈ dl_times d <-> exists i a, (t, i, a) ∈ done) ->
    (forall i, dl_has_index d i = true -> exists t a, (t, i, a) ∈ done) ->
    (forall i n, dl_nodes d !! N.to_nat i = Some (Some n) <-> exists t a, (t, i, a) ∈ done /\ n = node_new (prefix_make_id p i) l (Some t) a) ->
    let r := fold_left (fun s c => let r := dl_emplace_at (snd s) (fst (fst c)) (snd (fst c)) (snd c) in (fst s ++ [fst r], snd r)) todo (bs, d) in
    Forall (eq true) (fst r) /\ dl_num_nodes (snd r) = length (done ++ todo) /\
    forall i n, dl_nodes (snd r) !! N.to_nat i = Some (Some n) <-> exists t a, (t, i, a) ∈ done ++ todo /\ n = node_new (prefix_make_id p i) l (Some t) a).
  { induction todo as [|[[t i] a] todo IH]; intros done bs d HT' HI' Hb Hn Hid Hp Hti Hix Hno; cbn [fold_left fst snd].
    - rewrite app_nil_r. auto.
    - assert (Ht : forall i' a', (t, i', a') ∉ done).
      { intros i' a' H. rewrite map_app in HT'. cbn in HT'. apply NoDup_app in HT' as (_ & HT' & _). apply (HT' t); [|left]. apply elem_of_list_In, in_map_iff. exists (t, i', a'). split; [reflexivity|apply elem_of_list_In, H]. }
      assert (Hi : forall t' a', (t', i, a') ∉ done).
      { intros t' a' H. rewrite map_app in HI'. cbn in HI'. apply NoDup_app in HI' as (_ & HI' & _). apply (HI' i); [|left]. apply elem_of_list_In, in_map_iff. exists (t', i, a'). split; [reflexivity|apply elem_of_list_In, H]. }
      destruct (C15_emplace_at_index d t i a) as [_ C]. destruct C as (C1 & C2 & C3 & C4 & C5 & _ & C6 & C7 & C8 & C9).
      { destruct (dl_has_index d i) eqn:E; [|reflexivity]. destruct (Hix i E) as (t' & a' & H). destruct (Hi t' a' H). }
      rewrite C1. set (d' := snd (dl_emplace_at d t i a)) in *. clearbody d'.
      replace (done ++ (t, i, a) :: todo) with ((done ++ [(t, i, a)]) ++ todo) in * by (rewrite <- app_assoc; reflexivity).
      apply IH.
      + exact HT'.
      + exact HI'.
      + apply Forall_app. split; [exact Hb|]. constructor; [reflexivity|constructor].
      + rewrite C4, app_length, Hn. cbn. rewrite decide_False; [lia|]. rewrite Hti. intros (i' & a' & H). exact (Ht i' a' H).
      + congruence.
      + congruence.
      + intros t'. rewrite C8, elem_of_union, elem_of_singleton, Hti. split.
        * intros [->|(i' & a' & H)]; [exists i, a|exists i', a']; apply elem_of_app; [right; left|left; exact H].
        * intros (i' & a' & H). apply elem_of_app in H as [H|H]; [eauto|]. apply elem_of_list_singleton in H. left. congruence.
      + intros i' H. unfold dl_has_index in H. rewrite C9 in H. destruct (decide (i' = i)) as [->|Hne]; [exists t, a; apply elem_of_app; right; left|].
        destruct (decide (dl_size d <= i /\ dl_size d < i' <= i + 1)); [discriminate|]. destruct (Hix i' H) as (t' & a' & Q). exists t', a'. apply elem_of_app. left. exact Q.
      + intros i' n. destruct (decide (i' = i)) as [->|Hne].
        * rewrite C2, Hid, Hp. split; [intros [= <-]; exists t, a; split; [apply elem_of_app; right; left|reflexivity]|].
          intros (t' & a' & H & ->). apply elem_of_app in H as [H|H]; [destruct (Hi t' a' H)|]. apply elem_of_list_singleton in H. injection H as -> ->. reflexivity.
        * rewrite C3 by lia. rewrite Hno. split; intros (t' & a' & H & E); exists t', a'; (split; [|exact E]); [apply elem_of_app; left; exact H|].
          apply elem_of_app in H as [H|H]; [exact H|]. apply elem_of_list_singleton in H. congruence. }
  apply (K cs [] [] (dl_new l p)); try assumption; try reflexivity; try constructor.
  - cbn. set_solver.
  - intros (i & a & H). inversion H.
  - intros i H. cbn in H. discriminate.
  - cbn. rewrite lookup_nil. discriminate.
  - intros (t & a & H & _). inversion H.
Qed.
Print Assumptions C15_sequence.
Example C15_case : Forall (eq true) (fst (emplace_all (dl_new 2 0) [(3%Z, 5, base_at 0 0 0); (1%Z, 2, base_at 0 0 0)])) /\
  dl_num_nodes (snd (emplace_all (dl_new 2 0) [(3%Z, 5, base_at 0 0 0); (1%Z, 2, base_at 0 0 0)])) = 2%nat.
Proof. vm_compute. split; [|reflexivity]. repeat constructor. Qed.

(** With a time twice the layer has two nodes and counts one. *)
Theorem C15_duplicate_time_refuted : exists cs, NoDup (map (fun c : Z * N * NodeAttrs => snd (fst c)) cs) /\
  let r := emplace_all (dl_new 2 0) cs in fst r = [true; true] /\ dl_has_node (snd r) 0 = true /\ dl_has_node (snd r) 1 = true /\ dl_num_nodes (snd r) = 1%nat.
Proof. exists [(3%Z, 0, base_at 0 0 0); (3%Z, 1, base_at 0 0 0)]. split; [|vm_compute; auto]. repeat constructor; set_solver. Qed.
Print Assumptions C15_duplicate_time_refuted.

(** C15 refuted: loading the nodes 0 and 2 of a layer (slot 1 was removed before saving) reports
    the id 3, which never existed, as removed. *)
Theorem C15_reports_only_real_changes_refuted :
  let d := snd (dl_emplace_at (snd (dl_emplace_at (dl_new 2 0) 1 0 (base_at 0 0 0))) 2 2 (base_at 0 0 0)) in
  dl_num_nodes d = 2%nat /\ dl_has_node d 0 = true /\ dl_has_node d 2 = true /\ dl_find_node d 3 = None /\
  3 ∈ fst (dl_get_removed_nodes d false).
Proof.
  cbv zeta. repeat (split; [vm_compute; reflexivity|]). apply (bool_decide_eq_true_1 _). vm_compute. reflexivity.
Qed.
Print Assumptions C15_reports_only_real_changes_refuted.
