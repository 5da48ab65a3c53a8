(** Observations of a graph in terms of the abstract graph it represents. *)
From Coq Require Import NArith ZArith Bool List Lia.
From stdpp Require Import base list gmap fin_maps tactics.
From Verif.Model Require Import Types Mesh Attrs Node EdgeContainer SLayer DLayer Graph.
From Verif.Spec Require Import AbstractGraph GraphHistory LayerLog GraphObs.
From Verif.Proof Require Import Arith Keys SLayerP SLayerMerge DLayerP DLayerOps GraphRep GraphEdges GraphAttrs GraphNodes GraphRemove GraphMerge GraphSim LayerRep UpdateP MergeP1 MergeP3 MergeP5 MergeP6.
Local Open Scope N_scope.

Definition an_data (n : ANode) : LayerKey * option Z * NodeAttrs := (an_key n, an_time n, an_attrs n).

Section Obs.
  Context (g : Graph) (a : AGraph) (HR : Rep g a).

  Lemma obs_layer x : layer_of g x = a_key a x.
  Proof using HR. apply (rp_lookup _ _ HR). Qed.
  Lemma obs_node x : match node_at g x with
    | None => a_key a x = None
    | Some n => exists k, a_key a x = Some k /\ node_ok a g x k n /\ n_id n = x /\ n_layer n = lk_layer k end.
  Proof using HR.
    unfold node_at, g_find_node. rewrite <- (rp_lookup _ _ HR). destruct (g_lookup g !! x) as [k|] eqn:E; [|reflexivity].
    destruct (Rep_node_ptr _ _ _ _ HR E) as (L & n & HL & Hn & -> & Hok). exists k. split; [reflexivity|]. split; [exact Hok|].
    destruct (rp_part _ _ HR k L (rp_canon _ _ HR _ _ E) HL) as (Hwf & Hid & _).
    destruct (slw_node _ Hwf _ _ Hn) as [? ?]. split; [assumption|congruence].
  Qed.
  Lemma obs_find_ok x : exists o, g_find_node g x = Ok o.
  Proof using HR.
    unfold g_find_node. destruct (g_lookup g !! x) as [k|] eqn:E; [|eauto].
    destruct (Rep_node_ptr _ _ _ _ HR E) as (L & n & HL & Hn & -> & Hok). eauto.
  Qed.
  Lemma obs_data x : node_data g x = an_data <$> ag_nodes a !! x.
  Proof using HR.
    unfold node_data. rewrite obs_layer. pose proof (obs_node x) as H. destruct (node_at g x) as [n|].
    - destruct H as (k & Hk & Hok & _). rewrite Hk. destruct (no_abs _ _ _ _ _ Hok) as (an & Han & H1 & H2 & H3).
      rewrite Han. cbn. unfold an_data. congruence.
    - rewrite H. unfold a_key in H. destruct (ag_nodes a !! x); [discriminate|reflexivity].
  Qed.
  Lemma obs_known x : g_has_node g x = true <-> a_known a x.
  Proof using HR. rewrite (has_node_ok _ _ _ HR). apply bool_decide_eq_true. Qed.
  Lemma obs_has_edge u v : g_has_edge g u v = Ok (bool_decide (a_linked a u v)).
  Proof using HR. apply has_edge_ok, HR. Qed.
  Lemma obs_adjacent u v : adjacent g u v <-> a_linked a u v.
  Proof using HR.
    unfold adjacent. rewrite obs_has_edge. split; [intros [= H]; revert H; apply bool_decide_eq_true|].
    intros H. f_equal. apply bool_decide_eq_true, H.
  Qed.
  Lemma obs_edge u v : edge_at g u v = ag_edges a !! edge_key u v.
  Proof using HR.
    unfold edge_at. assert (Hn : g_lookup g !! u = None \/ g_lookup g !! v = None -> ag_edges a !! edge_key u v = None).
    { intros H. apply eq_None_not_Some. intros Hl. destruct (Rep_linked_known _ _ _ _ HR Hl) as (_ & ? & ? & ? & ?). destruct H; congruence. }
    destruct (g_lookup g !! u) as [ku|] eqn:Eu; [|unfold g_find_edge; rewrite Eu; cbn; rewrite Hn; auto].
    destruct (g_lookup g !! v) as [kv|] eqn:Ev; [|unfold g_find_edge; rewrite Eu, Ev; cbn; rewrite Hn; auto].
    destruct (find_edge_ok g a u v ku kv HR Eu Ev) as (g' & -> & _). reflexivity.
  Qed.
  Lemma obs_link x n r v : node_at g x = Some n -> (v ∈ get_link r n <-> a_related a r x v).
  Proof using HR.
    intros Hx. pose proof (obs_node x) as H. rewrite Hx in H. destruct H as (k & Hk & Hok & _).
    rewrite (no_links _ _ _ _ _ Hok). unfold a_related. rewrite Hk. split.
    - intros (Hl & kv & Hv & Hr). split; [assumption|]. exists k, kv. rewrite <- (rp_lookup _ _ HR). auto.
    - intros (Hl & k' & kv & [= <-] & Hv & Hr). split; [assumption|]. exists kv. rewrite (rp_lookup _ _ HR). auto.
  Qed.
  Lemma obs_parent_of p c : is_parent_of g p c <-> a_related a RParent c p.
  Proof using HR.
    unfold is_parent_of, a_related. rewrite obs_adjacent, a_linked_comm, !obs_layer. split.
    - intros (Hl & kp & kc & Hp & Hc & Hlt). split; [assumption|]. exists kc, kp. rewrite rel_parent. auto.
    - intros (Hl & kc & kp & Hc & Hp & Hlt). split; [assumption|]. exists kp, kc. rewrite rel_parent in Hlt. auto.
  Qed.
  Lemma obs_stored k x : stored_in g k x <-> layer_of g x = Some k.
  Proof using HR.
    rewrite obs_layer, <- (rp_lookup _ _ HR). unfold stored_in. destruct (lk_dynamic k) eqn:Ed.
    - assert (Hc : canon k) by (intros ?; congruence). rewrite (rp_home _ _ HR x k Hc). unfold g_part. rewrite Ed. split.
      + intros (Hx & d & Hd & Hn). rewrite Hd. cbn. eexists. split; [reflexivity|].
        destruct (rp_dinv _ _ HR _ _ _ Hd) as [Hcore _]. rewrite (dl_has_node_eq d x Hcore Hx) in Hn. apply sl_has_node_true in Hn. exact Hn.
      + intros (L & HL & Hs). pose proof (proj2 (rp_home _ _ HR x k Hc)) as Hh. unfold g_part in Hh. rewrite Ed in Hh.
        assert (Hx : x < two64). { eapply Rep_id_small; [exact HR| |exact Ed]. apply Hh. eauto. }
        split; [exact Hx|]. destruct (g_dlayer g _ _) as [d|] eqn:Hd; [|discriminate]. exists d. split; [reflexivity|].
        destruct (rp_dinv _ _ HR _ _ _ Hd) as [Hcore _]. rewrite (dl_has_node_eq d x Hcore Hx). apply sl_has_node_true. cbn in HL. injection HL as <-. exact Hs.
    - split.
      + intros (Hp & s & Hs & Hn). assert (Hc : canon k) by (intros _; exact Hp). apply (rp_home _ _ HR x k Hc). unfold g_part. rewrite Ed.
        exists s. split; [assumption|]. apply sl_has_node_true, Hn.
      + intros Hx. pose proof (rp_canon _ _ HR _ _ Hx Ed) as Hp. split; [assumption|].
        apply (rp_home _ _ HR x k (rp_canon _ _ HR _ _ Hx)) in Hx as (L & HL & Hs). unfold g_part in HL. rewrite Ed in HL.
        exists L. split; [assumption|]. apply sl_has_node_true, Hs.
  Qed.

  Lemma no_foreign_cross n : no_foreign_sibling g n -> no_cross_sibling a n.
  Proof using HR.
    intros H v k kv Hl Hk Hkv Hr. apply (H v k kv).
    - apply obs_adjacent, Hl.
    - rewrite obs_layer; assumption.
    - rewrite obs_layer; assumption.
    - apply rel_sym_sib, Hr.
  Qed.
  Lemma prev_args_ok l id t : prev_args g l id t -> prev_ok a l id t.
  Proof using HR.
    intros [H|(Hid & Hd & Ht)]; [left; apply obs_known, H|right].
    split; [exact Hid|]. split; [exact Hd|]. intros Hu. unfold a_time_used, map_Exists in Hu. destruct Hu as (x & n & Hn & Hk & Htm).
    apply (Ht x (an_attrs n)). rewrite obs_data, Hn. cbn. unfold an_data. congruence.
  Qed.
  Lemma allowed_clean o : allowed g o -> clean a o.
  Proof using HR.
    destruct o; cbn [allowed clean]; auto using prev_args_ok.
    - intros [Hd Hs]. split; [exact Hd|]. rewrite (rp_dyn _ _ HR). unfold dinfo. destruct (g_dlayer g l p) as [d|]; [|exact I]. cbn. apply Hs. reflexivity.
    - destruct t; [apply prev_args_ok|auto].
    - intros H ku kv Hu Hv Hr. apply (H ku kv); rewrite ?obs_layer; auto. apply rel_sym_sib, Hr.
    - apply no_foreign_cross.
    - intros [H1 H2]. split; [apply no_foreign_cross, H1|]. intros k. rewrite <- !obs_layer. apply H2.
  Qed.
End Obs.

(** updateFromLayer under its conditions. *)
Lemma update_RepL g a other edges : RepL g a -> update_ok g other edges ->
  match g_layers g !! sl_id other with
  | None => g_update_from_layer g other (Some edges) = Ok (false, g, other)
  | Some L0 => exists L2 lk a',
      g_update_from_layer g other (Some edges) = Ok (true, put g (sl_id other) L2 lk, sl_reset other) /\
      RepL (put g (sl_id other) L2 lk) a' /\ ag_layers a' = ag_layers a /\ ag_dyn a' = ag_dyn a /\
      (forall x, ag_nodes a' !! x = match sl_nodes other !! x with
         | Some n => Some (mkAN (key_static (sl_id other)) (match ag_nodes a !! x with Some an => an_time an | None => n_time n end) (n_attrs n))
         | None => ag_nodes a !! x end) /\
      (forall k, ag_edges a' !! k = match edges !! k with
         | Some e => if decide (listed_in a' (sl_id other) e) then Some (put_edge (ag_edges a !! k) e) else ag_edges a !! k
         | None => ag_edges a !! k end) /\
      (forall x, sl_status L2 !! x =
         if decide (is_Some (sl_nodes other !! x) /\ g_lookup g !! x = None) then Some NNew else sl_status L0 !! x)
  end.
Proof.
  intros [HR HI] (Hr & Hkn & Hm & Hcov). destruct (g_layers g !! sl_id other) as [L0|] eqn:EL.
  - destruct (update_main g a (sl_id other) other edges L0 HR (reachable_alone _ _ Hr) EL) as (L2 & lk & a' & H1 & H2 & H3 & H4 & H5 & H6 & H7).
    + intros x Hx. apply Hkn, sl_has_node_true, Hx.
    + exact Hm.
    + exact Hcov.
    + exists L2, lk, a'. split; [exact H1|]. split; [|auto 6]. split; [exact H2|]. rewrite H3. exact HI.
  - unfold g_update_from_layer. rewrite EL. reflexivity.
Qed.

(** mergeGraph under its conditions. *)
Lemma merge_am_ok cfg g other a0 ao : Rep g a0 -> Rep other ao -> merge_ok cfg g other -> am_ok cfg g other a0 ao.
Proof.
  intros HR HRo [M1 M2 M3 M4 M5]. split.
  - intros x k. rewrite <- (obs_layer _ _ HRo), <- (obs_layer _ _ HR). apply M1.
  - intros Hp k e ks kt He Hs Ht Hne. rewrite <- (obs_layer _ _ HRo) in Hs, Ht. apply (M3 Hp (e_src e) (e_tgt e) ks kt); try assumption.
    apply (obs_adjacent _ _ HRo). unfold a_linked. destruct (rp_norm _ _ HRo _ _ He) as [<- _]. eauto.
  - intros Hp x k. rewrite <- !(obs_layer _ _ HRo), <- !(obs_layer _ _ HR). apply M2, Hp.
  - intros x (l & ol & H1 & H2 & H3). destruct (M4 x) as (A & B & C & D).
    { exists l, ol. split; [exact H1|]. split; [exact H2|exact H3]. }
    split; [rewrite <- (obs_layer _ _ HRo); exact A|]. split; [intros y Hy; apply B, (obs_known _ _ HRo), Hy|].
    split; [intros k; rewrite <- (obs_layer _ _ HR); apply C|]. apply (no_foreign_cross _ _ HR), D.
  - intros l p od Hod. destruct (M5 l p od Hod) as (D1 & D2 & D3). destruct (od_facts other ao HRo l p od Hod) as (Hc & Hpx & Hdok & HP & Hn & _).
    pose proof (proj1 (proj2 Hdok)) as Hp32.
    assert (Hslot : forall j slot, dl_nodes od !! j = Some slot -> exists on, slot = Some on /\ N.of_nat j < two32 /\ dl_nmap od !! prefix_make_id p (N.of_nat j) = Some on).
    { intros j slot Hj. pose proof (lookup_lt_Some _ _ _ Hj) as Hlt. pose proof (dlc_size _ Hc) as Hsz. unfold dl_size in Hsz, D1.
      assert (Hj32 : N.of_nat j < two32) by lia. specialize (D1 (N.of_nat j) ltac:(lia)).
      change (layer_of other) with (g_layer_for_node other) in D1. unfold g_layer_for_node in D1.
      apply (rp_home _ _ HRo _ _ (canon_dynamic l p)) in D1 as (L & HL & [on Hon]). rewrite HP in HL. injection HL as <-. cbn in Hon.
      destruct (dl_nmap_slot od _ on Hc Hon) as (Hs & _). rewrite make_id_index in Hs by assumption. rewrite Nat2N.id in Hs.
      exists on. split; [congruence|]. split; [exact Hj32|exact Hon]. }
    assert (Hinfo : exists n0, default (0, 0) (ag_dyn a0 !! (l, p)) = (n0, n0) /\ num_slots g l p = n0 /\
      forall i, i < n0 -> i < dl_size od -> layer_of g (prefix_make_id p i) = Some (key_dynamic l p)).
    { rewrite (rp_dyn _ _ HR). unfold dinfo, num_slots. destruct (g_dlayer g l p) as [d0|].
      - destruct (D2 d0 eq_refl) as [E1 E2]. exists (dl_size d0). cbn. rewrite E1. auto.
      - exists 0. cbn. split; [reflexivity|]. split; [reflexivity|]. intros i Hi. lia. }
    destruct Hinfo as (n0 & E0 & Hns & Hold). exists n0. split; [exact E0|]. split.
    + intros j slot Hj. destruct (Hslot j slot Hj) as (on & -> & Hj32 & Hon). destruct (dlc_node _ Hc _ _ Hj) as (_ & _ & t & Ht).
      exists on, t. split; [reflexivity|]. split; [exact Ht|]. cbn [Nat.add]. split; [exact Hj32|].
      pose proof (lookup_lt_Some _ _ _ Hj) as Hlt. destruct (decide (N.of_nat j < n0)) as [Hlo|Hhi].
      * rewrite <- (obs_layer _ _ HR). apply Hold; [exact Hlo|]. unfold dl_size. lia.
      * split.
        -- rewrite <- (obs_layer _ _ HR). destruct (M1 (prefix_make_id p (N.of_nat j)) (key_dynamic l p)) as [E|E]; [|exact E|exfalso].
           { apply D1. unfold dl_size. lia. }
           apply (rp_home _ _ HR _ _ (canon_dynamic l p)) in E as (L & HL & [m Hm]). unfold g_part in HL. cbn in HL. unfold num_slots in Hns.
           destruct (g_dlayer g l p) as [d0|] eqn:Ed0; [|discriminate]. injection HL as <-. cbn in Hm. destruct (rp_dinv _ _ HR _ _ _ Ed0) as (Hc0 & _).
           destruct (dl_nmap_slot d0 _ m Hc0 Hm) as (Hs & _). rewrite make_id_index in Hs by assumption. apply lookup_lt_Some in Hs.
           unfold dl_size in Hns. lia.
        -- intros (x & n & Hx & Hk & Htm). apply (D3 (N.of_nat j) t (n_attrs on) x (an_attrs n)).
           ++ rewrite Hns. lia.
           ++ unfold dl_size. lia.
           ++ rewrite (obs_data _ _ HRo), (Hn _ _ Hon). cbn. unfold an_data; cbn. rewrite Ht. reflexivity.
           ++ rewrite (obs_data _ _ HR), Hx. cbn. unfold an_data. rewrite Hk, Htm. reflexivity.
    + intros j j' on on' H1 H2 H3. exact (dlc_times_inj _ Hc _ _ _ _ H1 H2 H3).
Qed.
Theorem merge_RepL vadd vsub cfg g other a0 ao : RepL g a0 -> RepL other ao -> merge_ok cfg g other ->
  exists g' a', g_merge_graph vadd vsub g other cfg = Ok (g', other_read cfg g other) /\ RepL g' a' /\ Merged vadd vsub cfg g other a0 ao g' a'.
Proof.
  intros [HR HI] [HRo HIo] HM. pose proof (merge_am_ok cfg g other a0 ao HR HRo HM) as HA.
  destruct (merge_graph_ok vadd vsub cfg g other a0 ao HR HRo HA) as (g' & E & M). eexists g', _. split; [exact E|]. split; [|exact M].
  split; [exact (ms_rep _ _ _ _ _ _ _ _ _ M)|]. rewrite (ms_layers _ _ _ _ _ _ _ _ _ M), (ms_ids _ _ _ _ _ _ _ _ _ M). exact HI.
Qed.
Lemma sl_wf_edges L c : sl_wf L -> ec_wf c -> ec_edges c = ec_edges (sl_edges L) -> sl_wf (sl_with_edges L c).
Proof. intros [H1 H2 H3 H4 H5 H6] Hc He. split; cbn; try assumption; rewrite He; assumption. Qed.
(** The graph merged in only loses change reports. *)
Lemma read_layers_RepL cfg g other xs : (forall l ol, (l, ol) ∈ xs -> g_layers other !! l = Some ol) -> forall o a,
  NoDup xs.*1 -> (forall l ol, (l, ol) ∈ xs -> g_layers o !! l = Some ol) ->
  RepL o a -> RepL (fold_left (read_layer cfg g) xs o) a.
Proof.
  intros Hin. induction xs as [|[l ol] r IH]; intros o a Hnd Ho HR; cbn [fold_left]; [exact HR|].
  rewrite fmap_cons in Hnd. apply stdpp.list.NoDup_cons in Hnd as [Hl Hnd]. cbn [fst] in Hl. apply IH.
  - intros l' ol' H. apply Hin. right. exact H.
  - exact Hnd.
  - intros l' ol' H. unfold read_layer. cbn [fst snd]. destruct (decide _); [|apply Ho; right; exact H].
    cbn. rewrite lookup_insert_ne; [apply Ho; right; exact H|]. intros ->. apply Hl, elem_of_list_fmap. exists (l', ol'). auto.
  - unfold read_layer. cbn [fst snd]. destruct (decide _); [|exact HR]. destruct HR as [HR HI]. split; [|exact HI].
    pose proof (Ho l ol (elem_of_list_here _ _)) as Hol.
    apply (Rep_same o); [exact HR| | | |].
    + split; try reflexivity. intros l'. cbn. destruct (decide (l' = l)) as [->|Hne]; [rewrite lookup_insert, Hol; split; eauto|rewrite lookup_insert_ne by congruence; reflexivity].
    + exact (rp_dinv _ _ HR).
    + intros k Hk. pose proof (rp_part _ _ HR k) as Hp. unfold g_part in *. destruct (lk_dynamic k) eqn:Ed.
      * change (g_dlayer (g_set_layer o l (read_reports (mc_clear_removed cfg) ol))) with (g_dlayer o).
        destruct (g_dlayer o (lk_layer k) (lk_prefix k)) as [d|]; [|exact I]. cbn in *. destruct (Hp _ Hk eq_refl) as (W & _). auto.
      * cbn. destruct (decide (l = lk_layer k)) as [->|Hne].
        -- rewrite lookup_insert, Hol in *. destruct (Hp _ Hk eq_refl) as (W & _).
           destruct (ec_get_removed_same (sl_edges ol) (mc_clear_removed cfg)) as [E1 E2].
           split; [destruct (mc_clear_removed cfg); reflexivity|]. split; [destruct (mc_clear_removed cfg); reflexivity|]. split; [|exact E1].
           unfold read_reports. pose proof (sl_wf_removed_nodes ol (mc_clear_removed cfg) W) as W1.
           apply sl_wf_edges; [exact W1|apply E2, W|].
           rewrite E1. destruct (mc_clear_removed cfg); reflexivity.
        -- rewrite lookup_insert_ne by congruence. destruct (g_layers o !! lk_layer k) as [L|]; [|exact I]. destruct (Hp _ Hk eq_refl) as (W & _). auto.
    + intros dyn. split; [exact (rp_ec _ _ HR dyn)|reflexivity].
Qed.
Lemma other_read_RepL cfg g other a : RepL other a -> RepL (other_read cfg g other) a.
Proof.
  intros HR. unfold other_read. apply (read_layers_RepL cfg g other); [|apply NoDup_fst_map_to_list| |exact HR]; intros l ol H; apply elem_of_map_to_list in H; exact H.
Qed.

Theorem reachable_RepL g : reachable g -> exists a, RepL g a.
Proof.
  induction 1 as [ids g Hn Hu|g o b g' _ [a HR] Ha Hs|g ids _ _ _ Hu|g other edges b g' other' _ [a HR] Ho Hs
    |vadd vsub cfg g other g' other' _ [a HR] _ [ao HRo] Hm Hs|vadd vsub cfg g other g' other' _ [a HR] _ [ao HRo] Hm Hs].
  - exists (a_init ids). apply new_RepL; assumption.
  - exists (snd (a_step a o)). pose proof (step_RepL g a o HR (allowed_clean g a (proj1 HR) o Ha)) as H.
    rewrite Hs in H. exact H.
  - exists (a_init ids). apply reset_RepL, Hu.
  - pose proof (update_RepL g a other edges HR Ho) as H. destruct (g_layers g !! sl_id other) as [L0|].
    + destruct H as (L2 & lk & a' & E & HR' & _). rewrite E in Hs. injection Hs as <- <- <-. eauto.
    + rewrite H in Hs. injection Hs as <- <- <-. eauto.
  - destruct (merge_RepL vadd vsub cfg g other a ao HR HRo Hm) as (g1 & a' & E & HR' & _). rewrite E in Hs. injection Hs as <- <-. eauto.
  - destruct (merge_RepL vadd vsub cfg g other a ao HR HRo Hm) as (g1 & a' & E & HR' & _). rewrite E in Hs. injection Hs as <- <-.
    exists ao. apply other_read_RepL, HRo.
Qed.

(** One allowed call on a reachable graph. *)
Theorem reachable_step g o : reachable g -> allowed g o -> exists a, RepL g a /\
  match g_step g o with
  | Ok (b, g') => fst (a_step a o) = ABool b /\ RepL g' (snd (a_step a o)) /\ reachable g'
  | Throw => fst (a_step a o) = AThrow /\ snd (a_step a o) = a
  | UB => False
  end.
Proof.
  intros Hr Ha. destruct (reachable_RepL g Hr) as [a HR]. exists a. split; [exact HR|].
  pose proof (allowed_clean g a (proj1 HR) o Ha) as Hc.
  pose proof (step_sim g a o HR Hc) as Hs. pose proof (step_RepL g a o HR Hc) as HL.
  destruct (g_step g o) as [[b g']| |] eqn:E; cbn in Hs.
  - destruct Hs as [? ?]. split; [assumption|]. split; [assumption|]. econstructor; eassumption.
  - exact Hs.
  - exact Hs.
Qed.
