(** mergeGraph: the loop over dynamic layers. *)
From Coq Require Import NArith ZArith Bool List Lia.
From stdpp Require Import base list gmap fin_maps tactics.
From Verif.Model Require Import Types Mesh Attrs Node EdgeContainer SLayer DLayer Graph.
From Verif.Spec Require Import AbstractGraph GraphHistory.
From Verif.Proof Require Import Arith Keys SLayerP SLayerMerge DLayerP DLayerOps GraphRep GraphEdges GraphAttrs GraphNodes GraphRemove GraphSim LayerRep StatusFrame MergeP1 MergeP2 MergeP3 MergeP4.
Local Open Scope N_scope.
#[local] Arguments edge_key : simpl never.

(** *** The parts of a represented graph *)
Section Parts.
  Context (h : Graph) (b : AGraph) (HR : Rep h b).
  Lemma part_node_abs k L x n : canon k -> g_part h k = Some L -> sl_nodes L !! x = Some n ->
    ag_nodes b !! x = Some (mkAN k (n_time n) (n_attrs n)).
  Proof using HR.
    intros Hk HL Hn. destruct (rp_node _ _ HR x k L n Hk HL Hn) as [(an & H1 & H2 & H3 & H4) _]. destruct an; cbn in *. congruence.
  Qed.
  Lemma part_edge_abs k L K e : canon k -> g_part h k = Some L -> ec_edges (sl_edges L) !! K = Some e ->
    ag_edges b !! K = Some e /\ K = edge_key (e_src e) (e_tgt e) /\ e_src e <> e_tgt e /\ both b k (e_src e) (e_tgt e).
  Proof using HR.
    intros Hk HL He. destruct (rp_part _ _ HR k L Hk HL) as (Hwf & _ & _).
    pose proof (ecw_key _ (slw_ec _ Hwf) _ _ He) as HK. destruct (slw_ends _ Hwf _ _ He) as (Hne & Hs & Ht).
    assert (Hs' : g_lookup h !! e_src e = Some k) by (apply (rp_home _ _ HR _ _ Hk); eauto).
    assert (Ht' : g_lookup h !! e_tgt e = Some k) by (apply (rp_home _ _ HR _ _ Hk); eauto).
    split; [rewrite HK, (Rep_part_edge h b k L _ _ HR Hk HL Hs' Ht'), <- HK; exact He|]. split; [exact HK|]. split; [exact Hne|].
    split; rewrite <- (rp_lookup _ _ HR); assumption.
  Qed.
  Lemma inter_edge_abs dyn K e : ec_edges (g_ec h dyn) !! K = Some e ->
    ag_edges b !! K = Some e /\ K = edge_key (e_src e) (e_tgt e) /\
    exists ks kt, a_key b (e_src e) = Some ks /\ a_key b (e_tgt e) = Some kt /\ ks <> kt.
  Proof using HR.
    intros He. destruct (rp_inter _ _ HR dyn K e He) as (ku & kv & Hu & Hv & Hne & Hd).
    pose proof (ecw_key _ (rp_ec _ _ HR dyn) _ _ He) as HK.
    split; [|split; [exact HK|exists ku, kv; rewrite <- !(rp_lookup _ _ HR); auto]].
    rewrite HK, (rp_edge _ _ HR). unfold g_edge_at. rewrite Hu, Hv, decide_False by exact Hne. rewrite Hd, <- HK. exact He.
  Qed.
  Lemma edge_abs_part k e : ag_edges b !! k = Some e ->
    (exists kk L, canon kk /\ g_part h kk = Some L /\ ec_edges (sl_edges L) !! k = Some e) \/
    (exists dyn, ec_edges (g_ec h dyn) !! k = Some e).
  Proof using HR.
    intros He. destruct (rp_norm _ _ HR _ _ He) as [HK Hne]. pose proof He as He'. rewrite HK, (rp_edge _ _ HR) in He'. unfold g_edge_at in He'.
    destruct (g_lookup h !! e_src e) as [ku|] eqn:Eu; [|discriminate]. destruct (g_lookup h !! e_tgt e) as [kv|] eqn:Ev; [|discriminate].
    rewrite <- HK in He'. destruct (decide (ku = kv)) as [->|]; [|right; eauto].
    destruct (g_part h kv) as [L|] eqn:EL; [|discriminate]. left. exists kv, L. split; [eapply rp_canon; eauto|]. auto.
  Qed.
  Lemma linked_known u v : a_linked b u v -> a_known b u /\ a_known b v.
  Proof using HR.
    intros Hl. destruct (Rep_linked_known _ _ _ _ HR Hl) as (_ & ku & kv & Hu & Hv). rewrite <- !(Rep_known _ _ _ HR), Hu, Hv. eauto.
  Qed.
End Parts.

Section DynLayers.
  Context (vadd vsub : Vec3 -> Vec3 -> Vec3) (cfg : MergeConfig).
  Context (other : Graph) (ao : AGraph) (HRo : Rep other ao).
  Definition dnext (a : AGraph) (l : LayerId) (p : N) : N := fst (default (0, 0) (ag_dyn a !! (l, p))).
  Definition dshift (a : AGraph) (l : LayerId) (p : N) (od : DLayer) (d : Vec3) : Prop :=
    let n0 := dnext a l p in
    (n0 = 0 /\ d = mkVec3 0 0 0) \/
    (0 < n0 /\ exists on an, dl_nmap od !! prefix_make_id p (n0 - 1) = Some on /\
       ag_nodes a !! prefix_make_id p (n0 - 1) = Some an /\ d = vsub (attrs_position (an_attrs an)) (attrs_position (n_attrs on))).
  (** [a'] is [a] with the nodes of [od] merged. *)
  Definition dyn_merged (a a' : AGraph) (l : LayerId) (p : N) (od : DLayer) (x : N) (on : Node) : Prop :=
    match ag_nodes a !! x with
    | Some an => ag_nodes a' !! x = Some (dyn_kept cfg an on)
    | None => exists d, dshift a l p od d /\ ag_nodes a' !! x = Some (dyn_new vadd l p on d)
    end.
  Definition dyn_pre (a : AGraph) (x : LayerId * N * DLayer) : Prop :=
    let '(l, p, od) := x in exists n0, default (0, 0) (ag_dyn a !! (l, p)) = (n0, n0) /\ slots_ok l p a n0 0 (dl_nodes od).

  Lemma od_facts l p od : g_dlayer other l p = Some od -> dl_core od /\ dl_prefix od = p /\ dyn_ok l p /\
    g_part other (key_dynamic l p) = Some (dl_view od) /\
    (forall x on, dl_nmap od !! x = Some on -> ag_nodes ao !! x = Some (mkAN (key_dynamic l p) (n_time on) (n_attrs on))) /\
    (forall K e, ec_edges (dl_edges od) !! K = Some e -> ag_edges ao !! K = Some e /\ K = edge_key (e_src e) (e_tgt e) /\ e_src e <> e_tgt e /\
       both ao (key_dynamic l p) (e_src e) (e_tgt e) /\ is_Some (dl_nmap od !! e_src e) /\ is_Some (dl_nmap od !! e_tgt e) /\ e_src e < two64 /\ e_tgt e < two64).
  Proof using HRo.
    intros Hd. assert (HP : g_part other (key_dynamic l p) = Some (dl_view od)) by (unfold g_part; cbn; rewrite Hd; reflexivity).
    destruct (rp_dinv _ _ HRo _ _ _ Hd) as (Hc & Hid & Hpx & Hsub). destruct (rp_part _ _ HRo _ _ (canon_dynamic l p) HP) as (Hwf & _ & Hl).
    split; [exact Hc|]. split; [exact Hpx|]. split; [split; [exact Hl|split; [rewrite <- Hpx; apply Hc|exact Hsub]]|]. split; [exact HP|]. split.
    - intros x on Hon. exact (part_node_abs other ao HRo _ _ x on (canon_dynamic l p) HP Hon).
    - intros K e He. destruct (part_edge_abs other ao HRo _ _ K e (canon_dynamic l p) HP He) as (H1 & H2 & H3 & H4).
      split; [exact H1|]. split; [exact H2|]. split; [exact H3|]. split; [exact H4|].
      destruct (slw_ends _ Hwf _ _ He) as (_ & [n1 N1] & [n2 N2]).
      split; [eauto|]. split; [eauto|]. split; [apply (dl_nmap_slot od (e_src e) n1 Hc N1)|apply (dl_nmap_slot od (e_tgt e) n2 Hc N2)].
  Qed.

  Lemma dlayer_eff a l p od : g_dlayer other l p = Some od -> dyn_pre a (l, p, od) ->
    let a' := am_dlayer vadd vsub cfg a (l, p, od) in
    (forall x, match dl_nmap od !! x with None => ag_nodes a' !! x = ag_nodes a !! x | Some on => dyn_merged a a' l p od x on end) /\
    ag_layers a' = ag_layers a /\ (forall q, q <> (l, p) -> ag_dyn a' !! q = ag_dyn a !! q) /\
    ER (fun _ => False) (comes_from id (map_to_list (ec_edges (dl_edges od)))) a a' /\
    (forall K e, ec_edges (dl_edges od) !! K = Some e -> is_Some (ag_edges a' !! K)).
  Proof using HRo.
    intros Hd (n0 & Hn0 & Hsl). destruct (od_facts l p od Hd) as (Hc & Hpx & (Hl & Hp & Hsub) & HP & Hnode & Hedge).
    unfold am_dlayer, am_dnodes. destruct (create_dyn_nodes a l p) as (C1 & C2 & C3).
    assert (C4 : forall q, q <> (l, p) -> ag_dyn (snd (a_create_dyn a l p)) !! q = ag_dyn a !! q).
    { intros q Hq. unfold a_create_dyn. destruct (ag_dyn a !! (l, p)); [reflexivity|]. cbn. apply lookup_insert_ne. congruence. }
    set (a1 := snd (a_create_dyn a l p)) in *.
    assert (Hpre : slots_pre p n0 a1 0 (dl_nodes od)).
    { intros j slot Hj. destruct (proj1 Hsl j slot Hj) as (on & tm & -> & _ & H32 & Hk). split; [eauto|]. split; [exact H32|].
      rewrite C1. unfold a_key in Hk. destruct (decide (N.of_nat (0 + j) < n0)) as [Hlt|Hge].
      - split; [auto|]. intros _. destruct (ag_nodes a !! _); [eauto|discriminate].
      - destruct Hk as [Hk _]. split; [|lia]. intros [an Hq]. rewrite Hq in Hk. discriminate. }
    destruct (am_dnodes_eff vadd vsub cfg l p Hp n0 (dl_nodes od) 0 a1 (mkVec3 0 0 0) Hpre) as (E1 & E2 & E3 & E4 & E5).
    set (a2 := fst (fold_left (am_dnode vadd vsub cfg l p) (idx_from 0 (dl_nodes od)) (a1, mkVec3 0 0 0))) in *.
    destruct (fold_same (am_edge (key_dynamic l p) id) (map_to_list (ec_edges (dl_edges od))) (fun b x => am_edge_nodes _ _ b x) a2) as (N3 & D3 & L3).
    assert (Hnodes : forall x, match dl_nmap od !! x with None => ag_nodes a2 !! x = ag_nodes a !! x | Some on => dyn_merged a a2 l p od x on end).
    { intros x. destruct (dl_nmap od !! x) as [on|] eqn:Ex.
      - destruct (proj1 (dl_nmap_Some od x on Hc) Ex) as (j & Hj & Hx). rewrite Hpx in Hx. specialize (E5 j on Hj). rewrite Nat.add_0_l, <- Hx, C1 in E5.
        unfold dyn_merged. destruct (ag_nodes a !! x) as [an|]; [exact E5|]. destruct E5 as (d & Hsh & He). exists d. split; [|exact He].
        unfold dshift, dnext. rewrite Hn0. cbn [fst]. destruct Hsh as [[Hz ->]|[Hz (on' & an & X1 & X2 & ->)]].
        + left. split; [lia|reflexivity].
        + right. split; [lia|]. exists on', an. rewrite C1 in X2. split; [|split; [exact X2|reflexivity]].
          apply (dl_nmap_Some od _ on' Hc). exists (N.to_nat n0 - 1 - 0)%nat. split; [exact X1|]. rewrite Hpx. f_equal. lia.
      - rewrite E4; [rewrite C1; reflexivity|]. intros j Hj Hx.
        destruct (lookup_lt_is_Some_2 (dl_nodes od) j Hj) as [slot Hslot]. destruct (proj1 Hsl j slot Hslot) as (on & tm & -> & _).
        assert (Hsome : dl_nmap od !! x = Some on); [|congruence]. apply (dl_nmap_Some od x on Hc). exists j. rewrite Hpx. split; [exact Hslot|exact Hx]. }
    split; [|split; [|split; [|split]]].
    - intros x. specialize (Hnodes x). unfold dyn_merged in Hnodes |- *. rewrite N3. exact Hnodes.
    - congruence.
    - intros q Hq. rewrite D3, E3, C4 by exact Hq. reflexivity.
    - eapply ER_trans; [apply ER_same; rewrite E1; exact C2|]. apply am_edges_ER.
    - intros K e He. destruct (Hedge K e He) as (_ & HK & Hne & _ & Hs & Ht & _).
      assert (Hkeys : forall x, is_Some (dl_nmap od !! x) -> a_key a2 x = Some (key_dynamic l p)).
      { intros x [on Hx]. destruct (proj1 (dl_nmap_Some od x on Hc) Hx) as (j & Hj & Hxj). rewrite Hpx in Hxj.
        destruct (proj1 Hsl j _ Hj) as (on' & tm & [= <-] & _ & _ & Hk). cbn [Nat.add] in Hk. rewrite <- Hxj in Hk.
        specialize (Hnodes x). rewrite Hx in Hnodes. unfold dyn_merged in Hnodes. unfold a_key in Hk |- *.
        destruct (ag_nodes a !! x) as [an|].
        - rewrite Hnodes. cbn. destruct (decide _); [exact Hk|]. destruct Hk as [[=] _].
        - destruct Hnodes as (d & _ & ->). reflexivity. }
      rewrite HK. destruct (am_edges_links (key_dynamic l p) id (map_to_list (ec_edges (dl_edges od))) a2 (K, e)) as [[_ H]|H];
        [apply elem_of_map_to_list; exact He|split; apply Hkeys; assumption|exact Hne|exact H|exact H].
  Qed.
End DynLayers.

Section DynLoop.
  Context (vadd vsub : Vec3 -> Vec3 -> Vec3) (cfg : MergeConfig).
  Context (other : Graph) (ao : AGraph) (HRo : Rep other ao).
  Local Notation am_dl := (am_dlayer vadd vsub cfg).
  Definition dkey (x : LayerId * N * DLayer) : LayerId * N := fst x.
  Definition from_other (h : N -> N) (k : EdgeKey) (e : Edge) : Prop :=
    exists k0 e0, ag_edges ao !! k0 = Some e0 /\ e = image h e0 /\ k = edge_key (e_src e) (e_tgt e).
  (** Both ends in one dynamic layer of the other graph. *)
  Definition dyn_intra (e0 : Edge) : Prop := exists l p, both ao (key_dynamic l p) (e_src e0) (e_tgt e0).
  Definition from_dyn (k : EdgeKey) (e : Edge) : Prop :=
    exists k0 e0, ag_edges ao !! k0 = Some e0 /\ dyn_intra e0 /\ e = image id e0 /\ k = edge_key (e_src e) (e_tgt e).
  Definition from_rest (h : N -> N) (k : EdgeKey) (e : Edge) : Prop :=
    exists k0 e0, ag_edges ao !! k0 = Some e0 /\ ~ dyn_intra e0 /\ e = image h e0 /\ k = edge_key (e_src e) (e_tgt e).

  Lemma key_dynamic_inj l p l' p' : key_dynamic l p = key_dynamic l' p' -> (l, p) = (l', p').
  Proof using. unfold key_dynamic. intros [= -> ->]. reflexivity. Qed.
  Lemma an_key_inj k t b k' t' b' : Some (mkAN k t b) = Some (mkAN k' t' b') -> k = k'.
  Proof using. intros [= -> _ _]. reflexivity. Qed.

  (** Another layer does not disturb what a layer needs. *)
  Lemma dyn_pre_step a l p od l' p' od' : g_dlayer other l p = Some od -> dyn_pre a (l, p, od) ->
    g_dlayer other l' p' = Some od' -> (l', p') <> (l, p) -> dyn_pre a (l', p', od') -> dyn_pre (am_dl a (l, p, od)) (l', p', od').
  Proof using HRo.
    intros Hd Hpre Hd' Hne (n0 & Hn0 & Hsl). destruct (dlayer_eff vadd vsub cfg other ao HRo a l p od Hd Hpre) as (HN & _ & HD & _ & _).
    destruct (od_facts other ao HRo l p od Hd) as (_ & _ & _ & _ & Hnode & _).
    destruct (od_facts other ao HRo l' p' od' Hd') as (Hc' & Hpx' & _ & _ & Hnode' & _).
    exists n0. split; [rewrite HD by exact Hne; exact Hn0|]. destruct Hsl as [H1 H2]. split; [|exact H2].
    intros j slot Hj. destruct (H1 j slot Hj) as (on & tm & -> & Ht & H32 & Hk). exists on, tm. split; [reflexivity|]. split; [exact Ht|]. split; [exact H32|].
    cbn [Nat.add] in *. set (x := prefix_make_id p' (N.of_nat j)) in *.
    assert (Hx : dl_nmap od' !! x = Some on) by (apply (dl_nmap_Some od' x on Hc'); exists j; rewrite Hpx'; auto).
    assert (Hxo : dl_nmap od !! x = None).
    { destruct (dl_nmap od !! x) as [on'|] eqn:E; [|reflexivity]. apply Hnode in E. apply Hnode' in Hx. exfalso. apply Hne. rewrite Hx in E. apply an_key_inj, key_dynamic_inj in E. exact E. }
    pose proof (HN x) as HNx. rewrite Hxo in HNx.
    assert (Hkx : a_key (am_dl a (l, p, od)) x = a_key a x) by (unfold a_key; rewrite HNx; reflexivity).
    rewrite Hkx. destruct (decide _) as [|_]; [exact Hk|]. destruct Hk as [K1 K2]. split; [exact K1|]. intros Hu. apply K2.
    apply map_Exists_lookup in Hu as (y & n & Hy & Hyk & Hyt). apply map_Exists_lookup. exists y.
    specialize (HN y). destruct (dl_nmap od !! y) as [on'|] eqn:Ey; [|rewrite HN in Hy; eauto].
    unfold dyn_merged in HN. destruct (ag_nodes a !! y) as [an|].
    - rewrite HN in Hy. injection Hy as <-. cbn in Hyk, Hyt. eauto.
    - destruct HN as (d & _ & HN). rewrite HN in Hy. injection Hy as <-. cbn [an_key dyn_new] in Hyk. exfalso. apply Hne. symmetry. apply key_dynamic_inj. exact Hyk.
  Qed.

  Lemma dlayers_loop xs : NoDup (map dkey xs) -> (forall l p od, (l, p, od) ∈ xs -> g_dlayer other l p = Some od) ->
    forall g a, Rep g a -> (forall x, x ∈ xs -> dyn_pre a x) ->
    let a' := fold_left am_dl xs a in
    exists g', rfold (g_merge_dlayer1 vadd vsub cfg) xs g = Ok g' /\ Rep g' a' /\ g_layer_ids g' = g_layer_ids g /\ g_layers g' = g_layers g /\
      (forall x, (forall l p od, (l, p, od) ∈ xs -> dl_nmap od !! x = None) -> ag_nodes a' !! x = ag_nodes a !! x) /\
      (forall l p od x on, (l, p, od) ∈ xs -> dl_nmap od !! x = Some on -> dyn_merged vadd vsub cfg a a' l p od x on) /\
      ag_layers a' = ag_layers a /\
      ER (fun _ => False) from_dyn a a' /\
      (forall l p od K e, (l, p, od) ∈ xs -> ec_edges (dl_edges od) !! K = Some e -> is_Some (ag_edges a' !! K)) /\
      (forall q, (forall od, (q, od) ∉ xs) -> ag_dyn a' !! q = ag_dyn a !! q) /\
      (forall l p od, (l, p, od) ∈ xs -> let m := N.max (dnext a l p) (dl_size od) in ag_dyn a' !! (l, p) = Some (m, m)).
  Proof using HRo.
    induction xs as [|[[l p] od] r IH]; intros Hnd Hin g a HR Hpre; cbn [fold_left rfold].
    - exists g. split; [reflexivity|]. split; [exact HR|]. split; [reflexivity|]. split; [reflexivity|]. split; [reflexivity|].
      split; [intros l p od x on H; inversion H|]. split; [reflexivity|]. split; [apply ER_same; reflexivity|]. split; [intros l p od K e H; inversion H|].
      split; [reflexivity|]. intros l p od H; inversion H.
    - cbn [map] in Hnd. apply stdpp.list.NoDup_cons in Hnd as [Hk Hnd].
      pose proof (Hin l p od (elem_of_list_here _ _)) as Hd. pose proof (Hpre _ (elem_of_list_here _ _)) as Hp0.
      pose proof Hp0 as (n0 & Hn0 & Hsl).
      destruct (od_facts other ao HRo l p od Hd) as (Hc & Hpx & Hok & HP & Hnode & Hedge).
      destruct (dmerge_layer1 vadd vsub cfg g a l p od n0 HR Hok Hn0 Hsl) as (g1 & -> & HR1 & I1 & Y1 & DS).
      { intros K e He. apply (Hedge K e He). }
      cbn [rbind]. destruct (dlayer_eff vadd vsub cfg other ao HRo a l p od Hd Hp0) as (HN & HL & HD & HE & HK).
      set (a1 := am_dl a (l, p, od)) in *.
      assert (Hne : forall l' p' od', (l', p', od') ∈ r -> (l', p') <> (l, p)).
      { intros l' p' od' H E. apply Hk. apply elem_of_list_In, in_map_iff. exists (l', p', od'). split; [exact E|apply elem_of_list_In; exact H]. }
      destruct (IH Hnd) with (g := g1) (a := a1) as (g' & E' & HR' & I' & Y' & N' & M' & L' & ER' & K' & DF' & DS').
      { intros l' p' od' H. apply Hin. right. exact H. }
      { exact HR1. }
      { intros [[l' p'] od'] H. apply dyn_pre_step; [exact Hd|exact Hp0|apply Hin; right; exact H|exact (Hne _ _ _ H)|apply Hpre; right; exact H]. }
      assert (Hdisj : forall l' p' od' x, (l', p', od') ∈ r -> is_Some (dl_nmap od' !! x) -> dl_nmap od !! x = None).
      { intros l' p' od' x H [on' Hx]. destruct (dl_nmap od !! x) as [on|] eqn:E; [|reflexivity]. exfalso. apply (Hne _ _ _ H).
        apply Hnode in E. destruct (od_facts other ao HRo l' p' od' (Hin _ _ _ (elem_of_list_further _ _ _ H))) as (_ & _ & _ & _ & Hnode' & _).
        apply Hnode' in Hx. rewrite Hx in E. apply an_key_inj, key_dynamic_inj in E. exact E. }
      exists g'. split; [exact E'|]. split; [exact HR'|]. split; [congruence|]. split; [congruence|]. split; [|split; [|split; [congruence|split; [|split; [|split]]]]].
      + intros x Hx. rewrite N'.
        * specialize (HN x). rewrite (Hx l p od (elem_of_list_here _ _)) in HN. exact HN.
        * intros l' p' od' H. apply (Hx l' p'). right. exact H.
      + intros l' p' od' x on H Hx. apply elem_of_cons in H as [H|H].
        * injection H as -> -> ->. specialize (HN x). rewrite Hx in HN.
          assert (Hsame : ag_nodes (fold_left am_dl r a1) !! x = ag_nodes a1 !! x).
          { apply N'. intros l2 p2 od2 H2. destruct (dl_nmap od2 !! x) eqn:E2; [|reflexivity]. exfalso.
            rewrite (Hdisj l2 p2 od2 x H2 ltac:(rewrite E2; eauto)) in Hx. discriminate. }
          unfold dyn_merged in HN |- *. rewrite Hsame. exact HN.
        * specialize (M' l' p' od' x on H Hx). unfold dyn_merged in M' |- *.
          assert (Hx1 : forall y, is_Some (dl_nmap od' !! y) -> ag_nodes a1 !! y = ag_nodes a !! y).
          { intros y Hy. specialize (HN y). rewrite (Hdisj _ _ _ y H Hy) in HN. exact HN. }
          rewrite (Hx1 x ltac:(eauto)) in M'. destruct (ag_nodes a !! x) as [an|]; [exact M'|].
          destruct M' as (d & Hsh & He). exists d. split; [|exact He]. unfold dshift, dnext in Hsh |- *.
          rewrite (HD (l', p') (Hne _ _ _ H)) in Hsh. destruct Hsh as [Hsh|[Hz (on' & an & X1 & X2 & X3)]]; [left; exact Hsh|].
          right. split; [exact Hz|]. exists on', an. split; [exact X1|]. split; [|exact X3]. rewrite Hx1 in X2 by (rewrite X1; eauto). exact X2.
      + eapply ER_trans; [|exact ER']. eapply ER_weaken; [intros ? H; exact H| |exact HE].
        intros k e ([k0 e0] & H1 & H2 & H3). apply elem_of_map_to_list in H1. exists k0, e0. destruct (Hedge k0 e0 H1) as (X1 & _ & _ & X2 & _). split; [exact X1|]. split; [exists l, p; exact X2|]. auto.
      + intros l' p' od' K e H He. apply elem_of_cons in H as [H|H]; [|exact (K' _ _ _ _ _ H He)]. injection H as -> -> ->.
        specialize (HK K e He). rewrite (ER_kept _ _ _ _ K ER'); [exact HK|tauto|exact HK].
      + intros q Hq. rewrite DF'; [|intros od' H; apply (Hq od'); right; exact H]. apply HD. intros ->. apply (Hq od). left.
      + intros l' p' od' H. cbv zeta. apply elem_of_cons in H as [H|H].
        * injection H as -> -> ->. rewrite DF'; [|intros od' H; exact (Hne _ _ _ H eq_refl)].
          unfold a1, am_dlayer. destruct (fold_same (am_edge (key_dynamic l p) id) (map_to_list (ec_edges (dl_edges od))) (fun b x => am_edge_nodes _ _ b x)
            (am_dnodes vadd vsub cfg l p (dl_nodes od) (snd (a_create_dyn a l p)))) as (_ & D3 & _).
          rewrite D3, DS. unfold dnext. rewrite Hn0. reflexivity.
        * pose proof (DS' l' p' od' H) as HS. cbv zeta in HS. rewrite HS. unfold dnext. rewrite (HD (l', p') (Hne _ _ _ H)). reflexivity.
  Qed.
End DynLoop.
