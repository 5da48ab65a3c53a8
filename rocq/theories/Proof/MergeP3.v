(** mergeGraph, dynamic layers: the node loop of [dl_merge_layer] and the loop over layers. *)
From Coq Require Import NArith ZArith Bool List Lia.
From stdpp Require Import base list gmap fin_maps tactics.
From Verif.Model Require Import Types Mesh Attrs Node EdgeContainer SLayer DLayer Graph.
From Verif.Spec Require Import AbstractGraph GraphHistory.
From Verif.Proof Require Import Arith Keys SLayerP SLayerMerge DLayerP DLayerOps GraphRep GraphEdges GraphAttrs GraphNodes GraphRemove GraphSim LayerRep StatusFrame MergeP1 MergeP2.
Local Open Scope N_scope.
#[local] Arguments edge_key : simpl never.

Lemma dl_upd_at d i f g' n : dl_slot d i = Some (Some n) -> f n = g' n -> dl_upd d i f = dl_upd d i g'.
Proof. intros H E. unfold dl_upd. rewrite H, E. reflexivity. Qed.

Section Nodes.
  Context (vadd vsub : Vec3 -> Vec3 -> Vec3) (cfg : MergeConfig).
  Definition am_dnode (l : LayerId) (p : N) (st : AGraph * Vec3) (x : N * option Node) : AGraph * Vec3 :=
    let '(a, delta) := st in
    let '(i, slot) := x in
    let id := prefix_make_id p i in
    match slot with
    | None => st
    | Some on =>
      match ag_nodes a !! id with
      | Some an =>
        let pos := attrs_position (an_attrs an) in
        (if mc_update_dynamic cfg
         then a_add_node a id (mkAN (an_key an) (an_time an) (attrs_set_position (n_attrs on) pos)) else a,
         vsub pos (attrs_position (n_attrs on)))
      | None =>
        let '(next, slots) := default (0, 0) (ag_dyn a !! (l, p)) in
        (a_with_dyn (a_add_node a id (mkAN (key_dynamic l p) (n_time on)
            (attrs_set_position (n_attrs on) (vadd (attrs_position (n_attrs on)) delta))))
           (<[(l, p) := (next + 1, slots + 1)]> (ag_dyn a)), delta)
      end
    end.

  Section Loop.
  Context (g : Graph) (l : LayerId) (p : N).
  Lemma dmerge_node_old d lk a delta i on : Rep (putd g l p d lk) a -> i < two32 -> i < dl_next d ->
    a_key a (prefix_make_id p i) = Some (key_dynamic l p) ->
    exists d', dl_merge_node1 vadd vsub cfg (mkDMerge d lk delta) (i, Some on) = Ok (mkDMerge d' lk (snd (am_dnode l p (a, delta) (i, Some on)))) /\
      Rep (putd g l p d' lk) (fst (am_dnode l p (a, delta) (i, Some on))) /\ dl_next d' = dl_next d /\ dl_size d' = dl_size d.
  Proof.
    intros HR Hi32 Hi Hk. destruct (putd_wf g l p d lk a HR) as (Hc & Hwf & Hid & Hp & Hs & Hp32 & _).
    set (id := prefix_make_id p i) in *.
    rewrite (putd_key g l p d lk a HR) in Hk. apply (putd_home g l p d lk a HR) in Hk as [n Hn].
    assert (Hix : prefix_index id = i) by (apply make_id_index; assumption).
    destruct (dl_nmap_slot d id n Hc Hn) as (Hsl & _). rewrite Hix, <- dl_slot_lookup in Hsl.
    destruct (putd_attrs g l p d lk a HR id n (attrs_set_position (n_attrs on) (attrs_position (n_attrs n))) Hn) as (d' & an & E & A1 & A2 & A3 & A4 & HR' & Hsame & _).
    unfold dl_merge_node1, am_dnode. cbn [deref rbind dm_layer dm_lookup dm_delta]. fold id. rewrite (proj2 (N.ltb_lt _ _) Hi), Hsl.
    rewrite A1, A4. destruct (mc_update_dynamic cfg); cbn [negb fst snd].
    - rewrite Hix in E. rewrite E. cbn [rbind]. exists d'. split; [reflexivity|]. split; [exact HR'|].
      destruct Hsame as (S1 & S2 & S3 & S4 & S5 & S6). split; [exact S5|unfold dl_size; rewrite S6; reflexivity].
    - exists d. auto.
  Qed.

  Lemma dmerge_node_new d lk a delta i on tm : Rep (putd g l p d lk) a -> i < two32 -> dl_next d = i -> dl_size d = i ->
    n_time on = Some tm -> ~ a_time_used a l p tm -> lk !! prefix_make_id p i = None ->
    exists d', dl_merge_node1 vadd vsub cfg (mkDMerge d lk delta) (i, Some on) =
        Ok (mkDMerge d' (<[prefix_make_id p i := key_dynamic l p]> lk) (snd (am_dnode l p (a, delta) (i, Some on)))) /\
      Rep (putd g l p d' (<[prefix_make_id p i := key_dynamic l p]> lk)) (fst (am_dnode l p (a, delta) (i, Some on))) /\
      dl_next d' = i + 1 /\ dl_size d' = i + 1.
  Proof.
    intros HR Hi32 Hn Hs Ht Hu Hx. destruct (putd_wf g l p d lk a HR) as (Hc & Hwf & Hid & Hp & Hsub & Hp32 & _).
    pose proof (putd_key g l p d lk a HR) as HK. pose proof (putd_info g l p d lk a HR) as HI.
    destruct (putd_add g l p d lk a HR tm (n_attrs on)) as (d1 & E1 & HR1 & N1 & S1 & M1); [congruence|congruence|exact Hu|rewrite Hn; exact Hx|].
    rewrite Hn, Hs in *. set (id := prefix_make_id p i) in *.
    assert (Hix : prefix_index id = i) by (apply make_id_index; assumption).
    assert (Han : ag_nodes a !! id = None).
    { specialize (HK id). rewrite Hx in HK. unfold a_key in HK. destruct (ag_nodes a !! id); [discriminate|reflexivity]. }
    unfold dl_merge_node1, am_dnode. cbn [deref rbind dm_layer dm_lookup dm_delta]. fold id. rewrite Hn, N.ltb_irrefl, Ht. cbn [at_ rbind].
    rewrite E1. cbn [rbind]. rewrite S1. replace (i + 1 - 1) with i by lia. rewrite (proj2 (N.eqb_neq (i + 1) 0)) by lia.
    rewrite Han, HI. cbn [default fst snd].
    destruct (putd_wf g l p d1 _ _ HR1) as (Hc1 & _ & Hid1 & Hp1 & _).
    destruct (dl_nmap_slot d1 id _ Hc1 M1) as (Hsl & _). rewrite Hix, <- dl_slot_lookup in Hsl.
    set (at1 := attrs_set_position (n_attrs on) (vadd (attrs_position (n_attrs on)) delta)).
    rewrite (dl_upd_at d1 i _ (set_attrs at1) _ Hsl) by reflexivity.
    destruct (putd_attrs g l p d1 _ _ HR1 id _ at1 M1) as (d2 & an & E2 & A1 & A2 & A3 & A4 & HR2 & Hsame & Hm2).
    rewrite Hix in E2. rewrite E2. cbn [rbind].
    destruct (putd_wf g l p d2 _ _ HR2) as (Hc2 & _ & Hid2 & Hp2 & _).
    assert (M2 : dl_nmap d2 !! id = Some (set_attrs at1 (node_new id l (Some tm) (n_attrs on)))).
    { rewrite Hm2, lookup_alter, M1. reflexivity. }
    destruct (dl_nmap_slot d2 id _ Hc2 M2) as (Hsl2 & _). rewrite Hix, <- dl_slot_lookup in Hsl2. rewrite Hsl2.
    change (n_id (set_attrs at1 (node_new id l (Some tm) (n_attrs on)))) with id. rewrite Hx, Hid2, Hp2.
    exists d2. split; [reflexivity|]. destruct Hsame as (T1 & T2 & T3 & T4 & T5 & T6).
    split; [|split; [congruence|unfold dl_size in *; rewrite T6; exact S1]].
    cbn [a_with_dyn a_add_node a_with_nodes ag_nodes ag_layers ag_dyn ag_edges] in A1. rewrite lookup_insert in A1. injection A1 as <-.
    cbn [an_key an_time] in HR2. unfold a_add_node, a_with_dyn, a_with_nodes in HR2 |- *; cbn [ag_nodes ag_layers ag_dyn ag_edges] in HR2 |- *.
    rewrite insert_insert in HR2. exact HR2.
  Qed.

  Definition idx_from (i : nat) (xs : list (option Node)) : list (N * option Node) := combine (map N.of_nat (seq i (length xs))) xs.
  Lemma idx_cons i x xs : idx_from i (x :: xs) = (N.of_nat i, x) :: idx_from (S i) xs.
  Proof. reflexivity. Qed.

  (** What the other layer's slots must satisfy, relative to a state where indices below [n0] are taken. *)
  Definition slots_ok (a : AGraph) (n0 : N) (i : nat) (xs : list (option Node)) : Prop :=
    (forall j slot, xs !! j = Some slot -> exists on tm, slot = Some on /\ n_time on = Some tm /\
      N.of_nat (i + j) < two32 /\
      (if decide (N.of_nat (i + j) < n0) then a_key a (prefix_make_id p (N.of_nat (i + j))) = Some (key_dynamic l p)
       else a_key a (prefix_make_id p (N.of_nat (i + j))) = None /\ ~ a_time_used a l p tm)) /\
    (forall j j' on on', xs !! j = Some (Some on) -> xs !! j' = Some (Some on') -> n_time on = n_time on' -> j = j').

  Lemma time_used_add_dyn a id n d t : ~ (an_key n = key_dynamic l p /\ an_time n = Some t) ->
    (a_time_used (a_with_dyn (a_add_node a id n) d) l p t -> a_time_used a l p t).
  Proof.
    intros Hn (y & m & Hy & Hm)%map_Exists_lookup. cbn in Hy. destruct (decide (id = y)) as [<-|Hne].
    - rewrite lookup_insert in Hy. injection Hy as <-. contradiction.
    - rewrite lookup_insert_ne in Hy by assumption. apply map_Exists_lookup. eauto.
  Qed.
  Lemma time_used_set a id an at0 t : ag_nodes a !! id = Some an ->
    a_time_used (a_add_node a id (mkAN (an_key an) (an_time an) at0)) l p t -> a_time_used a l p t.
  Proof.
    intros Ha (y & m & Hy & Hm)%map_Exists_lookup. cbn in Hy. apply map_Exists_lookup. destruct (decide (id = y)) as [<-|Hne].
    - rewrite lookup_insert in Hy. injection Hy as <-. eauto.
    - rewrite lookup_insert_ne in Hy by assumption. eauto.
  Qed.

  Lemma dmerge_nodes_loop n0 xs : forall i d lk a delta, Rep (putd g l p d lk) a ->
    dl_next d = N.max n0 (N.of_nat i) -> dl_size d = N.max n0 (N.of_nat i) -> slots_ok a n0 i xs ->
    let r := fold_left (am_dnode l p) (idx_from i xs) (a, delta) in
    exists d' lk', rfold (dl_merge_node1 vadd vsub cfg) (idx_from i xs) (mkDMerge d lk delta) = Ok (mkDMerge d' lk' (snd r)) /\
      Rep (putd g l p d' lk') (fst r) /\
      dl_next d' = N.max n0 (N.of_nat (i + length xs)) /\ dl_size d' = N.max n0 (N.of_nat (i + length xs)).
  Proof.
    induction xs as [|x r IH]; intros i d lk a delta HR Hn Hs [Hok Hinj].
    - cbn. exists d, lk. rewrite Nat.add_0_r. auto.
    - destruct (Hok 0%nat x eq_refl) as (on & tm & -> & Ht & H32 & Hk). rewrite Nat.add_0_r in H32, Hk.
      rewrite idx_cons. cbn [rfold fold_left length].
      destruct (putd_wf g l p d lk a HR) as (Hc & _ & _ & Hp & _ & Hp32 & _).
      assert (Hids : forall j, (S j < length (Some on :: r))%nat -> N.of_nat (i + S j) < two32 -> prefix_make_id p (N.of_nat (i + S j)) <> prefix_make_id p (N.of_nat i)).
      { intros j _ Hj E. apply make_id_inj in E; [lia|exact Hp32|exact Hj|exact H32]. }
      assert (Hstep : exists d1 lk1, dl_merge_node1 vadd vsub cfg (mkDMerge d lk delta) (N.of_nat i, Some on) =
          Ok (mkDMerge d1 lk1 (snd (am_dnode l p (a, delta) (N.of_nat i, Some on)))) /\
          Rep (putd g l p d1 lk1) (fst (am_dnode l p (a, delta) (N.of_nat i, Some on))) /\
          dl_next d1 = N.max n0 (N.of_nat (S i)) /\ dl_size d1 = N.max n0 (N.of_nat (S i)) /\
          slots_ok (fst (am_dnode l p (a, delta) (N.of_nat i, Some on))) n0 (S i) r).
      { assert (Hinj' : forall j j' on on', r !! j = Some (Some on) -> r !! j' = Some (Some on') -> n_time on = n_time on' -> j = j').
        { intros j j' o o' H1 H2 H3. specialize (Hinj (S j) (S j') o o' H1 H2 H3). lia. }
        destruct (decide (N.of_nat i < n0)) as [Hlt|Hge].
        - destruct (dmerge_node_old d lk a delta (N.of_nat i) on HR H32) as (d1 & E & HR1 & N1 & S1); [rewrite Hn; lia|exact Hk|].
          exists d1, lk. split; [exact E|]. split; [exact HR1|]. split; [rewrite N1, Hn; lia|]. split; [rewrite S1, Hs; lia|]. split; [|exact Hinj'].
          intros j slot Hj. destruct (Hok (S j) slot Hj) as (o & t & -> & Ho & Hj32 & Hkj). exists o, t. split; [reflexivity|]. split; [exact Ho|].
          replace (S i + j)%nat with (i + S j)%nat by lia. split; [exact Hj32|].
          assert (Hne := Hids j ltac:(apply lookup_lt_Some in Hj; cbn; lia) Hj32).
          assert (Han : exists an, ag_nodes a !! prefix_make_id p (N.of_nat i) = Some an).
          { unfold a_key in Hk. destruct (ag_nodes a !! prefix_make_id p (N.of_nat i)); [eauto|discriminate]. }
          destruct Han as [an Han]. cbn [am_dnode fst]. rewrite Han. cbn [fst].
          assert (HK : forall b : bool, a_key (if b then a_add_node a (prefix_make_id p (N.of_nat i)) (mkAN (an_key an) (an_time an) (attrs_set_position (n_attrs on) (attrs_position (an_attrs an)))) else a) (prefix_make_id p (N.of_nat (i + S j))) = a_key a (prefix_make_id p (N.of_nat (i + S j)))).
          { intros []; [|reflexivity]. unfold a_key; cbn. rewrite lookup_insert_ne by congruence. reflexivity. }
          rewrite HK. destruct (decide _); [exact Hkj|]. destruct Hkj as [H1 H2]. split; [exact H1|].
          destruct (mc_update_dynamic cfg); [|exact H2]. intros H3. apply H2. eapply time_used_set; eassumption.
        - destruct Hk as [Hk Hu]. rewrite (putd_key g l p d lk a HR) in Hk.
          destruct (dmerge_node_new d lk a delta (N.of_nat i) on tm HR H32) as (d1 & E & HR1 & N1 & S1); try assumption; [rewrite Hn; lia|rewrite Hs; lia|].
          eexists d1, _. split; [exact E|]. split; [exact HR1|]. split; [rewrite N1; lia|]. split; [rewrite S1; lia|]. split; [|exact Hinj'].
          intros j slot Hj. destruct (Hok (S j) slot Hj) as (o & t & -> & Ho & Hj32 & Hkj). exists o, t. split; [reflexivity|]. split; [exact Ho|].
          replace (S i + j)%nat with (i + S j)%nat by lia. split; [exact Hj32|].
          assert (Hne := Hids j ltac:(apply lookup_lt_Some in Hj; cbn; lia) Hj32).
          assert (Han : ag_nodes a !! prefix_make_id p (N.of_nat i) = None).
          { rewrite <- (putd_key g l p d lk a HR) in Hk. unfold a_key in Hk. destruct (ag_nodes a !! prefix_make_id p (N.of_nat i)); [discriminate|reflexivity]. }
          cbn [am_dnode fst]. rewrite Han. destruct (default (0, 0) (ag_dyn a !! (l, p))) as [nx sl]. cbn [fst].
          rewrite decide_False in Hkj |- * by lia. destruct Hkj as [H1 H2]. split.
          + unfold a_key; cbn. rewrite lookup_insert_ne by congruence. exact H1.
          + intros H3. apply H2. eapply time_used_add_dyn; [|exact H3]. intros [_ H4]. cbn in H4.
            assert (Heq : n_time on = n_time o) by congruence. specialize (Hinj 0%nat (S j) on o eq_refl Hj Heq). discriminate. }
      destruct Hstep as (d1 & lk1 & -> & HR1 & N1 & S1 & Hok1). cbn [rbind].
      destruct (am_dnode l p (a, delta) (N.of_nat i, Some on)) as [a1 delta1]. cbn [fst snd] in HR1, Hok1.
      specialize (IH (S i) d1 lk1 a1 delta1 HR1 N1 S1 Hok1). cbv zeta in IH. destruct IH as (d' & lk' & E & HR' & N' & S').
      exists d', lk'. replace (i + S (length r))%nat with (S i + length r)%nat by lia. auto.
  Qed.
  End Loop.
End Nodes.

(** *** One dynamic layer *)
Section Layer.
  Context (vadd vsub : Vec3 -> Vec3 -> Vec3) (cfg : MergeConfig).
  Definition am_dnodes (l : LayerId) (p : N) (xs : list (option Node)) (a : AGraph) : AGraph :=
    fst (fold_left (am_dnode vadd vsub cfg l p) (idx_from 0 xs) (a, mkVec3 0 0 0)).
  Definition am_dlayer (a : AGraph) (x : LayerId * N * DLayer) : AGraph :=
    let '(l, p, od) := x in
    fold_left (am_edge (key_dynamic l p) id) (map_to_list (ec_edges (dl_edges od)))
      (am_dnodes l p (dl_nodes od) (snd (a_create_dyn a l p))).
  Definition g_merge_dlayer1 (g : Graph) (x : LayerId * N * DLayer) : result Graph :=
    let '(l, p, od) := x in
    let g1 := snd (g_create_dlayer g l p) in
    let! d := deref (g_dlayer g1 l p) in
    let! (d', lk) := dl_merge_layer vadd vsub cfg d od (g_lookup g1) in
    Ok (g_with_lookup (g_set_dlayer g1 l p d') lk).

  Lemma create_dyn_nodes a l p : ag_nodes (snd (a_create_dyn a l p)) = ag_nodes a /\ ag_edges (snd (a_create_dyn a l p)) = ag_edges a /\
    ag_layers (snd (a_create_dyn a l p)) = ag_layers a.
  Proof. unfold a_create_dyn. destruct (ag_dyn a !! (l, p)); auto. Qed.
  Lemma slots_ok_nodes l p a a' n0 i xs : ag_nodes a' = ag_nodes a -> slots_ok l p a n0 i xs -> slots_ok l p a' n0 i xs.
  Proof. unfold slots_ok, a_time_used, a_key. intros ->. auto. Qed.

  Lemma dmerge_layer1 g a l p od n0 : Rep g a -> dyn_ok l p -> default (0, 0) (ag_dyn a !! (l, p)) = (n0, n0) ->
    slots_ok l p a n0 0 (dl_nodes od) ->
    (forall x e, ec_edges (dl_edges od) !! x = Some e -> e_src e < two64 /\ e_tgt e < two64) ->
    exists g', g_merge_dlayer1 g (l, p, od) = Ok g' /\ Rep g' (am_dlayer a (l, p, od)) /\
      g_layer_ids g' = g_layer_ids g /\ g_layers g' = g_layers g /\
      ag_dyn (am_dnodes l p (dl_nodes od) (snd (a_create_dyn a l p))) !! (l, p) = Some (N.max n0 (dl_size od), N.max n0 (dl_size od)).
  Proof.
    intros HR Hok Hn0 Hslots Hends. unfold g_merge_dlayer1, am_dlayer.
    destruct (create_dyn_ok g a l p HR Hok) as (HR1 & _ & Hlk1 & Hly1).
    destruct (g_dlayer_created g l p) as (d & Hd & _).
    set (g1 := snd (g_create_dlayer g l p)) in *. set (a1 := snd (a_create_dyn a l p)) in *.
    assert (Hids : g_layer_ids g1 = g_layer_ids g) by (unfold g1, g_create_dlayer; destruct (g_has_dlayer g l p); reflexivity).
    rewrite Hd. cbn [deref rbind].
    assert (HRp : Rep (putd g1 l p d (g_lookup g1)) a1) by (rewrite putd_same by exact Hd; exact HR1).
    assert (HI : ag_dyn a1 !! (l, p) = Some (n0, n0)).
    { unfold a1, a_create_dyn. destruct (ag_dyn a !! (l, p)) as [q|] eqn:E; cbn [snd]; [cbn in Hn0; rewrite E; congruence|].
      cbn in Hn0 |- *. rewrite lookup_insert. congruence. }
    pose proof (putd_info g1 l p d _ a1 HRp) as HI'. rewrite HI in HI'. injection HI' as Hn Hs.
    assert (Hsl : slots_ok l p a1 n0 0 (dl_nodes od)) by (eapply slots_ok_nodes; [apply create_dyn_nodes|exact Hslots]).
    destruct (dmerge_nodes_loop vadd vsub cfg g1 l p n0 (dl_nodes od) 0 d (g_lookup g1) a1 (mkVec3 0 0 0) HRp) as (d2 & lk2 & E2 & HR2 & N2 & S2); [lia|lia|exact Hsl|].
    unfold dl_merge_layer. fold (idx_from 0 (dl_nodes od)). rewrite E2. cbn [rbind dm_layer dm_lookup].
    destruct (dmerge_edges_loop g1 l p lk2 (map_to_list (ec_edges (dl_edges od))) d2 _ HR2) as (d3 & E3 & HR3 & _).
    { intros [x e] Hx. apply elem_of_map_to_list in Hx. exact (Hends x e Hx). }
    rewrite E3. cbn [rbind]. exists (putd g1 l p d3 lk2). split; [reflexivity|]. split; [exact HR3|]. split; [exact Hids|]. split; [exact Hly1|].
    pose proof (putd_info g1 l p d2 lk2 _ HR2) as HI2. fold (am_dnodes l p (dl_nodes od) a1) in HI2. rewrite HI2, N2, S2. reflexivity.
  Qed.
End Layer.
