(** mergeGraph: the whole call. *)
From Coq Require Import NArith ZArith Bool List Lia.
From stdpp Require Import base list gmap fin_maps tactics.
From Verif.Model Require Import Types Mesh Attrs Node EdgeContainer SLayer DLayer Graph.
From Verif.Spec Require Import AbstractGraph GraphHistory.
From Verif.Proof Require Import Arith Keys SLayerP SLayerMerge DLayerP DLayerOps GraphRep GraphEdges GraphAttrs GraphNodes GraphRemove GraphSim LayerRep StatusFrame MergeP1 MergeP2 MergeP3 MergeP4 MergeP5.
Local Open Scope N_scope.
#[local] Arguments edge_key : simpl never.

Lemma edge_key_cases a b : edge_key a b = (a, b) \/ edge_key a b = (b, a).
Proof. unfold edge_key. destruct (N.le_ge_cases a b); [left|right]; f_equal; lia. Qed.

Lemma rfold_app {S X} (step : S -> X -> result S) xs ys s : rfold step (xs ++ ys) s = let! s' := rfold step xs s in rfold step ys s'.
Proof. revert s. induction xs as [|x r IH]; intros s; cbn [app rfold]; [reflexivity|]. destruct (step s x); cbn [rbind]; [apply IH|reflexivity|reflexivity]. Qed.

Section Merge.
  Context (vadd vsub : Vec3 -> Vec3 -> Vec3) (cfg : MergeConfig).
  Context (g0 other : Graph) (a0 ao : AGraph) (HR0 : Rep g0 a0) (HRo : Rep other ao).
  Local Notation f := (mc_merged_id cfg).
  Definition shared (l : LayerId) : Prop := is_Some (g_layers g0 !! l).
  (** Reported as removed by a shared static layer of [other]. *)
  Definition Rem (x : N) : Prop := exists l ol, g_layers other !! l = Some ol /\ shared l /\ x ∈ removed_ids ol.
  Definition in_layer (l : LayerId) (y : N) : Prop := a_key a0 y = Some (key_static l) \/ a_key ao y = Some (key_static l).
  Definition Cut (k : EdgeKey) : Prop := exists l ol e, g_layers other !! l = Some ol /\ shared l /\ e ∈ removed_pairs ol /\
    k = edge_key (fst e) (snd e) /\ in_layer l (fst e) /\ in_layer l (snd e).
  Definition mgl (l : LayerId) (x : N) : bool := match g_layers g0 !! l with Some s => sl_merged s x | None => false end.

  Record am_ok : Prop := {
    mo_keys : forall x k, a_key ao x = Some k -> a_key a0 x = None \/ a_key a0 x = Some k;
    mo_par : mc_enforce_parent cfg = true -> forall k e ks kt, ag_edges ao !! k = Some e -> a_key ao (e_src e) = Some ks -> a_key ao (e_tgt e) = Some kt ->
      ks <> kt -> lk_layer ks <> lk_layer kt;
    mo_merged : mc_enforce_parent cfg = true -> forall x k, a_key ao x = Some k ->
      (a_key a0 (f x) = None \/ a_key a0 (f x) = Some k) /\ (a_key ao (f x) = None \/ a_key ao (f x) = Some k);
    mo_rem : forall x, Rem x -> a_key ao x = None /\ (forall y, a_known ao y -> f y <> x) /\ static_or_none a0 x /\ no_cross_sibling a0 x;
    mo_dyn : forall l p od, g_dlayer other l p = Some od -> dyn_pre a0 (l, p, od)
  }.
  Context (HM : am_ok).

  Record MI (a : AGraph) : Prop := {
    mi_other : forall x k, a_key ao x = Some k -> a_key a x = None \/ a_key a x = Some k;
    mi_old : forall x k, a_key a0 x = Some k -> a_key a x = None \/ a_key a x = Some k;
    mi_new : forall x, a_known a x -> a_known a0 x \/ a_known ao x;
    mi_rem : forall x, Rem x -> forall v, a_linked a x v -> a_linked a0 x v;
    mi_layers : ag_layers a = ag_layers a0
  }.
  Definition evolves (a a' : AGraph) : Prop := forall x, a_key a' x = None \/ a_key a' x = a_key a x \/
    (a_key a x = None /\ a_key a' x = a_key ao x).
  Lemma key_known a x : a_known a x <-> exists k, a_key a x = Some k.
  Proof using. unfold a_known, a_key. split; [intros [n ->]; eauto|]. intros [k H]. destruct (ag_nodes a !! x); [eauto|discriminate]. Qed.

  Lemma MI_start : MI a0.
  Proof using HM. split; [apply (mo_keys HM)|auto|auto|auto|reflexivity]. Qed.
  Lemma MI_step a a' (Q : EdgeKey -> Edge -> Prop) P : MI a -> evolves a a' -> ag_layers a' = ag_layers a -> ER P Q a a' ->
    (forall x k e, Rem x -> Q k e -> key_touches x k -> False) -> MI a'.
  Proof using HM.
    intros [H1 H2 H3 H4 H5] Hev HL HE HQ. split.
    - intros x k Hk. destruct (Hev x) as [E|[E|[E1 E]]]; [auto|rewrite E; apply H1, Hk|right; congruence].
    - intros x k Hk. destruct (Hev x) as [E|[E|[E1 E]]]; [auto|rewrite E; apply H2, Hk|].
      destruct (a_key ao x) as [k'|] eqn:Ek; [|auto]. destruct (mo_keys HM x k' Ek) as [E2|E2]; [congruence|right; congruence].
    - intros x Hx. apply key_known in Hx as [k Hk]. destruct (Hev x) as [E|[E|[E1 E]]]; [congruence|apply H3, key_known; exists k; congruence|].
      right. apply key_known. exists k. congruence.
    - intros x Hx v [e Hl]. apply (H4 x Hx v). destruct (HE (edge_key x v)) as [E|[[E _]|(e' & _ & Hq & _)]]; [|congruence|].
      + unfold a_linked. rewrite <- E. eauto.
      + exfalso. apply (HQ x _ e' Hx Hq). unfold key_touches. destruct (edge_key_cases x v) as [-> | ->]; cbn; auto.
    - congruence.
  Qed.
  Lemma image_not_removed h x k e0 : (forall y, h y = y \/ h y = f y) -> Rem x -> ag_edges ao !! k = Some e0 ->
    key_touches x (edge_key (h (e_src e0)) (h (e_tgt e0))) -> False.
  Proof using HM HRo.
    intros Hh Hx He Ht. destruct (mo_rem HM x Hx) as (K1 & K2 & _).
    assert (Hl : a_linked ao (e_src e0) (e_tgt e0)) by (unfold a_linked; destruct (rp_norm _ _ HRo _ _ He) as [<- _]; eauto).
    destruct (linked_known other ao HRo _ _ Hl) as [Hs Ht'].
    assert (Hend : forall y, a_known ao y -> h y <> x).
    { intros y Hy E. destruct (Hh y) as [E1|E1]; rewrite E1 in E; [|exact (K2 y Hy E)]. subst y. apply key_known in Hy as [k' Hy]. congruence. }
    unfold key_touches in Ht. destruct (edge_key_cases (h (e_src e0)) (h (e_tgt e0))) as [E|E]; rewrite E in Ht; cbn in Ht; destruct Ht as [Ht|Ht];
      (eapply (Hend (e_src e0)); [exact Hs|exact Ht]) || (eapply (Hend (e_tgt e0)); [exact Ht'|exact Ht]).
  Qed.

  (** *** Phase 1: dynamic layers *)
  Definition all_dl : list (LayerId * N * DLayer) :=
    concat (map (fun x => map (fun y => (fst x, fst y, snd y)) (map_to_list (snd x))) (map_to_list (g_dlayers other))).
  Lemma all_dl_in l p od : (l, p, od) ∈ all_dl <-> g_dlayer other l p = Some od.
  Proof using.
    unfold all_dl, g_dlayer. rewrite elem_of_list_In, in_concat. split.
    - intros (ys & Hys & Hin). apply in_map_iff in Hys as ([l1 m] & <- & Hm). apply in_map_iff in Hin as ([p1 d1] & Heq & Hd). cbn in Heq. injection Heq as -> -> ->.
      apply elem_of_list_In, elem_of_map_to_list in Hm. apply elem_of_list_In, elem_of_map_to_list in Hd. cbn in Hd. rewrite Hm. exact Hd.
    - destruct (g_dlayers other !! l) as [m|] eqn:Em; [|discriminate]. intros Hd.
      exists (map (fun y => (l, fst y, snd y)) (map_to_list m)). split.
      + apply in_map_iff. exists (l, m). split; [reflexivity|]. apply elem_of_list_In, elem_of_map_to_list, Em.
      + apply in_map_iff. exists (p, od). split; [reflexivity|]. apply elem_of_list_In, elem_of_map_to_list, Hd.
  Qed.
  Lemma all_dl_nodup : NoDup (map dkey all_dl).
  Proof using.
    unfold all_dl. rewrite concat_map, map_map.
    generalize (NoDup_fst_map_to_list (g_dlayers other)). generalize (map_to_list (g_dlayers other)). intros xs. induction xs as [|[l m] r IH]; intros Hnd; cbn [map concat]; [constructor|].
    rewrite fmap_cons in Hnd. apply stdpp.list.NoDup_cons in Hnd as [Hl Hnd]. apply NoDup_app. split; [|split; [|apply IH, Hnd]].
    - rewrite map_map. cbn [fst snd]. assert (Heq : map (fun y : N * DLayer => dkey (l, fst y, snd y)) (map_to_list m) = map (fun p : N => (l, p)) (map_to_list m).*1); [|rewrite Heq].
      + unfold fmap, list_fmap. induction (map_to_list m) as [|y ys IHy]; cbn; [reflexivity|]. f_equal. exact IHy.
      + apply (NoDup_fmap_2 (pair l)), NoDup_fst_map_to_list.
    - intros [l1 p1] H1 H2. apply elem_of_list_In in H1, H2. apply in_map_iff in H1 as (x & Hx & H1). apply in_map_iff in H1 as (y & <- & _). cbn in Hx. injection Hx as <- <-.
      apply in_concat in H2 as (ys & Hys & H2). apply in_map_iff in Hys as ([l2 m2] & <- & Hm2). rewrite map_map in H2. apply in_map_iff in H2 as (z & Hz & _). cbn in Hz. injection Hz as -> _.
      apply Hl. apply elem_of_list_In, in_map_iff. exists (l, m2). auto.
  Qed.
  Definition a1 : AGraph := fold_left (am_dlayer vadd vsub cfg) all_dl a0.
  Record Phase1 (g1 : Graph) : Prop := {
    ph1_rep : Rep g1 a1;
    ph1_mi : MI a1;
    ph1_ids : g_layer_ids g1 = g_layer_ids g0;
    ph1_layers : g_layers g1 = g_layers g0;
    ph1_same : forall x, (forall k, a_key ao x = Some k -> lk_dynamic k = false) -> ag_nodes a1 !! x = ag_nodes a0 !! x;
    ph1_dyn : forall l p od x on, g_dlayer other l p = Some od -> dl_nmap od !! x = Some on -> dyn_merged vadd vsub cfg a0 a1 l p od x on;
    ph1_er : ER (fun _ => False) (from_dyn ao) a0 a1;
    ph1_links : forall l p od K e, g_dlayer other l p = Some od -> ec_edges (dl_edges od) !! K = Some e -> is_Some (ag_edges a1 !! K);
    ph1_dynsz : forall l p od, g_dlayer other l p = Some od -> let m := N.max (dnext a0 l p) (dl_size od) in ag_dyn a1 !! (l, p) = Some (m, m)
  }.
  Lemma phase1 : exists g1, g_merge_dlayers vadd vsub g0 other cfg = Ok g1 /\ Phase1 g1.
  Proof using HM HR0 HRo.
    destruct (dlayers_loop vadd vsub cfg other ao HRo all_dl all_dl_nodup (fun l p od H => proj1 (all_dl_in l p od) H) g0 a0 HR0)
      as (g1 & E & HR1 & I1 & Y1 & N1 & M1 & L1 & E1 & K1 & _ & DS1).
    { intros [[l p] od] H. apply (mo_dyn HM), all_dl_in, H. }
    fold a1 in *. exists g1. split; [exact E|].
    assert (Hown : forall l p od x on, g_dlayer other l p = Some od -> dl_nmap od !! x = Some on -> a_key ao x = Some (key_dynamic l p)).
    { intros l p od x on Hd Hx. destruct (od_facts other ao HRo l p od Hd) as (_ & _ & _ & _ & Hn & _). unfold a_key. rewrite (Hn x on Hx). reflexivity. }
    split; try assumption.
    - eapply (MI_step a0 a1 (from_dyn ao) (fun _ => False)); [exact MI_start| |exact L1|exact E1|].
      + intros x. destruct (a_key ao x) as [k|] eqn:Ek.
        * destruct (lk_dynamic k) eqn:Ed.
          -- pose proof Ek as Hlk. rewrite <- (rp_lookup _ _ HRo) in Hlk. pose proof (rp_canon _ _ HRo _ _ Hlk) as Hc. apply (rp_home _ _ HRo _ _ Hc) in Hlk as (L & HL & [on Hon]).
             unfold g_part in HL. rewrite Ed in HL. destruct (g_dlayer other (lk_layer k) (lk_prefix k)) as [od|] eqn:Eod; [|discriminate]. injection HL as <-.
             cbn in Hon. assert (Hin : (lk_layer k, lk_prefix k, od) ∈ all_dl) by (apply all_dl_in; exact Eod).
             pose proof (M1 _ _ _ x on Hin Hon) as Hm. unfold dyn_merged in Hm. pose proof (Hown _ _ _ _ _ Eod Hon) as Hk. rewrite Hk in Ek.
             unfold a_key. destruct (ag_nodes a0 !! x) as [an|]; [right; left; rewrite Hm; reflexivity|].
             destruct Hm as (d & _ & ->). right; right. split; [reflexivity|]. cbn. exact Ek.
          -- right; left. unfold a_key. rewrite N1; [reflexivity|]. intros l p od Hin. destruct (dl_nmap od !! x) as [on|] eqn:Eo; [|reflexivity].
             apply all_dl_in in Hin. pose proof (Hown _ _ _ _ _ Hin Eo) as H. rewrite Ek in H. injection H as ->. discriminate.
        * right; left. unfold a_key. rewrite N1; [reflexivity|]. intros l p od Hin. destruct (dl_nmap od !! x) as [on|] eqn:Eo; [|reflexivity].
          apply all_dl_in in Hin. pose proof (Hown _ _ _ _ _ Hin Eo) as H. congruence.
      + intros x k e Hx (k0 & e0 & H1 & _ & H2 & H3) Ht. subst e k. apply (image_not_removed id x k0 e0); auto.
    - intros x Hx. apply N1. intros l p od Hin. destruct (dl_nmap od !! x) as [on|] eqn:Eo; [|reflexivity].
      apply all_dl_in in Hin. pose proof (Hown _ _ _ _ _ Hin Eo) as H. specialize (Hx _ H). discriminate.
    - intros l p od x on Hd. apply M1, all_dl_in, Hd.
    - intros l p od K e Hd. apply (K1 l p), all_dl_in, Hd.
    - intros l p od Hd. apply DS1, all_dl_in, Hd.
  Qed.

  (** *** Phase 2: static layers *)
  Definition am_sl (a : AGraph) (x : LayerId * SLayer) : AGraph :=
    if decide (shared (fst x)) then am_layer cfg (fst x) (mgl (fst x)) (snd x) a else a.
  Definition read_layer (o : Graph) (x : LayerId * SLayer) : Graph :=
    if decide (shared (fst x)) then g_set_layer o (fst x) (read_reports (mc_clear_removed cfg) (snd x)) else o.
  Definition stat (g : Graph) : Prop := forall l s0, g_layers g0 !! l = Some s0 ->
    exists s, g_layers g !! l = Some s /\ forall y, ~ Rem y -> sl_merged s y = sl_merged s0 y.
  Definition CutL (l : LayerId) (ol : SLayer) (k : EdgeKey) : Prop := exists e, e ∈ removed_pairs ol /\
    k = edge_key (fst e) (snd e) /\ in_layer l (fst e) /\ in_layer l (snd e).
  Definition RemT (k : EdgeKey) : Prop := exists x, Rem x /\ key_touches x k.
  Definition st_merged (a a' : AGraph) (l : LayerId) (y : N) (n : Node) : Prop :=
    ag_nodes a' !! y = if mgl l y then ag_nodes a !! y else Some (st_result l (layer_upd cfg l) (mc_update_archived cfg) (ag_nodes a !! y) (n_attrs n)).

  Lemma slayer_facts l ol : g_layers other !! l = Some ol -> sl_wf ol /\
    (forall y n, sl_nodes ol !! y = Some n -> a_key ao y = Some (key_static l)) /\
    (forall K e, ec_edges (sl_edges ol) !! K = Some e -> ag_edges ao !! K = Some e /\ K = edge_key (e_src e) (e_tgt e) /\ e_src e <> e_tgt e /\
       both ao (key_static l) (e_src e) (e_tgt e)).
  Proof using HRo.
    intros Hl. assert (HP : g_part other (key_static l) = Some ol) by (unfold g_part; cbn; exact Hl).
    destruct (rp_part _ _ HRo _ _ (canon_static l) HP) as (Hwf & _ & _). split; [exact Hwf|]. split.
    - intros y n Hy. unfold a_key. rewrite (part_node_abs other ao HRo _ _ y n (canon_static l) HP Hy). reflexivity.
    - intros K e He. exact (part_edge_abs other ao HRo _ _ K e (canon_static l) HP He).
  Qed.
  Lemma static_not_dyn l e0 : both ao (key_static l) (e_src e0) (e_tgt e0) -> ~ dyn_intra ao e0.
  Proof using. intros [H _] (l' & p' & H' & _). rewrite H in H'. discriminate. Qed.

  Lemma phase2_step g a o l ol : g_layers other !! l = Some ol -> shared l -> Rep g a -> MI a -> stat g ->
    let a' := am_layer cfg l (mgl l) ol a in
    exists g', g_merge_layer1 cfg (g, o) (l, ol) = Ok (g', g_set_layer o l (read_reports (mc_clear_removed cfg) ol)) /\
      Rep g' a' /\ MI a' /\ stat g' /\ g_layer_ids g' = g_layer_ids g /\
      (forall y, ag_nodes a' !! y = layer_nodes cfg l (mgl l) ol a y) /\
      ER (fun k => RemT k \/ CutL l ol k) (from_rest ao f) a a' /\ ag_dyn a' = ag_dyn a /\
      (forall y k, a_key a' y = Some k -> a_key a y = Some k \/ k = key_static l) /\
      (forall y k, ~ Rem y -> a_key a y = Some k -> a_key a' y = Some k) /\
      (forall k, CutL l ol k -> is_Some (ag_edges a' !! k) -> exists e', from_rest ao f k e').
  Proof using HM HR0 HRo.
    intros Hol Hsh HR HI Hst a'. destruct (slayer_facts l ol Hol) as (Howf & Hnode & Hedge). destruct Hsh as [s0 Hs0].
    assert (HremR : forall x, x ∈ removed_ids ol -> Rem x).
    { intros x Hx. exists l, ol. split; [exact Hol|]. split; [exists s0; exact Hs0|exact Hx]. }
    assert (Hrem : forall x, x ∈ removed_ids ol -> static_or_none a x /\ no_cross_sibling a x).
    { intros x Hx. pose proof (HremR x Hx) as HRx. destruct (mo_rem HM x HRx) as (R1 & R2 & R3 & R4).
      assert (Hkey : forall k, a_key a x = Some k -> a_key a0 x = Some k).
      { intros k Hk. destruct (mi_new a HI x) as [H|H]; [apply key_known; eauto| |].
        - apply key_known in H as [k' Hk']. destruct (mi_old a HI x k' Hk') as [E|E]; congruence.
        - apply key_known in H as [k' Hk']. congruence. }
      split; [intros k Hk; apply R3, Hkey, Hk|]. intros v k kv Hl Hk Hv Hrel.
      pose proof (mi_rem a HI x HRx v Hl) as Hl0. destruct (linked_known g0 a0 HR0 _ _ Hl0) as [_ Hv0]. apply key_known in Hv0 as [kv0 Hv0].
      apply (R4 v k kv Hl0 (Hkey k Hk)); [|exact Hrel]. destruct (mi_old a HI v kv0 Hv0) as [E|E]; congruence. }
    destruct (Hst l s0 Hs0) as (s & Hs & Hmg).
    assert (Hnotrem : forall y n, sl_nodes ol !! y = Some n -> ~ Rem y).
    { intros y n Hy HRy. destruct (mo_rem HM y HRy) as [R1 _]. rewrite (Hnode y n Hy) in R1. discriminate. }
    destruct (merge_layer1_ok cfg g a o l ol s (mgl l) HR Hs Howf) as (g' & E & HR' & Hids & Hmrg).
    { intros x n Hx. apply (mi_other a HI), (Hnode x n Hx). }
    { exact Hrem. }
    { intros x n Hx. unfold mgl. rewrite Hs0. symmetry. apply Hmg, (Hnotrem x n Hx). }
    fold a' in HR'. exists g'. split; [exact E|]. split; [exact HR'|].
    destruct (am_layer_nodes cfg l (mgl l) ol a (fun x H => proj1 (Hrem x H)) Howf) as (HN & HD & HL). fold a' in HN, HD, HL.
    assert (HER : ER (fun k => RemT k \/ CutL l ol k) (from_rest ao f) a a').
    { eapply ER_weaken; [| |exact (am_layer_ER cfg l (mgl l) ol a (fun x H => proj1 (Hrem x H)))].
      - intros k [(x & Hx & Ht)|(e & He & Hk & Hb)]; [left; exists x; split; [apply HremR, Hx|exact Ht]|]. right. exists e. split; [exact He|]. split; [exact Hk|].
        assert (Hin : forall y, a_key a y = Some (key_static l) -> in_layer l y).
        { intros y Hy. unfold in_layer. destruct (mi_new a HI y) as [H|H]; [apply key_known; eauto| |]; apply key_known in H as [k' Hk'].
          - left. destruct (mi_old a HI y k' Hk') as [E1|E1]; congruence.
          - right. destruct (mi_other a HI y k' Hk') as [E1|E1]; congruence. }
        destruct Hb. auto.
      - intros k e ([k0 e0] & H1 & H2 & H3). apply elem_of_map_to_list in H1. destruct (Hedge k0 e0 H1) as (X1 & _ & _ & X2). exists k0, e0.
        split; [exact X1|]. split; [eapply static_not_dyn; exact X2|]. auto. }
    assert (Hkeys : forall y, (a_key a' y = None /\ Rem y) \/ a_key a' y = a_key a y \/ (a_key a y = None /\ a_key a' y = Some (key_static l) /\ a_key ao y = Some (key_static l))).
    { intros y. assert (Hk' : a_key a' y = an_key <$> layer_nodes cfg l (mgl l) ol a y) by (unfold a_key; rewrite HN; reflexivity).
      change (a_key a y) with (an_key <$> ag_nodes a !! y). rewrite Hk'. unfold layer_nodes. destruct (decide _) as [Hy|Hy]; [left; split; [reflexivity|apply HremR, Hy]|].
      destruct (sl_nodes ol !! y) as [n|] eqn:En; [|auto]. destruct (mgl l y); [auto|]. destruct (ag_nodes a !! y) as [an|]; cbn.
      - right; left. destruct (_ && _); reflexivity.
      - right; right. split; [reflexivity|]. split; [reflexivity|]. exact (Hnode y n En). }
    assert (Hev : evolves a a').
    { intros y. destruct (Hkeys y) as [[H _]|[H|(H1 & H2 & H3)]]; [auto|auto|]. right; right. split; [exact H1|congruence]. }
    assert (HI' : MI a').
    { eapply MI_step; [exact HI|exact Hev|exact HL|exact HER|]. intros x k e Hx (k0 & e0 & H1 & _ & H2 & H3) Ht. subst e k.
      apply (image_not_removed f x k0 e0); auto. }
    split; [exact HI'|split; [|split; [exact Hids|split; [exact HN|split; [exact HER|split; [exact HD|split; [|split]]]]]]].
    - intros l1 s1 Hs1. destruct (Hst l1 s1 Hs1) as (s2 & Hs2 & Hm2). destruct (Hmrg l1 s2 Hs2) as (s3 & Hs3 & Hm3). exists s3. split; [exact Hs3|].
      intros y Hy. rewrite Hm3, Hm2; [reflexivity|exact Hy|]. intros Hin. apply Hy, HremR, Hin.
    - intros y k Hk. destruct (Hkeys y) as [[H _]|[H|(H1 & H2 & H3)]]; [congruence|left; congruence|right; congruence].
    - intros y k Hnr Hk. destruct (Hkeys y) as [[_ H]|[H|(H1 & H2 & H3)]]; [contradiction|congruence|congruence].
    - intros k (e & He & -> & Hi1 & Hi2) Hl. fold (a_linked a' (fst e) (snd e)) in Hl. destruct (linked_known g' a' HR' _ _ Hl) as [K1 K2].
      assert (Hk' : forall y, a_known a' y -> in_layer l y -> a_key a' y = Some (key_static l)).
      { intros y Hy Hi. apply key_known in Hy as [k' Hy]. destruct Hi as [Hi|Hi]; [destruct (mi_old a' HI' _ _ Hi)|destruct (mi_other a' HI' _ _ Hi)]; congruence. }
      destruct (am_layer_cut cfg l (mgl l) ol a (fun x H => proj1 (Hrem x H)) Howf e (linked_known g a HR)) as (e' & [k0 e0] & H1 & H2 & H3).
      + intros y [n Hy]. apply (mi_other a HI), (Hnode y n Hy).
      + exact He.
      + split; apply Hk'; assumption.
      + exact Hl.
      + apply elem_of_map_to_list in H1. destruct (Hedge k0 e0 H1) as (X1 & _ & _ & X2). exists e', k0, e0. split; [exact X1|]. split; [eapply static_not_dyn; exact X2|]. auto.
  Qed.

  Definition CutS (xs : list (LayerId * SLayer)) (k : EdgeKey) : Prop := exists l ol, (l, ol) ∈ xs /\ shared l /\ CutL l ol k.
  (** The edges of layer [l] of the other graph are in [a], possibly with merged ends. *)
  Definition links_in (l : LayerId) (ol : SLayer) (a : AGraph) : Prop := forall K e, ec_edges (sl_edges ol) !! K = Some e ->
    both a (key_static l) (f (e_src e)) (f (e_tgt e)) -> f (e_src e) <> f (e_tgt e) ->
    (both a (key_static l) (e_src e) (e_tgt e) /\ a_linked a (e_src e) (e_tgt e)) \/ a_linked a (f (e_src e)) (f (e_tgt e)).

  Record Phase2 (xs : list (LayerId * SLayer)) (g1 : Graph) (a : AGraph) (g' : Graph) (a' : AGraph) : Prop := {
    ph2_rep : Rep g' a'; ph2_mi : MI a'; ph2_stat : stat g'; ph2_ids : g_layer_ids g' = g_layer_ids g1;
    ph2_rem : forall l ol y, (l, ol) ∈ xs -> shared l -> y ∈ removed_ids ol -> ag_nodes a' !! y = None;
    ph2_remany : forall y, Rem y -> ag_nodes a' !! y = None \/ ag_nodes a' !! y = ag_nodes a !! y;
    ph2_node : forall l ol y n, (l, ol) ∈ xs -> shared l -> sl_nodes ol !! y = Some n -> st_merged a a' l y n;
    ph2_same : forall y, ~ Rem y -> (forall l ol, (l, ol) ∈ xs -> shared l -> sl_nodes ol !! y = None) -> ag_nodes a' !! y = ag_nodes a !! y;
    ph2_er : ER (fun k => RemT k \/ CutS xs k) (from_rest ao f) a a';
    ph2_dyn : ag_dyn a' = ag_dyn a;
    ph2_keys : forall y k, a_key a' y = Some k -> a_key a y = Some k \/ exists l ol, (l, ol) ∈ xs /\ k = key_static l;
    ph2_keep : forall y k, ~ Rem y -> a_key a y = Some k -> a_key a' y = Some k;
    ph2_links : forall l ol, (l, ol) ∈ xs -> shared l -> links_in l ol a';
    ph2_cut : forall k, CutS xs k -> is_Some (ag_edges a' !! k) -> exists e', from_rest ao f k e'
  }.

  Lemma key_static_inj l l' : key_static l = key_static l' -> l = l'.
  Proof using. unfold key_static. intros H. injection H as ->. reflexivity. Qed.
  Lemma in_layer_key a l l' y : MI a -> a_key a y = Some (key_static l) -> in_layer l' y -> l = l'.
  Proof using.
    intros HI Hk [H|H]; [destruct (mi_old a HI _ _ H) as [E|E]|destruct (mi_other a HI _ _ H) as [E|E]]; rewrite Hk in E; try discriminate; apply key_static_inj; congruence.
  Qed.
  Lemma not_cut a l xs u v : MI a -> both a (key_static l) u v -> l ∉ xs.*1 -> ~ CutS xs (edge_key u v).
  Proof using.
    intros HI [Hu Hv] Hl (l' & ol & Hin & _ & e & _ & Hk & H1 & H2). apply Hl.
    assert (Hl' : in_layer l' u).
    { apply edge_key_inj in Hk as [[-> ->]|[-> ->]]; assumption. }
    rewrite (in_layer_key a l l' u HI Hu Hl'). apply elem_of_list_fmap. exists (l', ol). auto.
  Qed.

  Lemma phase2_loop xs : NoDup xs.*1 -> (forall l ol, (l, ol) ∈ xs -> g_layers other !! l = Some ol) ->
    forall g a o, Rep g a -> MI a -> stat g ->
    exists g', rfold (g_merge_layer1 cfg) xs (g, o) = Ok (g', fold_left read_layer xs o) /\ Phase2 xs g a g' (fold_left am_sl xs a).
  Proof using HM HR0 HRo.
    induction xs as [|[l ol] r IH]; intros Hnd Hin g a o HR HI Hst; cbn [rfold fold_left].
    - exists g. split; [reflexivity|]. split; auto; try (intros; match goal with H : _ ∈ [] |- _ => inversion H end).
      + apply ER_same. reflexivity.
      + intros k (l & ol & H & _). inversion H.
    - rewrite fmap_cons in Hnd. apply stdpp.list.NoDup_cons in Hnd as [Hl Hnd]. cbn [fst] in Hl.
      pose proof (Hin l ol (elem_of_list_here _ _)) as Hol.
      destruct (decide (shared l)) as [Hsh|Hsh].
      + destruct (phase2_step g a o l ol Hol Hsh HR HI Hst) as (g1 & -> & HR1 & HI1 & Hst1 & Hids1 & HN1 & HE1 & HD1 & HK1 & HP1 & HC1).
        set (b := am_layer cfg l (mgl l) ol a) in *. cbn [rbind].
        assert (Hsl : am_sl a (l, ol) = b) by (unfold am_sl; cbn [fst snd]; rewrite decide_True by exact Hsh; reflexivity).
        assert (Hrl : read_layer o (l, ol) = g_set_layer o l (read_reports (mc_clear_removed cfg) ol)) by (unfold read_layer; cbn [fst snd]; rewrite decide_True by exact Hsh; reflexivity).
        rewrite Hsl, Hrl.
        destruct (IH Hnd (fun l' ol' H => Hin l' ol' (elem_of_list_further _ _ _ H)) g1 b (g_set_layer o l (read_reports (mc_clear_removed cfg) ol)) HR1 HI1 Hst1) as (g' & E & P).
        exists g'. split; [exact E|]. destruct (slayer_facts l ol Hol) as (Howf & Hnode & Hedge).
        assert (Hremo : forall y, y ∈ removed_ids ol -> Rem y) by (intros y Hy; exists l, ol; auto).
        assert (Hnr : forall y n, sl_nodes ol !! y = Some n -> ~ Rem y).
        { intros y n Hy HRy. destruct (mo_rem HM y HRy) as [R1 _]. rewrite (Hnode y n Hy) in R1. discriminate. }
        assert (Hb : forall y, ag_nodes b !! y = layer_nodes cfg l (mgl l) ol a y) by exact HN1.
        destruct P as [P1 P2 P3 P4 P5 P6 P7 P8 P9 P10 P11 P12 P13 P14]. split; try assumption.
        * congruence.
        * intros l1 ol1 y H1 Hs1 Hy. apply elem_of_cons in H1 as [H1|H1]; [|exact (P5 l1 ol1 y H1 Hs1 Hy)]. injection H1 as -> ->.
          destruct (P6 y (Hremo y Hy)) as [H|H]; [exact H|]. rewrite H, Hb. unfold layer_nodes. rewrite decide_True by exact Hy. reflexivity.
        * intros y Hy. destruct (P6 y Hy) as [H|H]; [auto|]. rewrite H, Hb. unfold layer_nodes. destruct (decide _); [auto|].
          destruct (sl_nodes ol !! y) as [n'|] eqn:En; [exfalso; exact (Hnr y n' En Hy)|auto].
        * intros l1 ol1 y nd H1 Hs1 Hy. apply elem_of_cons in H1 as [H1|H1].
          -- injection H1 as -> ->. unfold st_merged. rewrite P8.
             ++ rewrite Hb. unfold layer_nodes. rewrite decide_False by (intros Hq; exact (Hnr y nd Hy (Hremo y Hq))). rewrite Hy. reflexivity.
             ++ exact (Hnr y nd Hy).
             ++ intros l2 ol2 H2 Hs2. destruct (sl_nodes ol2 !! y) as [n2|] eqn:E2; [|reflexivity]. exfalso.
                destruct (slayer_facts l2 ol2 (Hin _ _ (elem_of_list_further _ _ _ H2))) as (_ & Hnode2 & _).
                pose proof (Hnode y nd Hy) as X1. pose proof (Hnode2 y n2 E2) as X2. rewrite X1 in X2. injection X2 as ->.
                apply Hl. apply elem_of_list_fmap. exists (l2, ol2). auto.
          -- pose proof (P7 l1 ol1 y nd H1 Hs1 Hy) as Hm. unfold st_merged in Hm |- *.
             assert (Hsame : ag_nodes b !! y = ag_nodes a !! y); [|rewrite Hsame in Hm; exact Hm].
             destruct (slayer_facts l1 ol1 (Hin _ _ (elem_of_list_further _ _ _ H1))) as (_ & Hnode1 & _). pose proof (Hnode1 y nd Hy) as X1.
             rewrite Hb. unfold layer_nodes. rewrite decide_False.
             ++ destruct (sl_nodes ol !! y) as [n2|] eqn:E2; [|reflexivity]. exfalso. pose proof (Hnode y n2 E2) as X2. rewrite X1 in X2. injection X2 as ->.
                apply Hl. apply elem_of_list_fmap. exists (l, ol1). auto.
             ++ intros Hq. destruct (mo_rem HM y (Hremo y Hq)) as [R1 _]. congruence.
        * intros y Hy Hno. rewrite P8; [|exact Hy|].
          -- rewrite Hb. unfold layer_nodes. rewrite decide_False by (intros Hq; exact (Hy (Hremo y Hq))). rewrite (Hno l ol (elem_of_list_here _ _) Hsh). reflexivity.
          -- intros l2 ol2 H2. apply Hno. right. exact H2.
        * eapply ER_trans; [eapply ER_weaken; [|intros ? ? H; exact H|exact HE1]|eapply ER_weaken; [|intros ? ? H; exact H|exact P9]].
          -- intros k [H|H]; [left; exact H|]. right. exists l, ol. split; [left|]. auto.
          -- intros k [H|(l2 & ol2 & H2 & Hs2 & H)]; [left; exact H|]. right. exists l2, ol2. split; [right; exact H2|]. auto.
        * congruence.
        * intros y k Hk. destruct (P11 y k Hk) as [H|(l2 & ol2 & H2 & ->)].
          -- destruct (HK1 y k H) as [H'|H']; [auto|]. right. exists l, ol. split; [left|exact H'].
          -- right. exists l2, ol2. split; [right; exact H2|reflexivity].
        * intros y k Hy Hk. apply P12; [exact Hy|]. apply HP1; assumption.
        * intros l1 ol1 H1 Hs1. apply elem_of_cons in H1 as [H1|H1]; [|exact (P13 l1 ol1 H1 Hs1)]. injection H1 as -> ->.
          intros K e He Hbo Hne. destruct (Hedge K e He) as (X1 & X2 & X3 & X4).
          assert (Hbk : forall y, a_key (fold_left am_sl r b) y = Some (key_static l) -> a_key b y = Some (key_static l)).
          { intros y Hy. destruct (P11 y _ Hy) as [H|(l2 & ol2 & H2 & Heq)]; [exact H|]. exfalso. injection Heq as ->. apply Hl. apply elem_of_list_fmap. exists (l2, ol2). auto. }
          assert (Hkeep : forall h, (forall y, h y = y \/ h y = f y) -> both b (key_static l) (h (e_src e)) (h (e_tgt e)) ->
            a_linked b (h (e_src e)) (h (e_tgt e)) -> a_linked (fold_left am_sl r b) (h (e_src e)) (h (e_tgt e))).
          { intros h Hh Hbh Hlk. unfold a_linked. rewrite (ER_kept _ _ _ _ (edge_key (h (e_src e)) (h (e_tgt e))) P9); [exact Hlk| |exact Hlk].
            intros [(x & Hx & Ht)|Hc]; [exact (image_not_removed h x K e Hh Hx X1 Ht)|]. exact (not_cut b l r _ _ HI1 Hbh Hl Hc). }
          assert (Hbf : both b (key_static l) (f (e_src e)) (f (e_tgt e))) by (split; apply Hbk, Hbo).
          destruct (am_layer_links cfg l (mgl l) ol a K e He Hbf Hne) as [[B1 B2]|B2].
          -- left. assert (Hnrs : ~ Rem (e_src e) /\ ~ Rem (e_tgt e)).
             { split; intros Hq; destruct (mo_rem HM _ Hq) as [R1 _]; destruct X4; congruence. }
             split; [|exact (Hkeep id (fun y => or_introl eq_refl) B1 B2)]. split; apply P12; tauto || apply B1.
          -- right. exact (Hkeep f (fun y => or_intror eq_refl) Hbf B2).
        * intros k (l1 & ol1 & H1 & Hs1 & Hc) Hk. apply elem_of_cons in H1 as [H1|H1].
          -- injection H1 as -> ->. destruct Hk as [e1 Hk]. destruct (P9 k) as [E1|[[E1 _]|(e2 & _ & HQ & _)]]; [|congruence|eauto].
             apply HC1; [exact Hc|]. rewrite <- E1. eauto.
          -- apply P14; [|exact Hk]. exists l1, ol1. auto.
      + assert (Hsl : am_sl a (l, ol) = a) by (unfold am_sl; cbn [fst snd]; rewrite decide_False by exact Hsh; reflexivity).
        assert (Hrl : read_layer o (l, ol) = o) by (unfold read_layer; cbn [fst snd]; rewrite decide_False by exact Hsh; reflexivity).
        assert (Hno : g_layers g !! l = None).
        { apply eq_None_not_Some. intros Hq. apply Hsh. unfold shared. apply (rp_layers _ _ HR0). rewrite <- (mi_layers a HI). apply (rp_layers _ _ HR), Hq. }
        unfold g_merge_layer1 at 1. rewrite Hno. cbn [rbind]. rewrite Hsl, Hrl.
        destruct (IH Hnd (fun l' ol' H => Hin l' ol' (elem_of_list_further _ _ _ H)) g a o HR HI Hst) as (g' & E & P).
        exists g'. split; [exact E|]. destruct P as [P1 P2 P3 P4 P5 P6 P7 P8 P9 P10 P11 P12 P13 P14]. split; try assumption.
        * intros l1 ol1 y H1 Hs1 Hy. apply elem_of_cons in H1 as [H1|H1]; [|exact (P5 l1 ol1 y H1 Hs1 Hy)]. injection H1 as -> ->. contradiction.
        * intros l1 ol1 y nd H1 Hs1 Hy. apply elem_of_cons in H1 as [H1|H1]; [|exact (P7 l1 ol1 y nd H1 Hs1 Hy)]. injection H1 as -> ->. contradiction.
        * intros y Hy H. apply P8; [exact Hy|]. intros l2 ol2 H2. apply H. right. exact H2.
        * eapply ER_weaken; [|intros ? ? H; exact H|exact P9]. intros k [H|(l2 & ol2 & H2 & Hs2 & H)]; [left; exact H|]. right. exists l2, ol2. split; [right; exact H2|]. auto.
        * intros y k Hk. destruct (P11 y k Hk) as [H|(l2 & ol2 & H2 & ->)]; [auto|]. right. exists l2, ol2. split; [right; exact H2|reflexivity].
        * intros l1 ol1 H1 Hs1. apply elem_of_cons in H1 as [H1|H1]; [|exact (P13 l1 ol1 H1 Hs1)]. injection H1 as -> ->. contradiction.
        * intros k (l1 & ol1 & H1 & Hs1 & Hc) Hk. apply elem_of_cons in H1 as [H1|H1]; [injection H1 as -> ->; contradiction|].
          apply P14; [|exact Hk]. exists l1, ol1. auto.
  Qed.

  (** *** Phase 3: edges between layers *)
  Definition inter_edges : list (EdgeKey * Edge) := map_to_list (ec_edges (g_inter other)) ++ map_to_list (ec_edges (g_dinter other)).
  Lemma inter_edges_in K e : (K, e) ∈ inter_edges <-> exists dyn, ec_edges (g_ec other dyn) !! K = Some e.
  Proof using.
    unfold inter_edges. rewrite elem_of_app, !elem_of_map_to_list. split.
    - intros [H|H]; [exists false|exists true]; exact H.
    - intros [[] H]; [right|left]; exact H.
  Qed.
  Lemma merged_key a x k k' : mc_enforce_parent cfg = true -> MI a -> a_key ao x = Some k -> a_key a (f x) = Some k' -> k' = k.
  Proof using HM.
    intros Hp HI Hk Hk'. destruct (mo_merged HM Hp x k Hk) as [H1 H2].
    destruct (mi_new a HI (f x)) as [H|H]; [apply key_known; eauto| |]; apply key_known in H as [k2 H2'].
    - destruct (mi_old a HI _ _ H2') as [E|E]; [congruence|]. destruct H1; congruence.
    - destruct (mi_other a HI _ _ H2') as [E|E]; [congruence|]. destruct H2; congruence.
  Qed.
  Lemma phase3_loop xs : (forall K e, (K, e) ∈ xs -> exists dyn, ec_edges (g_ec other dyn) !! K = Some e) ->
    forall g a, Rep g a -> MI a ->
    exists g', rfold (g_merge_edge1 cfg) xs g = Ok g' /\ Rep g' (fold_left (am_iedge f (mc_enforce_parent cfg)) xs a) /\ g_layer_ids g' = g_layer_ids g.
  Proof using HM HRo.
    induction xs as [|[K e] r IH]; intros Hin g a HR HI; cbn [rfold fold_left]; [eauto|].
    destruct (Hin K e (elem_of_list_here _ _)) as [dyn He]. destruct (inter_edge_abs other ao HRo dyn K e He) as (X1 & X2 & ks & kt & Hs & Ht & Hne).
    set (a' := am_iedge f (mc_enforce_parent cfg) a (K, e)).
    assert (Hstep : exists g1, g_merge_edge1 cfg g (K, e) = Ok g1 /\ Rep g1 a' /\ g_layer_ids g1 = g_layer_ids g).
    { unfold g_merge_edge1, a', am_iedge. cbn [snd]. destruct (N.eqb_spec (f (e_src e)) (f (e_tgt e))) as [Heq|Heq]; [eauto|].
      destruct (mc_enforce_parent cfg) eqn:Hp.
      - assert (Hcl : clean a (GInsertParentEdge (f (e_src e)) (f (e_tgt e)) (Some (e_info e)))).
        { intros ku kv Hu Hv. rewrite (merged_key a _ _ _ Hp HI Hs Hu), (merged_key a _ _ _ Hp HI Ht Hv).
          pose proof (mo_par HM Hp K e ks kt X1 Hs Ht Hne) as Hl. unfold rel. destruct (N.ltb_spec (lk_layer kt) (lk_layer ks)); [discriminate|].
          destruct (N.ltb_spec (lk_layer ks) (lk_layer kt)); [discriminate|]. unfold LayerId in *. lia. }
        pose proof (insert_parent_edge_sim g a _ _ _ HR Hcl) as Hsim. pose proof (keeps_insert_parent_edge g (f (e_src e)) (f (e_tgt e)) (Some (e_info e))) as Hk.
        destruct (g_insert_parent_edge g (f (e_src e)) (f (e_tgt e)) (Some (e_info e))) as [[b g1]| |]; [| |contradiction].
        + destruct Hsim as [_ Hsim]. exists g1. split; [reflexivity|]. split; [|exact Hk].
          unfold ab in Hsim. destruct (a_insert_parent_edge a (f (e_src e)) (f (e_tgt e)) (Some (e_info e))). exact Hsim.
        + destruct Hsim as [Hsim _]. unfold ab in Hsim. destruct (a_insert_parent_edge a (f (e_src e)) (f (e_tgt e)) (Some (e_info e))). discriminate.
      - pose proof (insert_edge_sim g a (f (e_src e)) (f (e_tgt e)) (Some (e_info e)) HR) as Hsim. pose proof (keeps_insert_edge g (f (e_src e)) (f (e_tgt e)) (Some (e_info e))) as Hk.
        destruct (g_insert_edge g (f (e_src e)) (f (e_tgt e)) (Some (e_info e))) as [[b g1]| |]; [| |contradiction].
        + destruct Hsim as [_ Hsim]. exists g1. split; [reflexivity|]. split; [|exact Hk].
          unfold ab in Hsim. destruct (a_insert_edge a (f (e_src e)) (f (e_tgt e)) (Some (e_info e))). exact Hsim.
        + destruct Hsim as [Hsim _]. unfold ab in Hsim. destruct (a_insert_edge a (f (e_src e)) (f (e_tgt e)) (Some (e_info e))). discriminate. }
    destruct Hstep as (g1 & -> & HR1 & I1). cbn [rbind].
    assert (HI1 : MI a').
    { destruct (am_iedge_nodes f (mc_enforce_parent cfg) a (K, e)) as (N1 & _ & L1). fold a' in N1, L1.
      eapply (MI_step a a' (comes_from f [(K, e)]) (replaced f (mc_enforce_parent cfg) a [(K, e)])); [exact HI| |exact L1|apply am_iedge_ER1; [reflexivity|left]|].
      - intros y. right; left. unfold a_key. rewrite N1. reflexivity.
      - intros x k e1 Hx ([k0 e0] & H1 & H2 & H3) Htc. apply elem_of_list_singleton in H1. injection H1 as -> ->. cbn [snd] in H2. subst e1 k.
        apply (image_not_removed f x K e); auto. }
    destruct (IH (fun K' e' H => Hin K' e' (elem_of_list_further _ _ _ H)) g1 a' HR1 HI1) as (g' & E & HR' & I').
    exists g'. split; [exact E|]. split; [exact HR'|congruence].
  Qed.

  (** *** The whole call *)
  Definition a2 : AGraph := fold_left am_sl (map_to_list (g_layers other)) a1.
  Definition a3 : AGraph := fold_left (am_iedge f (mc_enforce_parent cfg)) inter_edges a2.
  Definition other_read : Graph := fold_left read_layer (map_to_list (g_layers other)) other.

  (** [k] gives way to a parent edge that [other] brings and that was not in the graph. *)
  Definition Supp (a' : AGraph) (k : EdgeKey) : Prop :=
    mc_enforce_parent cfg = true /\ exists x, x ∈ inter_edges /\ let u := f (e_src (snd x)) in let v := f (e_tgt (snd x)) in
      u <> v /\ a_known a' u /\ a_known a' v /\ edge_key u v <> k /\ is_parent_edge a' (lower_of a' u v) k = true /\ ~ a_linked a0 u v.
  Record Merged (g' : Graph) (a' : AGraph) : Prop := {
    ms_rep : Rep g' a';
    ms_ids : g_layer_ids g' = g_layer_ids g0;
    ms_layers : ag_layers a' = ag_layers a0;
    ms_mi : MI a';
    ms_rem : forall y, Rem y -> ag_nodes a' !! y = None;
    ms_dyn : forall l p od y n, g_dlayer other l p = Some od -> dl_nmap od !! y = Some n -> dyn_merged vadd vsub cfg a0 a' l p od y n;
    ms_stat : forall l ol y n, g_layers other !! l = Some ol -> shared l -> sl_nodes ol !! y = Some n -> st_merged a0 a' l y n;
    ms_same : forall y, ~ Rem y -> (forall k, a_key ao y = Some k -> lk_dynamic k = false /\ ~ shared (lk_layer k)) -> ag_nodes a' !! y = ag_nodes a0 !! y;
    ms_er : ER (fun k => RemT k \/ Cut k \/ Supp a' k) (fun k e => from_dyn ao k e \/ from_rest ao f k e) a0 a';
    ms_kdyn : forall k e, ag_edges ao !! k = Some e -> dyn_intra ao e -> is_Some (ag_edges a' !! k);
    ms_kstat : forall l ol, g_layers other !! l = Some ol -> shared l -> links_in l ol a';
    ms_kinter : forall k e, (k, e) ∈ inter_edges -> f (e_src e) <> f (e_tgt e) -> a_known a' (f (e_src e)) -> a_known a' (f (e_tgt e)) ->
      a_linked a' (f (e_src e)) (f (e_tgt e)) \/ replaced f (mc_enforce_parent cfg) a' inter_edges (edge_key (f (e_src e)) (f (e_tgt e)));
    ms_cut : forall k, Cut k -> is_Some (ag_edges a' !! k) -> exists e', from_rest ao f k e';
    ms_stat' : stat g';
    ms_dynsz : forall l p od, g_dlayer other l p = Some od -> let m := N.max (dnext a0 l p) (dl_size od) in ag_dyn a' !! (l, p) = Some (m, m)
  }.

  Lemma not_parent_edge a u v k : both a k u v -> is_parent_edge a u (edge_key u v) = false /\ forall c, is_parent_edge a c (edge_key u v) = false.
  Proof using.
    intros [Hu Hv]. assert (H : forall c, is_parent_edge a c (edge_key u v) = false); [|auto]. intros c. unfold is_parent_edge.
    case_bool_decide as Ht; [|reflexivity]. cbn [andb].
    assert (Hx : forall x, a_key a x = Some k -> forall y, a_key a y = Some k ->
      match a_key a x, a_key a y with Some kc, Some kp => match rel kc kp with RParent => true | _ => false end | _, _ => false end = false).
    { intros x -> y ->. unfold rel. rewrite N.ltb_irrefl. reflexivity. }
    assert (Hc : (c = u \/ c = v) /\ (key_other c (edge_key u v) = u \/ key_other c (edge_key u v) = v)).
    { unfold key_touches, key_other in *. destruct (edge_key_cases u v) as [E|E]; rewrite E in *; cbn [fst snd] in *; destruct (_ =? _); intuition. }
    destruct Hc as [Hc1 Hc2]. apply Hx; [destruct Hc1 as [-> | ->]; assumption|destruct Hc2 as [-> | ->]; assumption].
  Qed.
  Lemma not_replaced a xs u v k : both a k u v -> ~ replaced f (mc_enforce_parent cfg) a xs (edge_key u v).
  Proof using. intros Hb (_ & x & _ & H). cbv zeta in H. destruct H as (_ & _ & _ & _ & H). rewrite (proj2 (not_parent_edge a u v k Hb)) in H. discriminate. Qed.

  Lemma replaced_nodes a b xs k : ag_nodes b = ag_nodes a -> replaced f (mc_enforce_parent cfg) b xs k -> replaced f (mc_enforce_parent cfg) a xs k.
  Proof using.
    intros HN (Hp & x & Hx & H). cbv zeta in H. split; [exact Hp|]. exists x. split; [exact Hx|]. cbv zeta.
    unfold a_known in H |- *. rewrite HN, (lower_of_nodes a), (is_parent_edge_nodes a) in H by exact HN. exact H.
  Qed.
  Lemma kst_merge_edge1 X g x : kst X g (g_merge_edge1 cfg g x) id.
  Proof using.
    unfold g_merge_edge1. destruct (_ =? _); [apply stf_refl|]. eapply (kst_trans _ _ _ _ snd).
    - destruct (mc_enforce_parent cfg); [apply kst_insert_parent_edge|apply kst_insert_edge].
    - intros [b g1]. apply stf_refl.
  Qed.
  Lemma merge_graph_ok : exists g', g_merge_graph vadd vsub g0 other cfg = Ok (g', other_read) /\ Merged g' a3.
  Proof using HM HR0 HRo.
    destruct phase1 as (g1 & E1 & P1). unfold g_merge_graph. rewrite E1. cbn [rbind].
    assert (Hst1 : stat g1).
    { intros l s0 Hs. exists s0. rewrite (ph1_layers _ P1). auto. }
    destruct (phase2_loop (map_to_list (g_layers other)) (NoDup_fst_map_to_list _) (fun l ol H => proj1 (elem_of_map_to_list _ _ _) H) g1 a1 other (ph1_rep _ P1) (ph1_mi _ P1) Hst1)
      as (g2 & E2 & P2). rewrite E2. cbn [rbind]. fold a2 other_read in *.
    destruct (phase3_loop inter_edges (fun K e H => proj1 (inter_edges_in K e) H) g2 a2 (ph2_rep _ _ _ _ _ P2) (ph2_mi _ _ _ _ _ P2)) as (g3 & E3 & R3 & I3).
    fold a3 in *. unfold inter_edges in E3. rewrite rfold_app in E3.
    destruct (rfold (g_merge_edge1 cfg) (map_to_list (ec_edges (g_inter other))) g2) as [g2'| |] eqn:E3'; cbn [rbind] in E3 |- *; try discriminate.
    rewrite E3. cbn [rbind]. exists g3. split; [reflexivity|].
    assert (N3 : ag_nodes a3 = ag_nodes a2).
    { unfold a3. refine (proj1 (fold_same _ inter_edges _ a2)). intros b x. apply am_iedge_nodes. }
    assert (Hk3 : forall y, a_key a3 y = a_key a2 y) by (intros y; unfold a_key; rewrite N3; reflexivity).
    assert (Hap : mc_enforce_parent cfg = true -> apart f a2 inter_edges).
    { intros Hp [k0 e0] ku kv Hin Hu Hv. apply inter_edges_in in Hin as [dyn H1]. destruct (inter_edge_abs other ao HRo dyn k0 e0 H1) as (X1 & _ & ks & kt & Hs & Ht & Hne).
      cbn [snd] in Hu, Hv. rewrite (merged_key a2 _ _ _ Hp (ph2_mi _ _ _ _ _ P2) Hs Hu), (merged_key a2 _ _ _ Hp (ph2_mi _ _ _ _ _ P2) Ht Hv).
      pose proof (mo_par HM Hp k0 e0 ks kt X1 Hs Ht Hne) as Hl. unfold rel. destruct (N.ltb_spec (lk_layer kt) (lk_layer ks)); [discriminate|].
      destruct (N.ltb_spec (lk_layer ks) (lk_layer kt)); [discriminate|]. unfold LayerId in *. lia. }
    pose proof (am_iedges_ER2 f (mc_enforce_parent cfg) a2 inter_edges Hap) as ER3. fold a3 in ER3.
    assert (HQ3 : forall k e, comes_from f inter_edges k e -> from_rest ao f k e).
    { intros k e ([k0 e0] & H1 & H2 & H3). apply inter_edges_in in H1 as [dyn H1]. destruct (inter_edge_abs other ao HRo dyn k0 e0 H1) as (X1 & _ & ks & kt & Hs & Ht & Hne).
      exists k0, e0. split; [exact X1|]. split; [|auto]. intros (l & p & Hb1 & Hb2). congruence. }
    assert (L3 : ag_layers a3 = ag_layers a2).
    { unfold a3. refine (proj2 (proj2 (fold_same _ inter_edges _ a2))). intros b x. apply am_iedge_nodes. }
    assert (MI3 : MI a3).
    { eapply MI_step; [exact (ph2_mi _ _ _ _ _ P2)| |exact L3|exact ER3|].
      - intros y. right; left. apply Hk3.
      - intros x k e Hx He Ht. apply HQ3 in He as (k0 & e0 & H1 & _ & H2 & H3). subst e k. apply (image_not_removed f x k0 e0); auto. }
    assert (Hnl : forall y l ol n, g_layers other !! l = Some ol -> sl_nodes ol !! y = Some n -> a_key ao y = Some (key_static l)).
    { intros y l ol n H1 H2. exact (proj1 (proj2 (slayer_facts l ol H1)) y n H2). }
    assert (Hnrem : forall y k, a_key ao y = Some k -> ~ Rem y).
    { intros y k Hy Hr. destruct (mo_rem HM y Hr) as [R1 _]. congruence. }
    assert (HE02 : ER (fun k => RemT k \/ CutS (map_to_list (g_layers other)) k) (fun _ _ => True) a0 a2).
    { eapply ER_trans; [eapply ER_weaken; [| |exact (ph1_er _ P1)]|eapply ER_weaken; [| |exact (ph2_er _ _ _ _ _ P2)]]; intros k; auto; contradiction. }
    assert (Hsupp : forall k, supplanted f (mc_enforce_parent cfg) a2 inter_edges k -> Supp a3 k).
    { intros k (Hp & [k0 e0] & Hx & H). cbv zeta in H. cbn [snd] in H. destruct H as (Z1 & Z2 & Z3 & Z4 & Z5 & Z6). split; [exact Hp|]. exists (k0, e0). split; [exact Hx|]. cbv zeta. cbn [snd].
      split; [exact Z1|]. unfold a_known. rewrite N3, (lower_of_nodes a2 a3), (is_parent_edge_nodes a2 a3) by exact N3.
      split; [exact Z2|]. split; [exact Z3|]. split; [exact Z4|]. split; [exact Z5|]. intros Hl. apply Z6.
      unfold a_linked. rewrite (ER_kept _ _ _ _ (edge_key (f (e_src e0)) (f (e_tgt e0))) HE02); [exact Hl| |exact Hl].
      apply inter_edges_in in Hx as [dyn Hx]. destruct (inter_edge_abs other ao HRo dyn k0 e0 Hx) as (X1 & _ & ks & kt & Hs & Ht & Hne).
      intros [(x & Hr & Htc)|(l & ol & _ & _ & e & _ & Hk & Hi1 & Hi2)]; [exact (image_not_removed f x k0 e0 (fun y => or_intror eq_refl) Hr X1 Htc)|].
      apply key_known in Z2 as [k1 Z2], Z3 as [k2 Z3].
      pose proof (merged_key a2 _ _ _ Hp (ph2_mi _ _ _ _ _ P2) Hs Z2) as ->. pose proof (merged_key a2 _ _ _ Hp (ph2_mi _ _ _ _ _ P2) Ht Z3) as ->.
      assert (Hin : forall y k', a_key a2 y = Some k' -> in_layer l y -> k' = key_static l).
      { intros y k' Hy [H|H]; [destruct (mi_old a2 (ph2_mi _ _ _ _ _ P2) _ _ H)|destruct (mi_other a2 (ph2_mi _ _ _ _ _ P2) _ _ H)]; congruence. }
      apply Hne. transitivity (key_static l); [|symmetry]; (eapply Hin; [eassumption|]);
        apply edge_key_inj in Hk as [[E1' E2']|[E1' E2']]; rewrite ?E1', ?E2'; assumption. }
    assert (HERall : ER (fun k => RemT k \/ Cut k \/ Supp a3 k) (fun k e => from_dyn ao k e \/ from_rest ao f k e) a0 a3).
    { eapply ER_trans; [eapply ER_weaken; [| |exact (ph1_er _ P1)]|eapply ER_trans; [eapply ER_weaken; [| |exact (ph2_er _ _ _ _ _ P2)]|eapply ER_weaken; [| |exact ER3]]].
      - intros k [].
      - intros k e H. left. exact H.
      - intros k [H|(l & ol & H1 & H2 & e & H3)]; [left; exact H|]. right; left. exists l, ol, e. apply elem_of_map_to_list in H1. tauto.
      - intros k e H. right. exact H.
      - intros k H. right; right. exact (Hsupp k H).
      - intros k e H. right. apply HQ3, H. }
    assert (Hfinal : forall u v k, both a2 k u v -> a_linked a2 u v -> a_linked a3 u v).
    { intros u v k Hb Hl. unfold a_linked. rewrite (ER_kept _ _ _ _ (edge_key u v) ER3); [exact Hl| |exact Hl].
      intros (_ & x & _ & H). cbv zeta in H. destruct H as (_ & _ & _ & _ & H & _). rewrite (proj2 (not_parent_edge a2 u v k Hb)) in H. discriminate. }
    split; try assumption.
    - rewrite I3, (ph2_ids _ _ _ _ _ P2). apply (ph1_ids _ P1).
    - rewrite L3, (mi_layers _ (ph2_mi _ _ _ _ _ P2)). reflexivity.
    - intros y (l & ol & H1 & H2 & H3). rewrite N3. eapply (ph2_rem _ _ _ _ _ P2); [apply elem_of_map_to_list; exact H1|exact H2|exact H3].
    - intros l p od y n Hd Hy. pose proof (ph1_dyn _ P1 l p od y n Hd Hy) as Hm.
      destruct (od_facts other ao HRo l p od Hd) as (_ & _ & _ & _ & Hn & _).
      assert (Hk : a_key ao y = Some (key_dynamic l p)) by (unfold a_key; rewrite (Hn y n Hy); reflexivity).
      unfold dyn_merged in Hm |- *. rewrite N3, (ph2_same _ _ _ _ _ P2 y); [exact Hm|exact (Hnrem _ _ Hk)|].
      intros l' ol' H' _. apply elem_of_map_to_list in H'. destruct (sl_nodes ol' !! y) as [n'|] eqn:En; [|reflexivity]. pose proof (Hnl _ _ _ _ H' En) as X. rewrite Hk in X. discriminate.
    - intros l ol y n Hl Hs Hy. unfold st_merged. rewrite N3.
      rewrite (ph2_node _ _ _ _ _ P2 l ol y n (proj2 (elem_of_map_to_list _ _ _) Hl) Hs Hy).
      rewrite (ph1_same _ P1 y); [reflexivity|]. intros k Hk. rewrite (Hnl _ _ _ _ Hl Hy) in Hk. injection Hk as <-. reflexivity.
    - intros y Hr Hno. rewrite N3, (ph2_same _ _ _ _ _ P2 y Hr).
      + apply (ph1_same _ P1). intros k Hk. apply (Hno k Hk).
      + intros l ol H1 H2. apply elem_of_map_to_list in H1. destruct (sl_nodes ol !! y) as [n|] eqn:En; [|reflexivity]. destruct (Hno _ (Hnl _ _ _ _ H1 En)) as [_ H]. contradiction.
    - intros k e He (l & p & Hb). destruct (rp_norm _ _ HRo _ _ He) as [HK Hne].
      assert (Hin : exists od, g_dlayer other l p = Some od /\ ec_edges (dl_edges od) !! k = Some e).
      { destruct (edge_abs_part other ao HRo k e He) as [(kk & L & C & HP & Hed)|[dyn Hed]].
        - destruct (part_edge_abs other ao HRo kk L k e C HP Hed) as (_ & _ & _ & Hb' & _). destruct Hb as [Hb _]. rewrite Hb in Hb'. injection Hb' as <-.
          unfold g_part in HP; cbn in HP. destruct (g_dlayer other l p) as [od|]; [|discriminate]. injection HP as <-. eauto.
        - destruct (inter_edge_abs other ao HRo dyn k e Hed) as (_ & _ & ks & kt & Hs & Ht & Hne'). destruct Hb. congruence. }
      destruct Hin as (od & Hod & Hed). pose proof (ph1_links _ P1 l p od k e Hod Hed) as Hl1. rewrite HK in Hl1 |- *. fold (a_linked a1 (e_src e) (e_tgt e)) in Hl1.
      destruct (linked_known g1 a1 (ph1_rep _ P1) _ _ Hl1) as [Ks Kt].
      assert (Hb1 : both a1 (key_dynamic l p) (e_src e) (e_tgt e)).
      { destruct Hb as [B1 B2]. split; [destruct (mi_other a1 (ph1_mi _ P1) _ _ B1) as [E|E]|destruct (mi_other a1 (ph1_mi _ P1) _ _ B2) as [E|E]]; try exact E; exfalso.
        - apply key_known in Ks as [? ?]; congruence.
        - apply key_known in Kt as [? ?]; congruence. }
      assert (Hb2 : both a2 (key_dynamic l p) (e_src e) (e_tgt e)).
      { destruct Hb as [B1 B2]. split; apply (ph2_keep _ _ _ _ _ P2); (eapply Hnrem; eassumption) || apply Hb1. }
      apply (Hfinal _ _ _ Hb2). unfold a_linked. rewrite (ER_kept _ _ _ _ (edge_key (e_src e) (e_tgt e)) (ph2_er _ _ _ _ _ P2)); [exact Hl1| |exact Hl1].
      intros [(x & Hx & Ht)|(l' & ol & _ & _ & e' & _ & Hk' & Hi1 & Hi2)]; [exact (image_not_removed id x k e (fun y => or_introl eq_refl) Hx He Ht)|].
      assert (Hil : in_layer l' (e_src e)) by (apply edge_key_inj in Hk' as [[E1' E2']|[E1' E2']]; rewrite E1'; assumption).
      destruct Hb as [B1 _]. destruct Hil as [H|H]; [|rewrite B1 in H; discriminate]. destruct (mo_keys HM _ _ B1) as [E|E]; rewrite H in E; discriminate.
    - intros l ol Hl Hs K e He Hb Hne. assert (Hb' : forall u v k, both a3 k u v <-> both a2 k u v) by (intros; apply both_nodes; exact N3).
      apply Hb' in Hb. destruct (ph2_links _ _ _ _ _ P2 l ol (proj2 (elem_of_map_to_list _ _ _) Hl) Hs K e He Hb Hne) as [[B1 B2]|B2].
      + left. split; [apply Hb', B1|exact (Hfinal _ _ _ B1 B2)].
      + right. exact (Hfinal _ _ _ Hb B2).
    - intros k e Hin Hne Hu Hv. unfold a_known in Hu, Hv. rewrite N3 in Hu, Hv.
      destruct (am_iedges_links f (mc_enforce_parent cfg) inter_edges a2 (k, e) Hin Hne Hu Hv) as [H|H]; [left; exact H|right].
      apply (replaced_nodes a3 a2); [symmetry; exact N3|exact H].
    - intros k (l & ol & e & H1 & H2 & H3) Hk. destruct Hk as [e1 Hk]. destruct (ER3 k) as [E|[[E _]|(e2 & _ & HQ & _)]]; [|congruence|apply HQ3 in HQ; eauto].
      apply (ph2_cut _ _ _ _ _ P2 k); [|rewrite <- E; eauto]. exists l, ol. split; [apply elem_of_map_to_list, H1|]. split; [exact H2|]. exists e. tauto.
    - assert (Hst : stf (fun _ => False) g2 g3).
      { pose proof (kst_rfold (fun _ => False) (g_merge_edge1 cfg) inter_edges) as K. unfold inter_edges in K. specialize (K ltac:(intros g4 x _; apply kst_merge_edge1) g2).
        rewrite rfold_app, E3' in K. cbn [rbind] in K. rewrite E3 in K. exact K. }
      intros l s0 Hs0. destruct (ph2_stat _ _ _ _ _ P2 l s0 Hs0) as (s1 & Hs1 & M1). destruct (Hst l s1 Hs1) as (s2 & Hs2 & M2). exists s2. split; [exact Hs2|].
      intros y Hy. rewrite <- (M1 y Hy). unfold sl_merged. rewrite (M2 y); [reflexivity|]. intros [].
    - intros l p od Hd. cbv zeta. assert (D3 : ag_dyn a3 = ag_dyn a2).
      { unfold a3. refine (proj1 (proj2 (fold_same _ inter_edges _ a2))). intros b x. apply am_iedge_nodes. }
      rewrite D3, (ph2_dyn _ _ _ _ _ P2). apply (ph1_dynsz _ P1 l p od Hd).
  Qed.
End Merge.
