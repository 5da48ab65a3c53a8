(** mergeGraph: what a caller sees; merging twice. *)
From Coq Require Import NArith ZArith Bool List Lia.
From stdpp Require Import base list gmap fin_maps tactics.
From Verif.Model Require Import Types Mesh Attrs Node EdgeContainer SLayer DLayer Graph.
From Verif.Spec Require Import AbstractGraph GraphHistory GraphObs MergeSpec.
From Verif.Proof Require Import Arith Keys SLayerP SLayerMerge DLayerP DLayerOps GraphRep GraphEdges GraphAttrs GraphNodes GraphRemove GraphSim LayerRep StatusFrame MergeP1 MergeP2 MergeP3 MergeP4 MergeP5 MergeP6 GraphObsP GraphProps.
Local Open Scope N_scope.
#[local] Arguments edge_key : simpl never.

Lemma same_pair_key u v x y : edge_key u v = edge_key x y <-> same_pair u v x y.
Proof.
  unfold same_pair. split; [apply edge_key_inj|]. intros [[-> ->]|[-> ->]]; [reflexivity|apply edge_key_comm].
Qed.
Lemma parent_edge_inv a c u v : is_parent_edge a c (edge_key u v) = true -> exists q, same_pair u v q c /\
  exists kq kc, a_key a q = Some kq /\ a_key a c = Some kc /\ lk_layer kc < lk_layer kq.
Proof.
  unfold is_parent_edge. rewrite andb_true_iff, bool_decide_eq_true. intros [Ht Hr]. exists (key_other c (edge_key u v)). split.
  - unfold key_touches, key_other, same_pair in *. destruct (edge_key_cases u v) as [E|E]; rewrite E in *; cbn [fst snd] in *;
      destruct (N.eqb_spec u c), (N.eqb_spec v c); subst; intuition congruence.
  - destruct (a_key a c) as [kc|]; [|discriminate]. destruct (a_key a (key_other c (edge_key u v))) as [kq|]; [|discriminate]. exists kq, kc. split; [reflexivity|]. split; [reflexivity|].
    unfold rel in Hr. destruct (N.ltb_spec (lk_layer kq) (lk_layer kc)); [discriminate|]. destruct (N.ltb_spec (lk_layer kc) (lk_layer kq)); [assumption|discriminate].
Qed.
Lemma lower_inv a u v ku kv : a_key a u = Some ku -> a_key a v = Some kv -> lk_layer ku <> lk_layer kv ->
  exists p, same_pair p (lower_of a u v) u v /\ exists kp kc, a_key a p = Some kp /\ a_key a (lower_of a u v) = Some kc /\ lk_layer kc < lk_layer kp.
Proof.
  intros Hu Hv Hne. unfold lower_of. rewrite Hu, Hv. unfold rel.
  destruct (N.ltb_spec (lk_layer kv) (lk_layer ku)).
  - exists u. split; [left; auto|]. exists ku, kv. auto.
  - destruct (N.ltb_spec (lk_layer ku) (lk_layer kv)); [|unfold LayerId in *; lia]. exists v. split; [right; auto|]. exists kv, ku. auto.
Qed.
Lemma attrs_position_set at0 p : attrs_position (attrs_set_position at0 p) = p.
Proof. destruct at0; reflexivity. Qed.
Lemma attrs_set_set at0 p q : attrs_set_position (attrs_set_position at0 p) q = attrs_set_position at0 q.
Proof. destruct at0; reflexivity. Qed.

Section Seen.
  Context (vadd vsub : Vec3 -> Vec3 -> Vec3) (cfg : MergeConfig) (g other : Graph) (a ao : AGraph) (g' : Graph) (a' : AGraph).
  Context (HR : Rep g a) (HRo : Rep other ao) (HM : am_ok cfg g other a ao) (MS : Merged vadd vsub cfg g other a ao g' a').
  Local Notation f := (mc_merged_id cfg).
  Local Notation HR' := (ms_rep _ _ _ _ _ _ _ _ _ MS).

  Lemma seen_removed x : reported_removed g other x -> g_has_node g' x = false.
  Proof using HR HRo HM MS.
    intros Hx. destruct (g_has_node g' x) eqn:E; [|reflexivity]. apply (obs_known _ _ HR') in E as [n E]. rewrite (ms_rem _ _ _ _ _ _ _ _ _ MS x Hx) in E. discriminate.
  Qed.
  Lemma static_node x l t b : node_data other x = Some (key_static l, t, b) -> exists ol n, g_layers other !! l = Some ol /\ sl_nodes ol !! x = Some n /\ n_attrs n = b.
  Proof using HRo.
    rewrite (obs_data _ _ HRo). destruct (ag_nodes ao !! x) as [an|] eqn:E; [|discriminate]. intros H. cbn in H. unfold an_data in H. injection H as Hk Ht Hb.
    assert (Hlk : g_lookup other !! x = Some (key_static l)) by (rewrite (rp_lookup _ _ HRo); unfold a_key; rewrite E; cbn; congruence).
    apply (rp_home _ _ HRo _ _ (canon_static l)) in Hlk as (L & HL & [n Hn]). pose proof (part_node_abs other ao HRo _ _ x n (canon_static l) HL Hn) as Hab.
    unfold g_part in HL; cbn in HL. exists L, n. split; [exact HL|]. split; [exact Hn|]. rewrite E in Hab. injection Hab as ->. cbn in Hb. exact Hb.
  Qed.
  Lemma dynamic_node x l p t b : node_data other x = Some (key_dynamic l p, t, b) -> exists od n, g_dlayer other l p = Some od /\ dl_nmap od !! x = Some n /\ n_time n = t /\ n_attrs n = b.
  Proof using HRo.
    rewrite (obs_data _ _ HRo). destruct (ag_nodes ao !! x) as [an|] eqn:E; [|discriminate]. intros H. cbn in H. unfold an_data in H. injection H as Hk Ht Hb.
    assert (Hlk : g_lookup other !! x = Some (key_dynamic l p)) by (rewrite (rp_lookup _ _ HRo); unfold a_key; rewrite E; cbn; congruence).
    apply (rp_home _ _ HRo _ _ (canon_dynamic l p)) in Hlk as (L & HL & [n Hn]). pose proof (part_node_abs other ao HRo _ _ x n (canon_dynamic l p) HL Hn) as Hab.
    unfold g_part in HL; cbn in HL. destruct (g_dlayer other l p) as [od|] eqn:Ed; [|discriminate]. injection HL as <-. exists od, n. split; [reflexivity|]. split; [exact Hn|].
    rewrite E in Hab. injection Hab as ->. cbn in Ht, Hb. auto.
  Qed.
  Lemma merged_away_mgl l x : mgl g l x = true <-> merged_away g l x.
  Proof using.
    unfold mgl, merged_away, sl_merged, sl_check_node. destruct (g_layers g !! l) as [s|].
    - rewrite bool_decide_eq_true. split; [intros H; exists s; rewrite H; auto|]. intros (s1 & [= <-] & H). destruct (sl_status s !! x) as [[]|]; congruence.
    - split; [discriminate|]. intros (s & [=] & _).
  Qed.
  Lemma updates_layer_upd l : layer_upd cfg l = true <-> updates_layer cfg l.
  Proof using.
    unfold layer_upd, updates_layer. destruct (mc_update_layer cfg) as [m|]; [|split; [discriminate|reflexivity]]. split.
    - intros H m1 [= <-] H1. rewrite H1 in H. discriminate.
    - intros H. specialize (H m eq_refl). destruct (m !! l) as [[]|]; [reflexivity|congruence|reflexivity].
  Qed.
  Lemma seen_static_away x l t b : node_data other x = Some (key_static l, t, b) -> is_Some (g_layers g !! l) -> merged_away g l x -> node_data g' x = node_data g x.
  Proof using HR HRo HM MS.
    intros Hd Hs Hm. destruct (static_node x l t b Hd) as (ol & n & Hol & Hn & _). pose proof (ms_stat _ _ _ _ _ _ _ _ _ MS l ol x n Hol Hs Hn) as H.
    unfold st_merged in H. rewrite (proj2 (merged_away_mgl l x) Hm) in H. rewrite (obs_data _ _ HR'), (obs_data _ _ HR), H. reflexivity.
  Qed.
  Lemma seen_static_new x l t b : node_data other x = Some (key_static l, t, b) -> is_Some (g_layers g !! l) -> ~ merged_away g l x ->
    g_has_node g x = false -> node_data g' x = Some (key_static l, None, b).
  Proof using HR HRo HM MS.
    intros Hd Hs Hm Hk. destruct (static_node x l t b Hd) as (ol & n & Hol & Hn & Hb). pose proof (ms_stat _ _ _ _ _ _ _ _ _ MS l ol x n Hol Hs Hn) as H.
    unfold st_merged in H. destruct (mgl g l x) eqn:Em; [exfalso; apply Hm, merged_away_mgl, Em|]. rewrite (obs_data _ _ HR'), H.
    destruct (ag_nodes a !! x) as [an|] eqn:E; [|cbn; unfold an_data; cbn; rewrite Hb; reflexivity].
    assert (g_has_node g x = true) by (apply (obs_known _ _ HR); unfold a_known; rewrite E; eauto). congruence.
  Qed.
  Lemma seen_static_old x l t b k0 t0 b0 : node_data other x = Some (key_static l, t, b) -> is_Some (g_layers g !! l) -> ~ merged_away g l x ->
    node_data g x = Some (k0, t0, b0) ->
    (updates_layer cfg l /\ (mc_update_archived cfg = true \/ attrs_is_active b0 = true) -> node_data g' x = Some (k0, t0, b)) /\
    (~ (updates_layer cfg l /\ (mc_update_archived cfg = true \/ attrs_is_active b0 = true)) -> node_data g' x = Some (k0, t0, b0)).
  Proof using HR HRo HM MS.
    intros Hd Hs Hm Hg. destruct (static_node x l t b Hd) as (ol & n & Hol & Hn & Hb). pose proof (ms_stat _ _ _ _ _ _ _ _ _ MS l ol x n Hol Hs Hn) as H.
    unfold st_merged in H. destruct (mgl g l x) eqn:Em; [exfalso; apply Hm, merged_away_mgl, Em|]. rewrite (obs_data _ _ HR'), H.
    rewrite (obs_data _ _ HR) in Hg. destruct (ag_nodes a !! x) as [an|] eqn:E; [|discriminate]. cbn in Hg. unfold an_data in Hg. injection Hg as <- <- <-. cbn [st_result].
    destruct (layer_upd cfg l && (mc_update_archived cfg || attrs_is_active (an_attrs an))) eqn:Eu.
    - rewrite andb_true_iff, orb_true_iff, updates_layer_upd in Eu. cbn. unfold an_data. cbn. rewrite Hb. split; [reflexivity|]. intros Hq. contradiction.
    - cbn. unfold an_data. split; [|reflexivity]. intros Hq. rewrite <- updates_layer_upd, <- orb_true_iff, <- andb_true_iff in Hq. congruence.
  Qed.
  Lemma num_slots_dnext l p : is_Some (g_dlayer other l p) -> dnext a l p = num_slots g l p.
  Proof using HR HM.
    intros [od Hd]. unfold dnext, num_slots. destruct (mo_dyn _ _ _ _ _ HM l p od Hd) as (n0 & Hn & _). rewrite (rp_dyn _ _ HR) in Hn |- *. unfold dinfo in *. destruct (g_dlayer g l p) as [d|]; [|reflexivity].
    cbn in *. congruence.
  Qed.
  Lemma seen_dynamic_old x l p t b k0 t0 b0 : node_data other x = Some (key_dynamic l p, t, b) -> node_data g x = Some (k0, t0, b0) ->
    node_data g' x = Some (k0, t0, if mc_update_dynamic cfg then attrs_set_position b (attrs_position b0) else b0).
  Proof using HR HRo HM MS.
    intros Hd Hg. destruct (dynamic_node x l p t b Hd) as (od & n & Hod & Hn & _ & Hb). pose proof (ms_dyn _ _ _ _ _ _ _ _ _ MS l p od x n Hod Hn) as H.
    unfold dyn_merged in H. rewrite (obs_data _ _ HR) in Hg. destruct (ag_nodes a !! x) as [an|] eqn:E; [|discriminate]. cbn in Hg. unfold an_data in Hg. injection Hg as <- <- <-.
    rewrite (obs_data _ _ HR'), H. cbn. unfold an_data, dyn_kept. cbn. rewrite Hb. reflexivity.
  Qed.
  Lemma seen_dynamic_new x l p t b : node_data other x = Some (key_dynamic l p, t, b) -> g_has_node g x = false ->
    exists d, drift vsub g other l p d /\ node_data g' x = Some (key_dynamic l p, t, attrs_set_position b (vadd (attrs_position b) d)).
  Proof using HR HRo HM MS.
    intros Hd Hg. destruct (dynamic_node x l p t b Hd) as (od & n & Hod & Hn & Ht & Hb). pose proof (ms_dyn _ _ _ _ _ _ _ _ _ MS l p od x n Hod Hn) as H.
    unfold dyn_merged in H. destruct (ag_nodes a !! x) as [an|] eqn:E.
    { exfalso. assert (g_has_node g x = true) by (apply (obs_known _ _ HR); unfold a_known; rewrite E; eauto). congruence. }
    destruct H as (d & Hs & H). exists d. split; [|rewrite (obs_data _ _ HR'), H; cbn; unfold an_data, dyn_new; cbn; rewrite Ht, Hb; reflexivity].
    unfold dshift in Hs. rewrite num_slots_dnext in Hs by eauto. unfold drift. destruct Hs as [Hs|[Hz (on & an & X1 & X2 & ->)]]; [left; exact Hs|right].
    split; [exact Hz|]. exists (an_key an), (an_time an), (an_attrs an), (key_dynamic l p), (n_time on), (n_attrs on). cbv zeta.
    rewrite (obs_data _ _ HR), X2, (obs_data _ _ HRo). destruct (od_facts other ao HRo l p od Hod) as (_ & _ & _ & _ & Hnode & _). rewrite (Hnode _ _ X1).
    split; [reflexivity|]. split; reflexivity.
  Qed.
  Lemma seen_rest x : ~ reported_removed g other x -> ~ covered g other x -> node_data g' x = node_data g x.
  Proof using HR HRo HM MS.
    intros Hr Hc. rewrite (obs_data _ _ HR'), (obs_data _ _ HR), (ms_same _ _ _ _ _ _ _ _ _ MS x); [reflexivity|exact Hr|].
    intros k Hk. rewrite <- (obs_layer _ _ HRo) in Hk. split; [|intros Hs; apply Hc; exists k; split; [exact Hk|right; exact Hs]].
    destruct (lk_dynamic k) eqn:Ed; [|reflexivity]. exfalso. apply Hc. exists k. auto.
  Qed.

  (** Edges *)
  Lemma cut_seen u v : Cut g other a ao (edge_key u v) -> dropped cfg g other g' u v.
  Proof using.
    intros (l & ol & e & H1 & H2 & H3 & H4 & _ & _). eapply (by_removed_edge _ _ _ _ _ _ l ol e); [exact H1|exact H2|exact H3|]. apply same_pair_key, H4.
  Qed.
  Lemma remt_seen u v : RemT g other (edge_key u v) -> dropped cfg g other g' u v.
  Proof using.
    intros (x & Hx & Ht). apply (by_removed_node _ _ _ _ _ _ x Hx). unfold key_touches in Ht. destruct (edge_key_cases u v) as [E|E]; rewrite E in Ht; cbn in Ht; intuition congruence.
  Qed.
  Lemma inter_adjacent k0 e0 : (k0, e0) ∈ inter_edges other -> adjacent other (e_src e0) (e_tgt e0) /\
    exists ks kt, a_key ao (e_src e0) = Some ks /\ a_key ao (e_tgt e0) = Some kt /\ ks <> kt.
  Proof using HRo.
    intros Hin. apply inter_edges_in in Hin as [dyn Hx]. destruct (inter_edge_abs other ao HRo dyn k0 e0 Hx) as (X1 & X2 & X3). split; [|exact X3].
    apply (obs_adjacent _ _ HRo). unfold a_linked. rewrite <- X2. eauto.
  Qed.
  Lemma inter_layers k0 e0 ku kv : mc_enforce_parent cfg = true -> (k0, e0) ∈ inter_edges other -> a_key a' (f (e_src e0)) = Some ku -> a_key a' (f (e_tgt e0)) = Some kv -> lk_layer ku <> lk_layer kv.
  Proof using HRo HM MS.
    intros Hp Hin Hu Hv. destruct (inter_adjacent k0 e0 Hin) as (_ & ks & kt & Hs & Ht & Hne).
    apply inter_edges_in in Hin as [dyn Hx]. destruct (inter_edge_abs other ao HRo dyn k0 e0 Hx) as (X1 & _ & _).
    pose proof (ms_mi _ _ _ _ _ _ _ _ _ MS) as HI.
    pose proof (merged_key cfg g other a ao HM a' _ _ _ Hp HI Hs Hu) as ->. pose proof (merged_key cfg g other a ao HM a' _ _ _ Hp HI Ht Hv) as ->.
    exact (mo_par _ _ _ _ _ HM Hp k0 e0 ks kt X1 Hs Ht Hne).
  Qed.
  Lemma supp_seen u v : Supp cfg other a a' (edge_key u v) -> dropped cfg g other g' u v.
  Proof using HR HRo HM MS.
    intros (Hp & [k0 e0] & Hin & H). cbv zeta in H. cbn [snd] in H. destruct H as (Z1 & Z2 & Z3 & Z4 & Z5 & Z6).
    apply key_known in Z2 as [ku Hu], Z3 as [kv Hv]. pose proof (inter_layers k0 e0 ku kv Hp Hin Hu Hv) as Hl.
    destruct (lower_inv a' _ _ _ _ Hu Hv Hl) as (p & Hpc & kp & kc & Hkp & Hkc & Hlt).
    destruct (parent_edge_inv a' _ u v Z5) as (q & Hqc & kq & kc' & Hkq & Hkc' & Hlt').
    set (c := lower_of a' (f (e_src e0)) (f (e_tgt e0))) in *.
    apply (by_new_parent _ _ _ _ _ _ p q c (e_src e0) (e_tgt e0)); [exact Hp|exact Hqc| |exact (proj1 (inter_adjacent k0 e0 Hin))|exact Hpc| | |].
    - exists kq, kc'. rewrite !(obs_layer _ _ HR'). auto.
    - exists kp, kc. rewrite !(obs_layer _ _ HR'). auto.
    - intros ->. apply Z4. apply same_pair_key. apply same_pair_key in Hpc, Hqc. apply same_pair_key. congruence.
    - rewrite (obs_adjacent _ _ HR). intros Hlk. apply Z6. unfold a_linked in *. apply same_pair_key in Hpc. rewrite <- Hpc. exact Hlk.
  Qed.
  Lemma from_seen u v e : from_dyn ao (edge_key u v) e \/ from_rest ao f (edge_key u v) e -> brought cfg other u v e.
  Proof using HRo.
    intros [(k0 & e0 & H1 & _ & -> & H3)|(k0 & e0 & H1 & _ & -> & H3)]; (split; [apply same_pair_key, H3|]); exists (e_src e0), (e_tgt e0), e0;
      (split; [rewrite (obs_edge _ _ HRo), <- (proj1 (rp_norm _ _ HRo _ _ H1)); exact H1|]); (split; [reflexivity|]); [left|right]; split; reflexivity.
  Qed.
  Lemma seen_edges u v : edge_at g' u v = edge_at g u v \/ (edge_at g' u v = None /\ dropped cfg g other g' u v) \/
    exists e, edge_at g' u v = Some e /\ brought cfg other u v e /\ (edge_at g u v = None \/ dropped cfg g other g' u v).
  Proof using HR HRo HM MS.
    rewrite !(obs_edge _ _ HR'), !(obs_edge _ _ HR).
    assert (HP : RemT g other (edge_key u v) \/ Cut g other a ao (edge_key u v) \/ Supp cfg other a a' (edge_key u v) -> dropped cfg g other g' u v).
    { intros [H|[H|H]]; [apply remt_seen, H|apply cut_seen, H|apply supp_seen, H]. }
    destruct (ms_er _ _ _ _ _ _ _ _ _ MS (edge_key u v)) as [E|[[E H]|(e & E & HQ & H)]]; [left; exact E|right; left; auto|].
    right; right. exists e. split; [exact E|]. split; [apply from_seen, HQ|]. destruct H; auto.
  Qed.

  (** Edges brought in *)
  Lemma seen_brought u v : adjacent other u v -> f u <> f v -> layer_of g' (f u) = layer_of other u -> layer_of g' (f v) = layer_of other v ->
    adjacent g' u v \/ adjacent g' (f u) (f v) \/
    (mc_enforce_parent cfg = true /\ exists c p q x y, same_pair q c (f u) (f v) /\ above g' q c /\
       adjacent other x y /\ same_pair p c (f x) (f y) /\ above g' p c /\ p <> q).
  Proof using HR HRo HM MS.
    intros Hadj Hne Hlu Hlv. apply (obs_adjacent _ _ HRo) in Hadj as [e He]. destruct (rp_norm _ _ HRo _ _ He) as [HK _].
    assert (Hends : same_pair u v (e_src e) (e_tgt e)) by (apply same_pair_key, HK).
    rewrite !(obs_layer _ _ HR'), !(obs_layer _ _ HRo) in *.
    assert (Hsame : f (e_src e) <> f (e_tgt e) /\ a_key a' (f (e_src e)) = a_key ao (e_src e) /\ a_key a' (f (e_tgt e)) = a_key ao (e_tgt e)).
    { destruct Hends as [[-> ->]|[-> ->]]; auto. }
    destruct Hsame as (Hne' & Hsu & Hsv). rewrite !(obs_adjacent _ _ HR').
    assert (Hlk : forall h : N -> N, a_linked a' (h (e_src e)) (h (e_tgt e)) -> a_linked a' (h u) (h v)).
    { intros h. destruct Hends as [[-> ->]|[-> ->]]; [auto|apply a_linked_comm]. }
    destruct (edge_abs_part other ao HRo _ e He) as [(k & L & Hc & HP & Hed)|[dyn Hed]].
    - destruct (part_edge_abs other ao HRo k L _ e Hc HP Hed) as (_ & _ & Hse & Hb). destruct (lk_dynamic k) eqn:Ed.
      + left. apply (Hlk id). unfold id, a_linked. rewrite <- HK. apply (ms_kdyn _ _ _ _ _ _ _ _ _ MS _ e He).
        exists (lk_layer k), (lk_prefix k). replace (key_dynamic (lk_layer k) (lk_prefix k)) with k; [exact Hb|]. destruct k; cbn in *. unfold key_dynamic. congruence.
      + assert (k = key_static (lk_layer k)) as Hk.
        { unfold canon in Hc. destruct k; cbn in *. unfold key_static. rewrite Ed in *. f_equal. auto. }
        assert (Hbf : both a' (key_static (lk_layer k)) (f (e_src e)) (f (e_tgt e))) by (destruct Hb; rewrite <- Hk; split; congruence).
        unfold g_part in HP. rewrite Ed in HP.
        assert (Hsh : shared g (lk_layer k)).
        { destruct Hbf as [Hb1 _]. rewrite <- (rp_lookup _ _ HR') in Hb1. apply (rp_home _ _ HR' _ _ (canon_static _)) in Hb1 as (L' & HL' & _).
          unfold g_part in HL'; cbn in HL'. unfold shared. apply (rp_layers _ _ HR). rewrite <- (ms_layers _ _ _ _ _ _ _ _ _ MS). apply (rp_layers _ _ HR'). eauto. }
        destruct (ms_kstat _ _ _ _ _ _ _ _ _ MS _ L HP Hsh _ e Hed Hbf Hne') as [[_ H]|H]; [left; apply (Hlk id), H|right; left; apply Hlk, H].
    - assert (Hin : (edge_key u v, e) ∈ inter_edges other) by (apply inter_edges_in; eauto).
      destruct (inter_adjacent _ _ Hin) as (_ & ks & kt & Hs & Ht & Hnk).
      assert (Hk1 : a_known a' (f (e_src e))) by (apply key_known; exists ks; congruence).
      assert (Hk2 : a_known a' (f (e_tgt e))) by (apply key_known; exists kt; congruence).
      destruct (ms_kinter _ _ _ _ _ _ _ _ _ MS _ e Hin Hne' Hk1 Hk2) as [H|(Hp & [k0 e0] & Hin0 & H)]; [right; left; apply Hlk, H|right; right].
      cbv zeta in H. cbn [snd] in H. destruct H as (Z1 & Z2 & Z3 & Z4 & Z5). split; [exact Hp|].
      apply key_known in Z2 as [ku Hu], Z3 as [kv Hv]. pose proof (inter_layers k0 e0 ku kv Hp Hin0 Hu Hv) as Hl.
      destruct (lower_inv a' _ _ _ _ Hu Hv Hl) as (p & Hpc & kp & kc & Hkp & Hkc & Hlt).
      destruct (parent_edge_inv a' _ _ _ Z5) as (q & Hqc & kq & kc' & Hkq & Hkc' & Hlt').
      set (c := lower_of a' (f (e_src e0)) (f (e_tgt e0))) in *.
      exists c, p, q, (e_src e0), (e_tgt e0). split; [|split; [|split; [exact (proj1 (inter_adjacent k0 e0 Hin0))|split; [exact Hpc|split]]]].
      + apply same_pair_key in Hqc. apply same_pair_key. rewrite <- Hqc. apply same_pair_key. destruct Hends as [[-> ->]|[-> ->]]; [left|right]; auto.
      + exists kq, kc'. rewrite !(obs_layer _ _ HR'). auto.
      + exists kp, kc. rewrite !(obs_layer _ _ HR'). auto.
      + intros ->. apply Z4. apply same_pair_key in Hpc, Hqc. congruence.
  Qed.
End Seen.

Section NoRenaming.
  Context (vadd vsub : Vec3 -> Vec3 -> Vec3) (cfg : MergeConfig) (g other : Graph) (a ao : AGraph) (g' : Graph) (a' : AGraph).
  Context (HR : Rep g a) (HRo : Rep other ao) (HM : am_ok cfg g other a ao) (MS : Merged vadd vsub cfg g other a ao g' a').
  Context (Hprev : mc_previous cfg = None) (Hone : mc_enforce_parent cfg = true -> one_parent other).
  Local Notation f := (mc_merged_id cfg).
  Local Notation HR' := (ms_rep _ _ _ _ _ _ _ _ _ MS).
  Lemma no_renaming x : f x = x.
  Proof using Hprev. unfold mc_merged_id. rewrite Hprev. reflexivity. Qed.
  Lemma same_layer_after x : g_has_node other x = true -> g_has_node g' x = true -> layer_of g' x = layer_of other x.
  Proof using HR HRo HM MS.
    intros Ho Hx. apply (obs_known _ _ HRo), key_known in Ho as [k Ho]. apply (obs_known _ _ HR'), key_known in Hx as [k' Hx].
    rewrite (obs_layer _ _ HR'), (obs_layer _ _ HRo). destruct (mi_other _ _ _ _ _ (ms_mi _ _ _ _ _ _ _ _ _ MS) x k Ho); congruence.
  Qed.
  Lemma adjacent_known u v : adjacent other u v -> g_has_node other u = true /\ g_has_node other v = true.
  Proof using HRo. rewrite (obs_adjacent _ _ HRo), !(obs_known _ _ HRo). apply (linked_known other ao HRo). Qed.
  Lemma above_known p c : above g' p c -> g_has_node g' p = true /\ g_has_node g' c = true.
  Proof using MS.
    intros (kp & kc & H1 & H2 & _). rewrite (obs_layer _ _ HR') in H1, H2. rewrite !(obs_known _ _ HR'), !key_known. eauto.
  Qed.
  Lemma seen_brought_id u v : adjacent other u v -> g_has_node g' u = true -> g_has_node g' v = true ->
    adjacent g' u v /\ (edge_at g u v = None -> edge_at g' u v = edge_at other u v).
  Proof using HR HRo HM MS Hprev Hone.
    intros Hadj Hu Hv. destruct (adjacent_known u v Hadj) as [Hou Hov].
    assert (Huv : u <> v).
    { intros ->. apply (obs_adjacent _ _ HRo) in Hadj as [e He]. destruct (rp_norm _ _ HRo _ _ He) as [HK Hne]. apply same_pair_key in HK as [[-> HK]|[HK ->]]; congruence. }
    assert (Hadj' : adjacent g' u v).
    { destruct (seen_brought vadd vsub cfg g other a ao g' a' HR HRo HM MS u v Hadj) as [H|[H|(Hp & c & p & q & x & y & Hqc & Hq & Hxy & Hpc & Hpa & Hne)]]; rewrite ?no_renaming in *.
      - exact Huv.
      - apply same_layer_after; assumption.
      - apply same_layer_after; assumption.
      - exact H.
      - exact H.
      - exfalso. apply Hne. destruct (adjacent_known x y Hxy) as [Hox Hoy].
        assert (Hpar : forall z c', adjacent other z c' -> above g' z c' -> is_parent_of other z c').
        { intros z c' Hz Hab. split; [exact Hz|]. destruct (above_known _ _ Hab) as [K1 K2]. destruct (adjacent_known z c' Hz) as [K3 K4].
          destruct Hab as (kp & kc & L1 & L2 & L3). rewrite same_layer_after in L1, L2 by assumption. eauto. }
        assert (Hsym : forall z w, adjacent other z w -> adjacent other w z) by (intros z w; rewrite !(obs_adjacent _ _ HRo); apply a_linked_comm).
        apply (Hone Hp c).
        + apply Hpar; [|exact Hpa]. destruct Hpc as [[-> ->]|[-> ->]]; auto.
        + apply Hpar; [|exact Hq]. destruct Hqc as [[-> ->]|[-> ->]]; auto. }
    split; [exact Hadj'|]. intros Hno.
    destruct (seen_edges vadd vsub cfg g other a ao g' a' HR HRo HM MS u v) as [E|[[E _]|(e & E & (Hpair & x & y & e0 & He0 & Hi & Hends) & _)]].
    - exfalso. apply (obs_adjacent _ _ HR') in Hadj' as [e He]. rewrite <- (obs_edge _ _ HR'), E, Hno in He. discriminate.
    - exfalso. apply (obs_adjacent _ _ HR') in Hadj' as [e He]. rewrite <- (obs_edge _ _ HR'), E in He. discriminate.
    - rewrite E. rewrite !no_renaming in Hends. assert (He : e = e0) by (destruct e, e0; cbn in *; destruct Hends as [[-> ->]|[-> ->]]; subst; reflexivity).
      rewrite (obs_edge _ _ HRo) in He0 |- *. destruct (rp_norm _ _ HRo _ _ He0) as [HK _]. apply same_pair_key in Hpair. rewrite Hpair, He, <- HK. symmetry. exact He0.
  Qed.
End NoRenaming.

Section Twice.
  Context (vadd vsub : Vec3 -> Vec3 -> Vec3) (cfg : MergeConfig) (g other : Graph) (a ao : AGraph) (g' : Graph) (a' : AGraph).
  Context (HRL : RepL g a) (HRoL : RepL other ao) (Hok : merge_ok cfg g other) (MS : Merged vadd vsub cfg g other a ao g' a') (HRL' : RepL g' a').
  Context (Hprev : mc_previous cfg = None) (Hone : mc_enforce_parent cfg = true -> one_parent other).
  Let HR : Rep g a := proj1 HRL.
  Let HRo : Rep other ao := proj1 HRoL.
  Let HM : am_ok cfg g other a ao := merge_am_ok cfg g other a ao HR HRo Hok.
  Local Notation HR' := (ms_rep _ _ _ _ _ _ _ _ _ MS).
  Lemma shared_after l : is_Some (g_layers g' !! l) <-> is_Some (g_layers g !! l).
  Proof using HRL MS. pose proof (rp_layers _ _ HR l) as H1. pose proof (rp_layers _ _ HR' l) as H2. rewrite (ms_layers _ _ _ _ _ _ _ _ _ MS) in H2. tauto. Qed.
  Lemma removed_after x : reported_removed g' other x <-> reported_removed g other x.
  Proof using HRL MS. split; intros (l & ol & H1 & H2 & H3); exists l, ol; (split; [exact H1|]); (split; [apply shared_after, H2|exact H3]). Qed.
  Lemma slots_after l p od : g_dlayer other l p = Some od -> exists d, g_dlayer g' l p = Some d /\ dl_next d = dl_size d /\ dl_size od <= dl_size d.
  Proof using MS.
    intros Hd. pose proof (ms_dynsz _ _ _ _ _ _ _ _ _ MS l p od Hd) as H. cbv zeta in H. rewrite (rp_dyn _ _ HR') in H. unfold dinfo in H.
    destruct (g_dlayer g' l p) as [d|]; [|discriminate]. cbn in H. exists d. injection H as H1 H2. split; [reflexivity|]. split; [congruence|]. lia.
  Qed.
  Lemma merge_ok_again : merge_ok cfg g' other.
  Proof using HRL HRoL Hok MS Hprev.
    assert (Hkey : forall x k, layer_of other x = Some k -> layer_of g' x = None \/ layer_of g' x = Some k).
    { intros x k Hx. rewrite (obs_layer _ _ HRo) in Hx. rewrite (obs_layer _ _ HR'). exact (mi_other _ _ _ _ _ (ms_mi _ _ _ _ _ _ _ _ _ MS) x k Hx). }
    split.
    - exact Hkey.
    - intros _ x k Hx. rewrite (no_renaming cfg Hprev). split; [apply Hkey, Hx|right; exact Hx].
    - apply (mk_inter _ _ _ Hok).
    - intros x Hx. apply removed_after in Hx. destruct (mk_removed _ _ _ Hok x Hx) as (A & B & _ & _).
      assert (Hn : layer_of g' x = None) by (rewrite (obs_layer _ _ HR'); unfold a_key; rewrite (ms_rem _ _ _ _ _ _ _ _ _ MS x Hx); reflexivity).
      split; [exact A|]. split; [exact B|]. split; [intros k Hk; congruence|]. intros v k kv _ Hk. congruence.
    - intros l p od Hd. destruct (mk_dynamic _ _ _ Hok l p od Hd) as (D1 & D2 & D3). destruct (slots_after l p od Hd) as (d & Hdg & Hnx & Hsz).
      destruct (od_facts other ao HRo l p od Hd) as (Hc & Hpx & Hdok & HP & Hnode & _).
      assert (Hin : forall i, i < dl_size od -> exists n, dl_nmap od !! prefix_make_id p i = Some n).
      { intros i Hi. pose proof (D1 i Hi) as Hl. rewrite (obs_layer _ _ HRo), <- (rp_lookup _ _ HRo) in Hl. apply (rp_home _ _ HRo _ _ (canon_dynamic l p)) in Hl as (L & HL & [n Hn]).
        rewrite HP in HL. injection HL as <-. exists n. exact Hn. }
      split; [exact D1|]. split.
      + intros d0 Hd0. rewrite Hdg in Hd0. injection Hd0 as <-. split; [exact Hnx|]. intros i _ Hi. destruct (Hin i Hi) as [n Hn].
        pose proof (ms_dyn _ _ _ _ _ _ _ _ _ MS l p od _ n Hd Hn) as Hm. destruct (Hkey _ _ (D1 i Hi)) as [E|E]; [|exact E].
        exfalso. rewrite (obs_layer _ _ HR') in E. unfold a_key in E. unfold dyn_merged in Hm. destruct (ag_nodes a !! _) as [an|].
        * rewrite Hm in E. discriminate.
        * destruct Hm as (dd & _ & Hm). rewrite Hm in E. discriminate.
      + intros i t b x c Hi Hi2. exfalso. unfold num_slots in Hi. rewrite Hdg in Hi. lia.
  Qed.

  (** The second merge. *)
  Context (g2 : Graph) (a2 : AGraph) (MS2 : Merged vadd vsub cfg g' other a' ao g2 a2).
  Let HM2 : am_ok cfg g' other a' ao := merge_am_ok cfg g' other a' ao (proj1 HRL') HRo merge_ok_again.
  Lemma again_nodes x : ag_nodes a2 !! x = ag_nodes a' !! x.
  Proof using HRL HRoL Hok MS HRL' Hprev MS2.
    assert (Hrem : Rem g' other x <-> Rem g other x) by exact (removed_after x).
    destruct (ag_nodes ao !! x) as [an|] eqn:E.
    - assert (Hk : a_key ao x = Some (an_key an)) by (unfold a_key; rewrite E; reflexivity).
      assert (Hnr : ~ Rem g other x) by (intros Hr; destruct (mo_rem _ _ _ _ _ HM x Hr); congruence).
      pose proof Hk as Hlk. rewrite <- (rp_lookup _ _ HRo) in Hlk. pose proof (rp_canon _ _ HRo _ _ Hlk) as Hc. apply (rp_home _ _ HRo _ _ Hc) in Hlk as (L & HL & [n Hn]).
      unfold g_part in HL. destruct (lk_dynamic (an_key an)) eqn:Ed.
      + destruct (g_dlayer other (lk_layer (an_key an)) (lk_prefix (an_key an))) as [od|] eqn:Eod; [|discriminate]. injection HL as <-. cbn in Hn.
        pose proof (ms_dyn _ _ _ _ _ _ _ _ _ MS _ _ od x n Eod Hn) as H1. pose proof (ms_dyn _ _ _ _ _ _ _ _ _ MS2 _ _ od x n Eod Hn) as H2.
        unfold dyn_merged in H1, H2.
        assert (Hsome : exists b, ag_nodes a' !! x = Some b /\ (mc_update_dynamic cfg = true -> an_attrs b = attrs_set_position (n_attrs n) (attrs_position (an_attrs b)))).
        { destruct (ag_nodes a !! x) as [b0|].
          - rewrite H1. eexists. split; [reflexivity|]. unfold dyn_kept; cbn. intros ->. rewrite attrs_position_set. reflexivity.
          - destruct H1 as (d & _ & H1). rewrite H1. eexists. split; [reflexivity|]. unfold dyn_new; cbn. intros _. rewrite attrs_position_set. reflexivity. }
        destruct Hsome as (b & Hb & Hat). rewrite Hb in H2 |- *. rewrite H2. f_equal. unfold dyn_kept. destruct b as [kb tb ab]; cbn in *.
        destruct (mc_update_dynamic cfg); [rewrite <- Hat by reflexivity|]; reflexivity.
      + destruct (decide (shared g (lk_layer (an_key an)))) as [Hsh|Hsh].
        * pose proof (ms_stat _ _ _ _ _ _ _ _ _ MS _ L x n HL Hsh Hn) as H1.
          pose proof (ms_stat _ _ _ _ _ _ _ _ _ MS2 _ L x n HL (proj2 (shared_after _) Hsh) Hn) as H2. unfold st_merged in H1, H2.
          assert (Hmg : mgl g' (lk_layer (an_key an)) x = mgl g (lk_layer (an_key an)) x).
          { unfold mgl. destruct Hsh as [s0 Hs0]. destruct (ms_stat' _ _ _ _ _ _ _ _ _ MS _ s0 Hs0) as (s1 & Hs1 & Hm). rewrite Hs0, Hs1. apply Hm, Hnr. }
          rewrite Hmg in H2. destruct (mgl g _ x); [exact H2|]. rewrite H2, H1. f_equal. unfold st_result.
          destruct (ag_nodes a !! x) as [b|].
          -- destruct (layer_upd cfg _); cbn [andb]; [|reflexivity]. destruct (mc_update_archived cfg); cbn [orb]; [reflexivity|].
             destruct (attrs_is_active (an_attrs b)) eqn:Eb; cbn [an_attrs an_key an_time]; [destruct (attrs_is_active (n_attrs n)); reflexivity|rewrite Eb; reflexivity].
          -- cbn. destruct (_ && _); reflexivity.
        * apply (ms_same _ _ _ _ _ _ _ _ _ MS2 x); [rewrite Hrem; exact Hnr|]. intros k Hk'. rewrite Hk in Hk'. injection Hk' as <-.
          split; [exact Ed|]. intros Hs. apply Hsh. apply shared_after, Hs.
    - destruct (decide (ag_nodes a' !! x = None)) as [Hn|Hn].
      + rewrite Hn. destruct (ag_nodes a2 !! x) as [b|] eqn:E2; [|reflexivity]. exfalso.
        destruct (mi_new _ _ _ _ _ (ms_mi _ _ _ _ _ _ _ _ _ MS2) x) as [[c H]|[c H]]; [unfold a_known; rewrite E2; eauto|congruence|congruence].
      + apply (ms_same _ _ _ _ _ _ _ _ _ MS2 x).
        * rewrite Hrem. intros Hr. apply Hn. exact (ms_rem _ _ _ _ _ _ _ _ _ MS x Hr).
        * intros k Hk. unfold a_key in Hk. rewrite E in Hk. discriminate.
  Qed.
  Lemma again_key x : a_key a2 x = a_key a' x.
  Proof using HRL HRoL Hok MS HRL' Hprev MS2. unfold a_key. rewrite again_nodes. reflexivity. Qed.
  (** An edge of [other] between nodes the graph has is already there. *)
  Lemma already_linked k e : ag_edges ao !! k = Some e -> a_known a' (e_src e) -> a_known a' (e_tgt e) -> a_linked a' (e_src e) (e_tgt e).
  Proof using HRL HRoL Hok MS Hprev Hone.
    intros He Hs Ht. apply (obs_adjacent _ _ HR'). apply (seen_brought_id vadd vsub cfg g other a ao g' a' HR HRo HM MS Hprev Hone).
    - apply (obs_adjacent _ _ HRo). unfold a_linked. rewrite <- (proj1 (rp_norm _ _ HRo _ _ He)). eauto.
    - apply (obs_known _ _ HR'), Hs.
    - apply (obs_known _ _ HR'), Ht.
  Qed.
  Lemma again_cut k : Cut g' other a' ao k -> ag_edges a' !! k = None.
  Proof using HRL HRoL Hok MS Hprev.
    intros (l & ol & e & Hol & Hsh & Hrp & Hk & Hi1 & Hi2). apply shared_after in Hsh.
    assert (Hin : forall y, in_layer a' ao l y -> in_layer a ao l y).
    { intros y [H|H]; [|right; exact H]. destruct (mi_new _ _ _ _ _ (ms_mi _ _ _ _ _ _ _ _ _ MS) y) as [Hy|Hy]; [apply key_known; eauto| |]; apply key_known in Hy as [k' Hy].
      - left. destruct (mi_old _ _ _ _ _ (ms_mi _ _ _ _ _ _ _ _ _ MS) y k' Hy); congruence.
      - right. destruct (mi_other _ _ _ _ _ (ms_mi _ _ _ _ _ _ _ _ _ MS) y k' Hy); congruence. }
    assert (HC : Cut g other a ao k) by (exists l, ol, e; auto 8).
    destruct (ag_edges a' !! k) as [e1|] eqn:E1; [exfalso|reflexivity].
    destruct (ms_cut _ _ _ _ _ _ _ _ _ MS k HC) as (e' & k0 & e0 & He0 & Hnd & -> & Hk0); [rewrite E1; eauto|].
    cbn [image e_src e_tgt] in Hk0. rewrite !(no_renaming cfg Hprev) in Hk0. destruct (rp_norm _ _ HRo _ _ He0) as [HK0 _]. assert (Hkk : k = k0) by congruence. rewrite <- Hkk in He0, HK0. clear Hkk.
    destruct (slayer_facts other ao HRo l ol Hol) as (Howf & _ & Hedge).
    assert (Hends : a_key ao (e_src e0) = Some (key_static l) /\ a_key ao (e_tgt e0) = Some (key_static l)).
    { assert (Hkn : a_known ao (e_src e0) /\ a_known ao (e_tgt e0)) by (apply (linked_known other ao HRo); unfold a_linked; rewrite <- HK0; eauto).
      destruct Hkn as [Hs Ht]. apply key_known in Hs as [ks Hs], Ht as [kt Ht].
      assert (Hlay : forall y ky, a_key ao y = Some ky -> in_layer a ao l y -> a_key ao y = Some (key_static l)).
      { intros y ky Hy [H|H]; [|exact H]. destruct (mo_keys _ _ _ _ _ HM y ky Hy); congruence. }
      apply Hin in Hi1, Hi2. assert (Hpair : same_pair (e_src e0) (e_tgt e0) (fst e) (snd e)) by (apply same_pair_key; congruence).
      destruct Hpair as [[P1 P2]|[P1 P2]]; split; eapply Hlay; eauto; rewrite ?P1, ?P2; assumption. }
    assert (Hed : ec_edges (sl_edges ol) !! k = Some e0).
    { assert (HP : g_part other (key_static l) = Some ol) by (unfold g_part; cbn; exact Hol). destruct Hends as [H1 H2]. rewrite <- (rp_lookup _ _ HRo) in H1, H2.
      rewrite HK0, <- (Rep_part_edge other ao (key_static l) ol _ _ HRo (canon_static l) HP H1 H2), <- HK0. exact He0. }
    apply elem_of_keys_with in Hrp as (s & Hs & Hdel). pose proof (ecw_norm _ (slw_ec _ Howf) e s Hs) as Hnorm. rewrite <- Hk in Hnorm. subst e.
    destruct (proj1 (ecw_live _ (slw_ec _ Howf) k) ltac:(eauto)) as (s' & Hs' & Hlive). pose proof (eq_trans (eq_sym Hs) Hs') as Heq. injection Heq as <-.
    destruct s; try discriminate; destruct Hlive; discriminate.
  Qed.
  Lemma again_edges k : ag_edges a2 !! k = ag_edges a' !! k.
  Proof using HRL HRoL Hok MS HRL' Hprev Hone MS2.
    assert (HP : (RemT g' other k \/ Cut g' other a' ao k \/ Supp cfg other a' a2 k) -> ag_edges a' !! k = None).
    { intros [(x & Hx & Ht)|[H|(Hp & [k0 e0] & Hin & H)]].
      - apply removed_after in Hx. destruct (ag_edges a' !! k) as [e|] eqn:E; [exfalso|reflexivity].
        destruct (rp_norm _ _ HR' _ _ E) as [HK _]. assert (Hkn : a_known a' (e_src e) /\ a_known a' (e_tgt e)) by (apply (linked_known g' a' HR'); unfold a_linked; rewrite <- HK; eauto).
        assert (Hxk : x = e_src e \/ x = e_tgt e).
        { unfold key_touches in Ht. rewrite HK in Ht. destruct (edge_key_cases (e_src e) (e_tgt e)) as [Eq|Eq]; rewrite Eq in Ht; cbn in Ht; intuition congruence. }
        destruct Hkn as [[n1 K1] [n2 K2]]. pose proof (ms_rem _ _ _ _ _ _ _ _ _ MS x Hx) as Hno. destruct Hxk as [-> | ->]; congruence.
      - apply again_cut, H.
      - exfalso. cbv zeta in H. cbn [snd] in H. rewrite !(no_renaming cfg Hprev) in H. destruct H as (_ & Z2 & Z3 & _ & _ & Z6). apply Z6.
        unfold a_known in Z2, Z3. rewrite again_nodes in Z2, Z3. apply inter_edges_in in Hin as [dyn Hx]. destruct (inter_edge_abs other ao HRo dyn k0 e0 Hx) as (X1 & _ & _).
        exact (already_linked k0 e0 X1 Z2 Z3). }
    assert (HQ : forall e, ag_edges a2 !! k = Some e -> from_dyn ao k e \/ from_rest ao (mc_merged_id cfg) k e -> is_Some (ag_edges a' !! k)).
    { intros e He H. assert (H' : exists k0 e0, ag_edges ao !! k0 = Some e0 /\ e_src e = e_src e0 /\ e_tgt e = e_tgt e0 /\ k = edge_key (e_src e) (e_tgt e)).
      { destruct H as [(k0 & e0 & H1 & _ & H2 & H3)|(k0 & e0 & H1 & _ & H2 & H3)]; exists k0, e0; rewrite H2 in H3 |- *; cbn [image e_src e_tgt] in *; rewrite ?(no_renaming cfg Hprev) in *; auto. }
      destruct H' as (k0 & e0 & H1 & S1 & S2 & HK).
      assert (Hkn : a_known a2 (e_src e) /\ a_known a2 (e_tgt e)) by (apply (linked_known g2 a2 (ms_rep _ _ _ _ _ _ _ _ _ MS2)); unfold a_linked; rewrite <- HK; eauto).
      destruct Hkn as [K1 K2]. unfold a_known in K1, K2. rewrite again_nodes in K1, K2. rewrite S1, S2 in *. rewrite HK. exact (already_linked k0 e0 H1 K1 K2). }
    destruct (ms_er _ _ _ _ _ _ _ _ _ MS2 k) as [E|[[E H]|(e & E & Hq & H)]].
    - exact E.
    - rewrite E, (HP H). reflexivity.
    - exfalso. destruct (HQ e E Hq) as [e1 He1]. destruct H as [H|H]; [congruence|]. rewrite (HP H) in He1. discriminate.
  Qed.
End Twice.

(** Without clear_removed the other graph is left alone. *)
Lemma other_read_same cfg g other : mc_clear_removed cfg = false -> other_read cfg g other = other.
Proof.
  intros Hc. unfold other_read.
  assert (H : forall xs o, (forall l ol, (l, ol) ∈ xs -> g_layers o !! l = Some ol) -> fold_left (read_layer cfg g) xs o = o).
  { induction xs as [|[l ol] r IH]; intros o Hin; cbn [fold_left]; [reflexivity|].
    assert (Ho : read_layer cfg g o (l, ol) = o).
    { unfold read_layer. cbn [fst snd]. destruct (decide _); [|reflexivity]. rewrite Hc. unfold read_reports; cbn. pose proof (Hin l ol (elem_of_list_here _ _)) as Hl.
      destruct ol as [i n st [e1 e2 e3]]; unfold sl_with_edges; cbn. unfold g_set_layer, g_with_layers. destruct o; cbn in *. f_equal. apply insert_id. exact Hl. }
    rewrite Ho. apply IH. intros l' ol' H. apply Hin. right. exact H. }
  apply H. intros l ol. apply elem_of_map_to_list.
Qed.
