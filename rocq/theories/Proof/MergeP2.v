(** mergeGraph, dynamic layers: the loops of [dl_merge_layer] seen as abstract steps. *)
From Coq Require Import NArith ZArith Bool List Lia.
From stdpp Require Import base list gmap fin_maps tactics.
From Verif.Model Require Import Types Mesh Attrs Node EdgeContainer SLayer DLayer Graph.
From Verif.Spec Require Import AbstractGraph GraphHistory.
From Verif.Proof Require Import Arith Keys SLayerP SLayerMerge DLayerP DLayerOps GraphRep GraphEdges GraphAttrs GraphNodes GraphRemove GraphSim LayerRep StatusFrame MergeP1.
Local Open Scope N_scope.
#[local] Arguments edge_key : simpl never.

Definition putd (g : Graph) (l : LayerId) (p : N) (d : DLayer) (lk : gmap N LayerKey) : Graph :=
  g_with_lookup (g_set_dlayer g l p d) lk.

Section Put.
  Context (g : Graph) (l : LayerId) (p : N).
  Lemma putd_dlayer d lk : g_dlayer (putd g l p d lk) l p = Some d.
  Proof. change (g_dlayer (putd g l p d lk) l p) with (g_dlayer (g_set_dlayer g l p d) l p). rewrite g_dlayer_set, decide_True by auto. reflexivity. Qed.
  Lemma putd_dlayer_any d lk l' p' : g_dlayer (putd g l p d lk) l' p' = if decide (l' = l /\ p' = p) then Some d else g_dlayer g l' p'.
  Proof. change (g_dlayer (putd g l p d lk) l' p') with (g_dlayer (g_set_dlayer g l p d) l' p'). apply g_dlayer_set. Qed.
  Lemma set_dlayer_set d d' : g_set_dlayer (g_set_dlayer g l p d) l p d' = g_set_dlayer g l p d'.
  Proof.
    unfold g_set_dlayer, g_with_dlayers; cbn. f_equal. rewrite insert_insert, lookup_insert. cbn. rewrite insert_insert. reflexivity.
  Qed.
  Lemma putd_putd d lk d' lk' : putd (putd g l p d lk) l p d' lk' = putd g l p d' lk'.
  Proof. unfold putd. rewrite <- (set_dlayer_set d d'). reflexivity. Qed.
  Lemma putd_same d : g_dlayer g l p = Some d -> putd g l p d (g_lookup g) = g.
  Proof.
    intros H. unfold putd. pose proof (g_put_layer_same g (key_dynamic l p) (BD d) (canon_dynamic l p)) as Hs. cbn in Hs.
    rewrite Hs; [destruct g; reflexivity|]. unfold g_layer_at; cbn. rewrite H. reflexivity.
  Qed.
  Lemma putd_part d lk : g_part (putd g l p d lk) (key_dynamic l p) = Some (dl_view d).
  Proof. unfold g_part. cbn [lk_dynamic key_dynamic lk_layer lk_prefix]. rewrite putd_dlayer. reflexivity. Qed.
  Lemma putd_part_set d lk : part_set (key_dynamic l p) (dl_view d) g (putd g l p d lk).
  Proof. exact (g_part_set_dlayer g l p d). Qed.

  Section R.
    Context (d : DLayer) (lk : gmap N LayerKey) (a : AGraph) (HR : Rep (putd g l p d lk) a).
    Lemma putd_wf : dl_core d /\ sl_wf (dl_view d) /\ dl_id d = l /\ dl_prefix d = p /\ prefix_sub p = 0 /\ p < two32 /\ l <> UNKNOWN_LAYER.
    Proof using HR.
      destruct (rp_dinv _ _ HR l p d (putd_dlayer d lk)) as (H1 & H2 & H3 & H4).
      destruct (rp_part _ _ HR _ _ (canon_dynamic l p) (putd_part d lk)) as (H5 & _ & H6).
      split; [exact H1|]. split; [exact H5|]. split; [exact H2|]. split; [exact H3|]. split; [exact H4|]. split; [rewrite <- H3; apply H1|exact H6].
    Qed.
    Lemma putd_home x : lk !! x = Some (key_dynamic l p) <-> is_Some (dl_nmap d !! x).
    Proof using HR.
      pose proof (rp_home _ _ HR x (key_dynamic l p) (canon_dynamic l p)) as H. cbn [putd g_lookup g_with_lookup] in H.
      rewrite H, putd_part. split.
      - intros (L0 & [= <-] & Hs). exact Hs.
      - intros Hs. exists (dl_view d). auto.
    Qed.
    Lemma putd_key x : a_key a x = lk !! x.
    Proof using HR. rewrite <- (rp_lookup _ _ HR). reflexivity. Qed.
    Lemma putd_info : ag_dyn a !! (l, p) = Some (dl_next d, dl_size d).
    Proof using HR. rewrite (rp_dyn _ _ HR). unfold dinfo. rewrite putd_dlayer. reflexivity. Qed.
    Lemma putd_frame d' : dl_next d' = dl_next d -> dl_size d' = dl_size d -> g_frame (putd g l p d lk) (putd g l p d' lk).
    Proof.
      intros H1 H2. split; try reflexivity. intros l0 p0. unfold dinfo. rewrite !putd_dlayer_any.
      destruct (decide _); [|reflexivity]. cbn. rewrite H1, H2. reflexivity.
    Qed.
    Lemma putd_dinv d' : dl_core d' -> dl_id d' = l -> dl_prefix d' = p -> DInv (putd g l p d' lk).
    Proof using HR.
      intros H1 H2 H3. destruct putd_wf as (_ & _ & _ & _ & Hs & _).
      intros l0 p0 d0. rewrite putd_dlayer_any. destruct (decide _) as [[-> ->]|Hne].
      - intros [= <-]. auto.
      - intros Hd. apply (rp_dinv _ _ HR l0 p0 d0). rewrite putd_dlayer_any, decide_False by assumption. exact Hd.
    Qed.
    Lemma putd_edges u v : is_Some (dl_nmap d !! u) -> is_Some (dl_nmap d !! v) ->
      ag_edges a !! edge_key u v = ec_edges (dl_edges d) !! edge_key u v.
    Proof using HR.
      intros Hu Hv. apply putd_home in Hu. apply putd_home in Hv.
      apply (Rep_part_edge (putd g l p d lk) a (key_dynamic l p) (dl_view d) u v HR (canon_dynamic l p)); [apply putd_part|exact Hu|exact Hv].
    Qed.

    Lemma putd_attrs x n at0 : dl_nmap d !! x = Some n ->
      exists d' an, dl_upd d (prefix_index x) (set_attrs at0) = Ok d' /\
        ag_nodes a !! x = Some an /\ an_key an = key_dynamic l p /\ an_time an = n_time n /\ an_attrs an = n_attrs n /\
        Rep (putd g l p d' lk) (a_add_node a x (mkAN (an_key an) (an_time an) at0)) /\ dl_same d d' /\
        dl_nmap d' = alter (set_attrs at0) x (dl_nmap d).
    Proof using HR.
      intros Hn. destruct putd_wf as (Hc & Hwf & Hi & Hp & Hs & _).
      destruct (dl_upd_ok d x n (set_attrs at0) Hc Hn (benign_set_attrs at0)) as (d' & E & Hc' & Hm & Hsame & He).
      destruct (rp_node _ _ HR x _ _ n (canon_dynamic l p) (putd_part d lk) Hn) as [(an & A1 & A2 & A3 & A4) _].
      exists d', an. split; [exact E|]. do 4 (split; [assumption|]). split; [|split; assumption].
      assert (Hlk : lk !! x = Some (key_dynamic l p)) by (apply putd_home; eauto).
      pose proof (dl_view_upd d d' x (set_attrs at0) Hm Hsame He) as Hview.
      eapply (Rep_set_attrs (putd g l p d lk)); [exact HR|exact Hlk|exact A1| | | |].
      - intros k Hk. rewrite <- (putd_putd d lk d' lk).
        change (g_part (putd (putd g l p d lk) l p d' lk) k) with (g_part (g_set_dlayer (putd g l p d lk) l p d') k).
        rewrite (g_part_set_dlayer _ l p d' k Hk). destruct (decide (k = key_dynamic l p)) as [->|Hne].
        + rewrite putd_part. cbn. f_equal. rewrite Hview. symmetry. exact (map_part_alter x (set_attrs at0) (dl_view d)).
        + destruct (g_part (putd g l p d lk) k) as [L0|] eqn:E0; [|reflexivity]. cbn. f_equal. symmetry. apply map_part_absent.
          destruct (sl_nodes L0 !! x) eqn:E1; [|reflexivity]. exfalso. apply Hne.
          assert (g_lookup (putd g l p d lk) !! x = Some k) as H by (apply (rp_home _ _ HR _ _ Hk); eauto).
          cbn in H. congruence.
      - destruct Hsame as (S1 & S2 & S3 & S4 & S5 & S6). apply putd_frame; [exact S5|unfold dl_size; rewrite S6; reflexivity].
      - destruct Hsame as (S1 & S2 & _). apply putd_dinv; congruence.
      - intros []; reflexivity.
    Qed.

    Lemma putd_insert d' s t i : sl_can_insert (dl_view d) s t -> dl_view d' = sl_inserted (dl_view d) s t i ->
      dl_core d' -> dl_same d d' -> Rep (putd g l p d' lk) (a_add_edge a s t (default ea_default i)).
    Proof using HR.
      intros Hcan Hv Hc' Hsame. destruct putd_wf as (Hc & Hwf & Hi & Hp & Hs & _).
      pose proof Hcan as (Hne & Hno & Hs1 & Ht1). apply putd_home in Hs1. apply putd_home in Ht1.
      destruct Hsame as (S1 & S2 & S3 & S4 & S5 & S6).
      eapply (Rep_add_intra (putd g l p d lk) _ a s t (key_dynamic l p) (dl_view d) i); [exact HR|exact Hs1|exact Ht1| |exact Hcan| | | |].
      - apply putd_part.
      - rewrite <- Hv, <- (putd_putd d lk d' lk). exact (g_part_set_dlayer _ l p d').
      - apply putd_frame; [exact S5|unfold dl_size; rewrite S6; reflexivity].
      - apply putd_dinv; congruence.
      - intros []; reflexivity.
    Qed.

    Lemma putd_add t at0 : dl_next d = dl_size d -> dl_size d < two32 -> ~ a_time_used a l p t ->
      lk !! prefix_make_id p (dl_next d) = None ->
      let id := prefix_make_id p (dl_next d) in
      exists d', dl_emplace_node d t at0 false = Ok (true, d') /\
        Rep (putd g l p d' (<[id := key_dynamic l p]> lk))
          (a_with_dyn (a_add_node a id (mkAN (key_dynamic l p) (Some t) at0)) (<[(l, p) := (dl_next d + 1, dl_size d + 1)]> (ag_dyn a))) /\
        dl_next d' = dl_next d + 1 /\ dl_size d' = dl_size d + 1 /\ dl_nmap d' !! id = Some (node_new id l (Some t) at0).
    Proof using HR.
      intros Hns Hsz Ht Hx id. destruct putd_wf as (Hc & Hwf & Hi & Hp & Hs & _).
      assert (Ht' : t ∉ dl_times d) by (rewrite <- (time_used_iff _ a l p d t HR (putd_dlayer d lk)); exact Ht).
      pose proof (dl_emplace_node_ok d t at0 false (conj Hc Hwf) Hns Hsz Ht') as Hem. cbv zeta in Hem. rewrite Hp in Hem. fold id in Hem.
      destruct Hem as (Hab & l2 & b & d' & Hins & Hwf2 & Hem & Hwf' & Hv & E1 & E2 & E3 & E4 & E5 & E6).
      { intros u nu Hu. exact (Rep_unknown_nolink _ a id HR Hx _ _ u nu (canon_dynamic l p) (putd_part d lk) Hu RSib). }
      cbn [andb] in Hins. subst l2. exists d'. split; [exact Hem|].
      assert (Hnm : dl_nmap d' = <[id := node_new id (dl_id d) (Some t) at0]> (dl_nmap d)) by exact (f_equal sl_nodes Hv).
      split; [|split; [exact E3|split; [exact E4|rewrite Hnm, lookup_insert, Hi; reflexivity]]].
      pose proof (dyn_add_node _ a l p d d' id (node_new id (dl_id d) (Some t) at0) (dl_next d + 1) (dl_size d + 1) HR (putd_dlayer d lk) Hx) as HA.
      cbn [n_time n_attrs node_new] in HA. rewrite <- (putd_putd d lk). apply HA; try assumption.
      - apply Hwf'.
      - congruence.
      - exact (f_equal (fun L => ec_edges (sl_edges L)) Hv).
      - apply Hwf'.
      - intros []; reflexivity.
    Qed.

    Lemma putd_has_edge u v : u < two64 -> v < two64 ->
      dl_has_edge d u v = bool_decide (both a (key_dynamic l p) u v /\ a_linked a u v).
    Proof using HR.
      intros Hu64 Hv64. destruct putd_wf as (Hc & Hwf & _). unfold dl_has_edge.
      assert (HK : forall x, a_key a x = Some (key_dynamic l p) <-> is_Some (dl_nmap d !! x)).
      { intros x. rewrite putd_key. apply putd_home. }
      apply eq_true_iff_eq. rewrite ec_contains_true, bool_decide_eq_true. split.
      - intros H. destruct (sl_edge_key _ _ _ Hwf H) as (_ & Hu & Hv). split; [split; apply HK; assumption|].
        unfold a_linked. rewrite (putd_edges u v Hu Hv). exact H.
      - intros [[Hu Hv] Hl]. apply HK in Hu. apply HK in Hv. unfold a_linked in Hl. rewrite (putd_edges u v Hu Hv) in Hl. exact Hl.
    Qed.
  End R.
End Put.

(** *** The edge loop *)
Lemma dmerge_edge1 g l p d lk a x : Rep (putd g l p d lk) a -> e_src (snd x) < two64 -> e_tgt (snd x) < two64 ->
  exists d', dl_merge_edge1 d x = Ok d' /\ Rep (putd g l p d' lk) (am_edge (key_dynamic l p) id a x) /\ dl_same d d'.
Proof.
  intros HR Hs Ht. destruct (putd_wf g l p d lk a HR) as (Hc & Hwf & Hi & Hp & Hsub & _).
  unfold dl_merge_edge1, am_edge, id. cbv zeta. set (e := snd x) in *.
  rewrite (putd_has_edge g l p d lk a HR _ _ Hs Ht). case_bool_decide as Hb.
  { rewrite decide_True by exact Hb. exists d. split; [reflexivity|]. split; [exact HR|apply dl_same_refl]. }
  rewrite decide_False by exact Hb.
  assert (HK : forall x, a_key a x = Some (key_dynamic l p) <-> is_Some (dl_nmap d !! x)).
  { intros y. rewrite (putd_key g l p d lk a HR). apply (putd_home g l p d lk a HR). }
  destruct (dl_insert_edge_sim d (e_src e) (e_tgt e) (Some (e_info e)) Hc Hs Ht) as (b & L & d' & H1 & H2 & H3 & H4 & H5 & H6).
  rewrite H2. cbn [rbind]. exists d'. split; [reflexivity|]. split; [|exact H5].
  destruct (decide (sl_can_insert (dl_view d) (e_src e) (e_tgt e))) as [Hcan|Hcan].
  - rewrite (sl_insert_edge_ok _ _ _ _ Hcan) in H1. injection H1 as <- <-.
    pose proof Hcan as (C1 & C2 & C3 & C4). rewrite decide_True by (split; apply HK; assumption).
    unfold a_insert_edge. rewrite decide_True.
    + exact (putd_insert g l p d lk a HR d' _ _ (Some (e_info e)) Hcan H3 H4 H5).
    + pose proof (proj2 (HK _) C3) as K3. pose proof (proj2 (HK _) C4) as K4. unfold a_key in K3, K4.
      split; [exact C1|]. unfold a_known. destruct (ag_nodes a !! e_src e), (ag_nodes a !! e_tgt e); try discriminate. split; [eauto|]. split; [eauto|].
      intros Hl. unfold a_linked in Hl. rewrite (putd_edges g l p d lk a HR _ _ C3 C4) in Hl. cbn in C2. rewrite C2 in Hl. destruct Hl as [? [=]].
  - rewrite (sl_insert_edge_noop _ _ _ _ Hcan) in H1. injection H1 as <- <-. rewrite (H6 eq_refl).
    destruct (decide (both a (key_dynamic l p) (e_src e) (e_tgt e))) as [[Hu Hv]|]; [|exact HR].
    unfold a_insert_edge. rewrite decide_False; [exact HR|]. intros (Hne & _ & _ & Hl). apply Hcan.
    apply HK in Hu, Hv. split; [exact Hne|]. split; [|split; assumption].
    apply eq_None_not_Some. intros Hq. apply Hl. unfold a_linked. rewrite (putd_edges g l p d lk a HR _ _ Hu Hv). exact Hq.
Qed.
Lemma dmerge_edges_loop g l p lk xs : forall d a, Rep (putd g l p d lk) a ->
  (forall x, x ∈ xs -> e_src (snd x) < two64 /\ e_tgt (snd x) < two64) ->
  exists d', rfold dl_merge_edge1 xs d = Ok d' /\
    Rep (putd g l p d' lk) (fold_left (am_edge (key_dynamic l p) id) xs a) /\ dl_same d d'.
Proof.
  induction xs as [|x r IH]; intros d a HR Hxs; cbn [rfold fold_left].
  - exists d. split; [reflexivity|]. split; [exact HR|apply dl_same_refl].
  - destruct (Hxs x (elem_of_list_here _ _)) as [Hs Ht].
    destruct (dmerge_edge1 g l p d lk a x HR Hs Ht) as (d1 & -> & HR1 & HS1). cbn [rbind].
    destruct (IH d1 _ HR1) as (d' & E & HR' & HS); [intros y Hy; apply Hxs; right; exact Hy|].
    exists d'. split; [exact E|]. split; [exact HR'|]. eapply dl_same_trans; eassumption.
Qed.
