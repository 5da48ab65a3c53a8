(** Simulation of attribute updates, lookups, change reports. *)
From Coq Require Import NArith ZArith Bool List Lia.
From stdpp Require Import base list gmap fin_maps tactics.
From Verif.Model Require Import Types Mesh Attrs Node EdgeContainer SLayer DLayer Graph.
From Verif.Spec Require Import AbstractGraph GraphHistory.
From Verif.Proof Require Import Arith Keys SLayerP SLayerMerge DLayerP DLayerOps GraphRep GraphEdges.
Local Open Scope N_scope.

Definition keeps_ends (f : EdgeKey -> Edge -> Edge) : Prop :=
  forall k e, e_src (f k e) = e_src e /\ e_tgt (f k e) = e_tgt e.

Lemma Rep_ec_change g g' a f E' :
  Rep g a -> g_frame g g' -> DInv g' -> keeps_ends f ->
  (forall k, E' !! k = f k <$> ag_edges a !! k) ->
  (forall k, canon k -> match g_part g k, g_part g' k with
     | Some L, Some L' => sl_id L' = sl_id L /\ sl_nodes L' = sl_nodes L /\ sl_wf L' /\
         (forall x, ec_edges (sl_edges L') !! x = f x <$> ec_edges (sl_edges L) !! x)
     | None, None => True
     | _, _ => False end) ->
  (forall dyn, ec_wf (g_ec g' dyn) /\ forall x, ec_edges (g_ec g' dyn) !! x = f x <$> ec_edges (g_ec g dyn) !! x) ->
  Rep g' (a_with_edges a E').
Proof.
  intros HR HF HD Hf HE Hp Hc.
  eapply Rep_edge_change with (F := fun _ n => n).
  - exact HR.
  - exact HF.
  - exact HD.
  - intros k Hk. specialize (Hp k Hk). destruct (g_part g k) as [L|], (g_part g' k) as [L'|]; try contradiction; [|exact I].
    destruct Hp as (? & ? & ? & _). rewrite map_part_id. auto.
  - auto.
  - intros x k n Hx Hok r v. rewrite HE, is_Some_fmap_iff. apply (no_links _ _ _ _ _ Hok).
  - intros k e. rewrite HE, fmap_Some. intros (e0 & He0 & ->). destruct (Hf k e0) as [-> ->].
    apply (rp_norm _ _ HR _ _ He0).
  - intros u v. rewrite HE, (rp_edge _ _ HR). unfold g_edge_at. rewrite (gf_lookup _ _ HF).
    destruct (g_lookup g !! u) as [ku|] eqn:Eu; [|reflexivity]. destruct (g_lookup g !! v) as [kv|] eqn:Ev; [|reflexivity].
    destruct (decide (ku = kv)) as [->|].
    + specialize (Hp kv (rp_canon _ _ HR _ _ Ev)).
      destruct (g_part g kv) as [L|], (g_part g' kv) as [L'|]; try contradiction; [|reflexivity].
      destruct Hp as (_ & _ & _ & ->). reflexivity.
    + destruct (Hc (pair_dyn ku kv)) as [_ ->]. reflexivity.
  - intros dyn. apply Hc.
  - intros dyn k e. destruct (Hc dyn) as [_ ->]. rewrite fmap_Some. intros (e0 & He0 & ->).
    destruct (Hf k e0) as [-> ->]. eapply HR; eassumption.
Qed.

(** Same contents up to stale flags and change statuses. *)
Lemma Rep_same g g' a :
  Rep g a -> g_frame g g' -> DInv g' ->
  (forall k, canon k -> match g_part g k, g_part g' k with
     | Some L, Some L' => sl_id L' = sl_id L /\ sl_nodes L' = sl_nodes L /\ sl_wf L' /\
         ec_edges (sl_edges L') = ec_edges (sl_edges L)
     | None, None => True
     | _, _ => False end) ->
  (forall dyn, ec_wf (g_ec g' dyn) /\ ec_edges (g_ec g' dyn) = ec_edges (g_ec g dyn)) ->
  Rep g' a.
Proof.
  intros HR HF HD Hp Hc.
  assert (Heq : a = a_with_edges a (ag_edges a)) by (destruct a; reflexivity). rewrite Heq.
  assert (Hid : forall (o : option Edge), o = (fun e => e) <$> o) by (intros []; reflexivity).
  eapply (Rep_ec_change g g' a (fun _ e => e)); try assumption.
  - intros k e. auto.
  - intros k. apply Hid.
  - intros k Hk. specialize (Hp k Hk). destruct (g_part g k) as [L|], (g_part g' k) as [L'|]; try contradiction; [|exact I].
    destruct Hp as (? & ? & ? & ->). split; [assumption|]. split; [assumption|]. split; [assumption|]. intros x. apply Hid.
  - intros dyn. destruct (Hc dyn) as [? ->]. split; [assumption|]. intros x. apply Hid.
Qed.

Lemma sl_wf_with_edges L c f : sl_wf L -> ec_wf c -> keeps_ends f ->
  (forall x, ec_edges c !! x = f x <$> ec_edges (sl_edges L) !! x) -> sl_wf (sl_with_edges L c).
Proof.
  intros [H1 H2 H3 H4 H5 H6] Hc Hf He. split; cbn; try assumption.
  - intros k e. rewrite He, fmap_Some. intros (e0 & He0 & ->). destruct (Hf k e0) as [-> ->]. eapply H3; eassumption.
  - intros u v nu Hu Hv. rewrite He, is_Some_fmap_iff. apply H4; assumption.
Qed.

Lemma bl_compat_with_edges g k b c : DInv g -> canon k -> g_layer_at g k = Ok b ->
  bl_compat b (bl_with_edges b c) /\ bl_view (bl_with_edges b c) = sl_with_edges (bl_view b) c.
Proof.
  intros HD Hk Hb. destruct (g_layer_at_inv g k b Hk Hb) as [_ H]. destruct b as [l|d]; cbn.
  - auto.
  - destruct H as [_ H]. destruct (HD _ _ _ H) as (Hc & _). split; [|apply dl_view_with_edges].
    split; [apply dl_core_with_edges; assumption|]. repeat split.
Qed.
Lemma bl_edges_view b : bl_edges b = sl_edges (bl_view b). Proof. destruct b; reflexivity. Qed.

(** An update of the containers holding the pair (s,t). *)
Lemma Rep_pair_update g a s t f c' : Rep g a -> keeps_ends f ->
  (forall x e, x <> edge_key s t -> f x e = e) ->
  forall sk tk, g_lookup g !! s = Some sk -> g_lookup g !! t = Some tk ->
  (if key_eqb sk tk then
     forall b, g_layer_at g sk = Ok b -> ec_wf c' /\ (forall x, ec_edges c' !! x = f x <$> ec_edges (bl_edges b) !! x) ->
       forall E', (forall k, E' !! k = f k <$> ag_edges a !! k) ->
       Rep (g_put_layer g sk (bl_with_edges b c')) (a_with_edges a E')
   else
     ec_wf c' /\ (forall x, ec_edges c' !! x = f x <$> ec_edges (g_pair_ec g sk tk) !! x) ->
       forall E', (forall k, E' !! k = f k <$> ag_edges a !! k) ->
       Rep (g_with_pair_ec g sk tk c') (a_with_edges a E')).
Proof.
  intros HR Hf Hother sk tk Es Et.
  pose proof (rp_canon _ _ HR _ _ Es) as Hcs. pose proof (rp_canon _ _ HR _ _ Et) as Hct.
  assert (Hid : forall k0 L, canon k0 -> g_part g k0 = Some L -> ~ (k0 = sk /\ k0 = tk) ->
     forall x, ec_edges (sl_edges L) !! x = f x <$> ec_edges (sl_edges L) !! x).
  { intros k0 L Hk0 HL Hne x. destruct (ec_edges (sl_edges L) !! x) as [e|] eqn:E; [|reflexivity]. cbn.
    f_equal. symmetry. apply Hother. intros ->. destruct (rp_part _ _ HR _ _ Hk0 HL) as (Hwf & _).
    assert (Hs : is_Some (ec_edges (sl_edges L) !! edge_key s t)) by eauto.
    destruct (sl_edge_key _ _ _ Hwf Hs) as (_ & H1 & H2). apply Hne.
    assert (g_lookup g !! s = Some k0) by (apply (rp_home _ _ HR _ _ Hk0); eauto).
    assert (g_lookup g !! t = Some k0) by (apply (rp_home _ _ HR _ _ Hk0); eauto). split; congruence. }
  assert (Hide : forall dyn, sk = tk \/ dyn <> pair_dyn sk tk -> forall x,
     ec_edges (g_ec g dyn) !! x = f x <$> ec_edges (g_ec g dyn) !! x).
  { intros dyn Hd x. destruct (ec_edges (g_ec g dyn) !! x) as [e|] eqn:E; [|reflexivity]. cbn.
    f_equal. symmetry. apply Hother. intros ->.
    pose proof (ecw_key _ (rp_ec _ _ HR dyn) _ _ E) as Hk.
    destruct (rp_inter _ _ HR _ _ _ E) as (ku & kv & Hu & Hv & Hne & Hpd).
    apply edge_key_inj in Hk as [[H1 H2]|[H1 H2]]; rewrite <- H1, <- H2 in *.
    - assert (ku = sk) by congruence. assert (kv = tk) by congruence. subst. destruct Hd; congruence.
    - assert (ku = tk) by congruence. assert (kv = sk) by congruence. subst. rewrite pair_dyn_comm in Hd. destruct Hd; congruence. }
  destruct (key_eqb sk tk) eqn:Ek.
  - apply (key_eqb_true _ _ Hcs Hct) in Ek. subst tk. intros b Hb [Hwf He] E' HE'.
    destruct (g_layer_at_inv g sk b Hcs Hb) as [Hp _].
    destruct (rp_part _ _ HR _ _ Hcs Hp) as (Hwf0 & _).
    destruct (bl_compat_with_edges g sk b c' (rp_dinv _ _ HR) Hcs Hb) as [Hcompat Hview].
    destruct (g_put_layer_ok g sk b _ (rp_dinv _ _ HR) Hcs Hb Hcompat) as (P1 & P2 & P3 & P4).
    rewrite Hview in P1. rewrite bl_edges_view in He.
    eapply (Rep_ec_change g _ a f E' HR P2 P3 Hf HE').
    + intros k Hk. rewrite (P1 k Hk). destruct (decide (k = sk)) as [->|Hne].
      * rewrite Hp. split; [reflexivity|]. split; [reflexivity|]. split; [|exact He].
        eapply sl_wf_with_edges; eassumption.
      * destruct (g_part g k) as [L|] eqn:E; [|exact I]. destruct (rp_part _ _ HR _ _ Hk E) as (? & _).
        split; [reflexivity|]. split; [reflexivity|]. split; [assumption|]. eapply Hid; try eassumption. tauto.
    + intros dyn. rewrite P4. split; [apply HR|]. apply Hide. auto.
  - apply (key_eqb_false _ _ Hcs Hct) in Ek. intros [Hwf He] E' HE'. rewrite g_pair_ec_eq in He.
    eapply (Rep_ec_change g _ a f E' HR (g_frame_with_pair _ _ _ _) (DInv_with_pair _ _ _ _ (rp_dinv _ _ HR)) Hf HE').
    + intros k Hk. rewrite g_part_with_pair. destruct (g_part g k) as [L|] eqn:E; [|exact I].
      destruct (rp_part _ _ HR _ _ Hk E) as (? & _).
      split; [reflexivity|]. split; [reflexivity|]. split; [assumption|]. eapply Hid; try eassumption.
      intros [-> ?]. contradiction.
    + intros dyn. rewrite g_ec_with_pair. destruct (Bool.eqb dyn (pair_dyn sk tk)) eqn:Eb.
      * apply eqb_prop in Eb. subst dyn. auto.
      * split; [apply HR|]. apply Hide. right. intros ->. rewrite eqb_reflx in Eb. discriminate.
Qed.

Lemma find_edge_ok g a s t sk tk : Rep g a -> g_lookup g !! s = Some sk -> g_lookup g !! t = Some tk ->
  exists g', g_find_edge g s t = Ok (ag_edges a !! edge_key s t, g') /\ Rep g' a.
Proof.
  intros HR Es Et. unfold g_find_edge. rewrite Es, Et. cbn [at_ rbind].
  assert (Hid : forall (o : option Edge), o = (fun e => e) <$> o) by (intros []; reflexivity).
  assert (Heq : a = a_with_edges a (ag_edges a)) by (destruct a; reflexivity).
  pose proof (rp_canon _ _ HR _ _ Es) as Hcs. pose proof (rp_canon _ _ HR _ _ Et) as Hct.
  pose proof (fun c' => Rep_pair_update g a s t (fun _ e => e) c' HR (fun _ _ => conj eq_refl eq_refl) (fun _ _ _ => eq_refl) sk tk Es Et) as HU.
  destruct (key_eqb sk tk) eqn:Ek.
  - apply (key_eqb_true _ _ Hcs Hct) in Ek. subst tk.
    destruct (Rep_home _ _ _ _ HR Es) as (_ & _ & L & n & HL & _ & Hwf & _).
    destruct (g_layer_at_some g sk L HL) as (b & Hb & HbL). rewrite Hb. cbn [rbind].
    eexists. split.
    + f_equal. f_equal. unfold ec_find. rewrite bl_edges_view, HbL. symmetry. apply (Rep_part_edge g a sk L s t HR Hcs HL Es Et).
    + rewrite Heq. apply HU; [assumption| |intros; apply Hid]. rewrite bl_edges_view, HbL. split.
      * apply ec_wf_touch, Hwf.
      * intros x. rewrite ec_touch_edges. apply Hid.
  - apply (key_eqb_false _ _ Hcs Hct) in Ek. eexists. split.
    + f_equal. f_equal. unfold ec_find. rewrite g_pair_ec_eq. symmetry. apply (Rep_pair_edge g a s t sk tk HR Es Et Ek).
    + rewrite Heq. apply HU; [|intros; apply Hid]. split.
      * apply ec_wf_touch, HR.
      * intros x. rewrite ec_touch_edges. apply Hid.
Qed.

Lemma find_edge_sim g a s t : Rep g a -> sim a (g_step g (GFindEdge s t)) (a_step a (GFindEdge s t)).
Proof.
  intros HR. cbn [g_step a_step].
  destruct (g_lookup g !! s) as [sk|] eqn:Es.
  2:{ unfold g_find_edge. rewrite Es. cbn. rewrite decide_False; [auto|]. intros [H _]. apply (Rep_known _ _ _ HR) in H as [? ?]. congruence. }
  destruct (g_lookup g !! t) as [tk|] eqn:Et.
  2:{ unfold g_find_edge. rewrite Es, Et. cbn. rewrite decide_False; [auto|]. intros [_ H]. apply (Rep_known _ _ _ HR) in H as [? ?]. congruence. }
  destruct (find_edge_ok g a s t sk tk HR Es Et) as (g' & -> & HR'). cbn [rbind].
  rewrite decide_True by (split; apply (Rep_known _ _ _ HR); eauto). cbn. split; [|assumption]. f_equal.
  destruct (ag_edges a !! edge_key s t) eqn:Ee; [apply bool_decide_eq_true|apply bool_decide_eq_false]; unfold a_linked.
  - rewrite Ee. eauto.
  - rewrite Ee. intros [? ?]; discriminate.
Qed.

Definition set_info_at (k0 : EdgeKey) (i : EdgeAttrs) (k : EdgeKey) (e : Edge) : Edge :=
  if decide (k = k0) then mkEdge (e_src e) (e_tgt e) i else e.

Lemma set_info_edges c s t i e : ec_edges c !! edge_key s t = Some e ->
  forall x, ec_edges (ec_set_info (ec_touch c s t) s t i) !! x = set_info_at (edge_key s t) i x <$> ec_edges c !! x.
Proof.
  intros He x. cbn. rewrite ec_touch_edges. unfold set_info_at. destruct (decide (x = edge_key s t)) as [->|Hne].
  - rewrite lookup_alter. reflexivity.
  - rewrite lookup_alter_ne by congruence. destruct (ec_edges c !! x); reflexivity.
Qed.

Lemma set_edge_attrs_sim g a s t i : Rep g a -> sim a (g_set_edge_attributes g s t i) (a_set_edge_attrs a s t i).
Proof.
  intros HR. unfold g_set_edge_attributes, a_set_edge_attrs.
  destruct (g_lookup g !! s) as [sk|] eqn:Es.
  2:{ cbn. rewrite decide_False; [auto|]. intros [H _]. apply (Rep_known _ _ _ HR) in H as [? ?]. congruence. }
  destruct (g_lookup g !! t) as [tk|] eqn:Et.
  2:{ cbn. rewrite decide_False; [auto|]. intros [_ H]. apply (Rep_known _ _ _ HR) in H as [? ?]. congruence. }
  cbn [at_ rbind]. rewrite decide_True by (split; apply (Rep_known _ _ _ HR); eauto).
  pose proof (rp_canon _ _ HR _ _ Es) as Hcs. pose proof (rp_canon _ _ HR _ _ Et) as Hct.
  assert (Hke : keeps_ends (set_info_at (edge_key s t) i)).
  { intros k e. unfold set_info_at. destruct (decide _); auto. }
  assert (Hot : forall x e, x <> edge_key s t -> set_info_at (edge_key s t) i x e = e).
  { intros x e Hx. unfold set_info_at. destruct (decide _); [contradiction|reflexivity]. }
  pose proof (fun c' => Rep_pair_update g a s t _ c' HR Hke Hot sk tk Es Et) as HU.
  assert (HE' : forall e, ag_edges a !! edge_key s t = Some e -> forall k,
     <[edge_key s t := mkEdge (e_src e) (e_tgt e) i]> (ag_edges a) !! k = set_info_at (edge_key s t) i k <$> ag_edges a !! k).
  { intros e He k. unfold set_info_at. destruct (decide (k = edge_key s t)) as [->|Hne].
    - rewrite lookup_insert, He. reflexivity.
    - rewrite lookup_insert_ne by congruence. destruct (ag_edges a !! k); reflexivity. }
  destruct (key_eqb sk tk) eqn:Ek.
  - apply (key_eqb_true _ _ Hcs Hct) in Ek. subst tk.
    destruct (Rep_home _ _ _ _ HR Es) as (_ & _ & L & n & HL & _ & Hwf & _).
    destruct (g_layer_at_some g sk L HL) as (b & Hb & HbL). rewrite Hb. cbn [rbind].
    pose proof (Rep_part_edge g a sk L s t HR Hcs HL Es Et) as Hpe.
    unfold ec_find. rewrite bl_edges_view, HbL, <- Hpe.
    destruct (ag_edges a !! edge_key s t) as [e|] eqn:Ee.
    + cbn. split; [reflexivity|]. apply HU; [assumption| |apply HE'; reflexivity].
      rewrite bl_edges_view, HbL. split; [apply ec_wf_set_info, ec_wf_touch, Hwf|].
      eapply set_info_edges. symmetry. exact Hpe.
    + cbn. split; [reflexivity|]. rewrite <- HbL. 
      assert (bl_with_edges b (sl_edges (bl_view b)) = b) as -> by (destruct b as [[]|[]]; reflexivity).
      rewrite g_put_layer_same by assumption. assumption.
  - apply (key_eqb_false _ _ Hcs Hct) in Ek.
    pose proof (Rep_pair_edge g a s t sk tk HR Es Et Ek) as Hpe.
    unfold ec_find. rewrite g_pair_ec_eq, <- Hpe.
    destruct (ag_edges a !! edge_key s t) as [e|] eqn:Ee.
    + cbn. split; [reflexivity|]. apply HU; [|apply HE'; reflexivity].
      rewrite g_pair_ec_eq. split; [apply ec_wf_set_info, ec_wf_touch, HR|].
      eapply set_info_edges. symmetry. exact Hpe.
    + cbn. split; [reflexivity|].
      assert (g_with_pair_ec g sk tk (g_ec g (pair_dyn sk tk)) = g) as ->; [|assumption].
      unfold g_with_pair_ec, g_ec, pair_dyn. destruct (lk_dynamic sk || lk_dynamic tk), g; reflexivity.
Qed.

Lemma add_or_update_edge_sim g a s t i : Rep g a -> sim a (g_add_or_update_edge g s t i) (a_add_or_update_edge a s t i).
Proof.
  intros HR. unfold g_add_or_update_edge, a_add_or_update_edge. rewrite (has_edge_ok _ _ _ _ HR). cbn [rbind].
  case_bool_decide as Hl.
  - rewrite decide_True by assumption. apply set_edge_attrs_sim, HR.
  - rewrite decide_False by assumption. pose proof (insert_edge_sim g a s t (Some i) HR) as H.
    unfold ab in H. destruct (a_insert_edge a s t (Some i)). exact H.
Qed.

(** *** Node attributes *)
Lemma Rep_set_attrs g g' a x k an at0 :
  Rep g a -> g_lookup g !! x = Some k -> ag_nodes a !! x = Some an ->
  parts_mapped (at_node x (set_attrs at0)) g g' -> g_frame g g' -> DInv g' -> (forall dyn, g_ec g' dyn = g_ec g dyn) ->
  Rep g' (a_add_node a x (mkAN (an_key an) (an_time an) at0)).
Proof.
  intros HR Hx Han HM HF HD HE.
  assert (Hkey : forall y, a_key (a_add_node a x (mkAN (an_key an) (an_time an) at0)) y = a_key a y).
  { intros y. unfold a_key; cbn. destruct (decide (x = y)) as [<-|Hne].
    - rewrite lookup_insert, Han. reflexivity.
    - rewrite lookup_insert_ne by assumption. reflexivity. }
  split; cbn.
  - intros l. rewrite (gf_layers _ _ HF). apply HR.
  - intros l p. rewrite (gf_dinfo _ _ HF). apply HR.
  - exact HD.
  - intros k0 L' Hk0. rewrite (HM k0 Hk0), fmap_Some. intros (L & HL & ->).
    destruct (rp_part _ _ HR _ _ Hk0 HL) as (Hwf & Hid & Hun). split; [|auto].
    apply sl_wf_map_part; [assumption|]. intros y n Hn. unfold at_node. destruct (decide (y = x)); repeat split; auto.
  - intros y. rewrite (gf_lookup _ _ HF), Hkey. apply HR.
  - rewrite (gf_lookup _ _ HF). apply HR.
  - intros y k0 Hk0. rewrite (gf_lookup _ _ HF), (rp_home _ _ HR _ _ Hk0), (HM k0 Hk0). split.
    + intros (L & -> & Hs). eexists. split; [reflexivity|]. rewrite lookup_map_part, is_Some_fmap_iff. exact Hs.
    + intros (L' & HL' & Hs). apply fmap_Some in HL' as (L & HL & ->). exists L. split; [assumption|].
      rewrite lookup_map_part, is_Some_fmap_iff in Hs. exact Hs.
  - intros y k0 L' n' Hk0. rewrite (HM k0 Hk0), fmap_Some. intros (L & HL & ->). rewrite lookup_map_part, fmap_Some.
    intros (n & Hn & ->). destruct (rp_node _ _ HR _ _ _ _ Hk0 HL Hn) as [(an' & A1 & A2 & A3 & A4) Hlk].
    unfold at_node. split.
    + cbn. destruct (decide (y = x)) as [->|Hne].
      * rewrite lookup_insert. eexists. split; [reflexivity|]. cbn. assert (an' = an) as -> by congruence. auto.
      * rewrite lookup_insert_ne by congruence. eauto.
    + intros r v. rewrite (gf_lookup _ _ HF). destruct (decide (y = x)); [|apply Hlk].
      rewrite <- (Hlk r v). destruct r; reflexivity.
  - apply HR.
  - intros u v. rewrite (rp_edge _ _ HR). unfold g_edge_at. rewrite (gf_lookup _ _ HF).
    destruct (g_lookup g !! u) as [ku|] eqn:Eu; [|reflexivity]. destruct (g_lookup g !! v) as [kv|] eqn:Ev; [|reflexivity].
    destruct (decide (ku = kv)) as [->|].
    + rewrite (HM kv (rp_canon _ _ HR _ _ Ev)). destruct (g_part g kv); reflexivity.
    + rewrite HE. reflexivity.
  - intros dyn. rewrite HE. apply HR.
  - intros dyn k0 e. rewrite HE, (gf_lookup _ _ HF). apply HR.
Qed.

Lemma upd_attrs_ok g a x k at0 : Rep g a -> g_lookup g !! x = Some k ->
  exists g', g_upd_ptr g x k (set_attrs at0) = Ok g' /\ fst (a_set_node_attrs a x at0) = true /\
    Rep g' (snd (a_set_node_attrs a x at0)).
Proof.
  intros HR Hx.
  destruct (g_upd_ptr_loc g x k (set_attrs at0) (Rep_GLoc _ _ HR) Hx (benign_set_attrs _)) as (g' & -> & _ & HM & HF & HL & HE).
  exists g'. split; [reflexivity|]. unfold a_set_node_attrs.
  assert (Hk : a_known a x) by (apply (Rep_known _ _ _ HR); eauto). destruct Hk as [an Han]. rewrite Han. split; [reflexivity|].
  eapply Rep_set_attrs; try eassumption. apply HL.
Qed.

Lemma set_node_attrs_sim g a x at0 : Rep g a -> sim a (g_set_node_attributes g x at0) (ab (a_set_node_attrs a x at0)).
Proof.
  intros HR. unfold g_set_node_attributes. destruct (g_lookup g !! x) as [k|] eqn:Ex.
  - destruct (upd_attrs_ok g a x k at0 HR Ex) as (g' & -> & H1 & H2). cbn. rewrite H1. auto.
  - unfold a_set_node_attrs. destruct (ag_nodes a !! x) eqn:E; [|cbn; auto].
    assert (a_known a x) as H by (unfold a_known; eauto). apply (Rep_known _ _ _ HR) in H as [? ?]. congruence.
Qed.

(** *** Reports, stale marks, mesh *)
Lemma Rep_visit g a fs fd fe g' :
  Rep g a ->
  (forall l, sl_id (fs l) = sl_id l /\ sl_nodes (fs l) = sl_nodes l /\ ec_edges (sl_edges (fs l)) = ec_edges (sl_edges l) /\ (sl_wf l -> sl_wf (fs l))) ->
  (forall d, dl_view (fd d) = dl_view d \/ dl_view (fd d) = sl_with_edges (dl_view d) (fe (dl_edges d))) ->
  (forall d, dl_core d -> dl_core (fd d)) ->
  (forall d, dl_id (fd d) = dl_id d /\ dl_prefix (fd d) = dl_prefix d /\ dl_next (fd d) = dl_next d /\ dl_size (fd d) = dl_size d) ->
  (forall c, ec_edges (fe c) = ec_edges c /\ (ec_wf c -> ec_wf (fe c))) ->
  g_layer_ids g' = g_layer_ids g -> g_lookup g' = g_lookup g -> g_mesh g' = g_mesh g ->
  g_layers g' = fs <$> g_layers g ->
  g_dlayers g' = (fun m : gmap N DLayer => fd <$> m) <$> g_dlayers g ->
  (forall dyn, g_ec g' dyn = g_ec g dyn \/ g_ec g' dyn = fe (g_ec g dyn)) ->
  Rep g' a.
Proof.
  intros HR Hfs Hfd Hfc Hfi Hfe H1 H2 H3 H4 H5 H6.
  assert (Hdl : forall l p, g_dlayer g' l p = fd <$> g_dlayer g l p).
  { intros l p. unfold g_dlayer. rewrite H5, lookup_fmap. destruct (g_dlayers g !! l); [|reflexivity]. cbn. apply lookup_fmap. }
  eapply (Rep_same g g' a HR).
  - split; try assumption.
    + intros l. rewrite H4, lookup_fmap. apply is_Some_fmap_iff.
    + intros l p. unfold dinfo. rewrite Hdl. destruct (g_dlayer g l p) as [d|]; [|reflexivity]. cbn.
      destruct (Hfi d) as (_ & _ & -> & ->). reflexivity.
  - intros l p d'. rewrite Hdl, fmap_Some. intros (d & Hd & ->). destruct (rp_dinv _ _ HR _ _ _ Hd) as (? & ? & ? & ?).
    destruct (Hfi d) as (-> & -> & _). auto.
  - intros k Hk. unfold g_part in *. destruct (lk_dynamic k) eqn:Ek.
    + rewrite Hdl. destruct (g_dlayer g (lk_layer k) (lk_prefix k)) as [d|] eqn:Ed; [|exact I]. cbn.
      assert (Hp : g_part g k = Some (dl_view d)) by (unfold g_part; rewrite Ek, Ed; reflexivity).
      destruct (rp_part _ _ HR _ _ Hk Hp) as (Hwf & _). destruct (Hfe (dl_edges d)) as [F1 F2].
      destruct (Hfi d) as (Hi & _). split; [exact Hi|].
      destruct (Hfd d) as [Hv|Hv].
      * pose proof (f_equal sl_nodes Hv) as N1. pose proof (f_equal sl_edges Hv) as N2. cbn in N1, N2.
        split; [exact N1|]. split; [rewrite Hv; assumption|]. rewrite N2. reflexivity.
      * pose proof (f_equal sl_nodes Hv) as N1. pose proof (f_equal sl_edges Hv) as N2. cbn in N1, N2.
        split; [exact N1|]. rewrite Hv, N2. split; [|exact F1].
        apply (sl_wf_with_edges (dl_view d) (fe (dl_edges d)) (fun _ e => e)); [assumption|apply F2, Hwf|intros ? ?; auto|].
        intros x. rewrite F1. cbn. destruct (ec_edges (dl_edges d) !! x); reflexivity.
    + rewrite H4, lookup_fmap. destruct (g_layers g !! lk_layer k) as [l|] eqn:El; [|exact I]. cbn.
      assert (Hp : g_part g k = Some l) by (unfold g_part; rewrite Ek; assumption).
      destruct (rp_part _ _ HR _ _ Hk Hp) as (Hwf & _). destruct (Hfs l) as (? & ? & ? & ?). auto.
  - intros dyn. destruct (Hfe (g_ec g dyn)) as [F1 F2]. destruct (H6 dyn) as [->| ->].
    + split; [apply HR|reflexivity].
    + split; [apply F2, HR|exact F1].
Qed.

Lemma ec_get_new_same c clear : ec_edges (snd (ec_get_new c clear)) = ec_edges c /\ (ec_wf c -> ec_wf (snd (ec_get_new c clear))).
Proof.
  destruct clear; cbn; [|auto]. split; [reflexivity|]. intros [H1 H2 H3 H4]. split; cbn [ec_edges ec_status].
  - exact H1.
  - intros k. rewrite H2, lookup_fmap. split.
    + intros (s & -> & Hs). cbn. destruct s; cbn; eauto; unfold e_live in *; eexists; (split; [reflexivity|]); auto.
    + intros (s & Hs & Hl). apply fmap_Some in Hs as (s0 & Hs0 & ->). exists s0. split; [assumption|].
      unfold e_live in *. destruct s0; cbn in Hl; auto.
  - intros k s. rewrite lookup_fmap, fmap_Some. intros (s0 & Hs0 & ->). specialize (H3 _ _ Hs0).
    unfold e_live in *. destruct s0; cbn; auto; destruct H3 as [[?|?]|?]; discriminate || auto.
  - intros k s. rewrite lookup_fmap, fmap_Some. intros (s0 & Hs0 & ->). eauto.
Qed.
Lemma ec_get_removed_same c clear : ec_edges (snd (ec_get_removed c clear)) = ec_edges c /\ (ec_wf c -> ec_wf (snd (ec_get_removed c clear))).
Proof.
  destruct clear; cbn; [|auto]. split; [reflexivity|]. intros [H1 H2 H3 H4]. split; cbn [ec_edges ec_status].
  - exact H1.
  - intros k. rewrite H2. split.
    + intros (s & Hs & Hl). exists s. split; [|assumption]. apply map_filter_lookup_Some. split; [assumption|]. cbn.
      destruct Hl as [->| ->]; reflexivity.
    + intros (s & Hs & Hl). apply map_filter_lookup_Some in Hs as [Hs _]. eauto.
  - intros k s Hs. apply map_filter_lookup_Some in Hs as [Hs _]. eauto.
  - intros k s Hs. apply map_filter_lookup_Some in Hs as [Hs _]. eauto.
Qed.

Lemma sl_wf_new_nodes l c : sl_wf l -> sl_wf (snd (sl_get_new_nodes l c)).
Proof.
  intros H. destruct c; cbn; [|assumption]. apply sl_wf_restatus; [assumption| |].
  - intros id. rewrite (slw_status _ H), lookup_fmap. split.
    + intros (s & -> & Hs). cbn. unfold n_live in *. destruct s; cbn; eexists; split; eauto; destruct Hs; discriminate.
    + intros (s & Hs & Hl). apply fmap_Some in Hs as (s0 & Hs0 & ->). exists s0. split; [assumption|].
      unfold n_live in *. destruct s0; cbn in Hl; auto.
  - intros id s. rewrite lookup_fmap, fmap_Some. intros (s0 & Hs0 & ->). pose proof (slw_status_ok _ H _ _ Hs0).
    destruct s0; cbn; congruence.
Qed.
Lemma sl_wf_removed_nodes l c : sl_wf l -> sl_wf (snd (sl_get_removed_nodes l c)).
Proof.
  intros H. destruct c; cbn; [|assumption]. apply sl_wf_restatus; [assumption| |].
  - intros id. rewrite (slw_status _ H). split.
    + intros (s & Hs & Hl). exists s. split; [|assumption]. apply map_filter_lookup_Some. split; [assumption|].
      destruct Hl as [->| ->]; reflexivity.
    + intros (s & Hs & Hl). apply map_filter_lookup_Some in Hs as [Hs _]. eauto.
  - intros id s Hs. apply map_filter_lookup_Some in Hs as [Hs _]. eapply slw_status_ok; eassumption.
Qed.

Lemma dl_core_restatus d st :
  dl_core d ->
  (forall i, match st !! i with Some NVisible | Some NNew => true | _ => false end = dl_has_index d i) ->
  (forall i s, st !! i = Some s -> s = NNew \/ s = NVisible \/ s = NDeleted) ->
  dl_core (dl_with_status d st).
Proof.
  intros [H1 H2 H3 H4 H5 H6 H7] Ha Hb. split; cbn; try assumption.
  intros i. rewrite <- H4. unfold dl_has_index at 1; cbn. rewrite Ha. reflexivity.
Qed.

Lemma dl_core_new_nodes d c : dl_core d -> dl_core (snd (dl_get_new_nodes d c)).
Proof.
  intros H. destruct c; cbn; [|assumption]. apply dl_core_restatus; [assumption| |].
  - intros i. unfold dl_has_index. rewrite lookup_fmap. destruct (dl_status d !! i) as [[]|]; reflexivity.
  - intros i s. rewrite lookup_fmap, fmap_Some. intros (s0 & Hs0 & ->). pose proof (dlc_status_ok _ H _ _ Hs0) as Hx.
    destruct s0; cbn; auto.
Qed.
Lemma dl_core_removed_nodes d c : dl_core d -> dl_core (snd (dl_get_removed_nodes d c)).
Proof.
  intros H. destruct c; cbn; [|assumption]. apply dl_core_restatus; [assumption| |].
  - intros i. unfold dl_has_index. rewrite map_filter_lookup. destruct (dl_status d !! i) as [[]|]; reflexivity.
  - intros i s Hs. apply map_filter_lookup_Some in Hs as [Hs _]. eapply dlc_status_ok; eassumption.
Qed.

Lemma reports_sim g a o : Rep g a ->
  match o with GMarkStale | GNewNodes _ | GRemovedNodes _ | GNewEdges _ | GRemovedEdges _ => True | _ => False end ->
  sim a (g_step g o) (a_step a o).
Proof.
  intros HR Ho. destruct o; try contradiction; clear Ho; cbn [g_step a_step sim fst snd]; (split; [reflexivity|]).
  - (* mark stale *)
    eapply (Rep_visit g a (fun l => sl_with_edges l (ec_set_stale (sl_edges l))) (fun d => dl_with_edges d (ec_set_stale (dl_edges d))) ec_set_stale); try reflexivity; try assumption.
    + intros l. split; [reflexivity|]. split; [reflexivity|]. split; [reflexivity|]. intros Hwf.
      apply (sl_wf_with_edges l _ (fun _ e => e)); [assumption|apply ec_wf_set_stale, Hwf|intros ? ?; auto|].
      intros x. cbn. destruct (ec_edges (sl_edges l) !! x); reflexivity.
    + intros d. right. apply dl_view_with_edges.
    + intros d. apply dl_core_with_edges.
    + intros d. auto.
    + intros c. split; [reflexivity|apply ec_wf_set_stale].
    + intros []; right; reflexivity.
  - (* new nodes *)
    eapply (Rep_visit g a (fun l => snd (sl_get_new_nodes l clear)) (fun d => snd (dl_get_new_nodes d clear)) (fun c => c)); try reflexivity; try assumption.
    + intros l. split; [|split; [|split; [|apply sl_wf_new_nodes]]]; destruct clear; reflexivity.
    + intros d. left. destruct clear; reflexivity.
    + intros d. apply dl_core_new_nodes.
    + intros d. destruct clear; auto.
    + auto.
    + intros []; left; reflexivity.
  - (* removed nodes *)
    eapply (Rep_visit g a (fun l => snd (sl_get_removed_nodes l clear)) (fun d => snd (dl_get_removed_nodes d clear)) (fun c => c)); try reflexivity; try assumption.
    + intros l. split; [|split; [|split; [|apply sl_wf_removed_nodes]]]; destruct clear; reflexivity.
    + intros d. left. destruct clear; reflexivity.
    + intros d. apply dl_core_removed_nodes.
    + intros d. destruct clear; auto.
    + auto.
    + intros []; left; reflexivity.
  - (* new edges *)
    eapply (Rep_visit g a (fun l => snd (sl_get_new_edges l clear)) (fun d => snd (dl_get_new_edges d clear)) (fun c => snd (ec_get_new c clear))); try reflexivity; try assumption.
    + intros l. destruct (ec_get_new_same (sl_edges l) clear) as [E1 E2].
      split; [reflexivity|]. split; [reflexivity|]. split; [exact E1|]. intros Hwf.
      apply (sl_wf_with_edges l (snd (ec_get_new (sl_edges l) clear)) (fun _ e => e)); [assumption|apply E2, Hwf|intros ? ?; auto|].
      intros x. rewrite E1. destruct (ec_edges (sl_edges l) !! x); reflexivity.
    + intros d. right. apply dl_view_with_edges.
    + intros d. apply dl_core_with_edges.
    + intros d. auto.
    + intros c. apply ec_get_new_same.
    + intros []; right; reflexivity.
  - (* removed edges *)
    eapply (Rep_visit g a (fun l => snd (sl_get_removed_edges l clear)) (fun d => snd (dl_get_removed_edges d clear)) (fun c => snd (ec_get_removed c clear))); try reflexivity; try assumption.
    + intros l. destruct (ec_get_removed_same (sl_edges l) clear) as [E1 E2].
      split; [reflexivity|]. split; [reflexivity|]. split; [exact E1|]. intros Hwf.
      apply (sl_wf_with_edges l (snd (ec_get_removed (sl_edges l) clear)) (fun _ e => e)); [assumption|apply E2, Hwf|intros ? ?; auto|].
      intros x. rewrite E1. destruct (ec_edges (sl_edges l) !! x); reflexivity.
    + intros d. right. apply dl_view_with_edges.
    + intros d. apply dl_core_with_edges.
    + intros d. auto.
    + intros c. apply ec_get_removed_same.
    + intros []; right; reflexivity.
Qed.

Lemma Rep_with_mesh g a m : Rep g a -> Rep (g_with_mesh g m) a.
Proof. intros [H1 H2 H3 H4 H5 H6 H7 H8 H9 H10 H11 H12]. split; assumption || idtac. intros x k L n A B C. destruct (H8 x k L n A B C). split; assumption. Qed.
