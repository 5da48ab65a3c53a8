(** Simulation of the node insertions of the graph. *)
From Coq Require Import NArith ZArith Bool List Lia.
From stdpp Require Import base list gmap fin_maps tactics.
From Verif.Model Require Import Types Mesh Attrs Node EdgeContainer SLayer DLayer Graph.
From Verif.Spec Require Import AbstractGraph GraphHistory.
From Verif.Proof Require Import Arith Keys SLayerP SLayerMerge DLayerP DLayerOps GraphRep GraphEdges GraphAttrs.
Local Open Scope N_scope.

Lemma Rep_unknown_nolink g a x : Rep g a -> g_lookup g !! x = None ->
  forall k L u nu, canon k -> g_part g k = Some L -> sl_nodes L !! u = Some nu -> forall r, x ∉ get_link r nu.
Proof.
  intros HR Hx k L u nu Hk HL Hn r Hin.
  apply (no_links _ _ _ _ _ (rp_node _ _ HR _ _ _ _ Hk HL Hn)) in Hin as (_ & kv & Hkv & _). congruence.
Qed.

Lemma Rep_add_node g g' a x k L L' n dyn' :
  Rep g a -> g_lookup g !! x = None -> canon k -> g_part g k = Some L ->
  g_lookup g' = <[x := k]> (g_lookup g) ->
  part_set k L' g g' ->
  sl_id L' = sl_id L -> sl_nodes L' = <[x := n]> (sl_nodes L) -> ec_edges (sl_edges L') = ec_edges (sl_edges L) ->
  sl_wf L' -> (forall r, get_link r n = ∅) ->
  (forall l, is_Some (g_layers g' !! l) <-> is_Some (g_layers g !! l)) -> DInv g' ->
  (forall dyn, g_ec g' dyn = g_ec g dyn) -> (forall l p, dyn' !! (l, p) = dinfo g' l p) ->
  Rep g' (mkAG (ag_layers a) dyn' (<[x := mkAN k (n_time n) (n_attrs n)]> (ag_nodes a)) (ag_edges a)).
Proof.
  intros HR Hx Hk HL Hlk HP Hid Hnodes Hedges Hwf Hnl Hlay HD HE Hdyn.
  assert (Hnx : forall v, ~ a_linked a x v).
  { intros v Hl. destruct (Rep_linked_known _ _ _ _ HR Hl) as (_ & ? & ? & ? & _). congruence. }
  assert (Hnx' : forall u, ~ a_linked a u x) by (intros u Hl; apply a_linked_comm in Hl; eapply Hnx, Hl).
  destruct (rp_part _ _ HR _ _ Hk HL) as (Hwf0 & Hid0 & Hun).
  assert (Hlook : forall y k0, y <> x -> g_lookup g' !! y = Some k0 <-> g_lookup g !! y = Some k0).
  { intros y k0 Hne. rewrite Hlk, lookup_insert_ne by congruence. reflexivity. }
  split; cbn.
  - intros l. rewrite Hlay. apply HR.
  - exact Hdyn.
  - exact HD.
  - intros k0 L0 Hk0. rewrite (HP k0 Hk0). destruct (decide (k0 = k)) as [->|].
    + intros [= <-]. split; [assumption|]. rewrite Hid. auto.
    + apply HR. assumption.
  - intros y. unfold a_key; cbn. rewrite Hlk. destruct (decide (x = y)) as [<-|Hne].
    + rewrite !lookup_insert. reflexivity.
    + rewrite !lookup_insert_ne by assumption. apply HR.
  - intros y k0. rewrite Hlk, lookup_insert_Some. intros [[_ <-]|[_ H]]; [assumption|]. eapply HR; eassumption.
  - intros y k0 Hk0. rewrite (HP k0 Hk0). destruct (decide (y = x)) as [->|Hne].
    + rewrite Hlk, lookup_insert. split.
      * intros [= <-]. destruct (decide (k = k)); [|contradiction]. exists L'. split; [reflexivity|].
        rewrite Hnodes, lookup_insert. eauto.
      * intros (L0 & HL0 & Hs). destruct (decide (k0 = k)) as [->|Hne]; [reflexivity|].
        assert (g_lookup g !! x = Some k0) by (apply (rp_home _ _ HR _ _ Hk0); eauto). congruence.
    + rewrite (Hlook y k0 Hne), (rp_home _ _ HR _ _ Hk0). destruct (decide (k0 = k)) as [->|].
      * rewrite HL. split; intros (L0 & [= <-] & Hs); eexists; (split; [reflexivity|]).
        -- rewrite Hnodes, lookup_insert_ne by congruence. exact Hs.
        -- rewrite Hnodes, lookup_insert_ne in Hs by congruence. exact Hs.
      * reflexivity.
  - intros y k0 L0 n0 Hk0. rewrite (HP k0 Hk0).
    assert (Hgen : forall L1, g_part g k0 = Some L1 -> sl_nodes L1 !! y = Some n0 -> y <> x ->
        node_ok (mkAG (ag_layers a) dyn' (<[x:=mkAN k (n_time n) (n_attrs n)]> (ag_nodes a)) (ag_edges a)) g' y k0 n0).
    { intros L1 HL1 Hn1 Hne. destruct (rp_node _ _ HR _ _ _ _ Hk0 HL1 Hn1) as [Habs Hlinks]. split; cbn.
      - rewrite lookup_insert_ne by congruence. exact Habs.
      - intros r v. rewrite Hlinks. unfold a_linked; cbn. split.
        + intros (Hl & kv & Hkv & Hr). split; [assumption|]. exists kv. split; [|assumption].
          apply Hlook; [|assumption]. intros ->. congruence.
        + intros (Hl & kv & Hkv & Hr). split; [assumption|]. exists kv. split; [|assumption].
          apply Hlook in Hkv; [assumption|]. intros ->. eapply Hnx', Hl. }
    destruct (decide (k0 = k)) as [->|Hne].
    + intros [= <-]. rewrite Hnodes. destruct (decide (y = x)) as [->|Hyx].
      * rewrite lookup_insert. intros [= <-]. split; cbn.
        -- rewrite lookup_insert. eauto.
        -- intros r v. rewrite Hnl. split; [intros H; set_solver|]. intros (Hl & _). exfalso. eapply Hnx, Hl.
      * rewrite lookup_insert_ne by congruence. intros Hn. eapply Hgen; eassumption.
    + intros HL0 Hn0. eapply Hgen; try eassumption. intros ->.
      assert (g_lookup g !! x = Some k0) by (apply (rp_home _ _ HR _ _ Hk0); eauto). congruence.
  - apply HR.
  - intros u v. rewrite (rp_edge _ _ HR). unfold g_edge_at. rewrite Hlk.
    assert (HeL : forall w, ec_edges (sl_edges L) !! edge_key x w = None).
    { intros w. apply eq_None_not_Some. intros Hs. destruct (sl_edge_key _ _ _ Hwf0 Hs) as (_ & Hxs & _).
      assert (g_lookup g !! x = Some k) by (apply (rp_home _ _ HR _ _ Hk); eauto). congruence. }
    assert (HeI : forall dyn w, ec_edges (g_ec g dyn) !! edge_key x w = None).
    { intros dyn w. destruct (ec_edges (g_ec g dyn) !! edge_key x w) as [e|] eqn:E; [|reflexivity]. exfalso.
      pose proof (ecw_key _ (rp_ec _ _ HR dyn) _ _ E) as Hkey.
      destruct (rp_inter _ _ HR _ _ _ E) as (ku & kv & Hu & Hv & _).
      apply edge_key_inj in Hkey as [[-> _]|[-> _]]; congruence. }
    destruct (decide (u = x)) as [->|Hu]; [|destruct (decide (v = x)) as [->|Hv]].
    + rewrite Hx, lookup_insert. destruct (<[x:=k]> (g_lookup g) !! v) as [kv|]; [|reflexivity].
      destruct (decide (k = kv)) as [<-|].
      * rewrite (HP k Hk). destruct (decide (k = k)); [|contradiction]. rewrite Hedges, HeL. reflexivity.
      * rewrite HE, HeI. reflexivity.
    + rewrite Hx, lookup_insert. rewrite lookup_insert_ne by congruence. rewrite edge_key_comm.
      destruct (g_lookup g !! u) as [ku|]; [|reflexivity].
      destruct (decide (ku = k)) as [->|].
      * rewrite (HP k Hk). destruct (decide (k = k)); [|contradiction]. rewrite Hedges, HeL. reflexivity.
      * rewrite HE, HeI. reflexivity.
    + rewrite !lookup_insert_ne by congruence. 
      destruct (g_lookup g !! u) as [ku|] eqn:Eu; [|reflexivity]. destruct (g_lookup g !! v) as [kv|] eqn:Ev; [|reflexivity].
      destruct (decide (ku = kv)) as [->|].
      * rewrite (HP kv (rp_canon _ _ HR _ _ Ev)). destruct (decide (kv = k)) as [->|]; [|reflexivity].
        rewrite HL, Hedges. reflexivity.
      * rewrite HE. reflexivity.
  - intros dyn. rewrite HE. apply HR.
  - intros dyn k0 e. rewrite HE. intros He. destruct (rp_inter _ _ HR _ _ _ He) as (ku & kv & Hu & Hv & ? & ?).
    exists ku, kv. rewrite Hlk. rewrite !lookup_insert_ne by congruence. auto.
Qed.

(** Adding a node to a well-formed layer keeps it so, in a graph where the id is unknown. *)
Lemma Rep_wf_added g a x k L n s : Rep g a -> g_lookup g !! x = None -> canon k -> g_part g k = Some L ->
  n_id n = x -> n_layer n = sl_id L -> n_sib n = ∅ -> n_live s -> sl_wf (sl_added L x n s).
Proof.
  intros HR Hx Hk HL H1 H2 H3 H4. destruct (rp_part _ _ HR _ _ Hk HL) as (Hwf & _).
  apply sl_wf_added; try assumption.
  - destruct (sl_nodes L !! x) eqn:E; [|reflexivity]. exfalso.
    assert (g_lookup g !! x = Some k) by (apply (rp_home _ _ HR _ _ Hk); eauto). congruence.
  - intros u nu Hu. exact (Rep_unknown_nolink g a x HR Hx k L u nu Hk HL Hu RSib).
  - intros v. rewrite H3. set_solver.
Qed.

(** *** Static nodes *)
Lemma emplace_static_ok g a l id n s :
  Rep g a -> g_lookup g !! id = None -> g_layers g !! l = Some s ->
  n_id n = id -> n_layer n = l -> (forall r, get_link r n = ∅) ->
  Rep (g_with_lookup (g_set_layer g l (sl_added s id n NNew)) (<[id := key_static l]> (g_lookup g)))
    (a_add_node a id (mkAN (key_static l) (n_time n) (n_attrs n))).
Proof.
  intros HR Hx Hs H1 H2 H3.
  assert (HL : g_part g (key_static l) = Some s) by exact Hs.
  destruct (rp_part _ _ HR _ _ (canon_static l) HL) as (Hwf & Hid & _). cbn in Hid.
  eapply (Rep_add_node g _ a id (key_static l) s (sl_added s id n NNew) n (ag_dyn a)); try reflexivity; try assumption.
  - apply canon_static.
  - exact (g_part_set_layer g l (sl_added s id n NNew)).
  - eapply Rep_wf_added; try eassumption; [apply canon_static|congruence|apply (H3 RSib)|left; reflexivity].
  - intros l0. cbn. destruct (decide (l = l0)) as [<-|].
    + rewrite lookup_insert, Hs. split; eauto.
    + rewrite lookup_insert_ne by assumption. reflexivity.
  - exact (rp_dinv _ _ HR).
  - intros l0 p0. apply HR.
Qed.

Lemma no_layer g a l : Rep g a -> g_layers g !! l = None -> l ∉ ag_layers a.
Proof. intros HR H Hin. apply (rp_layers _ _ HR) in Hin as [? ?]. congruence. Qed.
Lemma has_node_ok g a x : Rep g a -> g_has_node g x = bool_decide (a_known a x).
Proof. intros HR. unfold g_has_node. apply bool_decide_ext. apply Rep_known, HR. Qed.
Lemma Rep_unknown g a x : Rep g a -> ~ a_known a x -> g_lookup g !! x = None.
Proof. intros HR H. apply eq_None_not_Some. intros Hs. apply H, (Rep_known _ _ _ HR), Hs. Qed.

Lemma sl_emplace_new s id at0 : sl_nodes s !! id = None ->
  sl_emplace_node s id at0 = (true, sl_added s id (node_new id (sl_id s) None at0) NNew).
Proof. intros H. unfold sl_emplace_node. rewrite H. reflexivity. Qed.
Lemma Rep_layer_absent g a l s id : Rep g a -> g_layers g !! l = Some s -> g_lookup g !! id = None -> sl_nodes s !! id = None.
Proof.
  intros HR Hs Hx. destruct (sl_nodes s !! id) eqn:E; [|reflexivity]. exfalso.
  assert (g_lookup g !! id = Some (key_static l)).
  { apply (rp_home _ _ HR _ _ (canon_static l)). exists s. split; [exact Hs|eauto]. } congruence.
Qed.
Lemma Rep_layer_id g a l s : Rep g a -> g_layers g !! l = Some s -> sl_id s = l.
Proof. intros HR Hs. destruct (rp_part _ _ HR (key_static l) s (canon_static l) Hs) as (_ & H & _). exact H. Qed.

Lemma emplace_sim g a l id at0 : Rep g a -> sim a (Ok (g_emplace_node g l id at0)) (ab (a_emplace a l id None at0)).
Proof.
  intros HR. unfold g_emplace_node, a_emplace. rewrite (has_node_ok _ _ _ HR).
  case_bool_decide as Hk; [rewrite decide_True by assumption; cbn; auto|]. rewrite decide_False by assumption.
  destruct (g_layers g !! l) as [s|] eqn:Es.
  - rewrite decide_True by (apply (rp_layers _ _ HR); eauto).
    pose proof (Rep_unknown _ _ _ HR Hk) as Hx.
    rewrite (sl_emplace_new s id at0) by (eapply Rep_layer_absent; eassumption). cbn [ab fst snd sim]. split; [reflexivity|].
    apply (emplace_static_ok g a l id (node_new id (sl_id s) None at0) s); try assumption; try reflexivity.
    + cbn. eapply Rep_layer_id; eassumption.
    + intros []; reflexivity.
  - rewrite decide_False by (eapply no_layer; eassumption). cbn. auto.
Qed.

Lemma insert_node_sim g a l id t at0 : Rep g a ->
  sim a (Ok (g_insert_node g (Some (node_new id l t at0)))) (ab (a_emplace a l id t at0)).
Proof.
  intros HR. unfold g_insert_node, a_emplace. cbn [n_id n_layer node_new]. rewrite (has_node_ok _ _ _ HR).
  case_bool_decide as Hk; [rewrite decide_True by assumption; cbn; auto|]. rewrite decide_False by assumption.
  destruct (g_layers g !! l) as [s|] eqn:Es.
  - rewrite decide_True by (apply (rp_layers _ _ HR); eauto).
    pose proof (Rep_unknown _ _ _ HR Hk) as Hx. pose proof (Rep_layer_id _ _ _ _ HR Es) as Hid.
    unfold sl_insert_node. cbn [n_id n_layer node_new]. rewrite Hid, N.eqb_refl. cbn [negb].
    rewrite (proj2 (sl_has_node_false s id)) by (eapply Rep_layer_absent; eassumption).
    cbn [ab fst snd sim]. split; [reflexivity|].
    rewrite <- Hid at 2.
    apply (emplace_static_ok g a l id (node_new id l t at0) s); try assumption; try reflexivity.
    intros []; reflexivity.
  - rewrite decide_False by (eapply no_layer; eassumption). cbn. auto.
Qed.

(** *** Dynamic layers *)
Lemma dl_core_new l p : p < two32 -> dl_core (dl_new l p).
Proof.
  intros Hp. split; cbn; try (intros; discriminate).
  - assumption.
  - intros i. unfold dl_has_index; cbn. rewrite lookup_empty. split; [discriminate|]. intros (n & H). discriminate.
  - intros t. split; [set_solver|]. intros (i & n & H & _). discriminate.
Qed.
Lemma dl_view_new l p : sl_nodes (dl_view (dl_new l p)) = ∅ /\ sl_edges (dl_view (dl_new l p)) = ec_empty /\ sl_wf (dl_view (dl_new l p)).
Proof.
  split; [reflexivity|]. split; [reflexivity|]. apply (sl_wf_view_of _ (sl_new l)); try reflexivity. apply sl_wf_new.
Qed.

Lemma create_dyn_ok g a l p : Rep g a -> dyn_ok l p ->
  Rep (snd (g_create_dlayer g l p)) (snd (a_create_dyn a l p)) /\
  fst (g_create_dlayer g l p) = fst (a_create_dyn a l p) /\
  g_lookup (snd (g_create_dlayer g l p)) = g_lookup g /\
  g_layers (snd (g_create_dlayer g l p)) = g_layers g.
Proof.
  intros HR (Hl & Hp & Hsub). unfold g_create_dlayer, a_create_dyn, g_has_dlayer.
  rewrite (rp_dyn _ _ HR). unfold dinfo. destruct (g_dlayer g l p) as [d|] eqn:Ed; cbn.
  { auto. }
  split; [|auto].
  destruct (dl_view_new l p) as (Hn & He & Hwf).
  set (g' := g_set_dlayer g l p (dl_new l p)).
  assert (HP : part_set (key_dynamic l p) (dl_view (dl_new l p)) g g') by apply g_part_set_dlayer.
  assert (Hnone : g_part g (key_dynamic l p) = None) by (unfold g_part; cbn; rewrite Ed; reflexivity).
  assert (Hnolk : forall x, g_lookup g !! x <> Some (key_dynamic l p)).
  { intros x Hx. apply (rp_home _ _ HR _ _ (canon_dynamic l p)) in Hx as (L & HL & _). congruence. }
  split; cbn.
  - apply HR.
  - intros l0 p0. unfold dinfo, g'. rewrite g_dlayer_set. destruct (decide (l0 = l /\ p0 = p)) as [[-> ->]|Hne].
    + rewrite lookup_insert. reflexivity.
    + rewrite lookup_insert_ne by (intros [= -> ->]; tauto). apply HR.
  - intros l0 p0 d. unfold g'. rewrite g_dlayer_set. destruct (decide _) as [[-> ->]|].
    + intros [= <-]. split; [apply dl_core_new; assumption|]. auto.
    + apply HR.
  - intros k L Hk. rewrite (HP k Hk). destruct (decide _) as [->|]; [|apply HR; assumption].
    intros [= <-]. split; [assumption|]. split; [reflexivity|assumption].
  - apply HR.
  - apply HR.
  - intros x k Hk. rewrite (HP k Hk). destruct (decide _) as [->|]; [|apply HR; assumption].
    split; [intros H; exfalso; eapply Hnolk, H|]. intros (L & [= <-] & Hs). rewrite Hn in Hs.
    destruct Hs as [? Hs]. rewrite lookup_empty in Hs. discriminate.
  - intros x k L n Hk. rewrite (HP k Hk). destruct (decide _) as [->|].
    + intros [= <-]. rewrite Hn, lookup_empty. discriminate.
    + intros HL Hn0. destruct (rp_node _ _ HR _ _ _ _ Hk HL Hn0). split; assumption.
  - apply HR.
  - intros u v. rewrite (rp_edge _ _ HR). unfold g_edge_at. cbn [g_lookup g' g_set_dlayer g_with_dlayers].
    destruct (g_lookup g !! u) as [ku|] eqn:Eu; [|reflexivity]. destruct (g_lookup g !! v) as [kv|] eqn:Ev; [|reflexivity].
    destruct (decide (ku = kv)) as [->|].
    + rewrite (HP kv (rp_canon _ _ HR _ _ Ev)). destruct (decide _) as [->|]; [|reflexivity]. exfalso. eapply Hnolk, Ev.
    + reflexivity.
  - apply HR.
  - apply HR.
Qed.

Lemma create_dyn_sim g a l p : Rep g a -> dyn_ok l p -> sim a (Ok (g_create_dlayer g l p)) (ab (a_create_dyn a l p)).
Proof.
  intros HR Hok. destruct (create_dyn_ok g a l p HR Hok) as (H1 & H2 & _).
  destruct (g_create_dlayer g l p), (a_create_dyn a l p). cbn in *. subst. auto.
Qed.

Lemma g_dlayer_created g l p : exists d, g_dlayer (snd (g_create_dlayer g l p)) l p = Some d /\
  (g_dlayer g l p = Some d \/ (g_dlayer g l p = None /\ d = dl_new l p)).
Proof.
  unfold g_create_dlayer, g_has_dlayer. destruct (g_dlayer g l p) as [d|] eqn:E; cbn.
  - exists d. rewrite E. auto.
  - exists (dl_new l p). rewrite g_dlayer_set. rewrite decide_True by auto. auto.
Qed.

(** The times of a dynamic layer are those of its nodes. *)
Lemma time_used_iff g a l p d t : Rep g a -> g_dlayer g l p = Some d -> (a_time_used a l p t <-> t ∈ dl_times d).
Proof.
  intros HR Hd. destruct (rp_dinv _ _ HR _ _ _ Hd) as (Hc & Hid & Hpre & _).
  assert (HL : g_part g (key_dynamic l p) = Some (dl_view d)) by (unfold g_part; cbn; rewrite Hd; reflexivity).
  rewrite (dlc_times _ Hc). unfold a_time_used, map_Exists. split.
  - intros (x & an & Hx & Hk & Ht).
    assert (Hlk : g_lookup g !! x = Some (key_dynamic l p)).
    { rewrite (rp_lookup _ _ HR). unfold a_key. rewrite Hx. cbn. congruence. }
    apply (rp_home _ _ HR _ _ (canon_dynamic l p)) in Hlk as (L & HL' & n & Hn).
    assert (L = dl_view d) as -> by congruence.
    destruct (rp_node _ _ HR _ _ _ _ (canon_dynamic l p) HL Hn) as [(an' & A1 & A2 & A3 & A4) _].
    apply (dl_nmap_Some _ _ _ Hc) in Hn as (i & Hi & _). exists i, n. split; [assumption|]. congruence.
  - intros (i & n & Hi & Ht). set (x := prefix_make_id (dl_prefix d) (N.of_nat i)).
    assert (Hn : sl_nodes (dl_view d) !! x = Some n) by (apply (dl_nmap_Some _ _ _ Hc); eauto).
    destruct (rp_node _ _ HR _ _ _ _ (canon_dynamic l p) HL Hn) as [(an' & A1 & A2 & A3 & A4) _].
    exists x, an'. split; [assumption|]. split; [assumption|]. congruence.
Qed.

(** Setting a dynamic layer and registering a node, seen as [part_set]. *)
Lemma DInv_set g l p d' : DInv g -> dl_core d' -> dl_id d' = l -> dl_prefix d' = p -> prefix_sub p = 0 ->
  DInv (g_set_dlayer g l p d').
Proof.
  intros HD H1 H2 H3 H4 l0 p0 d0. rewrite g_dlayer_set. destruct (decide _) as [[-> ->]|]; [|apply HD].
  intros [= <-]. auto.
Qed.

Lemma dyn_add_node g a l p d d' id n next slots :
  Rep g a -> g_dlayer g l p = Some d -> g_lookup g !! id = None ->
  dl_core d' -> dl_id d' = dl_id d -> dl_prefix d' = dl_prefix d ->
  dl_next d' = next -> dl_size d' = slots ->
  sl_nodes (dl_view d') = <[id := n]> (sl_nodes (dl_view d)) ->
  ec_edges (dl_edges d') = ec_edges (dl_edges d) -> sl_wf (dl_view d') ->
  (forall r, get_link r n = ∅) ->
  Rep (g_with_lookup (g_set_dlayer g l p d') (<[id := key_dynamic l p]> (g_lookup g)))
    (a_with_dyn (a_add_node a id (mkAN (key_dynamic l p) (n_time n) (n_attrs n))) (<[(l, p) := (next, slots)]> (ag_dyn a))).
Proof.
  intros HR Hd Hx Hc Hi Hp Hn Hs Hnodes Hedges Hwf Hnl.
  assert (HL : g_part g (key_dynamic l p) = Some (dl_view d)) by (unfold g_part; cbn; rewrite Hd; reflexivity).
  destruct (rp_dinv _ _ HR _ _ _ Hd) as (Hc0 & Hi0 & Hp0 & Hsub).
  eapply (Rep_add_node g _ a id (key_dynamic l p) (dl_view d) (dl_view d') n (<[(l, p) := (next, slots)]> (ag_dyn a)));
    try reflexivity; try assumption.
  - apply canon_dynamic.
  - exact (g_part_set_dlayer g l p d').
  - exact (DInv_set g l p d' (rp_dinv _ _ HR) Hc (eq_trans Hi Hi0) (eq_trans Hp Hp0) Hsub).
  - intros l0 p0. unfold dinfo. cbn [g_with_lookup].
    change (g_dlayer (g_with_lookup (g_set_dlayer g l p d') (<[id := key_dynamic l p]> (g_lookup g))) l0 p0)
      with (g_dlayer (g_set_dlayer g l p d') l0 p0).
    rewrite g_dlayer_set. destruct (decide (l0 = l /\ p0 = p)) as [[-> ->]|Hne].
    + rewrite lookup_insert. cbn. rewrite Hn, Hs. reflexivity.
    + rewrite lookup_insert_ne by (intros [= -> ->]; tauto). apply HR.
Qed.

Lemma emplace_prev_sim g a l id t at0 : Rep g a -> prev_ok a l id t ->
  sim a (g_emplace_prev g l id t at0) (ab (a_emplace_prev a l id t at0)).
Proof.
  intros HR Hok. unfold g_emplace_prev, a_emplace_prev. rewrite (has_node_ok _ _ _ HR).
  case_bool_decide as Hk; [rewrite decide_True by assumption; cbn; auto|]. rewrite decide_False by assumption.
  destruct Hok as [?|(Hid & Hdyn & Htime)]; [contradiction|]. set (p := prefix_from_id id) in *.
  destruct (create_dyn_ok g a l p HR Hdyn) as (HR1 & _ & Hlk1 & _).
  destruct (g_dlayer_created g l p) as (d & Hd & _). rewrite Hd. cbn [deref rbind].
  set (g1 := snd (g_create_dlayer g l p)) in *. set (a1 := snd (a_create_dyn a l p)) in *.
  assert (Hx : g_lookup g1 !! id = None) by (rewrite Hlk1; apply (Rep_unknown _ _ _ HR Hk)).
  destruct (rp_dinv _ _ HR1 _ _ _ Hd) as (Hc & Hi & Hp & Hsub).
  assert (HL : g_part g1 (key_dynamic l p) = Some (dl_view d)) by (unfold g_part; cbn; rewrite Hd; reflexivity).
  destruct (rp_part _ _ HR1 _ _ (canon_dynamic l p) HL) as (Hwf & _ & _).
  assert (Hmk : prefix_make_id (dl_prefix d) (prefix_index id) = id).
  { rewrite Hp. apply make_id_of_id; [destruct Hdyn as (_ & ? & _); assumption|assumption|reflexivity]. }
  assert (Hab : dl_nmap d !! id = None).
  { destruct (dl_nmap d !! id) eqn:E; [|reflexivity]. exfalso.
    assert (g_lookup g1 !! id = Some (key_dynamic l p)).
    { apply (rp_home _ _ HR1 _ _ (canon_dynamic l p)). exists (dl_view d). split; [assumption|]. cbn. eauto. } congruence. }
  assert (Hni : dl_has_index d (prefix_index id) = false).
  { destruct (dl_has_index d (prefix_index id)) eqn:E; [|reflexivity]. exfalso.
    apply (dlc_status _ Hc) in E as (n & Hn). rewrite (dl_nmap_lookup d id Hc Hid) in Hab by (unfold p in Hp; congruence).
    rewrite Hn in Hab. discriminate. }
  assert (Ht : t ∉ dl_times d).
  { rewrite <- (time_used_iff g1 a1 l p d t HR1 Hd). intros H. apply Htime. unfold a_time_used in *.
    unfold a1, a_create_dyn in H. destruct (ag_dyn a !! (l, p)) as [[]|]; exact H. }
  pose proof (dl_emplace_at_ok d t (prefix_index id) at0 (conj Hc Hwf) Hni (prefix_index_lt _) Ht) as Hem.
  cbv zeta in Hem. rewrite Hmk in Hem. destruct Hem as (_ & d' & Hem & Hwf' & Hv & E1 & E2 & E3 & E4 & E5).
  { intros u nu Hu. exact (Rep_unknown_nolink g1 a1 id HR1 Hx _ _ u nu (canon_dynamic l p) HL Hu RSib). }
  rewrite Hem. assert (Hinfo : ag_dyn a1 !! (l, p) = Some (dl_next d, dl_size d)).
  { rewrite (rp_dyn _ _ HR1). unfold dinfo. rewrite Hd. reflexivity. }
  rewrite Hinfo. cbn [default ab fst snd sim]. split; [reflexivity|].
  pose proof (dyn_add_node g1 a1 l p d d' id (node_new id (dl_id d) (Some t) at0) (dl_next d) (N.max (dl_size d) (prefix_index id + 1)) HR1 Hd Hx) as HA.
  cbn [n_time n_attrs node_new] in HA. apply HA; try assumption.
  - apply Hwf'.
  - exact (f_equal sl_nodes Hv).
  - exact (f_equal (fun L => ec_edges (sl_edges L)) Hv).
  - rewrite Hv. rewrite <- Hv. apply Hwf'.
  - intros []; reflexivity.
Qed.

Lemma add_or_update_node_sim g a l id at0 t : Rep g a -> clean a (GAddOrUpdateNode l id at0 t) ->
  sim a (g_add_or_update_node g l id at0 t) (ab (a_add_or_update_node a l id at0 t)).
Proof.
  intros HR Hclean. unfold g_add_or_update_node, a_add_or_update_node.
  destruct (g_layers g !! l) as [s|] eqn:Es.
  2:{ rewrite decide_False by (eapply no_layer; eassumption). cbn. auto. }
  rewrite decide_True by (apply (rp_layers _ _ HR); eauto).
  destruct (g_lookup g !! id) as [k|] eqn:Ek.
  - rewrite decide_True by (apply (Rep_known _ _ _ HR); eauto).
    destruct (upd_attrs_ok g a id k at0 HR Ek) as (g' & -> & H1 & H2). cbn. rewrite H1. auto.
  - assert (Hn : ~ a_known a id) by (intros H; apply (Rep_known _ _ _ HR) in H as [? ?]; congruence).
    rewrite decide_False by assumption. destruct t as [t|].
    + apply emplace_prev_sim; assumption.
    + pose proof (emplace_sim g a l id at0 HR) as H. unfold g_emplace_node in H.
      rewrite (has_node_ok _ _ _ HR), bool_decide_false in H by assumption. rewrite Es in H.
      destruct (sl_emplace_node s id at0) as [ok s']. exact H.
Qed.

Lemma dl_core_next d nx : dl_core d ->
  dl_core (mkDL (dl_id d) (dl_prefix d) (dl_times d) (dl_nodes d) (dl_status d) nx (dl_edges d)).
Proof. intros [H1 H2 H3 H4 H5 H6 H7]. split; assumption. Qed.

Lemma emplace_dyn_sim g a l p t at0 ae : Rep g a -> clean a (GEmplaceDyn l p t at0 ae) ->
  sim a (g_emplace_dynamic g l p t at0 ae) (ab (a_emplace_dyn a l p t at0 ae)).
Proof.
  intros HR [Hdyn Hslots]. unfold g_emplace_dynamic, a_emplace_dyn.
  destruct (create_dyn_ok g a l p HR Hdyn) as (HR1 & _ & Hlk1 & _).
  destruct (g_dlayer_created g l p) as (d & Hd & Hd0).
  set (g1 := snd (g_create_dlayer g l p)) in *. set (a1 := snd (a_create_dyn a l p)) in *.
  assert (Hinfo : default (0, 0) (ag_dyn a !! (l, p)) = (dl_next d, dl_size d)).
  { rewrite (rp_dyn _ _ HR). unfold dinfo. destruct Hd0 as [->|[-> ->]]; reflexivity. }
  assert (Hns : dl_next d = dl_size d /\ dl_size d < two32).
  { rewrite (rp_dyn _ _ HR) in Hslots. unfold dinfo in Hslots. destruct Hd0 as [Hg|[Hg ->]]; rewrite Hg in Hslots; cbn in Hslots.
    - assumption.
    - cbn. rewrite two32_eq. unfold dl_size; cbn. lia. }
  destruct Hns as [Hns Hsz].
  rewrite Hinfo. set (id := prefix_make_id p (dl_next d)).
  assert (Hidg : (match g_dlayer g l p with Some d0 => prefix_make_id p (dl_next d0) | None => prefix_make_id p 0 end) = id).
  { destruct Hd0 as [->|[-> ->]]; reflexivity. }
  rewrite Hidg, (has_node_ok _ _ _ HR).
  case_bool_decide as Hk; [rewrite decide_True by assumption; cbn; auto|]. rewrite decide_False by assumption.
  rewrite Hd. cbn [deref rbind].
  assert (Hx : g_lookup g1 !! id = None) by (rewrite Hlk1; apply (Rep_unknown _ _ _ HR Hk)).
  destruct (rp_dinv _ _ HR1 _ _ _ Hd) as (Hc & Hi & Hp & Hsub).
  assert (HL : g_part g1 (key_dynamic l p) = Some (dl_view d)) by (unfold g_part; cbn; rewrite Hd; reflexivity).
  destruct (rp_part _ _ HR1 _ _ (canon_dynamic l p) HL) as (Hwf & _ & Hunk).
  destruct (decide (t ∈ dl_times d)) as [Ht|Ht].
  { rewrite (dl_emplace_node_dup d t at0 ae Ht). cbn [rbind].
    rewrite decide_True by (apply (time_used_iff g1 a1 l p d t HR1 Hd); assumption). cbn. split; [reflexivity|].
    assert (g_set_dlayer g1 l p d = g1) as ->; [|assumption].
    pose proof (g_put_layer_same g1 (key_dynamic l p) (BD d) (canon_dynamic l p)) as Hsame. apply Hsame.
    unfold g_layer_at; cbn. rewrite Hd. reflexivity. }
  rewrite decide_False by (rewrite (time_used_iff g1 a1 l p d t HR1 Hd); assumption).
  pose proof (dl_emplace_node_ok d t at0 ae (conj Hc Hwf) Hns Hsz Ht) as Hem. cbv zeta in Hem. rewrite Hp in Hem. fold id in Hem.
  destruct Hem as (Hab & l2 & b & d' & Hins & Hwf2 & Hem & Hwf' & Hv & E1 & E2 & E3 & E4 & E5 & E6).
  { intros u nu Hu. exact (Rep_unknown_nolink g1 a1 id HR1 Hx _ _ u nu (canon_dynamic l p) HL Hu RSib). }
  rewrite Hem. cbn [rbind]. cbn [ab fst snd sim]. split; [reflexivity|].
  (* the intermediate graph: node added, no edge *)
  set (nd := node_new id (dl_id d) (Some t) at0) in *.
  set (dm := mkDL (dl_id d) (dl_prefix d) (dl_times (dl_pushed d t at0)) (dl_nodes (dl_pushed d t at0)) (dl_status (dl_pushed d t at0)) (dl_next d + 1) (dl_edges d)).
  assert (Hcm : dl_core dm) by (apply (dl_core_next (dl_pushed d t at0)), dl_core_pushed; assumption).
  assert (Hnm : dl_nmap dm = <[id := nd]> (dl_nmap d)).
  { pose proof (dl_nmap_pushed d t at0 Hc Hns Hsz Ht) as [H _]. rewrite Hp in H. exact H. }
  assert (Hwfm : sl_wf (dl_view dm)).
  { apply (sl_wf_view_of dm (sl_added (dl_view d) id nd NVisible)); try reflexivity; [exact Hnm|].
    eapply Rep_wf_added; try eassumption; try reflexivity; [apply canon_dynamic|right; reflexivity]. }
  assert (Hsm : dl_size dm = dl_size d + 1).
  { unfold dl_size, dm; cbn. rewrite app_length; cbn. lia. }
  set (gm := g_with_lookup (g_set_dlayer g1 l p dm) (<[id := key_dynamic l p]> (g_lookup g1))).
  set (am := a_with_dyn (a_add_node a1 id (mkAN (key_dynamic l p) (Some t) at0)) (<[(l, p) := (dl_next d + 1, dl_size d + 1)]> (ag_dyn a1))).
  assert (HRm : Rep gm am).
  { pose proof (dyn_add_node g1 a1 l p d dm id nd (dl_next d + 1) (dl_size d + 1) HR1 Hd Hx) as HA.
    apply HA; try assumption; try reflexivity. intros []; reflexivity. }
  set (prev := prefix_make_id p (dl_size d - 1)).
  fold nd in Hins. set (l1 := sl_added (dl_view d) id nd NVisible) in *.
  assert (Hpm : g_part gm (key_dynamic l p) = Some (dl_view dm)).
  { unfold g_part; cbn [lk_dynamic key_dynamic lk_layer lk_prefix]. change (g_dlayer gm l p) with (g_dlayer (g_set_dlayer g1 l p dm) l p).
    rewrite g_dlayer_set, decide_True by auto. reflexivity. }
  assert (Hl1 : dl_view dm = l1).
  { unfold dl_view, l1, sl_added. rewrite Hnm. cbn. f_equal. rewrite fmap_insert. reflexivity. }
  (* the final graph relative to the intermediate one *)
  set (g' := g_with_lookup (g_set_dlayer g1 l p d') (<[id := key_dynamic l p]> (g_lookup (g_set_dlayer g1 l p d')))).
  assert (HP' : part_set (key_dynamic l p) l2 gm g').
  { intros k Hk'. change (g_part g' k) with (g_part (g_set_dlayer g1 l p d') k).
    change (g_part gm k) with (g_part (g_set_dlayer g1 l p dm) k).
    rewrite (g_part_set_dlayer g1 l p d' k Hk'), (g_part_set_dlayer g1 l p dm k Hk'). rewrite Hv.
    destruct (decide _); reflexivity. }
  assert (HF' : g_frame gm g').
  { split; try reflexivity. intros l0 p0. unfold dinfo.
    change (g_dlayer g' l0 p0) with (g_dlayer (g_set_dlayer g1 l p d') l0 p0).
    change (g_dlayer gm l0 p0) with (g_dlayer (g_set_dlayer g1 l p dm) l0 p0). rewrite !g_dlayer_set.
    destruct (decide _); [|reflexivity]. cbn [fmap option_fmap option_map]. rewrite E3, E4, Hsm. reflexivity. }
  assert (HD' : DInv g').
  { exact (DInv_set g1 l p d' (rp_dinv _ _ HR1) (proj1 Hwf') (eq_trans E1 Hi) E2 Hsub). }
  assert (HE' : forall dyn, g_ec g' dyn = g_ec gm dyn) by (intros []; reflexivity).
  assert (Hsame : l2 = l1 -> Rep g' am).
  { intros Hl2. eapply (Rep_same gm g' am HRm HF' HD').
    - intros k Hk'. rewrite (HP' k Hk'). destruct (decide (k = key_dynamic l p)) as [->|].
      + rewrite Hpm, Hl2, Hl1. split; [reflexivity|]. split; [reflexivity|]. split; [|reflexivity]. rewrite <- Hl1. assumption.
      + destruct (g_part gm k) as [L|] eqn:E; [|exact I]. destruct (rp_part _ _ HRm _ _ Hk' E) as (? & _). auto.
    - intros dyn. rewrite HE'. split; [apply HRm|reflexivity]. }
  fold id am prev.
  assert (Hkp : a_key am prev = Some (key_dynamic l p) <-> is_Some (sl_nodes l1 !! prev)).
  { rewrite <- (rp_lookup _ _ HRm), (rp_home _ _ HRm _ _ (canon_dynamic l p)). rewrite Hpm, Hl1. split.
    - intros (L & [= <-] & H). exact H.
    - intros H. eauto. }
  assert (Hkid : is_Some (sl_nodes l1 !! id)) by (unfold l1; cbn; rewrite lookup_insert; eauto).
  assert (Hpid : 0 < dl_size d -> prev <> id).
  { intros Hpos Heq. unfold prev, id in Heq. apply make_id_inj in Heq; [|destruct Hdyn as (_ & ? & _); assumption|lia|lia].
    lia. }
  assert (Hnl : ~ a_linked am prev id).
  { intros Hlnk. apply a_linked_comm in Hlnk. assert (a_linked a1 id prev) as H1 by exact Hlnk.
    destruct (Rep_linked_known _ _ _ _ HR1 H1) as (_ & ? & ? & ? & _). congruence. }
  destruct ae; cbn [andb] in Hins.
  2:{ rewrite decide_False by (intros [? _]; discriminate). apply Hsame, Hins. }
  destruct (N.ltb_spec 0 (dl_size d)) as [Hpos|Hpos].
  2:{ rewrite decide_False by (intros (_ & ? & _); lia). apply Hsame, Hins. }
  fold prev in Hins.
  destruct (decide (is_Some (sl_nodes l1 !! prev))) as [Hpv|Hpv].
  - assert (Hcan : sl_can_insert l1 prev id).
    { split; [apply Hpid; assumption|]. split; [|auto].
      assert (Hk2 : g_lookup gm !! prev = Some (key_dynamic l p)) by (rewrite (rp_lookup _ _ HRm); apply Hkp, Hpv).
      assert (Hk3 : g_lookup gm !! id = Some (key_dynamic l p)) by apply lookup_insert.
      rewrite <- Hl1, <- (Rep_part_edge gm am (key_dynamic l p) _ prev id HRm (canon_dynamic l p) Hpm Hk2 Hk3).
      apply eq_None_not_Some. exact Hnl. }
    rewrite (sl_insert_edge_ok _ _ _ None Hcan) in Hins. injection Hins as _ <-.
    rewrite decide_True by (split; [reflexivity|split; [assumption|apply Hkp; assumption]]).
    unfold a_insert_edge.
    assert (Hk2 : g_lookup gm !! prev = Some (key_dynamic l p)) by (rewrite (rp_lookup _ _ HRm); apply Hkp, Hpv).
    assert (Hk3 : g_lookup gm !! id = Some (key_dynamic l p)) by apply lookup_insert.
    rewrite decide_True.
    2:{ split; [apply Hpid; assumption|]. split; [apply (Rep_known _ _ _ HRm); eauto|].
        split; [apply (Rep_known _ _ _ HRm); eauto|exact Hnl]. }
    cbn [snd].
    eapply (Rep_add_intra gm g' am prev id (key_dynamic l p) (dl_view dm) None HRm Hk2 Hk3 Hpm);
      try assumption; rewrite Hl1; assumption.
  - rewrite decide_False by (intros (_ & _ & H); apply Hpv, Hkp, H).
    rewrite sl_insert_edge_noop in Hins by (intros (_ & _ & ? & _); contradiction). injection Hins as _ <-. apply Hsame. reflexivity.
Qed.
