(** clone: the copy has the same nodes and edges. *)
From Coq Require Import NArith ZArith Bool List Lia.
From stdpp Require Import base list gmap fin_maps tactics.
From Verif.Model Require Import Types Mesh Attrs Node EdgeContainer SLayer DLayer Graph.
From Verif.Spec Require Import AbstractGraph GraphHistory GraphObs.
From Verif.Proof Require Import MergeP6 Arith Keys SLayerP SLayerMerge DLayerP DLayerOps GraphRep GraphEdges GraphAttrs GraphNodes GraphRemove GraphMerge GraphSim GraphObsP StaleP StaleP2.
Local Open Scope N_scope.

Definition CInv (c : Graph) (b : AGraph) : Prop := RepL c b /\ reachable c.
Lemma CInv_step c b o : CInv c b -> allowed c o ->
  match g_step c o with
  | Ok (r, c') => fst (a_step b o) = ABool r /\ CInv c' (snd (a_step b o)) /\ g_layer_ids c' = g_layer_ids c
  | Throw => fst (a_step b o) = AThrow
  | UB => False
  end.
Proof.
  intros [HR Hr] Ha. pose proof (allowed_clean c b (proj1 HR) o Ha) as Hc.
  pose proof (step_sim c b o HR Hc) as Hs. pose proof (step_RepL c b o HR Hc) as HL. pose proof (step_ids c o) as Hi.
  destruct (g_step c o) as [[r c']| |] eqn:E; cbn in Hs.
  - destruct Hs as [? ?]. split; [assumption|]. split; [|exact Hi]. split; [assumption|]. econstructor; eassumption.
  - tauto.
  - exact Hs.
Qed.

Definition strip (n : ANode) : ANode := mkAN (an_key n) (if lk_dynamic (an_key n) then an_time n else None) (an_attrs n).

Lemma reachable_ids g : reachable g -> g_layer_ids g <> [].
Proof.
  induction 1 as [ids g Hn Hu|g o b g' _ IH Ha Hs|g ids _ _ Hne _|g other edges b g' other' _ IH _ Hs
    |vadd vsub cfg g other g' other' Hr IH Hro _ Hm Hs|vadd vsub cfg g other g' other' Hr _ Hro IH Hm Hs].
  - destruct ids; [discriminate|]. injection Hn as <-. discriminate.
  - pose proof (step_ids g o) as Hi. rewrite Hs in Hi. cbn in Hi. rewrite Hi. exact IH.
  - exact Hne.
  - unfold g_update_from_layer in Hs. destruct (g_layers g !! sl_id other); [|injection Hs as <- <- <-; exact IH].
    destruct (fold_left _ _ _) as [l1 lk]. destruct (rfold _ _ _); [|discriminate|discriminate].
    injection Hs as <- <- <-. exact IH.
  - destruct (reachable_RepL g Hr) as [a HR]. destruct (reachable_RepL other Hro) as [ao HRo].
    destruct (merge_RepL vadd vsub cfg g other a ao HR HRo Hm) as (g1 & a' & E & _ & M). rewrite E in Hs. injection Hs as <- <-.
    rewrite (ms_ids _ _ _ _ _ _ _ _ _ M). exact IH.
  - destruct (reachable_RepL g Hr) as [a HR]. destruct (reachable_RepL other Hro) as [ao HRo].
    destruct (merge_RepL vadd vsub cfg g other a ao HR HRo Hm) as (g1 & a' & E & _ & M). rewrite E in Hs. injection Hs as <- <-.
    assert (H : g_layer_ids (other_read cfg g other) = g_layer_ids other); [|rewrite H; exact IH].
    unfold other_read. generalize (map_to_list (g_layers other)). intros xs. clear. revert other. induction xs as [|x r IH]; intros o; cbn [fold_left]; [reflexivity|].
    rewrite IH. unfold read_layer. destruct (decide _); reflexivity.
Qed.
Lemma RepL_ids_known g a : RepL g a -> UNKNOWN_LAYER ∉ g_layer_ids g.
Proof.
  intros [HR HI] Hu. assert (Hin : UNKNOWN_LAYER ∈ ag_layers a) by (rewrite HI; apply elem_of_list_to_set, Hu).
  apply (rp_layers _ _ HR) in Hin as [L HL].
  destruct (rp_part _ _ HR (key_static UNKNOWN_LAYER) L) as (_ & _ & H); [auto|exact HL|]. apply H. reflexivity.
Qed.

(** Facts about one node of the source. *)
Lemma node_facts g a x k : Rep g a -> g_lookup g !! x = Some k ->
  exists n an, g_node_ptr g x k = Ok (Some n) /\ n_id n = x /\ n_layer n = lk_layer k /\
    ag_nodes a !! x = Some an /\ an_key an = k /\ an_time an = n_time n /\ an_attrs an = n_attrs n /\
    (lk_dynamic k = false -> lk_layer k ∈ ag_layers a /\ k = key_static (lk_layer k)) /\
    (lk_dynamic k = true -> k = key_dynamic (lk_layer k) (prefix_from_id x) /\ x < two64 /\
       dyn_ok (lk_layer k) (prefix_from_id x) /\ exists t, n_time n = Some t).
Proof.
  intros HR Hx. destruct (Rep_home _ _ _ _ HR Hx) as (Hk & Hu & L & n & HL & Hn & Hwf & Hid & Hok).
  destruct (Rep_node_ptr _ _ _ _ HR Hx) as (L' & n' & HL' & Hn' & Hp & _). assert (L' = L) as -> by congruence. assert (n' = n) as -> by congruence.
  destruct (no_abs _ _ _ _ _ Hok) as (an & Han & H1 & H2 & H3). destruct (slw_node _ Hwf _ _ Hn) as [Hi Hl].
  exists n, an. split; [exact Hp|]. split; [exact Hi|]. split; [congruence|]. split; [exact Han|]. split; [exact H1|]. split; [exact H2|]. split; [exact H3|].
  split; intros Hd.
  - split; [|destruct k; unfold canon in Hk; cbn in *; subst; rewrite Hk by reflexivity; reflexivity].
    apply (rp_layers _ _ HR). unfold g_part in HL. rewrite Hd in HL. eauto.
  - unfold g_part in HL. rewrite Hd in HL. destruct (g_dlayer g _ _) as [d|] eqn:Ed; [|discriminate]. injection HL as <-.
    destruct (rp_dinv _ _ HR _ _ _ Ed) as (Hc & Hdi & Hdp & Hsub).
    destruct (dl_nmap_slot d x n Hc Hn) as (Hslot & Hpx & Hlt). destruct (dlc_node _ Hc _ _ Hslot) as (_ & _ & Ht).
    split; [rewrite Hpx, Hdp; destruct k; cbn in *; subst; reflexivity|]. split; [exact Hlt|]. split; [|exact Ht].
    split; [exact Hu|]. rewrite Hpx. split; [apply Hc|]. congruence.
Qed.

(** Times are unique in a dynamic layer of the source. *)
Lemma time_unique g a x y k nx ny t : Rep g a -> lk_dynamic k = true ->
  ag_nodes a !! x = Some nx -> ag_nodes a !! y = Some ny -> an_key nx = k -> an_key ny = k -> an_time nx = Some t -> an_time ny = Some t -> x = y.
Proof.
  intros HR Hd Hx Hy Kx Ky Tx Ty.
  assert (Lx : g_lookup g !! x = Some k) by (rewrite (rp_lookup _ _ HR); unfold a_key; rewrite Hx; cbn; congruence).
  assert (Ly : g_lookup g !! y = Some k) by (rewrite (rp_lookup _ _ HR); unfold a_key; rewrite Hy; cbn; congruence).
  destruct (Rep_home _ _ _ _ HR Lx) as (_ & _ & L & n & HL & Hn & _ & _ & Hok).
  destruct (Rep_home _ _ _ _ HR Ly) as (_ & _ & L' & m & HL' & Hm & _ & _ & Hok'). assert (L' = L) as -> by congruence.
  destruct (no_abs _ _ _ _ _ Hok) as (? & E1 & _ & E2 & _). destruct (no_abs _ _ _ _ _ Hok') as (? & E3 & _ & E4 & _).
  unfold g_part in HL. rewrite Hd in HL. destruct (g_dlayer g _ _) as [d|] eqn:Ed; [|discriminate]. injection HL as <-.
  destruct (rp_dinv _ _ HR _ _ _ Ed) as (Hc & _).
  apply (dl_nmap_Some d x n Hc) in Hn as (i & Hi & ->). apply (dl_nmap_Some d y m Hc) in Hm as (j & Hj & ->).
  assert (i = j) as ->; [|reflexivity]. eapply (dlc_times_inj _ Hc); eauto; congruence.
Qed.

(** The node loop. *)
Definition clone_node (g c : Graph) (x : N * LayerKey) : result Graph :=
  let! o := g_node_ptr g (fst x) (snd x) in
  let! n := deref o in
  if lk_dynamic (snd x) then
    let! t := at_ (n_time n) in
    let! (_, c') := g_emplace_prev c (n_layer n) (n_id n) t (n_attrs n) in Ok c'
  else Ok (snd (g_emplace_node c (n_layer n) (n_id n) (n_attrs n))).

Definition part_copy (a : AGraph) (xs : list N) (b : AGraph) : Prop :=
  (forall x, ag_nodes b !! x = if decide (x ∈ xs) then strip <$> ag_nodes a !! x else None) /\ ag_edges b = ∅ /\ ag_layers b = ag_layers a.

Lemma clone_nodes g a l : RepL g a -> (forall x k, (x, k) ∈ l -> g_lookup g !! x = Some k) ->
  forall done c b, NoDup (done ++ l.*1) -> CInv c b -> part_copy a done b -> g_layer_ids c = g_layer_ids g ->
  exists c' b', rfold (clone_node g) l c = Ok c' /\ CInv c' b' /\ part_copy a (done ++ l.*1) b' /\ g_layer_ids c' = g_layer_ids g.
Proof.
  intros [HR HI] Hl. induction l as [|[x k] r IH]; intros done c b Hnd HC HP Hids.
  - exists c, b. cbn. rewrite app_nil_r. auto.
  - cbn [rfold]. assert (Hx : g_lookup g !! x = Some k) by (apply Hl; left).
    destruct (node_facts g a x k HR Hx) as (n & an & Hp & Hid & Hly & Han & Hak & Hat & Haa & Hst & Hdy).
    assert (Hxd : x ∉ done).
    { intros H. apply NoDup_app in Hnd as (_ & Hnd & _). apply (Hnd x H). cbn. left. }
    destruct HP as (HP1 & HP2 & HP3).
    assert (Hnew : ag_nodes b !! x = None) by (rewrite HP1, decide_False by assumption; reflexivity).
    assert (Hnk : ~ a_known b x) by (intros [? H]; congruence).
    assert (Hgo : exists c1 b1, clone_node g c (x, k) = Ok c1 /\ CInv c1 b1 /\ g_layer_ids c1 = g_layer_ids c /\
      ag_nodes b1 = <[x := strip an]> (ag_nodes b) /\ ag_edges b1 = ag_edges b /\ ag_layers b1 = ag_layers b).
    { unfold clone_node. cbn [fst snd]. rewrite Hp. cbn [rbind deref]. destruct (lk_dynamic k) eqn:Ed.
      - destruct (Hdy eq_refl) as (Hkk & Hlt & Hdo & t & Ht). rewrite Ht. cbn [at_ rbind].
        assert (Ha : allowed c (GEmplacePrev (n_layer n) (n_id n) t (n_attrs n))).
        { cbn. right. rewrite Hid, Hly. split; [exact Hlt|]. split; [exact Hdo|].
          intros y at0 Hy. destruct HC as [[HRc _] _]. rewrite (obs_data c b HRc), HP1 in Hy.
          destruct (decide (y ∈ done)) as [Hyd|]; [|discriminate]. destruct (ag_nodes a !! y) as [ny|] eqn:Ey; [|discriminate].
          cbn in Hy. unfold an_data, strip in Hy. cbn in Hy. injection Hy as Hy1 Hy2 _. rewrite <- Hkk in Hy1.
          rewrite Hy1, Ed in Hy2. assert (y = x); [|congruence].
          eapply (time_unique g a y x k ny an t HR Ed); eauto. congruence. }
        pose proof (CInv_step c b _ HC Ha) as Hs. cbn [g_step a_step] in Hs.
        destruct (g_emplace_prev c (n_layer n) (n_id n) t (n_attrs n)) as [[r0 c1]| |]; [|cbn in Hs; discriminate|contradiction].
        destruct Hs as (_ & HC1 & Hi1). cbn [rbind]. exists c1, (snd (ab (a_emplace_prev b (n_layer n) (n_id n) t (n_attrs n)))).
        split; [reflexivity|]. split; [exact HC1|]. split; [exact Hi1|]. clear HC1. cbn [ab snd]. unfold a_emplace_prev. rewrite Hid.
        rewrite decide_False by assumption. destruct (default _ _) as [nx sl]. cbn.
        assert (Hcd : forall l0 p0, ag_nodes (snd (a_create_dyn b l0 p0)) = ag_nodes b /\ ag_edges (snd (a_create_dyn b l0 p0)) = ag_edges b /\ ag_layers (snd (a_create_dyn b l0 p0)) = ag_layers b).
        { intros l0 p0. unfold a_create_dyn. destruct (ag_dyn b !! (l0, p0)); auto. }
        destruct (Hcd (n_layer n) (prefix_from_id x)) as (-> & -> & ->). split; [|auto]. f_equal.
        unfold strip. rewrite Hak, Ed, Hat, Haa, Ht. rewrite Hly, <- Hkk. reflexivity.
      - destruct (Hst eq_refl) as (Hin & Hkk).
        pose proof (CInv_step c b (GEmplace (n_layer n) (n_id n) (n_attrs n)) HC I) as Hs. cbn [g_step a_step] in Hs.
        destruct (g_emplace_node c (n_layer n) (n_id n) (n_attrs n)) as [r0 c1]. destruct Hs as (_ & HC1 & Hi1). cbn [snd].
        exists c1, (snd (ab (a_emplace b (n_layer n) (n_id n) None (n_attrs n)))).
        split; [reflexivity|]. split; [exact HC1|]. split; [exact Hi1|]. clear HC1. cbn [ab snd]. unfold a_emplace. rewrite Hid.
        rewrite decide_False by assumption. rewrite decide_True by (rewrite HP3, Hly; exact Hin). cbn. split; [|auto]. f_equal.
        unfold strip. rewrite Hak, Ed, Haa. rewrite Hly, <- Hkk. reflexivity. }
    destruct Hgo as (c1 & b1 & -> & HC1 & Hi1 & Hn1 & He1 & Hl1). cbn [rbind].
    destruct (IH (fun y ky Hy => Hl y ky (elem_of_list_further _ _ _ Hy)) (done ++ [x]) c1 b1) as (c' & b' & H1 & H2 & H3 & H4).
    + rewrite <- app_assoc. exact Hnd.
    + exact HC1.
    + split; [|split; congruence]. intros y. rewrite Hn1. destruct (decide (y = x)) as [->|Hne].
      * rewrite lookup_insert, decide_True by (apply elem_of_app; right; left). rewrite Han. reflexivity.
      * rewrite lookup_insert_ne by congruence. rewrite HP1. destruct (decide (y ∈ done)) as [Hd|Hd].
        { rewrite decide_True by (apply elem_of_app; auto). reflexivity. }
        rewrite decide_False; [reflexivity|]. rewrite elem_of_app, elem_of_list_singleton. tauto.
    + congruence.
    + exists c', b'. split; [exact H1|]. split; [exact H2|]. split; [|exact H4]. rewrite <- app_assoc in H3. exact H3.
Qed.

(** The edge loops. *)
Lemma cont_edge_val g a c e k x : Rep g a -> g_cont g c = Some e -> ec_edges e !! k = Some x -> ag_edges a !! k = Some x.
Proof.
  intros HR Hc Hx.
  assert (Hpart : forall kk L, canon kk -> g_part g kk = Some L -> sl_edges L = e -> ag_edges a !! k = Some x).
  { intros kk L Hk HL <-. destruct (rp_part _ _ HR kk L Hk HL) as (Hwf & _ & _).
    pose proof (ecw_key _ (slw_ec _ Hwf) _ _ Hx) as Hn.
    destruct (slw_ends _ Hwf _ _ Hx) as (_ & [n1 H1] & [n2 H2]).
    assert (L1 : g_lookup g !! e_src x = Some kk) by (apply (rp_home _ _ HR _ _ Hk); eauto).
    assert (L2 : g_lookup g !! e_tgt x = Some kk) by (apply (rp_home _ _ HR _ _ Hk); eauto).
    rewrite Hn, (Rep_part_edge g a kk L _ _ HR Hk HL L1 L2), <- Hn. exact Hx. }
  assert (Hinter : forall dyn, e = g_ec g dyn -> ag_edges a !! k = Some x).
  { intros dyn ->. pose proof (ecw_key _ (rp_ec _ _ HR dyn) _ _ Hx) as Hn.
    destruct (rp_inter _ _ HR _ _ _ Hx) as (ku & kv & H1 & H2 & Hne & Hd).
    rewrite Hn, (Rep_pair_edge g a _ _ _ _ HR H1 H2 Hne), Hd, <- Hn. exact Hx. }
  destruct c as [l|l p| |]; cbn in Hc.
  - destruct (g_layers g !! l) as [s|] eqn:E; [|discriminate]. injection Hc as <-.
    apply (Hpart (key_static l) s); [auto|exact E|reflexivity].
  - destruct (g_dlayer g l p) as [d|] eqn:E; [|discriminate]. injection Hc as <-.
    apply (Hpart (key_dynamic l p) (dl_view d)); [auto| |reflexivity]. unfold g_part. cbn. rewrite E. reflexivity.
  - injection Hc as <-. apply (Hinter false); reflexivity.
  - injection Hc as <-. apply (Hinter true); reflexivity.
Qed.

Definition edges_copy (a : AGraph) (D : EdgeKey -> Prop) (b : AGraph) : Prop :=
  (forall x, ag_nodes b !! x = strip <$> ag_nodes a !! x) /\ ag_layers b = ag_layers a /\
  (forall k, (D k -> ag_edges b !! k = ag_edges a !! k) /\ (ag_edges b !! k = None \/ ag_edges b !! k = ag_edges a !! k)).

Lemma clone_edges g a es : Rep g a -> (forall k e, (k, e) ∈ es -> ag_edges a !! k = Some e) ->
  forall (D : EdgeKey -> Prop) c b, CInv c b -> edges_copy a D b ->
  exists c' b', g_insert_all c es = Ok c' /\ CInv c' b' /\ edges_copy a (fun k => D k \/ k ∈ es.*1) b' /\ g_layer_ids c' = g_layer_ids c.
Proof.
  intros HR Hes. unfold g_insert_all. induction es as [|[k e] r IH]; intros D c b HC HE.
  - exists c, b. cbn. split; [reflexivity|]. split; [exact HC|]. split; [|reflexivity]. destruct HE as (H1 & H2 & H3). split; [exact H1|]. split; [exact H2|].
    intros k. split; [|apply H3]. intros [H|H]; [apply H3, H|inversion H].
  - cbn [rfold fst snd]. assert (Hk : ag_edges a !! k = Some e) by (apply Hes; left).
    destruct (rp_norm _ _ HR _ _ Hk) as [Hn Hne].
    assert (Hlk : a_linked a (e_src e) (e_tgt e)) by (unfold a_linked; rewrite <- Hn; eauto).
    destruct (Rep_linked_known _ _ _ _ HR Hlk) as (_ & ku & kv & Hu & Hv).
    destruct HE as (H1 & H2 & H3).
    assert (Hkn : forall x kx, g_lookup g !! x = Some kx -> a_known b x).
    { intros x kx Hx. unfold a_known. rewrite H1. rewrite (rp_lookup _ _ HR) in Hx. unfold a_key in Hx. destruct (ag_nodes a !! x); [cbn; eauto|discriminate]. }
    pose proof (CInv_step c b (GInsertEdge (e_src e) (e_tgt e) (Some (e_info e))) HC I) as Hs. cbn [g_step a_step] in Hs.
    destruct (g_insert_edge c (e_src e) (e_tgt e) (Some (e_info e))) as [[r0 c1]| |]; [|cbn in Hs; discriminate|contradiction].
    destruct Hs as (_ & HC1 & Hi1). cbn [rbind]. set (b1 := snd (ab _)) in HC1.
    destruct (IH (fun k' e' H => Hes k' e' (elem_of_list_further _ _ _ H)) (fun k' => D k' \/ k' = k) c1 b1 HC1) as (c' & b' & G1 & G2 & G3 & G4).
    + unfold b1, a_insert_edge. cbn [ab snd]. destruct (decide _) as [Hd|Hd]; cbn [snd].
      * unfold a_add_edge, a_with_edges; cbn [ag_nodes ag_layers ag_edges default from_option]. split; [exact H1|]. split; [exact H2|]. unfold edges_copy; cbn [ag_edges]. rewrite <- Hn.
        enough (HH : forall k', (D k' \/ k' = k -> (<[k := e]> (ag_edges b) : gmap EdgeKey Edge) !! k' = ag_edges a !! k') /\ ((<[k := e]> (ag_edges b) : gmap EdgeKey Edge) !! k' = None \/ (<[k := e]> (ag_edges b) : gmap EdgeKey Edge) !! k' = ag_edges a !! k')) by (clear -HH; destruct e; exact HH).
        intros k'. destruct (decide (k' = k)) as [->|Hk'].
        { rewrite lookup_insert. split; [congruence|right; congruence]. }
        rewrite lookup_insert_ne by congruence. split; [|apply H3]. intros [H|H]; [apply H3, H|contradiction].
      * split; [exact H1|]. split; [exact H2|]. intros k'. split; [|apply H3]. intros [H| ->]; [apply H3, H|].
        destruct (proj2 (H3 k)) as [H|H]; [|exact H]. exfalso. apply Hd. split; [exact Hne|]. split; [eapply Hkn, Hu|]. split; [eapply Hkn, Hv|].
        unfold a_linked. rewrite <- Hn, H. intros [? ?]; discriminate.
    + exists c', b'. split; [exact G1|]. split; [exact G2|]. split; [|congruence]. destruct G3 as (F1 & F2 & F3). split; [exact F1|]. split; [exact F2|].
      intros k'. split; [|apply F3]. intros H. apply F3. cbn in H. rewrite elem_of_cons in H. tauto.
Qed.

Lemma clone_edges2 {X} (f : X -> list (EdgeKey * Edge)) g a xs : Rep g a -> (forall x k e, x ∈ xs -> (k, e) ∈ f x -> ag_edges a !! k = Some e) ->
  forall (D : EdgeKey -> Prop) c b, CInv c b -> edges_copy a D b ->
  exists c' b', rfold (fun c x => g_insert_all c (f x)) xs c = Ok c' /\ CInv c' b' /\
    edges_copy a (fun k => D k \/ exists x e, x ∈ xs /\ (k, e) ∈ f x) b' /\ g_layer_ids c' = g_layer_ids c.
Proof.
  intros HR. induction xs as [|x r IH]; intros Hes D c b HC HE.
  - exists c, b. cbn. split; [reflexivity|]. split; [exact HC|]. split; [|reflexivity]. destruct HE as (H1 & H2 & H3). split; [exact H1|]. split; [exact H2|].
    intros k. split; [|apply H3]. intros [H|(x & e & H & _)]; [apply H3, H|inversion H].
  - cbn [rfold]. destruct (clone_edges g a (f x) HR (fun k e H => Hes x k e (elem_of_list_here _ _) H) D c b HC HE) as (c1 & b1 & -> & HC1 & HE1 & Hi1).
    cbn [rbind]. destruct (IH (fun y k e Hy H => Hes y k e (elem_of_list_further _ _ _ Hy) H) _ c1 b1 HC1 HE1) as (c' & b' & G1 & G2 & G3 & G4).
    exists c', b'. split; [exact G1|]. split; [exact G2|]. split; [|congruence]. destruct G3 as (F1 & F2 & F3). split; [exact F1|]. split; [exact F2|].
    intros k'. split; [|apply F3]. intros H. apply F3. destruct H as [H|(y & e & Hy & He)]; [auto|]. apply elem_of_cons in Hy as [->|Hy]; [|eauto 6].
    left. right. apply elem_of_list_fmap. exists (k', e). auto.
Qed.

(** The abstract graph of the clone. *)
Definition copied (a b : AGraph) : Prop :=
  (forall x, ag_nodes b !! x = strip <$> ag_nodes a !! x) /\ ag_layers b = ag_layers a /\ ag_edges b = ag_edges a.

Theorem clone_ok g a : RepL g a -> reachable g ->
  exists c b, g_clone g = Ok c /\ CInv c b /\ copied a b /\ g_layer_ids c = g_layer_ids g /\ g_mesh c = g_mesh g.
Proof.
  intros HRL Hr. pose proof HRL as [HR HI]. unfold g_clone.
  assert (Hnew : exists c0, g_new (g_layer_ids g) = Ok c0 /\ g_layer_ids c0 = g_layer_ids g).
  { pose proof (reachable_ids g Hr) as Hne. destruct (g_layer_ids g) eqn:E; [contradiction|]. eexists. split; reflexivity. }
  destruct Hnew as (c0 & Hc0 & Hi0). rewrite Hc0. cbn [rbind].
  pose proof (RepL_ids_known g a HRL) as Hu.
  assert (HC0 : CInv c0 (a_init (g_layer_ids g))) by (split; [apply new_RepL; assumption|econstructor; eassumption]).
  destruct (clone_nodes g a (map_to_list (g_lookup g)) HRL) with (done := @nil N) (c := c0) (b := a_init (g_layer_ids g)) as (c1 & b1 & E1 & HC1 & HP1 & Hi1).
  - intros x k Hx. apply elem_of_map_to_list in Hx. exact Hx.
  - apply NoDup_fst_map_to_list.
  - exact HC0.
  - split; [|split; [reflexivity|symmetry; exact HI]]. intros x. rewrite decide_False by (intros H; inversion H). cbn. apply lookup_empty.
  - exact Hi0.
  - unfold clone_node in E1. rewrite E1. clear E1. cbn [rbind].
    assert (HE1 : edges_copy a (fun _ => False) b1).
    { destruct HP1 as (P1 & P2 & P3). split; [|split; [exact P3|]].
      - intros x. rewrite P1. destruct (decide _) as [|Hx]; [reflexivity|].
        destruct (ag_nodes a !! x) as [nx|] eqn:Ex; [|reflexivity]. exfalso. apply Hx. cbn.
        assert (Hk : g_lookup g !! x = Some (an_key nx)) by (rewrite (rp_lookup _ _ HR); unfold a_key; rewrite Ex; reflexivity).
        apply elem_of_list_fmap. exists (x, an_key nx). split; [reflexivity|]. apply elem_of_map_to_list, Hk.
      - intros k. rewrite P2, lookup_empty. tauto. }
    destruct (clone_edges2 (fun x : LayerId * SLayer => map_to_list (ec_edges (sl_edges (snd x)))) g a (map_to_list (g_layers g)) HR) with (D := fun _ : EdgeKey => False) (c := c1) (b := b1) as (c2 & b2 & -> & HC2 & HE2 & Hi2).
    { intros [l s] k e Hx He. apply elem_of_map_to_list in Hx, He. apply (cont_edge_val g a (CSt l) (sl_edges s)); [exact HR|cbn; rewrite Hx; reflexivity|exact He]. }
    { exact HC1. }
    { exact HE1. }
    cbn [rbind].
    destruct (clone_edges2 (fun d : DLayer => map_to_list (ec_edges (dl_edges d))) g a (g_all_dlayers g) HR) with (D := fun k : EdgeKey => False \/ exists (x : LayerId * SLayer) e, x ∈ map_to_list (g_layers g) /\ (k, e) ∈ map_to_list (ec_edges (sl_edges (snd x)))) (c := c2) (b := b2) as (c3 & b3 & -> & HC3 & HE3 & Hi3).
    { intros d k e Hx He. apply elem_of_map_to_list in He. unfold g_all_dlayers in Hx. apply elem_of_list_In, in_concat in Hx as (y & Hy & Hd).
      apply in_map_iff in Hy as ([l m] & <- & Hm). apply in_map_iff in Hd as ([p d'] & <- & Hd). apply elem_of_list_In, elem_of_map_to_list in Hm, Hd.
      apply (cont_edge_val g a (CDy l p) (dl_edges d')); [exact HR| |exact He]. cbn. unfold g_dlayer. rewrite Hm. cbn in Hd. rewrite Hd. reflexivity. }
    { exact HC2. }
    { exact HE2. }
    cbn [rbind].
    destruct (clone_edges g a (map_to_list (ec_edges (g_inter g))) HR) with (2 := HC3) (3 := HE3) as (c4 & b4 & -> & HC4 & HE4 & Hi4).
    { intros k e He. apply elem_of_map_to_list in He. apply (cont_edge_val g a CIn (g_inter g)); [exact HR|reflexivity|exact He]. }
    cbn [rbind].
    destruct (clone_edges g a (map_to_list (ec_edges (g_dinter g))) HR) with (2 := HC4) (3 := HE4) as (c5 & b5 & -> & HC5 & HE5 & Hi5).
    { intros k e He. apply elem_of_map_to_list in He. apply (cont_edge_val g a CDin (g_dinter g)); [exact HR|reflexivity|exact He]. }
    cbn [rbind].
    pose proof (CInv_step c5 b5 (GSetMesh (g_mesh g)) HC5 I) as Hs. cbn in Hs. destruct Hs as (_ & HC6 & Hi6).
    exists (g_with_mesh c5 (g_mesh g)), b5. split; [reflexivity|]. split; [exact HC6|]. split; [|split; [cbn; congruence|reflexivity]].
    destruct HE5 as (F1 & F2 & F3). split; [exact F1|]. split; [exact F2|]. apply map_eq. intros k.
    destruct (ag_edges a !! k) as [e|] eqn:Ek.
    + assert (HD : exists u v, k = edge_key u v /\ a_linked a u v).
      { destruct (rp_norm _ _ HR _ _ Ek) as [Hk _]. exists (e_src e), (e_tgt e). split; [exact Hk|]. unfold a_linked. rewrite <- Hk. eauto. }
      destruct HD as (u & v & -> & Hlk). rewrite <- Ek. apply F3.
      destruct (cont_linked g a u v HR Hlk) as (cc & ec & _ & Hg & [x Hx]).
      assert (Hin : forall m : EC, ec_edges m !! edge_key u v = Some x -> edge_key u v ∈ (map_to_list (ec_edges m)).*1).
      { intros m Hm. apply elem_of_list_fmap. exists (edge_key u v, x). split; [reflexivity|]. apply elem_of_map_to_list, Hm. }
      destruct cc as [l|l p| |]; cbn in Hg.
      * destruct (g_layers g !! l) as [s|] eqn:El; [|discriminate]. injection Hg as <-. left. left. left. right.
        exists (l, s), x. split; [apply elem_of_map_to_list, El|apply elem_of_map_to_list, Hx].
      * destruct (g_dlayer g l p) as [d|] eqn:El; [|discriminate]. injection Hg as <-. left. left. right.
        exists d, x. split; [|apply elem_of_map_to_list, Hx]. unfold g_all_dlayers. unfold g_dlayer in El. destruct (g_dlayers g !! l) as [m|] eqn:Em; [|discriminate].
        apply elem_of_list_In, in_concat. exists (map snd (map_to_list m)). split.
        { apply in_map_iff. exists (l, m). split; [reflexivity|]. apply elem_of_list_In, elem_of_map_to_list, Em. }
        { apply in_map_iff. exists (p, d). split; [reflexivity|]. apply elem_of_list_In, elem_of_map_to_list, El. }
      * injection Hg as <-. left. right. apply Hin, Hx.
      * injection Hg as <-. right. apply Hin, Hx.
    + destruct (proj2 (F3 k)) as [H|H]; congruence.
Qed.

(** ** Later behaviour of the copy *)
Definition alike (a b : AGraph) : Prop :=
  (forall x, strip <$> ag_nodes a !! x = strip <$> ag_nodes b !! x) /\ ag_layers a = ag_layers b /\ ag_edges a = ag_edges b.

Lemma strip_strip n : strip (strip n) = strip n.
Proof. unfold strip. cbn. destruct (lk_dynamic (an_key n)); reflexivity. Qed.
Lemma copied_alike a b : copied a b -> alike a b.
Proof.
  intros (H1 & H2 & H3). split; [|split; congruence]. intros x. rewrite H1. destruct (ag_nodes a !! x); cbn; [rewrite strip_strip|]; reflexivity.
Qed.

Section Alike.
  Context (a b : AGraph) (HA : alike a b).
  Lemma al_key x : a_key a x = a_key b x.
  Proof using HA.
    destruct HA as (H & _). specialize (H x). unfold a_key. destruct (ag_nodes a !! x), (ag_nodes b !! x); cbn in *; try discriminate; [|reflexivity].
    injection H as H _ _. congruence.
  Qed.
  Lemma al_known x : a_known a x <-> a_known b x.
  Proof using HA. pose proof (al_key x) as H. unfold a_known, a_key in *. destruct (ag_nodes a !! x), (ag_nodes b !! x); cbn in H; try discriminate; split; eauto. Qed.
  Lemma al_linked u v : a_linked a u v <-> a_linked b u v.
  Proof using HA. unfold a_linked. destruct HA as (_ & _ & ->). reflexivity. Qed.
  Lemma al_time l p t : a_time_used a l p t <-> a_time_used b l p t.
  Proof using HA.
    assert (Hh : forall a b, (forall x, strip <$> ag_nodes a !! x = strip <$> ag_nodes b !! x) -> a_time_used a l p t -> a_time_used b l p t).
    { clear. intros a b H (x & n & Hn & Hk & Ht). specialize (H x). rewrite Hn in H. cbn in H. destruct (ag_nodes b !! x) as [m|] eqn:Em; [|discriminate].
      exists x, m. split; [exact Em|]. unfold strip in H. cbn in H. injection H as H1 H2 _. rewrite Hk in *. rewrite <- H1 in H2. cbn in H2. split; congruence. }
    destruct HA as (H & _). split; apply Hh; [exact H|]. intros x. symmetry. apply H.
  Qed.
  Lemma al_add_edge u v i : alike (a_add_edge a u v i) (a_add_edge b u v i).
  Proof using HA. destruct HA as (H1 & H2 & H3). split; [exact H1|]. split; [exact H2|]. unfold a_add_edge, a_with_edges. cbn [ag_edges]. rewrite H3. reflexivity. Qed.
  Lemma al_del_edge u v : alike (a_del_edge a u v) (a_del_edge b u v).
  Proof using HA. destruct HA as (H1 & H2 & H3). split; [exact H1|]. split; [exact H2|]. unfold a_del_edge, a_with_edges. cbn [ag_edges]. rewrite H3. reflexivity. Qed.
  Lemma al_add_node x n m : strip n = strip m -> alike (a_add_node a x n) (a_add_node b x m).
  Proof using HA.
    intros Hs. destruct HA as (H1 & H2 & H3). split; [|split; [exact H2|exact H3]]. intros y. cbn. destruct (decide (y = x)) as [->|Hne].
    - rewrite !lookup_insert. cbn. congruence.
    - rewrite !lookup_insert_ne by congruence. apply H1.
  Qed.
  Lemma al_insert_edge u v i : fst (a_insert_edge a u v i) = fst (a_insert_edge b u v i) /\ alike (snd (a_insert_edge a u v i)) (snd (a_insert_edge b u v i)).
  Proof using HA.
    unfold a_insert_edge. destruct (decide (u <> v /\ a_known a u /\ a_known a v /\ ~ a_linked a u v)) as [H|H]; rewrite !al_known, al_linked in H.
    - rewrite decide_True by exact H. split; [reflexivity|apply al_add_edge].
    - rewrite decide_False by exact H. split; [reflexivity|exact HA].
  Qed.
  Lemma al_emplace l x t at_ : fst (a_emplace a l x t at_) = fst (a_emplace b l x t at_) /\ alike (snd (a_emplace a l x t at_)) (snd (a_emplace b l x t at_)).
  Proof using HA.
    unfold a_emplace. destruct (decide (a_known a x)) as [H|H]; rewrite al_known in H; [rewrite (decide_True (P := a_known b x)) by exact H; split; [reflexivity|exact HA]|].
    rewrite (decide_False (P := a_known b x)) by exact H. destruct HA as (_ & H2 & _). rewrite <- H2. destruct (decide _); [|split; [reflexivity|exact HA]].
    split; [reflexivity|]. apply al_add_node. reflexivity.
  Qed.
  Lemma al_create l p : alike a (snd (a_create_dyn b l p)).
  Proof using HA. unfold a_create_dyn. destruct (ag_dyn b !! (l, p)); [exact HA|]. exact HA. Qed.
  Lemma al_emplace_prev l x t at_ : fst (a_emplace_prev a l x t at_) = fst (a_emplace_prev b l x t at_) /\ alike (snd (a_emplace_prev a l x t at_)) (snd (a_emplace_prev b l x t at_)).
  Proof using HA.
    unfold a_emplace_prev. destruct (decide (a_known a x)) as [H|H]; rewrite al_known in H; [rewrite (decide_True (P := a_known b x)) by exact H; split; [reflexivity|exact HA]|].
    rewrite (decide_False (P := a_known b x)) by exact H. destruct (default _ _) as [n1 s1]. destruct (default _ _) as [n2 s2]. split; [reflexivity|].
    cbn [snd]. assert (Hc : forall a, ag_nodes (snd (a_create_dyn a l (prefix_from_id x))) = ag_nodes a /\ ag_edges (snd (a_create_dyn a l (prefix_from_id x))) = ag_edges a /\ ag_layers (snd (a_create_dyn a l (prefix_from_id x))) = ag_layers a).
    { intros a0. unfold a_create_dyn. destruct (ag_dyn a0 !! _); auto. }
    destruct (Hc a) as (A1 & A2 & A3), (Hc b) as (B1 & B2 & B3). destruct HA as (H1 & H2 & H3). split; [|cbn; split; congruence].
    intros y. cbn. rewrite A1, B1. destruct (decide (y = x)) as [->|Hne].
    - rewrite !lookup_insert. reflexivity.
    - rewrite !lookup_insert_ne by congruence. apply H1.
  Qed.
  Lemma al_set_node x at_ : fst (a_set_node_attrs a x at_) = fst (a_set_node_attrs b x at_) /\ alike (snd (a_set_node_attrs a x at_)) (snd (a_set_node_attrs b x at_)).
  Proof using HA.
    unfold a_set_node_attrs. pose proof (proj1 HA x) as H. destruct (ag_nodes a !! x) as [n|], (ag_nodes b !! x) as [m|]; cbn in H; try discriminate; [|split; [reflexivity|exact HA]].
    split; [reflexivity|]. apply al_add_node. unfold strip in *. cbn in *. injection H as H1 H2 _. congruence.
  Qed.
  Lemma al_set_edge u v i : fst (a_set_edge_attrs a u v i) = fst (a_set_edge_attrs b u v i) /\ alike (snd (a_set_edge_attrs a u v i)) (snd (a_set_edge_attrs b u v i)).
  Proof using HA.
    unfold a_set_edge_attrs. destruct (decide (a_known a u /\ a_known a v)) as [H|H]; rewrite !al_known in H.
    - rewrite decide_True by exact H. destruct HA as (H1 & H2 & H3). rewrite <- H3. destruct (ag_edges a !! edge_key u v) as [e|]; [|split; [reflexivity|exact HA]].
      split; [reflexivity|]. split; [exact H1|]. split; [exact H2|reflexivity].
    - rewrite decide_False by exact H. split; [reflexivity|exact HA].
  Qed.
  Lemma al_parent_edge c k : is_parent_edge a c k = is_parent_edge b c k.
  Proof using HA. unfold is_parent_edge. rewrite !al_key. reflexivity. Qed.
  Lemma al_without_parents c : edges_without_parents a c = edges_without_parents b c.
  Proof using HA.
    unfold edges_without_parents. destruct HA as (_ & _ & ->). apply map_filter_ext. intros k e _. cbn. rewrite al_parent_edge. reflexivity.
  Qed.
  Lemma al_chain n : alike (a_chain a n) (a_chain b n).
  Proof using HA.
    unfold a_chain. rewrite <- al_key. destruct (a_key a n) as [k|]; [|exact HA].
    destruct (decide _) as [H|H]; rewrite !al_key, !al_linked in H.
    - rewrite decide_True by exact H. apply al_insert_edge.
    - rewrite decide_False by exact H. exact HA.
  Qed.
End Alike.

Lemma alike_step a b o : alike a b -> clean a o -> ~ appends_slot o ->
  clean b o /\ fst (a_step a o) = fst (a_step b o) /\ alike (snd (a_step a o)) (snd (a_step b o)).
Proof.
  intros HA Hc Hn. pose proof (al_key a b HA) as Hk. pose proof (al_known a b HA) as Hkn. pose proof (al_linked a b HA) as Hl.
  assert (Hab : forall x y : bool * AGraph, fst x = fst y /\ alike (snd x) (snd y) -> fst (ab x) = fst (ab y) /\ alike (snd (ab x)) (snd (ab y))).
  { intros x y [H1 H2]. cbn. split; [congruence|exact H2]. }
  assert (Hpo : forall l id t, prev_ok a l id t -> prev_ok b l id t).
  { intros l id t [H|(H1 & H2 & H3)]; [left; apply Hkn, H|right]. split; [exact H1|]. split; [exact H2|]. rewrite <- (al_time a b HA). exact H3. }
  assert (Hcs : forall n, no_cross_sibling a n -> no_cross_sibling b n).
  { intros n H v k kv. rewrite <- Hl, <- !Hk. apply H. }
  destruct o; cbn [a_step] in *; cbn [appends_slot] in Hn; try tauto.
  - split; [exact I|]. apply Hab, al_emplace, HA.
  - split; [exact I|]. apply Hab, al_emplace, HA.
  - split; [apply Hpo, Hc|]. apply Hab, al_emplace_prev, HA.
  - split.
    { cbn in Hc |- *. destruct t; [apply Hpo, Hc|exact I]. }
    apply Hab. unfold a_add_or_update_node. destruct HA as (H1 & H2 & H3). rewrite <- H2. destruct (decide _); [|split; [reflexivity|split; auto]].
    destruct (decide (a_known a id)) as [Hx|Hx]; pose proof Hx as Hx'; rewrite Hkn in Hx'.
    + rewrite (decide_True (P := a_known b id)) by exact Hx'. apply al_set_node. split; auto.
    + rewrite (decide_False (P := a_known b id)) by exact Hx'. destruct t; [apply al_emplace_prev|apply al_emplace]; split; auto.
  - split; [exact I|]. apply Hab, al_set_node, HA.
  - split; [exact I|]. apply Hab, al_insert_edge, HA.
  - split; [cbn in *; intros ku kv; rewrite <- !Hk; apply Hc|]. apply Hab. unfold a_insert_parent_edge. rewrite <- !Hk.
    destruct (a_key a u) as [ku|]; [|split; [reflexivity|exact HA]]. destruct (a_key a v) as [kv|]; [|split; [reflexivity|exact HA]].
    destruct (decide (a_linked a u v)) as [H|H]; rewrite Hl in H.
    + rewrite decide_True by exact H. split; [reflexivity|exact HA].
    + rewrite decide_False by exact H. split; [reflexivity|]. cbn [snd]. apply al_add_edge.
      destruct HA as (H1 & H2 & H3). split; [exact H1|]. split; [exact H2|]. cbn. apply al_without_parents. split; auto.
  - split; [exact I|]. unfold a_add_or_update_edge. destruct (decide (a_linked a u v)) as [H|H]; rewrite Hl in H.
    + rewrite decide_True by exact H. apply al_set_edge, HA.
    + rewrite decide_False by exact H. pose proof (al_insert_edge a b HA u v (Some i)) as Hi.
      destruct (a_insert_edge a u v (Some i)), (a_insert_edge b u v (Some i)). cbn in *. destruct Hi. split; [congruence|assumption].
  - split; [exact I|]. apply al_set_edge, HA.
  - split; [exact I|]. apply Hab. unfold a_remove_edge. destruct (decide (a_linked a u v)) as [H|H]; rewrite Hl in H.
    + rewrite decide_True by exact H. split; [reflexivity|apply al_del_edge, HA].
    + rewrite decide_False by exact H. split; [reflexivity|exact HA].
  - split; [apply Hcs, Hc|]. apply Hab. unfold a_remove_node. destruct (decide (a_known a n)) as [H|H]; rewrite Hkn in H.
    + rewrite decide_True by exact H. split; [reflexivity|]. destruct (al_chain a b HA n) as (H1 & H2 & H3). split; [|cbn; split; congruence].
      intros y. cbn. destruct (decide (y = n)) as [->|Hne]; [rewrite !lookup_delete; reflexivity|]. rewrite !lookup_delete_ne by congruence. apply H1.
    + rewrite decide_False by exact H. split; [reflexivity|exact HA].
  - cbn in Hc. split.
    { destruct Hc as [Hc1 Hc2]. cbn. split; [apply Hcs, Hc1|]. intros k. rewrite <- !Hk. apply Hc2. }
    apply Hab. unfold a_merge_nodes. rewrite <- !Hk. destruct (a_key a from) as [kf|]; [|split; [reflexivity|exact HA]]. destruct (a_key a to) as [kt|]; [|split; [reflexivity|exact HA]].
    destruct (decide _); [|split; [reflexivity|exact HA]]. split; [reflexivity|]. destruct HA as (H1 & H2 & H3). split; [|cbn; split; congruence].
    intros y. cbn. destruct (decide (y = from)) as [->|Hne]; [rewrite !lookup_delete; reflexivity|]. rewrite !lookup_delete_ne by congruence. apply H1.
  - split; [exact I|]. destruct (decide (a_known a u /\ a_known a v)) as [H|H]; rewrite !Hkn in H.
    + rewrite decide_True by exact H. split; [|exact HA]. cbn. f_equal. apply bool_decide_ext, Hl.
    + rewrite decide_False by exact H. split; [reflexivity|exact HA].
  - split; [exact I|]. split; [reflexivity|]. destruct HA as (H1 & H2 & H3). split; [|cbn; auto]. intros x. cbn. rewrite !lookup_empty. reflexivity.
Qed.

Lemma alike_run os : forall a b, alike a b -> clean_run a os -> Forall (fun o => ~ appends_slot o) os ->
  clean_run b os /\ fst (a_run a os) = fst (a_run b os) /\ alike (snd (a_run a os)) (snd (a_run b os)).
Proof.
  induction os as [|o r IH]; intros a b HA Hc Hf; [cbn; auto|].
  destruct Hc as [Ho Hr]. inversion Hf as [|? ? Hf1 Hf2]; subst.
  destruct (alike_step a b o HA Ho Hf1) as (Hb & Hout & HA'). cbn [a_run clean_run].
  destruct (IH _ _ HA' Hr Hf2) as (R1 & R2 & R3).
  destruct (a_step a o) as [x a'], (a_step b o) as [y b']. cbn [fst snd] in *.
  destruct (a_run a' r) as [xs a''], (a_run b' r) as [ys b'']. cbn in *. split; [auto|]. split; [congruence|exact R3].
Qed.

Lemma allowed_run_clean os : forall g a, RepL g a -> allowed_run g os -> clean_run a os.
Proof.
  induction os as [|o r IH]; intros g a HR Ha; [exact I|]. destruct Ha as [Ha1 Ha2].
  pose proof (allowed_clean g a (proj1 HR) o Ha1) as Hc. cbn. split; [exact Hc|].
  pose proof (step_sim g a o HR Hc) as Hs. pose proof (step_RepL g a o HR Hc) as HL.
  destruct (g_step g o) as [[b g']| |]; cbn in *; [|destruct Hs as [_ ->]|contradiction]; eapply IH; eassumption.
Qed.

Lemma alike_obs g a c b : Rep g a -> Rep c b -> alike a b -> looks_like g c.
Proof.
  intros HR HC (H1 & H2 & H3). split; [|split].
  - intros x. rewrite (obs_data g a HR), (obs_data c b HC). specialize (H1 x).
    destruct (ag_nodes a !! x) as [n|], (ag_nodes b !! x) as [m|]; cbn in *; try discriminate; [|reflexivity].
    f_equal. unfold an_data, strip in *. cbn. injection H1 as E1 E2 E3. congruence.
  - intros u v. rewrite (obs_edge g a HR), (obs_edge c b HC), H3. reflexivity.
  - intros l. unfold g_has_layer. apply bool_decide_ext. rewrite (rp_layers _ _ HR), (rp_layers _ _ HC), H2. reflexivity.
Qed.

Theorem clone_behaves g os outs g' : reachable g -> allowed_run g os -> Forall (fun o => ~ appends_slot o) os ->
  g_run g os = Some (outs, g') ->
  exists c c', g_clone g = Ok c /\ reachable c /\ looks_like g c /\ g_mesh c = g_mesh g /\ g_layer_ids c = g_layer_ids g /\
    g_run c os = Some (outs, c') /\ looks_like g' c'.
Proof.
  intros Hr Ha Hf Hrun. destruct (reachable_RepL g Hr) as [a HR].
  destruct (clone_ok g a HR Hr) as (c & b & Hc & [HRc Hrc] & Hcp & Hid & Hm).
  pose proof (allowed_run_clean os g a HR Ha) as Hcl.
  destruct (alike_run os a b (copied_alike _ _ Hcp) Hcl Hf) as (Hclb & Hout & Hal).
  destruct (run_sim os g a HR Hcl) as (g1 & Hg1 & HR1). rewrite Hg1 in Hrun. injection Hrun as <- <-.
  destruct (run_sim os c b HRc Hclb) as (c1 & Hc1 & HRc1).
  exists c, c1. split; [exact Hc|]. split; [exact Hrc|]. split; [eapply alike_obs; [apply HR|apply HRc|apply copied_alike, Hcp]|].
  split; [exact Hm|]. split; [exact Hid|]. split; [rewrite Hc1, Hout; reflexivity|]. eapply alike_obs; [apply HR1|apply HRc1|exact Hal].
Qed.
