(** The effect of a file on a graph (Proof/GraphCodecP.v: [transfer]) on nodes and edges. *)
From Coq Require Import NArith ZArith Bool List Lia.
From stdpp Require Import base list gmap fin_maps tactics.
From Verif.Model Require Import Types Mesh Attrs Node EdgeContainer SLayer DLayer Graph Binary AttrCodec GraphCodec.
From Verif.Spec Require Import BinarySpec AttrSpec AbstractGraph GraphHistory GraphObs GraphFileSpec.
From Verif.Proof Require Import Arith Keys SLayerP SLayerMerge DLayerP DLayerOps GraphRep GraphEdges GraphAttrs GraphNodes GraphRemove GraphMerge GraphSim GraphObsP StaleP StaleP2 CloneP GraphMesh GraphCodecP.
Local Open Scope N_scope.
#[local] Arguments edge_key : simpl never.

(** ** What [transfer] enumerates *)
Definition keep_an (cv : N -> NodeAttrs -> NodeAttrs) (x : N) (n : ANode) : ANode := mkAN (an_key n) (an_time n) (cv x (an_attrs n)).
Definition cv_data (cv : N -> NodeAttrs -> NodeAttrs) (x : N) (d : LayerKey * option Z * NodeAttrs) : LayerKey * option Z * NodeAttrs :=
  let '(k, t, a) := d in (k, t, cv x a).

Definition node_of (h : Graph) (ah : AGraph) (n : Node) : Prop :=
  exists an, ag_nodes ah !! n_id n = Some an /\ an_time an = n_time n /\ an_attrs an = n_attrs n /\ lk_layer (an_key an) = n_layer n.

Lemma part_node h ah k L x n : Rep h ah -> canon k -> g_part h k = Some L -> sl_nodes L !! x = Some n ->
  n_id n = x /\ node_of h ah n /\ g_lookup h !! x = Some k.
Proof.
  intros HR Hk HL Hn. assert (Hx : g_lookup h !! x = Some k) by (apply (rp_home _ _ HR _ _ Hk); eauto).
  destruct (rp_part _ _ HR _ _ Hk HL) as (Hwf & Hid & _). destruct (slw_node _ Hwf _ _ Hn) as [Hi Hl].
  destruct (no_abs _ _ _ _ _ (rp_node _ _ HR _ _ _ _ Hk HL Hn)) as (an & Han & H1 & H2 & H3).
  split; [exact Hi|]. split; [|exact Hx]. exists an. rewrite Hi. split; [exact Han|]. split; [congruence|]. split; [congruence|]. congruence.
Qed.

Lemma static_nodes_in h n : n ∈ static_nodes h <-> exists l s x, g_layers h !! l = Some s /\ sl_nodes s !! x = Some n.
Proof.
  unfold static_nodes. rewrite elem_of_list_In, in_concat. split.
  - intros (y & Hy & Hn). apply in_map_iff in Hy as ([l s] & <- & Hl). apply in_map_iff in Hn as ([x n'] & <- & Hx).
    apply elem_of_list_In, elem_of_map_to_list in Hl, Hx. exists l, s, x. auto.
  - intros (l & s & x & Hl & Hx). eexists. split; [apply in_map_iff; exists (l, s); split; [reflexivity|]; apply elem_of_list_In, elem_of_map_to_list, Hl|].
    cbn. apply in_map_iff. exists (x, n). split; [reflexivity|]. apply elem_of_list_In, elem_of_map_to_list, Hx.
Qed.
Lemma all_dlayers_in h d : d ∈ g_all_dlayers h <-> exists l p, g_dlayer h l p = Some d.
Proof.
  unfold g_all_dlayers. rewrite elem_of_list_In, in_concat. unfold g_dlayer. split.
  - intros (y & Hy & Hd). apply in_map_iff in Hy as ([l m] & <- & Hm). apply in_map_iff in Hd as ([p d'] & <- & Hd).
    apply elem_of_list_In, elem_of_map_to_list in Hm, Hd. exists l, p. rewrite Hm. exact Hd.
  - intros (l & p & Hd). destruct (g_dlayers h !! l) as [m|] eqn:Em; [|discriminate].
    eexists. split; [apply in_map_iff; exists (l, m); split; [reflexivity|]; apply elem_of_list_In, elem_of_map_to_list, Em|].
    cbn. apply in_map_iff. exists (p, d). split; [reflexivity|]. apply elem_of_list_In, elem_of_map_to_list, Hd.
Qed.
Lemma dynamic_slots_in h o : o ∈ dynamic_slots h <-> exists l p d, g_dlayer h l p = Some d /\ o ∈ dl_nodes d.
Proof.
  unfold dynamic_slots. rewrite elem_of_list_In, in_concat. split.
  - intros (y & Hy & Ho). apply in_map_iff in Hy as (d & <- & Hd). apply elem_of_list_In, all_dlayers_in in Hd as (l & p & Hd).
    exists l, p, d. split; [exact Hd|]. apply elem_of_list_In, Ho.
  - intros (l & p & d & Hd & Ho). exists (dl_nodes d). split; [|apply elem_of_list_In, Ho].
    apply in_map_iff. exists d. split; [reflexivity|]. apply elem_of_list_In, all_dlayers_in. eauto.
Qed.
Lemma present_in {A} (l : list (option A)) a : a ∈ present l <-> Some a ∈ l.
Proof.
  unfold present. rewrite elem_of_list_omap. split.
  - intros (o & Ho & E). cbn in E. congruence.
  - intros H. exists (Some a). auto.
Qed.

Section Enumerate.
  Context (h : Graph) (ah : AGraph) (HR : Rep h ah).
  Lemma static_node_of n : n ∈ static_nodes h -> node_of h ah n /\ g_lookup h !! n_id n = Some (key_static (n_layer n)).
  Proof using HR.
    intros Hn. apply static_nodes_in in Hn as (l & s & x & Hl & Hx).
    destruct (part_node h ah (key_static l) s x n HR) as (Hi & Hn & Hk); [auto|exact Hl|exact Hx|].
    split; [exact Hn|]. rewrite Hi. destruct Hn as (an & Han & _ & _ & Hly). rewrite Hi in Han.
    rewrite (rp_lookup _ _ HR) in Hk. unfold a_key in Hk. rewrite Han in Hk. cbn in Hk. injection Hk as Hk. rewrite (rp_lookup _ _ HR). unfold a_key. rewrite Han. cbn.
    rewrite <- Hly, Hk. reflexivity.
  Qed.
  Lemma dynamic_node_of n : n ∈ present (dynamic_slots h) -> node_of h ah n /\
    g_lookup h !! n_id n = Some (key_dynamic (n_layer n) (prefix_from_id (n_id n))).
  Proof using HR.
    intros Hn. apply present_in, dynamic_slots_in in Hn as (l & p & d & Hd & Hn). apply elem_of_list_lookup in Hn as [i Hi].
    destruct (rp_dinv _ _ HR _ _ _ Hd) as (Hc & Hdi & Hdp & Hsub). destruct (dlc_node _ Hc _ _ Hi) as (Hid & Hly & _).
    destruct (part_node h ah (key_dynamic l p) (dl_view d) (n_id n) n HR) as (_ & Hn & Hk).
    - intros ?; discriminate.
    - unfold g_part. cbn. rewrite Hd. reflexivity.
    - cbn. apply (dl_nmap_Some d _ _ Hc). eauto.
    - split; [exact Hn|]. rewrite Hk. f_equal. rewrite Hly, Hdi. f_equal. rewrite Hid, make_id_from; [congruence|apply Hc|].
      eapply dl_index_lt; eassumption.
  Qed.
  Lemma enumerated x k : g_lookup h !! x = Some k -> exists n, n_id n = x /\
    (n ∈ static_nodes h \/ n ∈ present (dynamic_slots h)).
  Proof using HR.
    intros Hx. destruct (Rep_home _ _ _ _ HR Hx) as (Hk & _ & L & n & HL & Hn & Hwf & _ & _). destruct (slw_node _ Hwf _ _ Hn) as [Hi _].
    exists n. split; [exact Hi|]. unfold g_part in HL. destruct (lk_dynamic k).
    - right. destruct (g_dlayer h _ _) as [d|] eqn:Ed; [|discriminate]. injection HL as <-.
      destruct (rp_dinv _ _ HR _ _ _ Ed) as (Hc & _). cbn in Hn. apply (dl_nmap_Some d _ _ Hc) in Hn as (i & Hni & _).
      apply present_in, dynamic_slots_in. exists (lk_layer k), (lk_prefix k), d. split; [exact Ed|]. eapply elem_of_list_lookup_2, Hni.
    - left. apply static_nodes_in. eauto.
  Qed.
  Lemma all_edges_in e : e ∈ all_edges h <-> ag_edges ah !! edge_key (e_src e) (e_tgt e) = Some e.
  Proof using HR.
    assert (Hcont : e ∈ all_edges h <-> exists c ec k, g_cont h c = Some ec /\ ec_edges ec !! k = Some e).
    { assert (Hec : forall m : EC, In e (map snd (map_to_list (ec_edges m))) <-> exists k, ec_edges m !! k = Some e).
      { intros m. rewrite in_map_iff. split.
        - intros ([k e'] & <- & Hk). apply elem_of_list_In, elem_of_map_to_list in Hk. eauto.
        - intros [k Hk]. exists (k, e). split; [reflexivity|]. apply elem_of_list_In, elem_of_map_to_list, Hk. }
      unfold all_edges. rewrite !elem_of_app, !elem_of_list_In, !in_concat. split.
      - intros [(y & Hy & He)|[(y & Hy & He)|[He|He]]].
        + apply in_map_iff in Hy as ([l s] & <- & Hl). apply elem_of_list_In, elem_of_map_to_list in Hl. apply Hec in He as [k Hk].
          exists (CSt l), (sl_edges s), k. cbn. rewrite Hl. auto.
        + apply in_map_iff in Hy as (d & <- & Hd). apply elem_of_list_In, all_dlayers_in in Hd as (l & p & Hd). apply Hec in He as [k Hk].
          exists (CDy l p), (dl_edges d), k. cbn. rewrite Hd. auto.
        + apply Hec in He as [k Hk]. exists CIn, (g_inter h), k. auto.
        + apply Hec in He as [k Hk]. exists CDin, (g_dinter h), k. auto.
      - intros (c & ec & k & Hc & Hk). destruct c as [l|l p| |]; cbn in Hc.
        + destruct (g_layers h !! l) as [s|] eqn:El; [|discriminate]. injection Hc as <-. left. eexists. split; [|apply Hec; eauto].
          apply in_map_iff. exists (l, s). split; [reflexivity|]. apply elem_of_list_In, elem_of_map_to_list, El.
        + destruct (g_dlayer h l p) as [d|] eqn:El; [|discriminate]. injection Hc as <-. right. left. eexists. split; [|apply Hec; eauto].
          apply in_map_iff. exists d. split; [reflexivity|]. apply elem_of_list_In, all_dlayers_in. eauto.
        + injection Hc as <-. right. right. left. apply Hec. eauto.
        + injection Hc as <-. right. right. right. apply Hec. eauto. }
    rewrite Hcont. split.
    - intros (c & ec & k & Hc & Hk). pose proof (cont_edge_val h ah c ec k e HR Hc Hk) as He.
      destruct (rp_norm _ _ HR _ _ He) as [<- _]. exact He.
    - intros He. assert (Hl : a_linked ah (e_src e) (e_tgt e)) by (unfold a_linked; eauto).
      destruct (cont_linked h ah _ _ HR Hl) as (c & ec & _ & Hg & [x Hx]). exists c, ec, (edge_key (e_src e) (e_tgt e)). split; [exact Hg|].
      pose proof (cont_edge_val h ah c ec _ _ HR Hg Hx) as Hv. congruence.
  Qed.
End Enumerate.

(* ---------------------------------------------------------------- *)
(** ** The node phase *)
Definition source_node (ids : list LayerId) (ah : AGraph) (n : Node) : Prop :=
  exists k, ag_nodes ah !! n_id n = Some (mkAN k (n_time n) (n_attrs n)) /\ n_layer n ∈ ids /\
    match n_time n with
    | None => k = key_static (n_layer n)
    | Some _ => k = key_dynamic (n_layer n) (prefix_from_id (n_id n)) /\ n_id n < 2 ^ 64 /\ dyn_args (n_layer n) (prefix_from_id (n_id n))
    end.

Record fits_in (ah b0 : AGraph) : Prop := mkFitsIn {
  fi_place : forall x n m, ag_nodes ah !! x = Some n -> ag_nodes b0 !! x = Some m -> an_key n = an_key m /\ an_time n = an_time m;
  fi_time : forall x y n m, ag_nodes ah !! x = Some n -> ag_nodes b0 !! y = Some m -> lk_dynamic (an_key n) = true ->
    an_key m = an_key n -> an_time m = an_time n -> x = y }.

Definition nodes_done cv (ah b0 : AGraph) (D : gset N) (b : AGraph) : Prop :=
  (forall x, ag_nodes b !! x = if decide (x ∈ D) then keep_an cv x <$> ag_nodes ah !! x else ag_nodes b0 !! x) /\
  ag_edges b = ag_edges b0.

Lemma add_update_nodes b l x at_ t : l ∈ ag_layers b ->
  let b' := snd (a_add_or_update_node b l x at_ t) in
  ag_edges b' = ag_edges b /\ ag_layers b' = ag_layers b /\
  ag_nodes b' = <[x := match ag_nodes b !! x with
    | Some m => mkAN (an_key m) (an_time m) at_
    | None => mkAN (match t with Some _ => key_dynamic l (prefix_from_id x) | None => key_static l end) t at_ end]> (ag_nodes b).
Proof.
  intros Hl. unfold a_add_or_update_node. rewrite decide_True by exact Hl.
  destruct (ag_nodes b !! x) as [m|] eqn:E.
  - rewrite decide_True by (unfold a_known; eauto). unfold a_set_node_attrs. rewrite E. cbn. auto.
  - rewrite decide_False by (intros [? ?]; congruence). destruct t as [t|].
    + unfold a_emplace_prev. rewrite decide_False by (intros [? ?]; congruence). destruct (default _ _) as [nx sl]. cbn.
      unfold a_create_dyn. destruct (ag_dyn b !! _); cbn; auto.
    + unfold a_emplace. rewrite decide_False by (intros [? ?]; congruence). rewrite decide_True by exact Hl. cbn. auto.
Qed.

Lemma node_phase cv h ah b0 s0 l : Rep h ah -> fits_in ah b0 -> Forall (source_node (g_layer_ids h) ah) l ->
  forall D c b, CInv c b -> nodes_done cv ah b0 D b -> g_layer_ids c = g_layer_ids h -> (forall x, x ∈ D -> a_known ah x) ->
  exists c' b', rfold (nstep cv) l (c, s0 ∖ D) = Ok (c', s0 ∖ (D ∪ list_to_set (map n_id l))) /\ CInv c' b' /\
    nodes_done cv ah b0 (D ∪ list_to_set (map n_id l)) b' /\ g_layer_ids c' = g_layer_ids h /\ g_mesh c' = g_mesh c.
Proof.
  intros HR HF. induction l as [|n r IH]; intros HL D c b HC [HD1 HD2] Hids HDk.
  - cbn. exists c, b. rewrite union_empty_r_L. split; [reflexivity|]. split; [exact HC|]. split; [split; assumption|]. auto.
  - inversion HL as [|? ? (k & Hn & Hin & Hk) HL']; subst. cbn [rfold map list_to_set].
    set (x := n_id n) in *.
    assert (Hkn : forall m, ag_nodes b !! x = Some m -> an_key m = k /\ an_time m = n_time n).
    { intros m Hm. rewrite HD1 in Hm. destruct (decide (x ∈ D)).
      - rewrite Hn in Hm. cbn in Hm. injection Hm as <-. cbn. auto.
      - destruct (fi_place _ _ HF _ _ _ Hn Hm) as [E1 E2]. cbn in E1, E2. auto. }
    assert (Ha : allowed c (GAddOrUpdateNode (n_layer n) x (cv x (n_attrs n)) (n_time n))).
    { cbn. destruct (n_time n) as [t|] eqn:Et; [|exact I]. destruct Hk as (Hk & Hlt & Hda). destruct HC as [[HRc _] _].
      destruct (ag_nodes b !! x) as [m|] eqn:Ex; [left; apply (obs_known c b HRc); unfold a_known; eauto|right].
      split; [exact Hlt|]. split; [exact Hda|]. intros y at0 Hy. rewrite (obs_data c b HRc) in Hy.
      destruct (ag_nodes b !! y) as [my|] eqn:Ey; [|discriminate]. cbn in Hy. unfold an_data in Hy. injection Hy as Hy1 Hy2 _.
      assert (y = x); [|congruence]. pose proof Ey as Ey'. rewrite HD1 in Ey. destruct (decide (y ∈ D)).
      - destruct (ag_nodes ah !! y) as [ny|] eqn:Ehy; [|discriminate]. cbn in Ey. injection Ey as <-. cbn in Hy1, Hy2.
        eapply (time_unique h ah y x k ny _ t HR); try eassumption; [rewrite Hk; reflexivity|congruence|reflexivity|reflexivity].
      - symmetry. eapply (fi_time _ _ HF x y _ _ Hn Ey); cbn; [rewrite Hk; reflexivity|congruence|congruence]. }
    pose proof (CInv_step c b _ HC Ha) as Hs. pose proof (step_mesh c (GAddOrUpdateNode (n_layer n) x (cv x (n_attrs n)) (n_time n)) ltac:(discriminate) ltac:(discriminate)) as Hm.
    cbn [g_step a_step] in Hs, Hm.
    unfold nstep at 1. cbn [fst snd]. fold x.
    destruct (g_add_or_update_node c (n_layer n) x (cv x (n_attrs n)) (n_time n)) as [[r0 c1]| |]; [|cbn in Hs; discriminate|contradiction].
    destruct Hs as (_ & HC1 & Hi1). cbn [rbind]. unfold keepm in Hm. cbn in Hm.
    assert (Hlay : n_layer n ∈ ag_layers b).
    { destruct HC as [[_ HI] _]. rewrite HI, Hids. apply elem_of_list_to_set, Hin. }
    pose proof (add_update_nodes b (n_layer n) x (cv x (n_attrs n)) (n_time n) Hlay) as (E1 & E2 & E3).
    set (b1 := snd (a_add_or_update_node b (n_layer n) x (cv x (n_attrs n)) (n_time n))) in *. cbn [ab snd] in HC1.
    destruct (IH HL' (D ∪ {[x]}) c1 b1) as (c' & b' & G1 & G2 & G3 & G4 & G5).
    + exact HC1.
    + split; [|congruence]. intros y. rewrite E3. destruct (decide (y = x)) as [->|Hne].
      * rewrite lookup_insert. rewrite decide_True by set_solver. rewrite Hn. cbn. f_equal.
        destruct (ag_nodes b !! x) as [m|]; unfold keep_an; cbn.
        -- destruct (Hkn m eq_refl) as [-> ->]. reflexivity.
        -- f_equal. destruct (n_time n); [destruct Hk as [-> _]|]; auto.
      * rewrite lookup_insert_ne by congruence. rewrite HD1. destruct (decide (y ∈ D)) as [Hd|Hd].
        { rewrite decide_True by set_solver. reflexivity. }
        rewrite decide_False by set_solver. reflexivity.
    + congruence.
    + intros y Hy. apply elem_of_union in Hy as [Hy|Hy]; [auto|]. apply elem_of_singleton in Hy as ->. unfold a_known. eauto.
    + exists c', b'. replace (s0 ∖ D ∖ {[x]}) with (s0 ∖ (D ∪ {[x]})) by set_solver.
      replace (D ∪ ({[x]} ∪ list_to_set (map n_id r))) with (D ∪ {[x]} ∪ list_to_set (map n_id r)) by set_solver.
      split; [exact G1|]. split; [exact G2|]. split; [exact G3|]. split; [exact G4|]. congruence.
Qed.

(* ---------------------------------------------------------------- *)
(** ** The removal phase *)
Lemma a_chain_facts b n : ag_nodes (a_chain b n) = ag_nodes b /\ ag_layers (a_chain b n) = ag_layers b /\
  forall u v, a_linked (a_chain b n) u v -> a_linked b u v \/ a_key b u = a_key b v.
Proof.
  unfold a_chain. destruct (a_key b n) as [k|]; [|auto]. destruct (decide _) as [(Hd & Hp & Hq & _)|]; [|auto].
  unfold a_insert_edge. destruct (decide _) as [Hi|]; [|auto]. cbn. split; [reflexivity|]. split; [reflexivity|].
  intros u v Hl. unfold a_linked, a_add_edge, a_with_edges in Hl. cbn in Hl.
  destruct (decide (edge_key u v = edge_key (chain_prev n) (chain_next n))) as [E|E].
  - right. apply edge_key_inj in E as [[-> ->]|[-> ->]]; congruence.
  - left. rewrite lookup_insert_ne in Hl by congruence. exact Hl.
Qed.
Lemma edges_without_linked b n m : forall u v, is_Some (edges_without n (ag_edges b) !! edge_key u v) -> m = b -> a_linked m u v.
Proof.
  intros u v [e He] ->. unfold edges_without in He. apply map_filter_lookup_Some in He as [He _]. unfold a_linked. eauto.
Qed.

Lemma remove_phase b0 xs :
  forall c b, CInv c b ->
  (forall x, x ∈ xs -> no_cross_sibling b0 x) ->
  (forall x k, a_key b x = Some k -> a_key b0 x = Some k) ->
  (forall u v, a_linked b u v -> a_linked b0 u v \/ a_key b u = a_key b v) ->
  exists c' b', rfold rstep xs c = Ok c' /\ CInv c' b' /\
    (forall x, ag_nodes b' !! x = if decide (x ∈ xs) then None else ag_nodes b !! x) /\ g_layer_ids c' = g_layer_ids c /\ g_mesh c' = g_mesh c.
Proof.
  induction xs as [|x r IH]; intros c b HC Hx Hk Hl.
  - exists c, b. cbn. split; [reflexivity|]. split; [exact HC|]. split; [|auto]. intros x. destruct (decide _) as [H|]; [inversion H|reflexivity].
  - cbn [rfold].
    assert (Ha : allowed c (GRemoveNode x)).
    { cbn. intros v k kv Hadj Hkx Hkv Heq. destruct HC as [[HRc _] _]. rewrite (obs_layer c b HRc) in Hkx, Hkv.
      apply (obs_adjacent c b HRc), Hl in Hadj as [Hadj|Hadj]; [|congruence].
      apply (Hx x (elem_of_list_here _ _) v k kv Hadj); [auto|auto|]. unfold rel. rewrite Heq, N.ltb_irrefl. reflexivity. }
    pose proof (CInv_step c b _ HC Ha) as Hs. pose proof (step_mesh c (GRemoveNode x) ltac:(discriminate) ltac:(discriminate)) as Hm.
    cbn [g_step a_step] in Hs, Hm. unfold rstep at 1.
    destruct (g_remove_node c x) as [[r0 c1]| |]; [|cbn in Hs; discriminate|contradiction].
    destruct Hs as (_ & HC1 & Hi1). cbn [rbind]. unfold keepm in Hm. cbn in Hm. cbn [ab snd] in HC1.
    destruct (a_chain_facts b x) as (C1 & C2 & C3).
    assert (Hb1 : let b1 := snd (a_remove_node b x) in
      (forall y, ag_nodes b1 !! y = if decide (y = x) then None else ag_nodes b !! y) /\
      (forall u v, a_linked b1 u v -> a_linked b u v \/ a_key b u = a_key b v)).
    { unfold a_remove_node. destruct (decide (a_known b x)) as [Hkn|Hkn]; cbn [snd ag_nodes ag_edges].
      - split.
        + intros y. rewrite C1. destruct (decide (y = x)) as [->|]; [apply lookup_delete|apply lookup_delete_ne; congruence].
        + intros u v Hu. apply C3. eapply edges_without_linked; [exact Hu|reflexivity].
      - split; [|auto]. intros y. destruct (decide (y = x)) as [->|]; [|reflexivity]. apply eq_None_not_Some, Hkn. }
    destruct Hb1 as [B1 B2]. set (b1 := snd (a_remove_node b x)) in *.
    assert (Hkey : forall y k, a_key b1 y = Some k -> a_key b y = Some k).
    { intros y k. unfold a_key. rewrite B1. destruct (decide (y = x)); [discriminate|auto]. }
    destruct (IH c1 b1 HC1) as (c' & b' & G1 & G2 & G3 & G4 & G5).
    + intros y Hy. apply Hx. right. exact Hy.
    + intros y k Hy. apply Hk, Hkey, Hy.
    + intros u v Hu. destruct HC1 as [[HR1 _] _].
      destruct (Rep_linked_known _ _ _ _ HR1 Hu) as (_ & ku & kv & Hku & Hkv). rewrite (rp_lookup _ _ HR1) in Hku, Hkv.
      destruct (B2 u v Hu) as [H|H].
      * destruct (Hl u v H) as [H'|H']; [auto|]. right. rewrite Hku, Hkv. apply Hkey in Hku, Hkv. congruence.
      * right. rewrite Hku, Hkv. apply Hkey in Hku, Hkv. congruence.
    + exists c', b'. split; [exact G1|]. split; [exact G2|]. split; [|split; congruence].
      intros y. rewrite G3, B1. destruct (decide (y ∈ r)) as [H|H].
      * rewrite decide_True by (right; exact H). reflexivity.
      * destruct (decide (y = x)) as [->|Hne]; [rewrite decide_True by left; reflexivity|].
        rewrite decide_False; [reflexivity|]. rewrite elem_of_cons. tauto.
Qed.

(* ---------------------------------------------------------------- *)
(** ** The edge phase *)
Definition eop (e : Edge) : gop := GAddOrUpdateEdge (e_src e) (e_tgt e) (e_info e).
Definition ekey (e : Edge) : EdgeKey := edge_key (e_src e) (e_tgt e).
Definition edges_done (ah b0 : AGraph) (D : list EdgeKey) (b : AGraph) : Prop :=
  forall k, (k ∈ D -> exists e e', ag_edges ah !! k = Some e /\ ag_edges b !! k = Some e' /\ e_info e' = e_info e /\ (ag_edges b0 !! k = None -> e' = e)) /\
            (k ∉ D -> ag_edges b !! k = ag_edges b0 !! k).

Lemma edge_phase h ah b0 es : Rep h ah -> (forall e, e ∈ es -> ag_edges ah !! ekey e = Some e) ->
  forall D c b, CInv c b -> (forall x, a_known ah x -> a_known b x) -> edges_done ah b0 D b ->
  exists c' b' outs, rfold estep es c = Ok c' /\ g_run c (map eop es) = Some (outs, c') /\ CInv c' b' /\
    ag_nodes b' = ag_nodes b /\ edges_done ah b0 (D ++ map ekey es) b' /\ allowed_run c (map eop es) /\
    (forall u v, adjacent c u v -> always_adjacent c (map eop es) u v) /\ g_layer_ids c' = g_layer_ids c /\ g_mesh c' = g_mesh c.
Proof.
  intros HR. induction es as [|e r IH]; intros Hes D c b HC Hkn HD.
  - exists c, b, []. cbn. rewrite app_nil_r. split; [reflexivity|]. split; [reflexivity|]. split; [exact HC|]. split; [reflexivity|]. split; [exact HD|].
    split; [exact I|]. auto.
  - cbn [rfold map]. pose proof (Hes e (elem_of_list_here _ _)) as He. unfold ekey in He.
    destruct (rp_norm _ _ HR _ _ He) as [_ Hne].
    assert (Hlk : a_linked ah (e_src e) (e_tgt e)) by (unfold a_linked; eauto).
    destruct (Rep_linked_known _ _ _ _ HR Hlk) as (_ & ku & kv & Hu & Hv).
    assert (Hka : forall x kx, g_lookup h !! x = Some kx -> a_known b x).
    { intros x kx Hx. apply Hkn. rewrite (rp_lookup _ _ HR) in Hx. unfold a_key in Hx. unfold a_known. destruct (ag_nodes ah !! x); [eauto|discriminate]. }
    apply Hka in Hu, Hv.
    pose proof (CInv_step c b (eop e) HC I) as Hs. pose proof (step_mesh c (eop e) ltac:(discriminate) ltac:(discriminate)) as Hm.
    assert (Hb1 : exists e', let b1 := snd (a_step b (eop e)) in fst (a_step b (eop e)) = ABool true /\
      ag_nodes b1 = ag_nodes b /\ ag_edges b1 = <[ekey e := e']> (ag_edges b) /\ e_info e' = e_info e /\
      (ag_edges b0 !! ekey e = None -> e' = e)).
    { unfold eop. cbn [a_step]. unfold a_add_or_update_edge. destruct (decide (a_linked b (e_src e) (e_tgt e))) as [Hl|Hl].
      - unfold a_set_edge_attrs. rewrite decide_True by auto. destruct Hl as [e0 He0]. rewrite He0.
        exists (mkEdge (e_src e0) (e_tgt e0) (e_info e)). cbn. split; [reflexivity|]. split; [reflexivity|]. split; [reflexivity|]. split; [reflexivity|].
        intros H0. destruct (HD (ekey e)) as [HD1 HD2]. destruct (decide (ekey e ∈ D)) as [Hin|Hin].
        + destruct (HD1 Hin) as (x & x' & Hx & Hx' & _ & Hxx). specialize (Hxx H0). subst x'. unfold ekey in *.
          assert (x = e) by congruence. assert (x = e0) by congruence. subst. destruct e0; reflexivity.
        + specialize (HD2 Hin). unfold ekey in *. congruence.
      - unfold a_insert_edge. rewrite decide_True by auto. exists e. cbn. split; [reflexivity|]. split; [reflexivity|]. split; [|auto].
        destruct e; reflexivity. }
    destruct Hb1 as (e' & Ho & Hn1 & He1 & Hi & Hx). set (b1 := snd (a_step b (eop e))) in *.
    assert (Hge : g_step c (eop e) = g_add_or_update_edge c (e_src e) (e_tgt e) (e_info e)) by reflexivity.
    unfold estep at 1. rewrite <- Hge.
    destruct (g_step c (eop e)) as [[r0 c1]| |] eqn:Es; [|congruence|contradiction].
    destruct Hs as (_ & HC1 & Hi1). cbn [rbind]. unfold keepm in Hm. cbn in Hm.
    assert (Hadj : forall u v, adjacent c u v -> adjacent c1 u v).
    { intros u v H. destruct HC as [[HRc _] _]. destruct HC1 as [[HRc1 _] _]. apply (obs_adjacent c1 b1 HRc1). apply (obs_adjacent c b HRc) in H.
      unfold a_linked in *. rewrite He1. destruct (decide (ekey e = edge_key u v)) as [->|Hk]; [rewrite lookup_insert; eauto|].
      rewrite lookup_insert_ne by exact Hk. exact H. }
    destruct (IH (fun x H => Hes x (elem_of_list_further _ _ _ H)) (D ++ [ekey e]) c1 b1 HC1) as (c' & b' & outs & G1 & G2 & G3 & G4 & G5 & G6 & G7 & G8 & G9).
    + intros x Hkx. unfold a_known. rewrite Hn1. apply Hkn, Hkx.
    + intros k. rewrite He1. destruct (decide (ekey e = k)) as [<-|Hk].
      * rewrite lookup_insert. split; [|intros H; exfalso; apply H, elem_of_app; right; left]. intros _. exists e, e'. auto.
      * rewrite lookup_insert_ne by exact Hk. destruct (HD k) as [HD1 HD2]. split; intros H.
        -- apply HD1. apply elem_of_app in H as [H|H]; [exact H|]. apply elem_of_list_singleton in H. congruence.
        -- apply HD2. intros H'. apply H, elem_of_app. auto.
    + exists c', b', (ABool r0 :: outs). split; [exact G1|]. cbn [g_run]. rewrite Es. cbn [step_graph step_out]. rewrite G2. split; [reflexivity|].
      split; [exact G3|]. split; [congruence|]. rewrite <- app_assoc in G5. split; [exact G5|].
      split; [cbn [allowed_run]; rewrite Es; cbn; auto|]. split; [|split; congruence].
      intros u v H. cbn [always_adjacent]. rewrite Es. cbn [step_graph]. auto.
Qed.

(* ---------------------------------------------------------------- *)
(** ** The whole transfer *)
Section Transfer.
  Context (h : Graph) (ah : AGraph) (HL : RepL h ah) (HS : saveable h).
  Let HR : Rep h ah := proj1 HL.

  Lemma an_of x n : ag_nodes ah !! x = Some n -> node_data h x = Some (an_key n, an_time n, an_attrs n).
  Proof using HL. intros H. rewrite (obs_data h ah HR), H. reflexivity. Qed.

  Lemma source_ok n : n ∈ static_nodes h \/ n ∈ present (dynamic_slots h) -> source_node (g_layer_ids h) ah n /\ node_fits n.
  Proof using HL HS.
    intros Hn. pose proof (proj2 HL) as HI.
    assert (Hk : node_of h ah n /\ exists k, g_lookup h !! n_id n = Some k /\
      (k = key_static (n_layer n) \/ k = key_dynamic (n_layer n) (prefix_from_id (n_id n)))).
    { destruct Hn as [Hn|Hn].
      - destruct (static_node_of h ah HR n Hn) as [H1 H2]. split; [exact H1|]. eauto.
      - destruct (dynamic_node_of h ah HR n Hn) as [H1 H2]. split; [exact H1|]. eauto. }
    destruct Hk as [(an & Han & Ht & Hat & Hly) (k & Hlk & Hkk)].
    destruct (node_facts h ah _ _ HR Hlk) as (n' & an' & _ & _ & _ & Han' & Hak & Hat' & _ & Hst & Hdy).
    assert (an' = an) as -> by congruence.
    pose proof (an_of _ _ Han) as Hd. destruct (sv_node h HS _ _ _ _ Hd) as (F1 & F2 & F3 & F4).
    split.
    - exists k. split; [rewrite Han; f_equal; destruct an as [k0 t0 a0]; cbn in *; congruence|].
      rewrite Hak in *. destruct (lk_dynamic k) eqn:Ed.
      + destruct (Hdy eq_refl) as (Hk2 & Hlt & Hdo & t & Htt). rewrite Hly in *. split; [rewrite <- Hly; apply (sv_dynamic h HS _ _ _ _ Hd Ed)|].
        rewrite <- Ht, Hat', Htt. split; [exact Hk2|]. split; [exact Hlt|exact Hdo].
      + destruct (Hst eq_refl) as (Hin & Hk2). rewrite Hly in *. split; [rewrite HI in Hin; apply elem_of_list_to_set in Hin; exact Hin|].
        rewrite <- Ht. rewrite (sv_static h HS _ _ _ _ Hd Ed). exact Hk2.
    - unfold node_fits. rewrite <- Hly, <- Ht, <- Hat. auto.
  Qed.

  Lemma saveable_fits : graph_fits h.
  Proof using HL HS.
    constructor.
    - exact (sv_ids h HS).
    - apply List.Forall_forall. intros n Hn. apply elem_of_list_In in Hn. refine (proj2 (source_ok n _)). auto.
    - apply List.Forall_forall. intros o Ho. apply elem_of_list_In, dynamic_slots_in in Ho as (l & p & d & Hd & Ho).
      destruct o; [eauto|]. exfalso. apply (sv_slots h HS _ _ _ Hd Ho).
    - apply List.Forall_forall. intros n Hn. apply elem_of_list_In in Hn. refine (proj2 (source_ok n _)). auto.
    - apply List.Forall_forall. intros e He. apply elem_of_list_In, (all_edges_in h ah HR) in He.
      assert (Hlk : a_linked ah (e_src e) (e_tgt e)) by (unfold a_linked; eauto).
      destruct (Rep_linked_known _ _ _ _ HR Hlk) as (_ & ku & kv & Hu & Hv).
      assert (Hf : forall x k, g_lookup h !! x = Some k -> fits 64 x).
      { intros x k Hx. rewrite (rp_lookup _ _ HR) in Hx. unfold a_key in Hx. destruct (ag_nodes ah !! x) as [n|] eqn:E; [|discriminate].
        apply (sv_node h HS _ _ _ _ (an_of _ _ E)). }
      split; [eapply Hf, Hu|]. split; [eapply Hf, Hv|]. apply (sv_edge h HS (e_src e) (e_tgt e)). rewrite (obs_edge h ah HR). exact He.
    - exact (sv_mesh h HS).
  Qed.

  Lemma enumerated_in x : x ∈ (∅ ∪ list_to_set (map n_id (static_nodes h)) ∪ list_to_set (map n_id (present (dynamic_slots h))) : gset N) <-> a_known ah x.
  Proof using HL.
    rewrite !elem_of_union, !elem_of_list_to_set, !elem_of_list_In, !in_map_iff. unfold a_known. split.
    - intros [[H|(n & <- & H)]|(n & <- & H)]; [apply not_elem_of_empty in H; contradiction| |]; apply elem_of_list_In in H.
      + destruct (static_node_of h ah HR n H) as [(an & Han & _) _]. eauto.
      + destruct (dynamic_node_of h ah HR n H) as [(an & Han & _) _]. eauto.
    - intros [an Han]. destruct (enumerated h ah HR x (an_key an)) as (n & <- & [H|H]).
      + rewrite (rp_lookup _ _ HR). unfold a_key. rewrite Han. reflexivity.
      + left. right. exists n. rewrite <- elem_of_list_In. auto.
      + right. exists n. rewrite <- elem_of_list_In. auto.
  Qed.

  Lemma transfer_ok cv g im : reachable g -> g_layer_ids g = g_layer_ids h -> updatable g h ->
    exists g', transfer cv h g im = Ok g' /\ reachable g' /\ g_layer_ids g' = g_layer_ids h /\
      (forall x, node_data g' x = cv_data cv x <$> node_data h x) /\
      (forall u v, e_info <$> edge_at g' u v = e_info <$> edge_at h u v) /\
      ((forall x, g_has_node g x = false) -> same_edges h g') /\
      g_mesh g' = match g_mesh h with Some m => if im then Some m else g_mesh g | None => g_mesh g end.
  Proof using HL HS.
    intros Hrg Hids [U1 U2 U3]. destruct (reachable_RepL g Hrg) as [b0 HLb0]. pose proof (proj1 HLb0) as HRb0.
    assert (HF : fits_in ah b0).
    { assert (Hb : forall x n, ag_nodes b0 !! x = Some n -> node_data g x = Some (an_key n, an_time n, an_attrs n)) by (intros x n H; rewrite (obs_data g b0 HRb0), H; reflexivity).
      constructor.
      - intros x n m Hn Hm. apply (U1 x _ _ _ _ _ _ (Hb _ _ Hm) (an_of _ _ Hn)).
      - intros x y n m Hn Hm Hd Hk Ht. apply (U2 x y _ _ (an_attrs n) (an_attrs m) Hd (an_of _ _ Hn)). rewrite (Hb _ _ Hm). congruence. }
    unfold transfer.
    destruct (node_phase cv h ah b0 (dom (g_lookup g)) (static_nodes h) HR HF) with (D := (∅ : gset N)) (c := g) (b := b0)
      as (c1 & b1 & E1 & HC1 & ND1 & I1 & M1).
    { apply List.Forall_forall. intros n Hn. apply elem_of_list_In in Hn. refine (proj1 (source_ok n _)). auto. }
    { split; assumption. }
    { split; [|reflexivity]. intros x. rewrite decide_False by set_solver. reflexivity. }
    { exact Hids. }
    { set_solver. }
    rewrite difference_empty_L in E1. rewrite E1. cbn [rbind].
    destruct (node_phase cv h ah b0 (dom (g_lookup g)) (present (dynamic_slots h)) HR HF) with (D := (∅ ∪ list_to_set (map n_id (static_nodes h)) : gset N)) (c := c1) (b := b1)
      as (c2 & b2 & E2 & HC2 & ND2 & I2 & M2).
    { apply List.Forall_forall. intros n Hn. apply elem_of_list_In in Hn. refine (proj1 (source_ok n _)). auto. }
    { exact HC1. } { exact ND1. } { exact I1. }
    { intros x Hx. apply enumerated_in, elem_of_union. auto. }
    rewrite E2. cbn [rbind fst snd].
    pose proof (fun x => enumerated_in x) as HD. set (D := (∅ ∪ _ ∪ _ : gset N)) in *.
    destruct ND2 as [N2 Ed2].
    assert (N2' : forall x, ag_nodes b2 !! x = match ag_nodes ah !! x with Some n => Some (keep_an cv x n) | None => ag_nodes b0 !! x end).
    { intros x. rewrite N2. destruct (decide (x ∈ D)) as [H|H].
      - apply HD in H as [n Hn]. rewrite Hn. reflexivity.
      - destruct (ag_nodes ah !! x) as [n|] eqn:E; [|reflexivity]. exfalso. apply H, HD. unfold a_known. eauto. }
    assert (Hgone : forall x, x ∈ elements (dom (g_lookup g) ∖ D) <-> a_known b0 x /\ ~ a_known ah x).
    { intros x. rewrite elem_of_elements, elem_of_difference, HD, elem_of_dom, (rp_lookup _ _ HRb0). unfold a_key, a_known. rewrite fmap_is_Some. tauto. }
    assert (K2 : forall x k, a_key b2 x = Some k -> a_known b0 x -> a_key b0 x = Some k).
    { intros x k Hk [m Hm]. unfold a_key in *. rewrite N2' in Hk. rewrite Hm in *. destruct (ag_nodes ah !! x) as [n|] eqn:En; [|exact Hk].
      cbn in *. injection Hk as <-. destruct (fi_place _ _ HF _ _ _ En Hm) as [E _]. congruence. }
    destruct (remove_phase b2 (elements (dom (g_lookup g) ∖ D)) c2 b2 HC2) as (c3 & b3 & E3 & HC3 & N3 & I3 & M3).
    { intros x Hx. apply Hgone in Hx as [Hx1 Hx2]. pose proof (U3 x) as Hf.
      assert (Hnf : no_cross_sibling b0 x).
      { apply (no_foreign_cross g b0 HRb0), Hf; [apply (obs_known g b0 HRb0), Hx1|]. destruct (g_has_node h x) eqn:E; [|reflexivity].
        exfalso. apply Hx2, (obs_known h ah HR), E. }
      intros v k kv Hl Hk Hkv Hrel. assert (Hl0 : a_linked b0 x v) by (unfold a_linked in *; congruence).
      destruct (Rep_linked_known _ _ _ _ HRb0 Hl0) as (_ & k1 & k2 & Hk1 & Hk2). rewrite (rp_lookup _ _ HRb0) in Hk1, Hk2.
      assert (Hv0 : a_known b0 v) by (unfold a_known, a_key in *; destruct (ag_nodes b0 !! v); [eauto|discriminate]).
      apply (Hnf v k kv Hl0); [|apply K2; auto|exact Hrel]. apply K2; auto. }
    { auto. } { auto. }
    rewrite E3. cbn [rbind].
    assert (N3' : forall x, ag_nodes b3 !! x = keep_an cv x <$> ag_nodes ah !! x).
    { intros x. rewrite N3, N2'. destruct (ag_nodes ah !! x) as [n|] eqn:En; cbn.
      - rewrite decide_False; [reflexivity|]. rewrite Hgone. unfold a_known. rewrite En. intros [_ H]. apply H. eauto.
      - destruct (ag_nodes b0 !! x) as [m|] eqn:Em; [|destruct (decide _); reflexivity].
        rewrite decide_True; [reflexivity|]. apply Hgone. unfold a_known. rewrite Em, En. split; [eauto|]. intros [? ?]; discriminate. }
    assert (HCm : CInv (g_mark_stale c3) b3) by (apply (CInv_step c3 b3 GMarkStale HC3 I)).
    destruct (edge_phase h ah b3 (all_edges h) HR) with (D := @nil EdgeKey) (c := g_mark_stale c3) (b := b3)
      as (c4 & b4 & outs & E4 & R4 & HC4 & N4 & D4 & A4 & Adj4 & I4 & M4).
    { intros e He. apply (all_edges_in h ah HR), He. }
    { exact HCm. }
    { intros x [n Hn]. unfold a_known. rewrite N3', Hn. cbn. eauto. }
    { intros k. split; [intros H; inversion H|reflexivity]. }
    rewrite E4. cbn [rbind].
    destruct (stale_sweep c3 (map eop (all_edges h)) outs c4 (proj2 HC3) A4) as (c5 & E5 & Hr5 & SN5 & SE5).
    { apply List.Forall_forall. intros o Ho. apply in_map_iff in Ho as (e & <- & _). discriminate. }
    { exact R4. }
    rewrite E5. cbn [rbind]. pose proof (sweep_mesh _ _ E5) as M5.
    pose proof (proj1 (proj1 HC4)) as HR4. pose proof (proj1 (proj1 HC3)) as HR3.
    assert (Hadjm : forall u v, adjacent c3 u v <-> adjacent (g_mark_stale c3) u v).
    { intros u v. rewrite (obs_adjacent c3 b3 HR3), (obs_adjacent _ b3 (proj1 (proj1 HCm))). reflexivity. }
    assert (Hdata : forall x, node_data c5 x = cv_data cv x <$> node_data h x).
    { intros x. rewrite (SN5 x), (obs_data c4 b4 HR4), N4, N3', (obs_data h ah HR). destruct (ag_nodes ah !! x); reflexivity. }
    assert (Hkeys : forall u v, edge_key u v ∈ [] ++ map ekey (all_edges h) <-> a_linked ah u v).
    { intros u v. cbn [app]. rewrite elem_of_list_In, in_map_iff. split.
      - intros (e & Hek & He). unfold a_linked. apply elem_of_list_In, (all_edges_in h ah HR) in He. rewrite <- Hek. unfold ekey. rewrite He. eauto.
      - intros [e He]. destruct (rp_norm _ _ HR _ _ He) as [Hn _]. exists e. split; [symmetry; exact Hn|].
        apply elem_of_list_In, (all_edges_in h ah HR). rewrite <- Hn. exact He. }
    assert (Hedge : forall u v, match ag_edges ah !! edge_key u v with
      | Some e => exists e', edge_at c5 u v = Some e' /\ e_info e' = e_info e /\ (ag_edges b3 !! edge_key u v = None -> e' = e)
      | None => edge_at c5 u v = None end).
    { intros u v. destruct (SE5 u v) as (S1 & S2 & S3). destruct (D4 (edge_key u v)) as [DA DB]. rewrite Hkeys in DA, DB.
      rewrite (obs_edge c4 b4 HR4) in *. destruct (ag_edges ah !! edge_key u v) as [e|] eqn:Ee.
      - destruct DA as (e1 & e' & H1 & H2 & H3 & H4); [unfold a_linked; eauto|]. assert (e1 = e) as -> by congruence.
        exists e'. split; [|auto]. rewrite <- H2. destruct (decide (a_linked b3 u v)) as [Hl|Hl].
        + apply (obs_adjacent c3 b3 HR3), Hadjm, Adj4 in Hl. apply (S3 Hl). destruct (rp_norm _ _ HR _ _ Ee) as [Hn _].
          exists (eop e). split; [apply in_map, elem_of_list_In, (all_edges_in h ah HR); rewrite <- Hn; exact Ee|].
          cbn. symmetry in Hn. apply edge_key_inj in Hn. exact Hn.
        + apply S2. intros H. apply Hl, (obs_adjacent c3 b3 HR3), H.
      - assert (Hnl : ~ a_linked ah u v) by (intros [? ?]; congruence). specialize (DB Hnl).
        destruct (decide (a_linked b3 u v)) as [Hl|Hl].
        + pose proof Hl as Hl'. apply (obs_adjacent c3 b3 HR3), Hadjm, Adj4 in Hl'. apply (S3 Hl').
          intros (o & Ho & Hlo). apply in_map_iff in Ho as (e & <- & He). apply elem_of_list_In, (all_edges_in h ah HR) in He.
          cbn in Hlo. apply Hnl. unfold a_linked. apply edge_key_inj in Hlo. rewrite <- Hlo, He. eauto.
        + rewrite S2 by (intros H; apply Hl, (obs_adjacent c3 b3 HR3), H). rewrite DB. apply eq_None_not_Some, Hl. }
    set (gm := match g_mesh h with Some m => if im then g_set_mesh c5 (Some m) else c5 | None => c5 end).
    assert (Hm : (exists m, gm = g_set_mesh c5 m) \/ gm = c5) by (unfold gm; destruct (g_mesh h); [destruct im|]; eauto).
    assert (Hgm : reachable gm /\ (forall x, node_data gm x = node_data c5 x) /\ (forall u v, edge_at gm u v = edge_at c5 u v) /\ g_layer_ids gm = g_layer_ids c5).
    { destruct Hm as [[m ->]| ->]; [|auto]. destruct (reachable_RepL c5 Hr5) as [b5 HL5].
      destruct (CInv_step c5 b5 (GSetMesh m) (conj HL5 Hr5) I) as (_ & [[HRm _] Hrm] & Him). cbn in HRm, Hrm, Him.
      split; [exact Hrm|]. split; [intros x; rewrite (obs_data _ _ HRm), (obs_data _ _ (proj1 HL5)); reflexivity|].
      split; [intros u v; rewrite (obs_edge _ _ HRm), (obs_edge _ _ (proj1 HL5)); reflexivity|]. exact Him. }
    destruct Hgm as (Hgr & Hgn & Hge & Hgi).
    exists gm. split; [reflexivity|]. split; [exact Hgr|].
    assert (I5 : g_layer_ids c5 = g_layer_ids c4).
    { clear -E5. unfold g_remove_all_stale in E5.
      assert (Hk : forall ks g g', g_remove_stale g ks = Ok g' -> g_layer_ids g' = g_layer_ids g).
      { intros ks. unfold g_remove_stale. induction ks as [|k r IH]; intros g g'; cbn; [congruence|].
        pose proof (step_ids g (GRemoveEdge (fst k) (snd k))) as Hi. cbn [g_step] in Hi. destruct (g_remove_edge g _ _) as [[? g1]| |]; cbn; [|discriminate..].
        intros H. apply IH in H. cbn in Hi. congruence. }
      repeat match type of E5 with rbind ?r _ = _ => destruct r eqn:?; [cbn [rbind] in E5|discriminate..] end.
      repeat match goal with H : g_remove_stale _ _ = Ok _ |- _ => apply Hk in H end. congruence. }
    split. { rewrite Hgi, I5, I4. change (g_layer_ids (g_mark_stale c3)) with (g_layer_ids c3). congruence. }
    split; [intros x; rewrite Hgn; apply Hdata|].
    split. { intros u v. rewrite Hge, (obs_edge h ah HR). specialize (Hedge u v). destruct (ag_edges ah !! edge_key u v) as [e|].
      - destruct Hedge as (e' & -> & Hi & _). cbn. congruence.
      - rewrite Hedge. reflexivity. }
    split.
    { intros Hempty u v. rewrite Hge, (obs_edge h ah HR). specialize (Hedge u v). destruct (ag_edges ah !! edge_key u v) as [e|]; [|exact Hedge].
      destruct Hedge as (e' & -> & _ & Hx). f_equal. apply Hx.
      assert (Hnone : elements (dom (g_lookup g) ∖ D) = []).
      { destruct (elements (dom (g_lookup g) ∖ D)) as [|x r] eqn:El; [reflexivity|]. exfalso.
        destruct (proj1 (Hgone x)) as [Hk _]; [left|]. apply (obs_known g b0 HRb0) in Hk. congruence. }
      rewrite Hnone in E3. cbn in E3. injection E3 as <-.
      enough (Hno : forall k, ag_edges b2 !! k = None).
      { pose proof (obs_edge c2 b3 HR3 u v) as O3. rewrite (obs_edge c2 b2 (proj1 (proj1 HC2)) u v), Hno in O3. congruence. }
      intros k. rewrite Ed2. apply eq_None_not_Some. intros [e0 He0]. destruct (rp_norm _ _ HRb0 _ _ He0) as [Hn _].
      assert (Hl : a_linked b0 (e_src e0) (e_tgt e0)) by (unfold a_linked; rewrite <- Hn; eauto).
      destruct (Rep_linked_known _ _ _ _ HRb0 Hl) as (_ & ku & kv & Hu & _). specialize (Hempty (e_src e0)).
      unfold g_has_node in Hempty. rewrite Hu in Hempty. discriminate. }
    assert (Hc5 : g_mesh c5 = g_mesh g) by (rewrite M5, M4; change (g_mesh (g_mark_stale c3)) with (g_mesh c3); congruence).
    unfold gm. destruct (g_mesh h); [destruct im|]; try exact Hc5. reflexivity.
  Qed.
End Transfer.
