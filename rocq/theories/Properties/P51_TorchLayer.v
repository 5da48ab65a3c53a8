(** C76: conversion of one layer to pytorch geometric. *)
From Coq Require Import NArith ZArith Bool List Lia.
From stdpp Require Import base list gmap sorting.
From Verif.Model Require Import Types Mesh Attrs Node EdgeContainer SLayer DLayer Graph Views Queries Iterators PyConvert AttrCodec Torch TorchLayer.
From Verif.Spec Require Import AbstractGraph GraphHistory LayerLog GraphObs IterSpec ConvertSpec TorchSpec.
From Verif.Proof Require Import Arith Keys SLayerP GraphRep GraphEdges GraphSim LayerRep GraphObsP GraphProps MatrixP IterP ConvertP LayerLogP TorchP TorchLayerP.
From Verif.Properties Require Import ExGraph P04_Layer P14_GraphFiles P44_Networkx.
Local Open Scope N_scope.
#[local] Arguments edge_key : simpl never.
Set Default Proof Using "Type".

Section any.
Context {F E : Type} (nc : SLayer -> Node -> result F) (precision : Vec3 -> Vec3).

Lemma layer_wf L : (exists lid, layer_reachable lid L) \/ (exists g l, reachable g /\ g_layers g !! l = Some L) -> sl_wf L.
Proof.
  intros [[lid H]|(g & l & Hr & H)].
  - destruct (reach_LR _ _ H) as [c HR]. apply HR.
  - destruct (reachable_RepL g Hr) as [a [HR _]]. apply (rp_part _ _ HR (key_static l) L (canon_static l) H).
Qed.
(** What the loops have computed. *)
Lemma layer_loops (ec : option (SLayer -> Edge -> result E)) L : sl_wf L -> (forall x n, sl_find_node L x = Some n -> exists f, nc L n = Ok f) ->
  let ids := map fst (node_iter L) in
  exists s, rfold (put_layer_row nc precision L) (map snd (node_iter L)) (mkLS [] (replicate (sl_num_nodes L) (mkVec3 0 0 0)) ∅) = Ok s /\
    LInv nc precision L (sl_num_nodes L) (map snd (node_iter L)) s /\
    ((exists cols, rfold (put_layer_column ec L (l_map s)) (map snd (edge_iter (sl_edges L))) (0%nat, replicate (sl_num_edges L) (0%nat, 0%nat)) = Ok (length (map snd (edge_iter (sl_edges L))), cols) /\
       forall i j, (i, j) ∈ cols <-> exists x y e, ids !! i = Some x /\ ids !! j = Some y /\ fst (sl_find_edge L x y) = Some e /\ e_src e = x /\ e_tgt e = y) \/
     exists f e, ec = Some f /\ (f L e = Throw \/ f L e = UB) /\
       rfold (put_layer_column ec L (l_map s)) (map snd (edge_iter (sl_edges L))) (0%nat, replicate (sl_num_edges L) (0%nat, 0%nat)) = match f L e with UB => UB | _ => Throw end /\
       fst (sl_find_edge L (e_src e) (e_tgt e)) = Some e).
Proof.
  intros W HNC ids. set (ns := map snd (node_iter L)). set (es := map snd (edge_iter (sl_edges L))).
  assert (NI : forall n, n ∈ ns <-> sl_nodes L !! n_id n = Some n) by (intros n; apply layer_node_in, W).
  assert (IDS : map n_id ns = ids) by (apply layer_ids, W).
  destruct (layer_rows_fold nc precision L (sl_num_nodes L) ns [] (mkLS [] (replicate (sl_num_nodes L) (mkVec3 0 0 0)) ∅)) as (s & Es & I).
  { split; cbn; [constructor|apply replicate_length|intros i n H; discriminate H|]. intros x i. rewrite lookup_empty. split; [discriminate|intros (n & H & _); discriminate H]. }
  { unfold ns. rewrite layer_count. cbn. lia. }
  { cbn. rewrite IDS. apply (ascending_nodup (sl_nodes L)). }
  { intros n Hn. apply NI in Hn. apply (HNC (n_id n)), Hn. }
  cbn [app] in I. exists s. split; [exact Es|]. split; [exact I|].
  assert (MAP : forall x i, l_map s !! x = Some i <-> ids !! i = Some x).
  { intros x i. rewrite (li_map _ _ _ _ _ _ I), <- IDS. change (map n_id ns) with (n_id <$> ns). rewrite list_lookup_fmap, fmap_Some. split; intros (n & H1 & H2); exists n; auto. }
  assert (MEM : forall x, is_Some (sl_nodes L !! x) -> exists i, ids !! i = Some x).
  { intros x [n Hn]. apply elem_of_list_lookup. rewrite <- IDS. apply elem_of_list_In, in_map_iff. exists n. destruct (slw_node _ W _ _ Hn) as [Hi _].
    split; [exact Hi|]. apply elem_of_list_In, NI. rewrite Hi. exact Hn. }
  assert (ARR : forall e, e ∈ es -> exists i j, directed_layer_edge L (l_map s) e = Ok (i, j) /\ ids !! i = Some (e_src e) /\ ids !! j = Some (e_tgt e)).
  { intros e He. apply (layer_edge_ends L W) in He. destruct (slw_ends _ W _ _ He) as (_ & [n1 Q1] & [n2 Q2]).
    destruct (MEM _ (ex_intro _ _ Q1)) as [i Hi], (MEM _ (ex_intro _ _ Q2)) as [j Hj]. exists i, j. split; [|auto].
    unfold directed_layer_edge, sl_get_node, sl_find_node. rewrite Q1, Q2. cbn [at_ rbind].
    destruct (slw_node _ W _ _ Q1) as [_ ->], (slw_node _ W _ _ Q2) as [_ ->]. rewrite N.ltb_irrefl.
    rewrite (proj2 (MAP _ _) Hi), (proj2 (MAP _ _) Hj). reflexivity. }
  destruct (layer_edges_fold L ec (l_map s) (sl_num_edges L) es [] (0%nat, replicate (sl_num_edges L) (0%nat, 0%nat))) as [([idx cols] & Ec & J)|(f & e & A1 & A2 & A3 & A4)].
  { split; cbn; [reflexivity|apply replicate_length|intros i e H; discriminate H]. }
  { unfold es. rewrite layer_edge_count. cbn. lia. }
  { intros e He. destruct (ARR e He) as (i & j & Q & _). eauto. }
  - left. cbn [app] in J. destruct J as [J1 J2 J3]. cbn in J1, J2, J3. subst idx. exists cols. split; [exact Ec|]. intros i j. split.
    + intros H. apply elem_of_list_lookup in H as [k Hk]. assert (Hl : (k < length es)%nat) by (unfold es; rewrite layer_edge_count, <- J2; eapply lookup_lt_Some, Hk).
      apply lookup_lt_is_Some in Hl as [e He]. destruct (J3 k e He) as (c & Q1 & Q2). apply elem_of_list_lookup_2 in He. destruct (ARR e He) as (i' & j' & Q3 & Q4 & Q5).
      assert (i' = i /\ j' = j) as [-> ->] by (split; congruence). exists (e_src e), (e_tgt e), e. split; [exact Q4|]. split; [exact Q5|]. split; [|auto].
      apply (layer_edge_ends L W) in He. exact He.
    + intros (x & y & e & H1 & H2 & H3 & <- & <-). assert (He : e ∈ es) by (apply (layer_edge_ends L W); exact H3).
      destruct (ARR e He) as (i' & j' & Q3 & Q4 & Q5). apply elem_of_list_lookup in He as [k He]. destruct (J3 k e He) as (c & Q1 & Q2).
      pose proof (ascending_nodup (sl_nodes L) : NoDup ids) as ND.
      rewrite (NoDup_lookup _ _ _ _ ND H1 Q4), (NoDup_lookup _ _ _ _ ND H2 Q5). eapply elem_of_list_lookup_2. rewrite Q1. congruence.
  - right. exists f, e. split; [exact A1|]. split; [exact A3|]. split; [exact A4|]. apply (layer_edge_ends L W) in A2. exact A2.
Qed.

(** Without an edge converter: row i is the node with the i-th smallest id, the columns are both
    directions of every edge, each once. *)
Theorem C76_layer : forall L, (exists lid, layer_reachable lid L) \/ (exists g l, reachable g /\ g_layers g !! l = Some L) ->
  (forall x n, sl_find_node L x = Some n -> exists f, nc L n = Ok f) ->
  exists d ids, (forall r, torch_layer nc (None (A := SLayer -> Edge -> result E)) precision L r <-> r = Ok d) /\
  Sorting.Sorted.StronglySorted N.lt ids /\ (forall x, x ∈ ids <-> is_Some (sl_find_node L x)) /\
  rows_for ids (ld_x d) (fun x f => exists n, sl_find_node L x = Some n /\ nc L n = Ok f) /\
  rows_for ids (ld_pos d) (fun x p => exists n, sl_find_node L x = Some n /\ p = precision (attrs_position (n_attrs n))) /\
  NoDup (ld_edge_index d) /\
  forall i j, (i, j) ∈ ld_edge_index d <-> exists x y, ids !! i = Some x /\ ids !! j = Some y /\ is_Some (fst (sl_find_edge L x y)).
Proof.
  intros L HL HNC. pose proof (layer_wf L HL) as W.
  destruct (layer_loops None L W HNC) as (s & Es & I & [(cols & Ec & HC)|(f & e & Q & _)]); [|discriminate].
  set (ids := map fst (node_iter L)) in *.
  exists (mkLD (l_feat s) (if (0 <? length cols)%nat then to_undirected cols else cols) (l_pos s)), ids.
  split. { intros r. rewrite torch_layer_fun, Es. cbn [rbind]. rewrite Ec. reflexivity. }
  split; [apply sorted_ids|].
  assert (IDS : ids = map n_id (map snd (node_iter L))) by (symmetry; apply layer_ids, W).
  assert (NI : forall n, n ∈ map snd (node_iter L) <-> sl_nodes L !! n_id n = Some n) by (intros n; apply layer_node_in, W).
  split. { intros x. rewrite IDS, elem_of_list_In, in_map_iff. split.
    - intros (n & <- & H). apply elem_of_list_In, NI in H. eexists. exact H.
    - intros [n Hn]. assert (Hn' : sl_nodes L !! x = Some n) by exact Hn. destruct (slw_node _ W _ _ Hn') as [Hi _].
      exists n. split; [exact Hi|]. apply elem_of_list_In, NI. rewrite Hi. exact Hn'. }
  assert (AT : forall i x, ids !! i = Some x -> exists n, map snd (node_iter L) !! i = Some n /\ sl_find_node L x = Some n).
  { intros i x H. rewrite IDS in H. change (map n_id (map snd (node_iter L))) with (n_id <$> map snd (node_iter L)) in H. rewrite list_lookup_fmap, fmap_Some in H.
    destruct H as (n & H1 & ->). exists n. split; [exact H1|]. apply elem_of_list_lookup_2, NI in H1. exact H1. }
  assert (LEN : length ids = sl_num_nodes L) by (rewrite IDS, map_length; apply layer_count).
  split. { split; [rewrite LEN, <- (layer_count L); symmetry; eapply Forall2_length, (li_feat _ _ _ _ _ _ I)|].
    intros i x r H1 H2. destruct (AT i x H1) as (n & A1 & A2). exists n. split; [exact A2|]. exact (Forall2_lookup_lr _ _ _ _ _ _ (li_feat _ _ _ _ _ _ I) A1 H2). }
  split. { split; [rewrite LEN; apply (li_poslen _ _ _ _ _ _ I)|]. intros i x r H1 H2. destruct (AT i x H1) as (n & A1 & A2). exists n. split; [exact A2|].
    pose proof (li_pos _ _ _ _ _ _ I _ _ A1) as H3. change (l_pos s !! i = Some r) in H2. congruence. }
  assert (SYM : forall x y, fst (sl_find_edge L x y) = fst (sl_find_edge L y x)) by (intros x y; unfold sl_find_edge, ec_find; cbn; rewrite edge_key_comm; reflexivity).
  assert (UND : forall i j, (i, j) ∈ to_undirected cols <-> exists x y, ids !! i = Some x /\ ids !! j = Some y /\ is_Some (fst (sl_find_edge L x y))).
  { intros i j. rewrite undirected_in. change (swap_column (i, j)) with (j, i). rewrite !HC. split.
    - intros [(x & y & e & A1 & A2 & A3 & _)|(x & y & e & A1 & A2 & A3 & _)]; [exists x, y; eauto|exists y, x]. rewrite SYM, A3. eauto.
    - intros (x & y & A1 & A2 & [e A3]). assert (He : ec_edges (sl_edges L) !! edge_key x y = Some e) by exact A3.
      pose proof (ecw_key _ (slw_ec _ W) _ _ He) as K. apply edge_key_inj in K as [[K1 K2]|[K1 K2]]; subst x y; [left; exists (e_src e), (e_tgt e), e; auto|right].
      exists (e_src e), (e_tgt e), e. rewrite SYM. auto. }
  cbn [ld_edge_index]. destruct cols as [|c cols]; [|cbn [length Nat.ltb Nat.leb]; split; [apply undirected_nodup|exact UND]].
  cbn. split; [constructor|]. intros i j. rewrite <- UND, undirected_in. split; [auto|intros [H|H]; inversion H].
Qed.

(** With an edge converter it never returns: torch.tensor takes its type as a keyword only. *)
Theorem C76_layer_edges_refuted : forall L (f : SLayer -> Edge -> result E),
  (exists lid, layer_reachable lid L) \/ (exists g l, reachable g /\ g_layers g !! l = Some L) ->
  (forall x n, sl_find_node L x = Some n -> exists f, nc L n = Ok f) -> (forall e, f L e <> UB) ->
  forall r, torch_layer nc (Some f) precision L r <-> r = Throw.
Proof.
  intros L f HL HNC HU r. pose proof (layer_wf L HL) as W. rewrite torch_layer_fun.
  destruct (layer_loops (Some f) L W HNC) as (s & Es & I & [(cols & Ec & _)|(f' & e & Q & Q2 & Ec & _)]); rewrite Es; cbn [rbind]; rewrite Ec; cbn [rbind layer_finish].
  - reflexivity.
  - injection Q as <-. destruct Q2 as [Q2|Q2]; [|destruct (HU e Q2)]. rewrite Q2. reflexivity.
Qed.
End any.
Print Assumptions C76_layer.
Print Assumptions C76_layer_edges_refuted.

(** The layer of places of the example graph: three nodes, two edges, a column per direction. *)
Definition places : SLayer := match g_layers ex_graph !! PLACES with Some L => L | None => sl_new PLACES end.
Theorem C76_layer_case : (reachable ex_graph /\ g_layers ex_graph !! PLACES = Some places) /\
  torch_layer (E := unit) (fun _ n => Ok (n_id n)) None (fun p => p) places
    (Ok (mkLD [10; 11; 12] [(0, 1); (1, 0); (1, 2); (2, 1)]%nat [mkVec3 0 0 0; mkVec3 1 0 0; mkVec3 2 0 0])).
Proof.
  split.
  - split; [exact ex_reachable|]. unfold places.
    assert (K : match g_layers ex_graph !! PLACES with Some _ => true | None => false end = true) by (vm_compute; reflexivity).
    destruct (g_layers ex_graph !! PLACES); [reflexivity|discriminate].
  - apply torch_layer_fun. vm_compute. reflexivity.
Qed.
Print Assumptions C76_layer_case.
