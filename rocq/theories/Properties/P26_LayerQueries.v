(** C23, C24: the remaining queries of a graph and of its layers. *)
From Coq Require Import NArith ZArith Bool List Lia.
From stdpp Require Import base list gmap fin_maps.
From Verif.Model Require Import Types Mesh Attrs Node EdgeContainer SLayer DLayer Graph Queries.
From Verif.Spec Require Import AbstractGraph GraphHistory LayerLog GraphObs.
From Verif.Proof Require Import Arith Keys SLayerP DLayerP DLayerOps GraphRep GraphEdges GraphAttrs GraphSim LayerRep GraphObsP GraphProps GraphProps2 GraphCounts.
From Verif.Properties Require Import ExGraph P03_Graph.
Local Open Scope N_scope.
#[local] Arguments edge_key : simpl never.

(** hasEdge, findEdge and getEdge agree; findEdge of an unknown node and getEdge of a missing
    edge throw; none of them changes a node or an edge. *)
Theorem C24_edge_queries : forall g u v, reachable g ->
  g_has_edge g u v = Ok (match edge_at g u v with Some _ => true | None => false end) /\
  (if g_has_node g u && g_has_node g v
   then exists g', g_find_edge g u v = Ok (edge_at g u v, g') /\ reachable g' /\ same_nodes g g' /\ same_edges g g'
   else g_find_edge g u v = Throw) /\
  (match edge_at g u v with
   | Some e => exists g', g_get_edge g u v = Ok (e, g') /\ reachable g' /\ same_nodes g g' /\ same_edges g g' /\ same_pair u v (e_src e) (e_tgt e)
   | None => g_get_edge g u v = Throw end).
Proof.
  intros g u v Hr. destruct (reachable_RepL g Hr) as [a [HR _]].
  assert (HF : if g_has_node g u && g_has_node g v
   then exists g', g_find_edge g u v = Ok (edge_at g u v, g') /\ reachable g' /\ same_nodes g g' /\ same_edges g g'
   else g_find_edge g u v = Throw /\ edge_at g u v = None).
  { unfold g_has_node. destruct (g_lookup g !! u) as [ku|] eqn:Eu; [destruct (g_lookup g !! v) as [kv|] eqn:Ev|].
    - rewrite !bool_decide_true by eauto. cbn [andb]. destruct (find_edge_ok g a u v ku kv HR Eu Ev) as (g' & E & HR').
      exists g'. unfold edge_at at 1. rewrite E. split; [reflexivity|].
      destruct (calls_safe g (GFindEdge u v) Hr I) as [(b & g1 & S & H1)|(S & _)]; cbn [g_step] in S; rewrite E in S; cbn [rbind] in S; [|discriminate].
      injection S as _ <-. split; [exact H1|]. split; intros x; [|intros y].
      + rewrite (obs_data g' a HR'), (obs_data g a HR). reflexivity.
      + rewrite (obs_edge g' a HR'), (obs_edge g a HR). reflexivity.
    - rewrite bool_decide_true by eauto. rewrite bool_decide_false by (intros [? ?]; discriminate). cbn [andb].
      unfold edge_at, g_find_edge. rewrite Eu, Ev. split; reflexivity.
    - rewrite bool_decide_false by (intros [? ?]; discriminate). cbn [andb].
      unfold edge_at, g_find_edge. rewrite Eu. split; reflexivity. }
  split; [|split].
  - rewrite (obs_has_edge g a HR), (obs_edge g a HR). f_equal. destruct (ag_edges a !! edge_key u v) eqn:E; [apply bool_decide_true|apply bool_decide_false]; unfold a_linked; rewrite E; [eauto|intros [? ?]; discriminate].
  - destruct (g_has_node g u && g_has_node g v); [exact HF|apply HF].
  - unfold g_get_edge. destruct (g_has_node g u && g_has_node g v).
    + destruct HF as (g' & E & H1 & H2 & H3). rewrite E. cbn [rbind]. destruct (edge_at g u v) as [e|] eqn:Ee; [|reflexivity].
      exists g'. cbn [at_ rbind]. split; [reflexivity|]. split; [exact H1|]. split; [exact H2|]. split; [exact H3|].
      rewrite (obs_edge g a HR) in Ee. destruct (rp_norm _ _ HR _ _ Ee) as [K _]. apply edge_key_inj. exact K.
    + destruct HF as [E ->]. rewrite E. reflexivity.
Qed.
Print Assumptions C24_edge_queries.
Example C24_edge_queries_case : (exists e, edge_at ex_graph 10 11 = Some e) /\ edge_at ex_graph 10 12 = None /\ g_has_node ex_graph 12 = true /\ g_has_node ex_graph 99 = false.
Proof.
  split; [|split; [vm_compute; reflexivity|split; vm_compute; reflexivity]].
  assert (K : match edge_at ex_graph 10 11 with Some _ => true | None => false end = true) by (vm_compute; reflexivity).
  destruct (edge_at ex_graph 10 11) as [e|]; [eauto|discriminate].
Qed.

(** The nodes and edges of one partition of the graph. *)
Lemma partition_nodes g a k L x : Rep g a -> canon k -> g_part g k = Some L ->
  sl_nodes L !! x = if decide (layer_of g x = Some k) then node_at g x else None.
Proof.
  intros HR Hk HL. change (layer_of g x) with (g_lookup g !! x). case_decide as E.
  - destruct (Rep_node_ptr _ _ _ _ HR E) as (L' & n & HL' & Hn & E' & _). unfold node_at, g_find_node. rewrite E, E'. congruence.
  - apply eq_None_not_Some. intros [n Hn]. apply E. apply (rp_home _ _ HR _ _ Hk). eauto.
Qed.
Lemma partition_edges g a k L x y : Rep g a -> canon k -> g_part g k = Some L ->
  ec_edges (sl_edges L) !! edge_key x y = if decide (layer_of g x = Some k /\ layer_of g y = Some k) then edge_at g x y else None.
Proof.
  intros HR Hk HL. case_decide as E.
  - destruct E as [Ex Ey]. rewrite (obs_edge g a HR). symmetry. apply (Rep_part_edge g a k L x y HR Hk HL Ex Ey).
  - apply eq_None_not_Some. intros [e He]. apply E. destruct (rp_part _ _ HR k L Hk HL) as (Hwf & _).
    destruct (slw_ends _ Hwf _ _ He) as (_ & Hs & Ht).
    pose proof (ecw_key _ (slw_ec _ Hwf) _ _ He) as K. apply edge_key_inj in K.
    assert (Hh : forall z, is_Some (sl_nodes L !! z) -> layer_of g z = Some k) by (intros z Hz; apply (rp_home _ _ HR _ _ Hk); eauto).
    destruct K as [[-> ->]|[-> ->]]; split; apply Hh; assumption.
Qed.

(** The layers of a graph show the graph: a static layer *)
Theorem C24_static_layer_queries : forall g l L x y, reachable g -> g_layers g !! l = Some L ->
  let inside z := layer_of g z = Some (key_static l) in
  sl_find_node L x = (if decide (inside x) then node_at g x else None) /\
  sl_get_node L x = match (if decide (inside x) then node_at g x else None) with Some n => Ok n | None => Throw end /\
  sl_get_position L x = match (if decide (inside x) then node_at g x else None) with Some n => Ok (attrs_position (n_attrs n)) | None => Throw end /\
  (let e := if decide (inside x /\ inside y) then edge_at g x y else None in
   sl_has_edge L x y = match e with Some _ => true | None => false end /\
   fst (sl_find_edge L x y) = e /\
   match e with
   | Some e => exists L', sl_get_edge L x y = Ok (e, L') /\ L' = snd (sl_find_edge L x y) /\ sl_nodes L' = sl_nodes L /\
       (* only the mark of the edge goes *)
       ec_edges (sl_edges L') = ec_edges (sl_edges L) /\ ec_stale (sl_edges L') !! edge_key x y = Some false /\
       (forall k, k <> edge_key x y -> ec_stale (sl_edges L') !! k = ec_stale (sl_edges L) !! k)
   | None => sl_get_edge L x y = Throw /\ snd (sl_find_edge L x y) = L end).
Proof.
  intros g l L x y Hr HL inside. destruct (reachable_RepL g Hr) as [a [HR _]].
  assert (Hk : canon (key_static l)) by (intros _; reflexivity).
  pose proof (partition_nodes g a (key_static l) L x HR Hk HL) as HN. pose proof (partition_edges g a (key_static l) L x y HR Hk HL) as HE.
  fold (inside x) in HN. fold (inside x) (inside y) in HE.
  unfold sl_get_node, sl_get_position, sl_get_edge, sl_find_node, sl_find_edge, sl_has_edge, ec_contains, ec_find. rewrite HN. split; [reflexivity|]. split; [destruct (if decide (inside x) then _ else _); reflexivity|].
  split; [destruct (if decide (inside x) then _ else _); reflexivity|]. cbv zeta. split; [|split; [exact HE|]].
  - rewrite <- HE. destruct (ec_edges (sl_edges L) !! edge_key x y); [apply bool_decide_true; eauto|apply bool_decide_false; intros [? ?]; discriminate].
  - rewrite <- HE. unfold ec_touch. destruct (ec_edges (sl_edges L) !! edge_key x y); [|split; [reflexivity|destruct L; reflexivity]]. eexists. split; [reflexivity|].
    split; [reflexivity|]. split; [reflexivity|]. split; [reflexivity|]. split; [apply lookup_insert|]. intros k Hk'. apply lookup_insert_ne. congruence.
Qed.
Print Assumptions C24_static_layer_queries.
(** and a dynamic layer, where positions 0, 1, ... below 2^32 stand for the ids of its prefix *)
Theorem C24_dynamic_index_queries : forall g l p d i j, reachable g -> g_dlayer g l p = Some d -> i < 2 ^ 32 -> j < 2 ^ 32 ->
  let x := prefix_make_id p i in let y := prefix_make_id p j in
  let inside z := layer_of g z = Some (key_dynamic l p) in
  let n := if decide (inside x) then node_at g x else None in
  let e := if decide (inside x /\ inside y) then edge_at g x y else None in
  dl_has_index d i = match n with Some _ => true | None => false end /\
  dl_find_index d i = n /\ dl_find_node d x = n /\
  dl_get_index d i = match n with Some n => Ok n | None => Throw end /\
  dl_get_node d x = match n with Some n => Ok n | None => Throw end /\
  dl_position_index d i = match n with Some n => Ok (attrs_position (n_attrs n)) | None => Throw end /\
  dl_has_edge_index d i j = match e with Some _ => true | None => false end /\
  fst (dl_find_edge_index d i j) = e /\
  match e with
  | Some e => exists d', dl_get_edge_index d i j = Ok (e, d') /\ d' = snd (dl_find_edge_index d i j) /\ dl_nodes d' = dl_nodes d /\
      ec_edges (dl_edges d') = ec_edges (dl_edges d) /\ ec_stale (dl_edges d') !! edge_key x y = Some false /\
      (forall k, k <> edge_key x y -> ec_stale (dl_edges d') !! k = ec_stale (dl_edges d) !! k)
  | None => dl_get_edge_index d i j = Throw /\ snd (dl_find_edge_index d i j) = d end.
Proof.
  intros g l p d i j Hr Hd Hi Hj x y inside n e. destruct (reachable_RepL g Hr) as [a [HR _]].
  destruct (rp_dinv _ _ HR _ _ _ Hd) as (Hc & Hid & Hp & _). assert (Hpl : p < two32) by (rewrite <- Hp; apply Hc).
  assert (Hk : canon (key_dynamic l p)) by (intros ?; discriminate).
  assert (HL : g_part g (key_dynamic l p) = Some (dl_view d)) by (unfold g_part; cbn; rewrite Hd; reflexivity).
  pose proof (partition_nodes g a (key_dynamic l p) (dl_view d) x HR Hk HL) as HN. pose proof (partition_edges g a (key_dynamic l p) (dl_view d) x y HR Hk HL) as HE.
  fold (inside x) in HN. fold (inside x) (inside y) in HE. fold n in HN. fold e in HE. cbn [dl_view sl_nodes sl_edges] in HN, HE.
  assert (Hx : x < two64) by (apply make_id_lt; assumption). assert (Hix : prefix_index x = i) by (apply make_id_index; assumption).
  assert (HS : dl_find_index d i = n).
  { unfold dl_find_index. rewrite dl_slot_lookup, <- HN, (dl_nmap_lookup d x Hc Hx); [rewrite Hix; reflexivity|]. rewrite Hp. apply make_id_from; assumption. }
  assert (HF : dl_find_node d x = n) by (unfold dl_find_node; rewrite Hix; exact HS).
  assert (HI : dl_has_index d i = match n with Some _ => true | None => false end).
  { pose proof (dl_has_node_true d x Hc Hx) as K. unfold dl_has_node in K. rewrite Hix in K. assert (M : prefix_matches (dl_prefix d) x = true).
    { apply prefix_matches_from. rewrite Hp. symmetry. apply make_id_from; assumption. }
    rewrite M in K. cbn [andb] in K. change (dl_nmap d !! x) with (sl_nodes (dl_view d) !! x) in K. change (sl_nodes (dl_view d) !! x) with (dl_nmap d !! x) in K. rewrite HN in K.
    destruct n; [apply K; eauto|]. destruct (dl_has_index d i); [|reflexivity]. exfalso. destruct (proj1 K eq_refl) as [? ?]. discriminate. }
  split; [exact HI|]. split; [exact HS|]. split; [exact HF|].
  unfold dl_get_index, dl_get_node, dl_position_index, dl_has_edge_index, dl_find_edge_index, dl_get_edge_index, dl_get_edge, dl_find_edge, dl_has_edge, ec_contains, ec_find.
  rewrite Hp. fold x. fold y. rewrite HF, HI, HE.
  split; [destruct n; reflexivity|]. split; [destruct n; reflexivity|]. split.
  { revert HS. unfold dl_find_index. clear HN HF HI. destruct n as [m|]; cbn [negb]; [|reflexivity]. destruct (dl_slot d i) as [[m'|]|]; intros [= ->]. reflexivity. }
  split; [destruct e; [apply bool_decide_true; eauto|apply bool_decide_false; intros [? ?]; discriminate]|]. split; [reflexivity|].
  unfold ec_touch. rewrite HE. destruct e; [|split; [reflexivity|destruct d; reflexivity]]. eexists. split; [reflexivity|].
  split; [reflexivity|]. split; [reflexivity|]. split; [reflexivity|]. split; [apply lookup_insert|]. intros k Hk'. apply lookup_insert_ne. congruence.
Qed.
Print Assumptions C24_dynamic_index_queries.
(** checkNode of a dynamic layer: NONEXISTENT only for the ids of other prefixes, NEW or VISIBLE
    exactly for the nodes of the layer; for any other id of its prefix it is DELETED or throws. *)
Theorem C24_dynamic_check_node : forall g l p d x, reachable g -> g_dlayer g l p = Some d -> x < 2 ^ 64 ->
  (dl_check_node d x = Ok NNonexistent <-> prefix_from_id x <> p) /\
  (dl_check_node d x = Ok NNew \/ dl_check_node d x = Ok NVisible <-> layer_of g x = Some (key_dynamic l p) /\ prefix_from_id x = p) /\
  (prefix_from_id x = p -> layer_of g x <> Some (key_dynamic l p) -> dl_check_node d x = Ok NDeleted \/ dl_check_node d x = Throw).
Proof.
  intros g l p d x Hr Hd Hx. destruct (reachable_RepL g Hr) as [a [HR _]].
  destruct (rp_dinv _ _ HR _ _ _ Hd) as (Hc & Hid & Hp & _).
  assert (Hk : canon (key_dynamic l p)) by (intros ?; discriminate).
  assert (HL : g_part g (key_dynamic l p) = Some (dl_view d)) by (unfold g_part; cbn; rewrite Hd; reflexivity).
  pose proof (dl_has_node_true d x Hc Hx) as K. change (dl_nmap d !! x) with (sl_nodes (dl_view d) !! x) in K.
  assert (M : prefix_matches (dl_prefix d) x = true <-> prefix_from_id x = p) by (rewrite prefix_matches_from, Hp; split; congruence).
  assert (I : is_Some (sl_nodes (dl_view d) !! x) <-> layer_of g x = Some (key_dynamic l p)).
  { change (layer_of g x) with (g_lookup g !! x). rewrite (rp_home _ _ HR x (key_dynamic l p) Hk). rewrite HL. split; [intros H; exists (dl_view d); auto|].
    intros (v & [= <-] & H). exact H. }
  unfold dl_check_node. unfold dl_has_node in K. destruct (prefix_matches (dl_prefix d) x) eqn:E.
  - assert (Hpx : prefix_from_id x = p) by (apply M; reflexivity). cbn [negb andb] in *. unfold dl_has_index in K.
    pose proof (dlc_status_ok _ Hc (prefix_index x)) as Hst.
    destruct (dl_status d !! prefix_index x) as [s|] eqn:Es; cbn [at_].
    + destruct (Hst s eq_refl) as [->|[->| ->]].
      * split; [split; [discriminate|contradiction]|]. split; [split; [intros _; split; [apply I, K; reflexivity|exact Hpx]|auto]|].
        intros _ N. exfalso. apply N, I, K. reflexivity.
      * split; [split; [discriminate|contradiction]|]. split; [split; [intros _; split; [apply I, K; reflexivity|exact Hpx]|auto]|].
        intros _ N. exfalso. apply N, I, K. reflexivity.
      * split; [split; [discriminate|contradiction]|]. split; [|auto].
        split; [intros [?|?]; discriminate|]. intros [H _]. apply I, K in H. discriminate.
    + split; [split; [discriminate|contradiction]|]. split; [|auto].
      split; [intros [?|?]; discriminate|]. intros [H _]. apply I, K in H. discriminate.
  - assert (Hpx : prefix_from_id x <> p) by (intros H; apply M in H; discriminate). cbn [negb] in *.
    split; [split; auto|]. split; [|contradiction]. split; [intros [?|?]; discriminate|]. intros [_ H]. contradiction.
Qed.
Print Assumptions C24_dynamic_check_node.
(** It throws for an index never used, although hasNode answers false. *)
Theorem C24_check_node_throws_refuted : exists d, reachable ex_graph /\ g_dlayer ex_graph AGENTS pfx_a = Some d /\
  dl_check_node d (agent 0) = Ok NNew /\ dl_has_node d (agent 99) = false /\ dl_check_node d (agent 99) = Throw.
Proof.
  assert (K : match g_dlayer ex_graph AGENTS pfx_a with
    | Some d => match dl_check_node d (agent 0), dl_check_node d (agent 99) with
      | Ok NNew, Throw => negb (dl_has_node d (agent 99))
      | _, _ => false end
    | None => false end = true) by (vm_compute; reflexivity).
  destruct (g_dlayer ex_graph AGENTS pfx_a) as [d|]; [|discriminate]. exists d. split; [exact ex_reachable|]. split; [reflexivity|].
  destruct (dl_check_node d (agent 0)) as [[]| |]; try discriminate. destruct (dl_check_node d (agent 99)); try discriminate.
  destruct (dl_has_node d (agent 99)); [discriminate|]. auto.
Qed.
Print Assumptions C24_check_node_throws_refuted.
(** Neither holds for other arguments: findNode ignores the prefix of the id, and getNodeByIndex
    of 2^32 returns the node at position 0, which hasNodeByIndex denies. *)
Theorem C24_dynamic_find_refuted : exists d n m, reachable ex_graph /\ g_dlayer ex_graph AGENTS pfx_a = Some d /\
  dl_find_node d 1 = Some n /\ n_id n = agent 1 /\ dl_has_node d 1 = false /\
  dl_get_index d (2 ^ 32) = Ok m /\ n_id m = agent 0 /\ dl_has_index d (2 ^ 32) = false /\ dl_find_index d (2 ^ 32) = None.
Proof.
  assert (K : match g_dlayer ex_graph AGENTS pfx_a with
    | Some d => match dl_find_node d 1, dl_get_index d (2 ^ 32) with
      | Some n, Ok m => bool_decide (n_id n = agent 1) && negb (dl_has_node d 1) && bool_decide (n_id m = agent 0) && negb (dl_has_index d (2 ^ 32)) && match dl_find_index d (2 ^ 32) with None => true | _ => false end
      | _, _ => false end
    | None => false end = true) by (vm_compute; reflexivity).
  destruct (g_dlayer ex_graph AGENTS pfx_a) as [d|]; [|discriminate]. destruct (dl_find_node d 1) as [n|] eqn:E1; [|discriminate]. destruct (dl_get_index d (2 ^ 32)) as [m| |] eqn:E2; try discriminate.
  apply andb_true_iff in K as [K K5]. apply andb_true_iff in K as [K K4]. apply andb_true_iff in K as [K K3]. apply andb_true_iff in K as [K1 K2].
  exists d, n, m. split; [exact ex_reachable|]. split; [reflexivity|]. split; [exact E1|]. split; [exact (bool_decide_eq_true_1 _ K1)|]. split; [apply negb_true_iff, K2|]. split; [exact E2|].
  split; [exact (bool_decide_eq_true_1 _ K3)|]. split; [apply negb_true_iff, K4|]. destruct (dl_find_index d (2 ^ 32)); [discriminate|reflexivity].
Qed.
Print Assumptions C24_dynamic_find_refuted.

(** C23: the counts of dynamic layers, the mesh in numNodes, isDynamic. *)
Theorem C23_num_dynamic_layers_of_type : forall g l, exists ps, NoDup ps /\ (forall p, p ∈ ps <-> g_has_dlayer g l p = true) /\ length ps = g_num_dlayers_of_type g l.
Proof.
  intros g l. unfold g_num_dlayers_of_type, g_has_dlayer, g_dlayer. destruct (g_dlayers g !! l) as [m|].
  - exists (map_to_list m).*1. split; [apply NoDup_fst_map_to_list|]. split; [|rewrite fmap_length; apply map_to_list_len].
    intros p. rewrite bool_decide_eq_true, elem_of_list_fmap. split.
    + intros ([q d] & -> & H). apply elem_of_map_to_list in H. eauto.
    + intros [d H]. exists (p, d). split; [reflexivity|]. apply elem_of_map_to_list. exact H.
  - exists []. split; [apply NoDup_nil_2|]. split; [|reflexivity]. intros p. rewrite bool_decide_eq_true. split; [intros H; apply elem_of_nil in H; contradiction|intros [? ?]; discriminate].
Qed.
Print Assumptions C23_num_dynamic_layers_of_type.
Theorem C23_num_dynamic_layers : forall g, exists ks, NoDup ks /\ (forall l p, (l, p) ∈ ks <-> g_has_dlayer g l p = true) /\ length ks = g_num_dlayers g.
Proof.
  intros g. exists (concat (map (fun lm => map (fun pd => (fst lm, fst pd)) (map_to_list (snd lm))) (map_to_list (g_dlayers g)))). split; [|split].
  - pose proof (NoDup_fst_map_to_list (g_dlayers g)) as H. induction (map_to_list (g_dlayers g)) as [|[l m] r IH]; [apply NoDup_nil_2|].
    cbn [map concat fst snd]. rewrite fmap_cons in H. apply stdpp.list.NoDup_cons in H as [Hn H]. apply NoDup_app. split.
    + replace (map (fun pd : N * DLayer => (l, fst pd)) (map_to_list m)) with ((fun p : N => (l, p)) <$> (map_to_list m).*1).
      2:{ induction (map_to_list m) as [|q qs IHq]; [reflexivity|]. cbn. f_equal. exact IHq. }
      apply NoDup_fmap; [intros ? ? [= ->]; reflexivity|]. apply NoDup_fst_map_to_list.
    + split; [|apply IH, H]. intros [l' p] H1 H2. apply Hn. apply elem_of_list_In, in_map_iff in H1 as ([q d] & [= <- <-] & _).
      apply elem_of_list_In, in_concat in H2 as (xs & Hxs & Hin). apply in_map_iff in Hxs as ([l2 m2] & <- & Hl2). apply in_map_iff in Hin as ([q2 d2] & [= <- <-] & _).
      apply elem_of_list_fmap. exists (l2, m2). split; [reflexivity|apply elem_of_list_In, Hl2].
  - intros l p. unfold g_has_dlayer, g_dlayer. rewrite bool_decide_eq_true, elem_of_list_In, in_concat. split.
    + intros (xs & Hxs & Hin). apply in_map_iff in Hxs as ([l2 m2] & <- & Hl2). apply in_map_iff in Hin as ([q2 d2] & E & Hd). injection E as <- <-.
      apply elem_of_list_In, elem_of_map_to_list in Hl2. cbn in Hd. apply elem_of_list_In, elem_of_map_to_list in Hd. rewrite Hl2. eauto.
    + destruct (g_dlayers g !! l) as [m|] eqn:E; [|intros [? ?]; discriminate]. intros [d H]. eexists. split.
      * apply in_map_iff. exists (l, m). split; [reflexivity|]. apply elem_of_list_In, elem_of_map_to_list. exact E.
      * apply in_map_iff. exists (p, d). split; [reflexivity|]. apply elem_of_list_In, elem_of_map_to_list. exact H.
  - unfold g_num_dlayers. induction (map_to_list (g_dlayers g)) as [|[l m] r IH]; [reflexivity|]. cbn [map concat sum_list fst snd]. rewrite app_length, IH, map_length, map_to_list_len. reflexivity.
Qed.
Print Assumptions C23_num_dynamic_layers.
Theorem C23_mesh_counted : forall g, g_num_nodes g true = (g_num_nodes g false + match g_mesh g with Some m => length (m_points m) | None => 0 end)%nat /\
  g_has_mesh g = match g_mesh g with Some _ => true | None => false end.
Proof. intros g. unfold g_num_nodes, g_has_mesh. destruct (g_mesh g); cbn; split; reflexivity || lia. Qed.
Print Assumptions C23_mesh_counted.
Theorem C23_is_dynamic : forall g x, reachable g ->
  (g_is_dynamic g x = true <-> exists k, layer_of g x = Some k /\ lk_dynamic k = true) /\
  (g_is_dynamic g x = true -> exists t k a, node_data g x = Some (k, Some t, a)).
Proof.
  intros g x Hr. destruct (reachable_RepL g Hr) as [a [HR _]].
  assert (H1 : g_is_dynamic g x = true <-> exists k, layer_of g x = Some k /\ lk_dynamic k = true).
  { unfold g_is_dynamic. change (layer_of g x) with (g_lookup g !! x). destruct (g_lookup g !! x) as [k|]; [|split; [discriminate|intros (k & ? & _); discriminate]].
    split; [eauto|]. intros (k' & [= ->] & H). exact H. }
  split; [exact H1|]. intros H. apply H1 in H as (k & Hk & Hd). change (layer_of g x) with (g_lookup g !! x) in Hk.
  destruct (Rep_node_ptr _ _ _ _ HR Hk) as (L & n & HL & Hn & E & _).
  unfold node_data, node_at, g_find_node. change (layer_of g x) with (g_lookup g !! x). rewrite Hk, E.
  unfold g_part in HL. rewrite Hd in HL. destruct (g_dlayer g (lk_layer k) (lk_prefix k)) as [d|] eqn:Ed; [|discriminate]. injection HL as <-.
  destruct (rp_dinv _ _ HR _ _ _ Ed) as (Hc & _). cbn in Hn. destruct (dl_nmap_slot d x n Hc Hn) as (Hs & _). destruct (dlc_node _ Hc _ _ Hs) as (_ & _ & t & Ht). rewrite Ht. eauto.
Qed.
Print Assumptions C23_is_dynamic.
Example C23_dynamic_case : g_num_dlayers ex_graph = 1%nat /\ g_num_dlayers_of_type ex_graph AGENTS = 1%nat /\ g_num_dlayers_of_type ex_graph PLACES = 0%nat /\
  g_is_dynamic ex_graph (agent 1) = true /\ g_is_dynamic ex_graph 10 = false.
Proof. vm_compute. auto. Qed.
