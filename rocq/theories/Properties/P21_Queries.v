(** Queries: connections and parents of a node, status, position, change reports, edge keys and
    layer copies (C03, C09, C17, C22, C24, C25). *)
From Coq Require Import NArith ZArith Bool List Lia.
From stdpp Require Import base list gmap fin_maps.
From Verif.Model Require Import Types Mesh Attrs Node EdgeContainer SLayer DLayer Graph.
From Verif.Spec Require Import AbstractGraph GraphHistory LayerLog GraphObs.
From Verif.Proof Require Import Arith Keys SLayerP DLayerP DLayerOps GraphRep GraphEdges GraphSim LayerRep UpdateP GraphObsP GraphProps GraphProps2 LayerClone QueryP QueryP2.
From Verif.Properties Require Import ExGraph P03_Graph P06_Stale P20_Limits.
Local Open Scope N_scope.
#[local] Arguments edge_key : simpl never.

(** C17: getConnections lists exactly the nodes joined by an edge, each once. *)
Theorem C17_connections : forall g u nu, reachable g -> node_at g u = Some nu ->
  NoDup (node_connections nu) /\ forall v, v ∈ node_connections nu <-> adjacent g u v.
Proof.
  intros g u nu Hr Hu. destruct (reachable_RepL g Hr) as [a [HR _]].
  assert (HL : forall r v, v ∈ get_link r nu <-> a_related a r u v) by (intros r v; exact (obs_link g a HR u nu r v Hu)).
  assert (Hex : forall r r' v, v ∈ get_link r nu -> v ∈ get_link r' nu -> r = r').
  { intros r r' v H1 H2. apply HL in H1 as (_ & k & kv & K & Kv & E), H2 as (_ & k' & kv' & K' & Kv' & E'). congruence. }
  split.
  - unfold node_connections. apply NoDup_app. split; [apply NoDup_elements|]. split; [|apply NoDup_app; split; [apply NoDup_elements|split; [|apply NoDup_elements]]].
    + intros v Hv Hw. apply elem_of_elements in Hv. apply elem_of_app in Hw as [Hw|Hw]; apply elem_of_elements in Hw.
      * discriminate (Hex RSib RChild v Hv Hw).
      * discriminate (Hex RSib RParent v Hv Hw).
    + intros v Hv Hw. apply elem_of_elements in Hv, Hw. discriminate (Hex RChild RParent v Hv Hw).
  - intros v. unfold node_connections. rewrite !elem_of_app, !elem_of_elements, (obs_adjacent g a HR). split.
    + intros [H|[H|H]]; [apply (HL RSib v) in H as [H _]|apply (HL RChild v) in H as [H _]|apply (HL RParent v) in H as [H _]]; exact H.
    + intros H. destruct (Rep_linked_known g a u v HR H) as (_ & ku & kv & Ku & Kv). rewrite (rp_lookup _ _ HR) in Ku, Kv.
      destruct (rel ku kv) eqn:E.
      * right. left. apply (HL RChild v). split; [exact H|]. exists ku, kv. auto.
      * right. right. apply (HL RParent v). split; [exact H|]. exists ku, kv. auto.
      * left. apply (HL RSib v). split; [exact H|]. exists ku, kv. auto.
Qed.
Print Assumptions C17_connections.
Example C17_connections_case : (fun n => node_connections n) <$> node_at ex_graph 10 = Some [11; agent 1; 20].
Proof. vm_compute. reflexivity. Qed.

(** C22: hasParent and getParent mean exactly one parent; hasChildren and hasSiblings. *)
Theorem C22_parent_queries : forall g c n, reachable g -> node_at g c = Some n ->
  (node_has_parent n = true <-> exists p, is_parent_of g p c /\ forall q, is_parent_of g q c -> q = p) /\
  (forall p, node_get_parent n = Some p <-> is_parent_of g p c /\ forall q, is_parent_of g q c -> q = p) /\
  (node_has_children n = true <-> exists v, is_parent_of g c v) /\
  (node_has_siblings n = true <-> exists v kc kv, adjacent g c v /\ layer_of g c = Some kc /\ layer_of g v = Some kv /\ lk_layer kc = lk_layer kv).
Proof.
  intros g c n Hr Hn. destruct (reachable_RepL g Hr) as [a [HR _]].
  assert (HP : forall p, p ∈ n_par n <-> is_parent_of g p c).
  { intros p. rewrite (obs_parent_of g a HR). exact (obs_link g a HR c n RParent p Hn). }
  assert (HC : forall v, v ∈ n_chd n <-> is_parent_of g c v).
  { intros v. rewrite (obs_parent_of g a HR). rewrite (obs_link g a HR c n RChild v Hn : v ∈ n_chd n <-> _). unfold a_related.
    rewrite (a_linked_comm a v c). split; intros (Hl & k & k' & K & K' & E); (split; [exact Hl|]); exists k', k; (split; [exact K'|split; [exact K|]]).
    - apply rel_child in E. apply rel_parent. exact E.
    - apply rel_parent in E. apply rel_child. exact E. }
  assert (HS : forall v, v ∈ n_sib n <-> exists kc kv, adjacent g c v /\ layer_of g c = Some kc /\ layer_of g v = Some kv /\ lk_layer kc = lk_layer kv).
  { intros v. rewrite (obs_link g a HR c n RSib v Hn : v ∈ n_sib n <-> _). unfold a_related. setoid_rewrite (obs_adjacent g a HR). rewrite !(obs_layer g a HR). split.
    - intros (Hl & k & k' & K & K' & E). exists k, k'. apply rel_sym_sib in E. auto.
    - intros (k & k' & Hl & K & K' & E). split; [exact Hl|]. exists k, k'. rewrite rel_sym_sib. auto. }
  assert (HG : forall p, node_get_parent n = Some p <-> is_parent_of g p c /\ forall q, is_parent_of g q c -> q = p).
  { intros p. unfold node_get_parent. split.
    - destruct (elements (n_par n)) as [|x [|y r]] eqn:E; try discriminate. intros [= ->].
      assert (HX : forall q, q ∈ n_par n <-> q = p) by (intros q; rewrite <- elem_of_elements, E; apply elem_of_list_singleton).
      split; [apply HP, HX; reflexivity|]. intros q Hq. apply HX, HP, Hq.
    - intros [Hp Hq]. assert (HX : n_par n = {[p]}).
      { apply set_eq. intros q. rewrite elem_of_singleton, HP. split; [apply Hq|]. intros ->. exact Hp. }
      rewrite HX, elements_singleton. reflexivity. }
  split; [|split; [exact HG|split]].
  - setoid_rewrite <- HG. unfold node_has_parent. rewrite bool_decide_eq_true. split.
    + intros H. apply size_1_elem_of in H as (x & Hx). assert (n_par n = {[x]}) as HX by (apply set_eq; intros q; rewrite Hx; reflexivity).
      exists x. unfold node_get_parent. rewrite HX, elements_singleton. reflexivity.
    + intros (p & H). unfold node_get_parent in H. unfold size, set_size. cbn. destruct (elements (n_par n)) as [|x [|y r]]; try discriminate. reflexivity.
  - unfold node_has_children. rewrite bool_decide_eq_true. setoid_rewrite <- HC. split; [apply set_choose_L|]. intros (v & Hv) HE. rewrite HE in Hv. apply elem_of_empty in Hv. exact Hv.
  - unfold node_has_siblings. rewrite bool_decide_eq_true. setoid_rewrite <- HS. split; [apply set_choose_L|]. intros (v & Hv) HE. rewrite HE in Hv. apply elem_of_empty in Hv. exact Hv.
Qed.
Print Assumptions C22_parent_queries.
(** A node with one parent, one with two (insertEdge allows it), one with none. *)
Definition two_parents : Graph := match run_b ex_start (ex_ops ++ [GInsertEdge 10 21 None]) with Some g => g | None => ex_start end.
Example C22_parent_queries_case : reachable two_parents /\
  (fun n => (node_has_parent n, node_get_parent n)) <$> node_at two_parents 10 = Some (false, None) /\
  (fun n => (node_has_parent n, node_get_parent n)) <$> node_at two_parents 11 = Some (true, Some 20) /\
  (fun n => (node_has_parent n, node_get_parent n, node_has_children n, node_has_siblings n)) <$> node_at two_parents 20 = Some (false, None, true, false).
Proof. split; [apply run_b_start; vm_compute; reflexivity|]. vm_compute. auto. Qed.

(** C24: findNode, getNode, getPosition and checkNode on every id. *)
Theorem C24_queries : forall g x, reachable g ->
  g_get_position g x = match node_data g x with Some (_, _, b) => Ok (attrs_position b) | None => Throw end /\
  (g_find_node g x = Ok (node_at g x)) /\
  (g_get_node g x = match node_at g x with Some n => Ok n | None => Throw end) /\
  (exists s, g_check_node g x = Ok s /\ (g_has_node g x = true -> s = NNew \/ s = NVisible) /\ (g_has_node g x = false -> s = NNonexistent)).
Proof.
  intros g x Hr. destruct (reachable_RepL g Hr) as [a [HR _]]. split; [exact (position_query g a x HR)|].
  destruct (obs_find_ok g a HR x) as [o Ho]. assert (Hn : g_find_node g x = Ok (node_at g x)) by (unfold node_at; rewrite Ho; reflexivity).
  split; [exact Hn|]. split; [unfold g_get_node; rewrite Hn; destruct (node_at g x); reflexivity|].
  destruct (layer_of g x) as [k|] eqn:E.
  - assert (Hh : g_has_node g x = true) by (unfold g_has_node; apply bool_decide_eq_true; exists k; exact E). rewrite Hh.
    destruct (status_known g a x k HR E) as [H|H]; rewrite H; eexists; (split; [reflexivity|]); (split; [intros _; auto|discriminate]).
  - assert (Hh : g_has_node g x = false) by (unfold g_has_node; apply bool_decide_eq_false; change (g_lookup g !! x) with (layer_of g x); rewrite E; intros [? ?]; discriminate).
    rewrite Hh, (status_unknown g x E). eexists. split; [reflexivity|]. split; [discriminate|reflexivity].
Qed.
Print Assumptions C24_queries.
(** The queries of a dynamic layer of a graph; ids of other layers included. *)
Theorem C24_dynamic_layer_queries : forall g l p d x, reachable g -> g_dlayer g l p = Some d -> x < 2 ^ 64 ->
  dl_get_position d x = (if dl_has_node d x then match node_data g x with Some (_, _, b) => Ok (attrs_position b) | None => UB end else Throw) /\
  (dl_has_node d x = true -> is_Some (node_data g x)).
Proof.
  intros g l p d x Hr Hd Hx. destruct (reachable_RepL g Hr) as [a [HR _]]. destruct (rp_dinv _ _ HR _ _ _ Hd) as (Hc & Hid & Hp & _).
  unfold dl_get_position. destruct (dl_has_node d x) eqn:E; cbn [negb]; [|split; [reflexivity|discriminate]].
  apply (dl_has_node_true d x Hc Hx) in E as [n Hn]. destruct (dl_nmap_slot d x n Hc Hn) as (Hs & _). rewrite dl_slot_lookup, Hs. cbn [at_ deref rbind].
  assert (Hk : layer_of g x = Some (key_dynamic l p)) by (apply (dyn_home g a l p d x HR Hd); eauto).
  destruct (known_layer g a x _ HR Hk) as [(s & m & K & _)|(d' & m & _ & Hd' & Hm & _ & Hno & _)]; [discriminate|]. cbn in Hd'.
  assert (d' = d) as -> by congruence. assert (m = n) as -> by congruence. unfold node_data. rewrite Hk, Hno. split; [reflexivity|eauto].
Qed.
Print Assumptions C24_dynamic_layer_queries.
Example C24_queries_case : g_get_position ex_graph 11 = Ok (mkVec3 1 0 0) /\ g_get_position ex_graph 99 = Throw /\
  g_get_position ex_graph (agent 1) = Ok (mkVec3 0 0 2) /\ g_check_node ex_graph 99 = Ok NNonexistent.
Proof. vm_compute. auto. Qed.

(** C09 at graph level: getNewNodes lists exactly the nodes whose checkNode is NEW, each once; a
    clearing call turns those into VISIBLE and changes no other status; the next report is empty. *)
Theorem C09_graph_new_nodes : forall g b, reachable g ->
  NoDup (fst (g_get_new_nodes g b)) /\
  (forall x, x ∈ fst (g_get_new_nodes g b) <-> g_check_node g x = Ok NNew) /\
  (forall x, g_check_node (snd (g_get_new_nodes g true)) x = match g_check_node g x with Ok NNew => Ok NVisible | s => s end) /\
  fst (g_get_new_nodes (snd (g_get_new_nodes g true)) b) = [] /\
  same_nodes g (snd (g_get_new_nodes g true)) /\ same_edges g (snd (g_get_new_nodes g true)).
Proof.
  intros g b Hr. destruct (reachable_RepL g Hr) as [a [HR _]]. split; [exact (new_nodes_nodup g a b HR)|].
  split; [intros x; exact (new_nodes_iff g a b x HR)|].
  assert (Hst : forall x, g_check_node (snd (g_get_new_nodes g true)) x = match g_check_node g x with Ok NNew => Ok NVisible | s => s end).
  { intros x. rewrite cleared_status. destruct (g_check_node g x) as [[]| |]; reflexivity. }
  split; [exact Hst|]. destruct (reachable_step g (GNewNodes true) Hr I) as (a1 & [HR1 _] & H). cbn [g_step] in H.
  set (g' := snd (g_get_new_nodes g true)) in *. cbn in H.
  destruct H as (_ & HRL & _). assert (HR' : Rep g' a1) by exact (proj1 HRL). split.
  - destruct (fst (g_get_new_nodes g' b)) as [|x r] eqn:E; [reflexivity|]. exfalso.
    assert (Hx : x ∈ fst (g_get_new_nodes g' b)) by (rewrite E; left). apply (new_nodes_iff g' a1 b x HR') in Hx. rewrite Hst in Hx.
    destruct (g_check_node g x) as [[]| |]; discriminate.
  - split; [exact (obs_same_nodes g g' _ _ HR1 HR' eq_refl)|exact (obs_same_edges g g' _ _ HR1 HR' eq_refl)].
Qed.
Print Assumptions C09_graph_new_nodes.

(** C09/C06 at graph level: edges reported as new exist; every insertion and removal is reported. *)
Theorem C06_graph_edge_reports : forall g b, reachable g ->
  (forall k, k ∈ fst (g_get_new_edges g b) -> k = edge_key (fst k) (snd k) /\ adjacent g (fst k) (snd k)) /\
  (forall u v i g', g_step g (GInsertEdge u v i) = Ok (true, g') -> edge_key u v ∈ fst (g_get_new_edges g' b)) /\
  (forall u v i g', g_step g (GInsertParentEdge u v i) = Ok (true, g') -> edge_key u v ∈ fst (g_get_new_edges g' b)) /\
  (forall u v g', g_step g (GRemoveEdge u v) = Ok (true, g') -> edge_key u v ∈ fst (g_get_removed_edges g' b)) /\
  fst (g_get_new_edges (snd (g_get_new_edges g true)) b) = [] /\
  fst (g_get_removed_edges (snd (g_get_removed_edges g true)) b) = [].
Proof.
  intros g b Hr. destruct (reachable_RepL g Hr) as [a [HR _]].
  split; [intros k; exact (new_edge_live g a b k HR)|]. split; [intros u v i g'; apply insert_edge_reported|].
  split; [intros u v i g'; apply insert_parent_edge_reported|]. split; [intros u v g'; apply remove_edge_reported|]. split.
  - destruct (fst (g_get_new_edges (snd (g_get_new_edges g true)) b)) as [|k r] eqn:E; [reflexivity|]. exfalso.
    assert (Hk : k ∈ fst (g_get_new_edges (snd (g_get_new_edges g true)) b)) by (rewrite E; left). exact (new_edges_cleared g b k Hk).
  - destruct (fst (g_get_removed_edges (snd (g_get_removed_edges g true)) b)) as [|k r] eqn:E; [reflexivity|]. exfalso.
    assert (Hk : k ∈ fst (g_get_removed_edges (snd (g_get_removed_edges g true)) b)) by (rewrite E; left). exact (removed_edges_cleared g b k Hk).
Qed.
Print Assumptions C06_graph_edge_reports.
Theorem C09_graph_removed_nodes : forall g b x g', reachable g -> g_step g (GRemoveNode x) = Ok (true, g') ->
  x ∈ fst (g_get_removed_nodes g' b).
Proof.
  intros g b x g' Hr H. destruct (reachable_RepL g Hr) as [a [HR _]]. exact (remove_node_reported g a x g' b HR H).
Qed.
Print Assumptions C09_graph_removed_nodes.
Definition in_list (x : N) (l : list N) : bool := bool_decide (x ∈ l).
Example C09_graph_case :
  length (fst (g_get_new_nodes ex_graph false)) = 8%nat /\ in_list (agent 1) (fst (g_get_new_nodes ex_graph false)) = true /\
  length (fst (g_get_new_edges ex_graph false)) = 8%nat /\
  match g_step ex_graph (GRemoveNode (agent 1)) with Ok (true, g') => fst (g_get_removed_nodes g' false) | _ => [] end = [agent 1] /\
  match g_step ex_graph (GRemoveNode 10) with Ok (true, g') => (length (fst (g_get_removed_edges g' false)), fst (g_get_removed_nodes g' false)) | _ => (0%nat, []) end = (3%nat, [10]).
Proof. vm_compute. auto 10. Qed.

(** C03: edge keys are ordered lexicographically; == is equality. *)
Theorem C03_edge_key_order : forall a b c : EdgeKey,
  (edge_key_eqb a b = true <-> a = b) /\
  (edge_key_ltb a b = true <-> fst a < fst b \/ (fst a = fst b /\ snd a < snd b)) /\
  edge_key_ltb a a = false /\
  (edge_key_ltb a b = true -> edge_key_ltb b c = true -> edge_key_ltb a c = true) /\
  (a = b \/ edge_key_ltb a b = true \/ edge_key_ltb b a = true) /\
  (forall u v x y, edge_key_eqb (edge_key u v) (edge_key x y) = true <-> same_pair u v x y).
Proof.
  assert (HL : forall a b : EdgeKey, edge_key_ltb a b = true <-> fst a < fst b \/ (fst a = fst b /\ snd a < snd b)).
  { intros [a1 a2] [b1 b2]. unfold edge_key_ltb. cbn [fst snd]. destruct (N.eqb_spec a1 b1) as [->|Hne]; rewrite N.ltb_lt; lia. }
  assert (HE : forall a b : EdgeKey, edge_key_eqb a b = true <-> a = b).
  { intros a b. destruct a as [a1 a2], b as [b1 b2]. unfold edge_key_eqb. cbn [fst snd]. rewrite andb_true_iff, !N.eqb_eq. split; [intros [-> ->]; reflexivity|]. intros [= -> ->]. auto. }
  intros a b c. split; [exact (HE a b)|split; [exact (HL a b)|split; [|split; [|split]]]].
  - apply not_true_iff_false. rewrite HL. lia.
  - rewrite !HL. lia.
  - rewrite !HL. destruct a as [a1 a2], b as [b1 b2]. cbn [fst snd]. destruct (N.lt_trichotomy a1 b1) as [|[->|]], (N.lt_trichotomy a2 b2) as [|[->|]]; auto; right; lia.
  - intros u v x y. rewrite HE. apply edge_key_inj.
Qed.
Print Assumptions C03_edge_key_order.

(** C25 for one layer: SceneGraphLayer::clone with a node filter, on a stand-alone layer or a layer of
    a graph.  It never fails; the copy is a stand-alone layer holding exactly the selected nodes, with
    their attributes and status (the timestamp of a static node is dropped), and exactly the edges
    between selected nodes, with their source, target and attributes; all its edges are new. *)
Definition layer_of_graph (l : SLayer) : Prop := exists g lid, reachable g /\ g_layers g !! lid = Some l.
Theorem C25_layer_clone : forall l (f : Node -> bool), (exists lid, layer_reachable lid l) \/ layer_of_graph l ->
  exists l', sl_clone l f = Ok l' /\ layer_reachable (sl_id l) l' /\
    (forall x, (fun n => (n_time n, n_attrs n)) <$> sl_find_node l' x =
       match sl_find_node l x with Some n => if f n then Some (None, n_attrs n) else None | None => None end) /\
    (forall x, sl_has_node l' x = true -> sl_check_node l' x = sl_check_node l x) /\
    (forall u v, fst (sl_find_edge l' u v) = if sl_has_node l' u && sl_has_node l' v then fst (sl_find_edge l u v) else None).
Proof.
  intros l f Hl. assert (Hwf : sl_wf l).
  { destruct Hl as [[lid H]|(g & lid & Hr & H)]; [exact (al_wf _ _ (reachable_alone lid l H))|].
    destruct (reachable_RepL g Hr) as [a [HR _]]. exact (proj1 (rp_part _ _ HR (key_static lid) l (fun _ => eq_refl) H)). }
  destruct (clone_layer_ok l f Hwf) as (l' & E & Hr & Hn & Hs & He). exists l'. split; [exact E|]. split; [exact Hr|]. split; [exact Hn|].
  pose proof (al_wf _ _ (reachable_alone _ l' Hr)) as Hwf'. split.
  - intros x Hx. rewrite Hs. apply sl_has_node_true in Hx. specialize (Hn x). destruct (sl_nodes l !! x) as [n|].
    + destruct (f n); [reflexivity|]. destruct (sl_nodes l' !! x); [discriminate|]. destruct Hx; discriminate.
    + destruct (sl_nodes l' !! x); [discriminate|]. destruct Hx; discriminate.
  - intros u v. cbn. unfold ec_find.
    assert (HK : forall L e, sl_wf L -> ec_edges (sl_edges L) !! edge_key u v = Some e -> (e_src e = u /\ e_tgt e = v) \/ (e_src e = v /\ e_tgt e = u)).
    { intros L e HL K. apply (ecw_key _ (slw_ec _ HL)), edge_key_inj in K as [[K1 K2]|[K1 K2]]; auto. }
    destruct (sl_has_node l' u && sl_has_node l' v) eqn:B.
    + apply andb_true_iff in B as [B1 B2]. apply sl_has_node_true in B1, B2. destruct (ec_edges (sl_edges l) !! edge_key u v) as [e|] eqn:K.
      * apply He. split; [exact K|]. destruct (HK l e Hwf K) as [[-> ->]|[-> ->]]; auto.
      * destruct (ec_edges (sl_edges l') !! edge_key u v) as [e|] eqn:K'; [|reflexivity]. apply He in K' as [K' _]. congruence.
    + destruct (ec_edges (sl_edges l') !! edge_key u v) as [e|] eqn:K'; [|reflexivity]. exfalso.
      pose proof (HK l' e Hwf' K') as D. apply He in K' as (_ & H1 & H2). apply sl_has_node_true in H1, H2.
      destruct D as [[D1 D2]|[D1 D2]]; rewrite D1 in H1; rewrite D2 in H2; rewrite H1, H2 in B; discriminate.
Qed.
Print Assumptions C25_layer_clone.
(** Copying the places of the example graph except node 12. *)
Example C25_layer_clone_case :
  match g_layers ex_graph !! PLACES with
  | Some l => match sl_clone l (fun n => negb (n_id n =? 12)) with
              | Ok l' => (map fst (map_to_list (sl_nodes l')), map fst (map_to_list (ec_edges (sl_edges l'))), sl_check_node l' 12)
              | _ => ([], [], NNew) end
  | None => ([], [], NNew) end = ([11; 10], [(10, 11)], NNonexistent).
Proof. vm_compute. reflexivity. Qed.

(** C51: a history with refused calls; the answers are those of the abstract graph. *)
Definition c51_ops : list gop := ex_ops ++ [GEmplace PLACES 10 (base_at 9 9 9); GInsertEdge 10 10 None; GMergeNodes 10 12; GRemoveNode (agent 1); GRemoveEdge 11 12; GRemoveEdge 11 12].
Example C51_case : g_new default_layer_ids = Ok ex_start /\ UNKNOWN_LAYER ∉ default_layer_ids /\ allowed_run ex_start c51_ops /\
  map (fun o => match o with ABool b => b | AThrow => false end) (skipn 14 (fst (a_run (a_init default_layer_ids) c51_ops))) = [false; false; true; true; true; false] /\
  size (ag_nodes (snd (a_run (a_init default_layer_ids) c51_ops))) = 6%nat.
Proof.
  split; [reflexivity|]. split; [apply (bool_decide_eq_false_1 (UNKNOWN_LAYER ∈ default_layer_ids)); vm_compute; reflexivity|].
  split; [apply allowed_run_b_ok; vm_compute; reflexivity|]. vm_compute. auto.
Qed.
