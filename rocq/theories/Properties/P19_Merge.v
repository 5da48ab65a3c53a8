(** C27: mergeGraph. *)
From Coq Require Import NArith ZArith Bool List Lia.
From stdpp Require Import base list gmap fin_maps.
From Verif.Model Require Import Types Mesh Attrs Node EdgeContainer SLayer DLayer Graph.
From Verif.Spec Require Import AbstractGraph GraphHistory LayerLog GraphObs MergeSpec.
From Verif.Proof Require Import Keys SLayerP GraphRep GraphSim GraphObsP GraphProps GraphMesh MergeP1 MergeP5 MergeP6 MergeP7.
From Verif.Properties Require Import ExGraph.
Local Open Scope N_scope.
#[local] Arguments edge_key : simpl never.

(** The positions of nodes appended to a dynamic layer are computed with [vadd] and [vsub]; the
    theorems hold for every such pair of functions, in particular for IEEE addition. *)

(** What a successful call gives us. *)
Lemma merge_run vadd vsub cfg g other g' other' : reachable g -> reachable other -> merge_ok cfg g other ->
  g_merge_graph vadd vsub g other cfg = Ok (g', other') ->
  exists a ao a', RepL g a /\ RepL other ao /\ RepL g' a' /\ am_ok cfg g other a ao /\
    Merged vadd vsub cfg g other a ao g' a' /\ other' = other_read cfg g other.
Proof.
  intros Hg Ho Hok E. destruct (reachable_RepL g Hg) as [a HR]. destruct (reachable_RepL other Ho) as [ao HRo].
  destruct (merge_RepL vadd vsub cfg g other a ao HR HRo Hok) as (g1 & a' & E1 & HR' & M). rewrite E in E1. injection E1 as -> ->.
  exists a, ao, a'. split; [exact HR|]. split; [exact HRo|]. split; [exact HR'|]. split; [apply merge_am_ok; [apply HR|apply HRo|exact Hok]|]. auto.
Qed.

Lemma mesh_merge_layer1 cfg g o x : keepm g (g_merge_layer1 cfg (g, o) x) fst.
Proof.
  destruct x as [l ol]. unfold g_merge_layer1. destruct (g_layers g !! l) as [s0|]; [|reflexivity].
  destruct (sl_get_removed_nodes ol _) as [rm ol1]. eapply (keepm_trans _ _ _ id).
  { apply keepm_rfold. intros g1 y. eapply (keepm_trans _ _ _ snd); [apply keepm_remove_node|]. intros [b g2]. reflexivity. }
  intros g1. cbn [id]. destruct (ec_get_removed _ _) as [re e1]. eapply (keepm_trans _ _ _ id).
  { apply keepm_rfold. intros g2 k. apply keepm_bind. intros s _. apply keepm_bind. intros [b s'] _. reflexivity. }
  intros g2. cbn [id]. apply keepm_bind. intros s _. apply keepm_bind. intros [s' lk] _. reflexivity.
Qed.
Lemma mesh_merge_edges cfg xs g : keepm g (rfold (g_merge_edge1 cfg) xs g) id.
Proof.
  apply keepm_rfold. intros g1 x. unfold g_merge_edge1. destruct (_ =? _); [reflexivity|]. eapply (keepm_trans _ _ _ snd).
  - destruct (mc_enforce_parent cfg); [apply keepm_insert_parent_edge|apply keepm_insert_edge].
  - intros [b g2]. reflexivity.
Qed.
Lemma merge_mesh vadd vsub cfg g other : keepm g (g_merge_graph vadd vsub g other cfg) fst.
Proof.
  unfold g_merge_graph. eapply (keepm_trans _ _ _ id).
  { unfold g_merge_dlayers. apply keepm_rfold. intros g1 [[l p] od]. apply keepm_bind. intros d _. apply keepm_bind. intros [d' lk] _.
    cbn. unfold g_create_dlayer. destruct (g_has_dlayer g1 l p); reflexivity. }
  intros g1. cbn [id]. eapply (keepm_trans _ _ _ fst).
  { assert (H : forall xs o g0, keepm g0 (rfold (g_merge_layer1 cfg) xs (g0, o)) fst); [|apply H].
    induction xs as [|x r IH]; intros o g0; cbn [rfold]; [reflexivity|].
    eapply (keepm_trans _ _ _ fst); [apply mesh_merge_layer1|]. intros [g2 o2]. apply IH. }
  intros [g2 o2]. cbn [fst]. eapply (keepm_trans _ _ _ id); [apply mesh_merge_edges|]. intros g3. cbn [id].
  eapply (keepm_trans _ _ _ id); [apply mesh_merge_edges|]. intros g4. reflexivity.
Qed.

(** C27: the call succeeds; the result is a reachable graph (so every consistency theorem applies
    to it) with the same layer ids and mesh.  The graph merged in keeps its nodes and edges; with
    clear_removed = false it is not changed at all. *)
Theorem C27_merge_succeeds : forall vadd vsub cfg g other, reachable g -> reachable other -> merge_ok cfg g other ->
  exists g' other', g_merge_graph vadd vsub g other cfg = Ok (g', other') /\
    reachable g' /\ g_layer_ids g' = g_layer_ids g /\ g_mesh g' = g_mesh g /\
    same_nodes other other' /\ same_edges other other' /\ (mc_clear_removed cfg = false -> other' = other).
Proof.
  intros vadd vsub cfg g other Hg Ho Hok. destruct (reachable_RepL g Hg) as [a HR]. destruct (reachable_RepL other Ho) as [ao HRo].
  destruct (merge_RepL vadd vsub cfg g other a ao HR HRo Hok) as (g' & a' & E & HR' & M). exists g', (other_read cfg g other).
  split; [exact E|]. split; [exact (reach_merge vadd vsub cfg g other g' _ Hg Ho Hok E)|]. split; [exact (ms_ids _ _ _ _ _ _ _ _ _ M)|].
  split; [pose proof (merge_mesh vadd vsub cfg g other) as K; rewrite E in K; exact K|].
  pose proof (other_read_RepL cfg g other ao HRo) as HRr.
  split; [exact (obs_same_nodes _ _ _ _ (proj1 HRo) (proj1 HRr) eq_refl)|]. split; [exact (obs_same_edges _ _ _ _ (proj1 HRo) (proj1 HRr) eq_refl)|].
  intros Hc. exact (other_read_same cfg g other Hc).
Qed.
Print Assumptions C27_merge_succeeds.

(** C27: nodes a shared layer of [other] reports as removed are gone. *)
Theorem C27_removed_nodes_gone : forall vadd vsub cfg g other g' other', reachable g -> reachable other -> merge_ok cfg g other ->
  g_merge_graph vadd vsub g other cfg = Ok (g', other') ->
  forall x, reported_removed g other x -> g_has_node g' x = false.
Proof.
  intros vadd vsub cfg g other g' other' Hg Ho Hok E x Hx. destruct (merge_run _ _ _ _ _ _ _ Hg Ho Hok E) as (a & ao & a' & [HR _] & [HRo _] & [HR' _] & HM & MS & _).
  exact (seen_removed vadd vsub cfg g other a ao g' a' HR HRo HM MS x Hx).
Qed.
Print Assumptions C27_removed_nodes_gone.

(** C27: a node of a static layer of [other] that the graph has too.  If it was merged away in the
    graph nothing happens to it.  Otherwise a new node gets [other]'s attributes (and no time), a
    known one keeps its layer and time and takes over [other]'s attributes exactly when the
    configuration updates that layer and either updates archived nodes or the node is active. *)
Theorem C27_static_nodes : forall vadd vsub cfg g other g' other', reachable g -> reachable other -> merge_ok cfg g other ->
  g_merge_graph vadd vsub g other cfg = Ok (g', other') ->
  forall x l t b, node_data other x = Some (key_static l, t, b) -> g_has_layer g l = true ->
  (merged_away g l x -> node_data g' x = node_data g x) /\
  (~ merged_away g l x -> match node_data g x with
    | None => node_data g' x = Some (key_static l, None, b)
    | Some (k0, t0, b0) =>
        k0 = key_static l /\
        (updates_layer cfg l /\ (mc_update_archived cfg = true \/ attrs_is_active b0 = true) -> node_data g' x = Some (k0, t0, b)) /\
        (~ (updates_layer cfg l /\ (mc_update_archived cfg = true \/ attrs_is_active b0 = true)) -> node_data g' x = Some (k0, t0, b0))
    end).
Proof.
  intros vadd vsub cfg g other g' other' Hg Ho Hok E x l t b Hd HL. destruct (merge_run _ _ _ _ _ _ _ Hg Ho Hok E) as (a & ao & a' & [HR _] & [HRo _] & [HR' _] & HM & MS & _).
  unfold g_has_layer in HL. apply bool_decide_eq_true in HL. split.
  - intros Hm. exact (seen_static_away vadd vsub cfg g other a ao g' a' HR HRo HM MS x l t b Hd HL Hm).
  - intros Hm. destruct (node_data g x) as [[[k0 t0] b0]|] eqn:Eg.
    + split; [|exact (seen_static_old vadd vsub cfg g other a ao g' a' HR HRo HM MS x l t b k0 t0 b0 Hd HL Hm Eg)].
      assert (Hlo : layer_of other x = Some (key_static l)) by (unfold node_data in Hd; destruct (layer_of other x), (node_at other x); congruence).
      assert (Hlg : layer_of g x = Some k0) by (unfold node_data in Eg; destruct (layer_of g x), (node_at g x); congruence).
      destruct (mk_same_layer _ _ _ Hok x _ Hlo); congruence.
    + apply (seen_static_new vadd vsub cfg g other a ao g' a' HR HRo HM MS x l t b Hd HL Hm).
      destruct (g_has_node g x) eqn:Eh; [exfalso|reflexivity]. apply (obs_known _ _ HR) in Eh as [n Hn]. rewrite (obs_data _ _ HR), Hn in Eg. discriminate.
Qed.
Print Assumptions C27_static_nodes.

(** C27: a node of a dynamic layer of [other].  A known node keeps its layer, time and position and
    takes over [other]'s other attributes iff update_dynamic is set; a new one gets [other]'s time
    and attributes, its position moved by the drift of the last common node. *)
Theorem C27_dynamic_nodes : forall vadd vsub cfg g other g' other', reachable g -> reachable other -> merge_ok cfg g other ->
  g_merge_graph vadd vsub g other cfg = Ok (g', other') ->
  forall x l p t b, node_data other x = Some (key_dynamic l p, t, b) ->
  match node_data g x with
  | Some (k0, t0, b0) => node_data g' x = Some (k0, t0, if mc_update_dynamic cfg then attrs_set_position b (attrs_position b0) else b0)
  | None => exists d, drift vsub g other l p d /\ node_data g' x = Some (key_dynamic l p, t, attrs_set_position b (vadd (attrs_position b) d))
  end.
Proof.
  intros vadd vsub cfg g other g' other' Hg Ho Hok E x l p t b Hd. destruct (merge_run _ _ _ _ _ _ _ Hg Ho Hok E) as (a & ao & a' & [HR _] & [HRo _] & [HR' _] & HM & MS & _).
  destruct (node_data g x) as [[[k0 t0] b0]|] eqn:Eg.
  - exact (seen_dynamic_old vadd vsub cfg g other a ao g' a' HR HRo HM MS x l p t b k0 t0 b0 Hd Eg).
  - apply (seen_dynamic_new vadd vsub cfg g other a ao g' a' HR HRo HM MS x l p t b Hd).
    destruct (g_has_node g x) eqn:Eh; [exfalso|reflexivity]. apply (obs_known _ _ HR) in Eh as [n Hn]. rewrite (obs_data _ _ HR), Hn in Eg. discriminate.
Qed.
Print Assumptions C27_dynamic_nodes.

(** C27: no other node changes. *)
Theorem C27_unrelated_nodes : forall vadd vsub cfg g other g' other', reachable g -> reachable other -> merge_ok cfg g other ->
  g_merge_graph vadd vsub g other cfg = Ok (g', other') ->
  forall x, ~ reported_removed g other x -> ~ covered g other x -> node_data g' x = node_data g x.
Proof.
  intros vadd vsub cfg g other g' other' Hg Ho Hok E x. destruct (merge_run _ _ _ _ _ _ _ Hg Ho Hok E) as (a & ao & a' & [HR _] & [HRo _] & [HR' _] & HM & MS & _).
  exact (seen_rest vadd vsub cfg g other a ao g' a' HR HRo HM MS x).
Qed.
Print Assumptions C27_unrelated_nodes.

(** C27: an edge is as before, or it is gone for one of the reasons of [dropped], or it is an edge of
    [other] where there was none (or one that was dropped). *)
Theorem C27_edges_explained : forall vadd vsub cfg g other g' other', reachable g -> reachable other -> merge_ok cfg g other ->
  g_merge_graph vadd vsub g other cfg = Ok (g', other') ->
  forall u v, edge_at g' u v = edge_at g u v \/ (edge_at g' u v = None /\ dropped cfg g other g' u v) \/
    exists e, edge_at g' u v = Some e /\ brought cfg other u v e /\ (edge_at g u v = None \/ dropped cfg g other g' u v).
Proof.
  intros vadd vsub cfg g other g' other' Hg Ho Hok E u v. destruct (merge_run _ _ _ _ _ _ _ Hg Ho Hok E) as (a & ao & a' & [HR _] & [HRo _] & [HR' _] & HM & MS & _).
  exact (seen_edges vadd vsub cfg g other a ao g' a' HR HRo HM MS u v).
Qed.
Print Assumptions C27_edges_explained.

(** C27: every edge of [other] arrives, with its own ends or with the nodes they were merged into
    (when those are in the same layers and differ), unless parents are enforced and [other] brings
    the child another parent. *)
Theorem C27_edges_arrive : forall vadd vsub cfg g other g' other', reachable g -> reachable other -> merge_ok cfg g other ->
  g_merge_graph vadd vsub g other cfg = Ok (g', other') ->
  let f := renamed cfg in
  forall u v, adjacent other u v -> f u <> f v -> layer_of g' (f u) = layer_of other u -> layer_of g' (f v) = layer_of other v ->
    adjacent g' u v \/ adjacent g' (f u) (f v) \/
    (mc_enforce_parent cfg = true /\ exists c p q x y, same_pair q c (f u) (f v) /\ above g' q c /\
       adjacent other x y /\ same_pair p c (f x) (f y) /\ above g' p c /\ p <> q).
Proof.
  intros vadd vsub cfg g other g' other' Hg Ho Hok E f u v. destruct (merge_run _ _ _ _ _ _ _ Hg Ho Hok E) as (a & ao & a' & [HR _] & [HRo _] & [HR' _] & HM & MS & _).
  exact (seen_brought vadd vsub cfg g other a ao g' a' HR HRo HM MS u v).
Qed.
Print Assumptions C27_edges_arrive.

(** C27: without a table of earlier merges, and if no node of [other] has two parents (needed only
    when parents are enforced): every edge of [other] between nodes that the graph now has is in the
    graph, and if there was none before it is [other]'s edge, attributes included. *)
Theorem C27_all_edges_brought_in : forall vadd vsub cfg g other g' other', reachable g -> reachable other -> merge_ok cfg g other ->
  g_merge_graph vadd vsub g other cfg = Ok (g', other') ->
  mc_previous cfg = None -> (mc_enforce_parent cfg = true -> one_parent other) ->
  forall u v, adjacent other u v -> g_has_node g' u = true -> g_has_node g' v = true ->
    adjacent g' u v /\ (edge_at g u v = None -> edge_at g' u v = edge_at other u v).
Proof.
  intros vadd vsub cfg g other g' other' Hg Ho Hok E Hp H1 u v. destruct (merge_run _ _ _ _ _ _ _ Hg Ho Hok E) as (a & ao & a' & [HR _] & [HRo _] & [HR' _] & HM & MS & _).
  exact (seen_brought_id vadd vsub cfg g other a ao g' a' HR HRo HM MS Hp H1 u v).
Qed.
Print Assumptions C27_all_edges_brought_in.

(** C27: merging the same graph again is possible and changes neither nodes nor edges. *)
Theorem C27_merge_twice : forall vadd vsub cfg g other g' other', reachable g -> reachable other -> merge_ok cfg g other ->
  g_merge_graph vadd vsub g other cfg = Ok (g', other') ->
  mc_previous cfg = None -> (mc_enforce_parent cfg = true -> one_parent other) ->
  merge_ok cfg g' other /\
  exists g2 other2, g_merge_graph vadd vsub g' other cfg = Ok (g2, other2) /\ same_nodes g' g2 /\ same_edges g' g2.
Proof.
  intros vadd vsub cfg g other g' other' Hg Ho Hok E Hp H1. destruct (merge_run _ _ _ _ _ _ _ Hg Ho Hok E) as (a & ao & a' & HR & HRo & HR' & HM & MS & _).
  pose proof (merge_ok_again vadd vsub cfg g other a ao g' a' HR HRo Hok MS Hp) as Hok2. split; [exact Hok2|].
  destruct (merge_RepL vadd vsub cfg g' other a' ao HR' HRo Hok2) as (g2 & a2 & E2 & HR2 & M2). exists g2, (other_read cfg g' other). split; [exact E2|]. split.
  - intros x. rewrite (obs_data _ _ (proj1 HR2)), (obs_data _ _ (proj1 HR')).
    rewrite (again_nodes vadd vsub cfg g other a ao g' a' HR HRo Hok MS HR' Hp g2 a2 M2). reflexivity.
  - intros u v. rewrite (obs_edge _ _ (proj1 HR2)), (obs_edge _ _ (proj1 HR')).
    exact (again_edges vadd vsub cfg g other a ao g' a' HR HRo Hok MS HR' Hp H1 g2 a2 M2 _).
Qed.
Print Assumptions C27_merge_twice.

(** ** A checker for [merge_ok] *)
Definition below (n : N) : list N := map N.of_nat (seq 0 (N.to_nat n)).
Lemma below_in n i : i < n -> In i (below n).
Proof. intros H. unfold below. rewrite <- (N2Nat.id i). apply in_map, in_seq. lia. Qed.
Definition all_in_lookup (g : Graph) (f : N -> LayerKey -> bool) : bool :=
  forallb (fun x => f (fst x) (snd x)) (map_to_list (g_lookup g)).
Lemma all_in_lookup_ok g f : all_in_lookup g f = true -> forall x k, layer_of g x = Some k -> f x k = true.
Proof. unfold all_in_lookup. rewrite forallb_forall. intros H x k Hk. exact (H _ (layer_of_elem _ _ _ Hk)). Qed.
Definition free_or (g : Graph) (x : N) (k : LayerKey) : bool :=
  match layer_of g x with None => true | Some k' => bool_decide (k' = k) end.
Lemma free_or_ok g x k : free_or g x k = true -> layer_of g x = None \/ layer_of g x = Some k.
Proof.
  unfold free_or. destruct (layer_of g x) as [k'|]; [right|left; reflexivity]. f_equal. exact (bool_decide_eq_true_1 _ H).
Qed.
Definition is_in (g : Graph) (x : N) (k : LayerKey) : bool :=
  match layer_of g x with None => false | Some k' => bool_decide (k' = k) end.
Lemma is_in_ok g x k : is_in g x k = true -> layer_of g x = Some k.
Proof.
  unfold is_in. destruct (layer_of g x) as [k'|]; [|discriminate]. intros H. f_equal. exact (bool_decide_eq_true_1 _ H).
Qed.
Lemma time_free_b_ok g k t : time_free_b g k t = true -> forall x c, node_data g x <> Some (k, Some t, c).
Proof.
  unfold time_free_b. rewrite forallb_forall. intros H x c Hx.
  assert (Hk : exists k, layer_of g x = Some k) by (unfold node_data in Hx; destruct (layer_of g x); [eauto|discriminate]).
  destruct Hk as [k0 Hk]. specialize (H _ (layer_of_elem _ _ _ Hk)). cbn [fst] in H. rewrite Hx in H.
  rewrite bool_decide_true, Z.eqb_refl in H by reflexivity. discriminate.
Qed.
Definition merge_dynamic_b (g other : Graph) (l : LayerId) (p : N) (d : DLayer) : bool :=
  forallb (fun i => is_in other (prefix_make_id p i) (key_dynamic l p)) (below (dl_size d)) &&
  match g_dlayer g l p with
  | None => true
  | Some d0 => (dl_next d0 =? dl_size d0) &&
      forallb (fun i => negb (i <? dl_size d) || is_in g (prefix_make_id p i) (key_dynamic l p)) (below (dl_size d0))
  end &&
  forallb (fun i => (i <? num_slots g l p) ||
                    match node_data other (prefix_make_id p i) with
                    | Some (_, Some t, _) => time_free_b g (key_dynamic l p) t | _ => true end) (below (dl_size d)).
Definition merge_ok_b (cfg : MergeConfig) (g other : Graph) : bool :=
  let f := renamed cfg in
  all_in_lookup other (fun x k => free_or g x k) &&
  all_in_lookup other (fun x k => free_or g (f x) k && free_or other (f x) k) &&
  all_in_lookup other (fun u ku => all_in_lookup other (fun v kv =>
    match g_has_edge other u v with Ok true => bool_decide (ku = kv) || negb (lk_layer ku =? lk_layer kv) | _ => true end)) &&
  forallb (fun y => match g_layers g !! (fst y) with
    | None => true
    | Some _ => forallb (fun x => negb (g_has_node other x) && all_in_lookup other (fun y _ => negb (f y =? x)) &&
                                  match layer_of g x with Some k => negb (lk_dynamic k) | None => true end &&
                                  no_foreign_b g x) (fst (sl_get_removed_nodes (snd y) false))
    end) (map_to_list (g_layers other)) &&
  forallb (fun y => forallb (fun z => merge_dynamic_b g other (fst y) (fst z) (snd z)) (map_to_list (snd y))) (map_to_list (g_dlayers other)).
Lemma has_node_layer g x : g_has_node g x = true <-> is_Some (layer_of g x).
Proof. unfold g_has_node, layer_of. apply bool_decide_eq_true. Qed.
Lemma merge_dynamic_b_ok g other l p d : g_dlayer other l p = Some d -> merge_dynamic_b g other l p d = true -> merge_dynamic g other l p.
Proof.
  intros Hd. unfold merge_dynamic_b. rewrite !andb_true_iff, !forallb_forall. intros [[H1 H2] H3] d' Hd'.
  assert (d' = d) by congruence. subst d'. split; [|split].
  - intros i Hi. apply is_in_ok, H1, below_in, Hi.
  - intros d0 H0. rewrite H0 in H2. apply andb_true_iff in H2 as [H2 H4]. split; [apply N.eqb_eq, H2|]. intros i Hi Hi'.
    rewrite forallb_forall in H4. specialize (H4 i (below_in _ _ Hi)). apply N.ltb_lt in Hi'. rewrite Hi' in H4. exact (is_in_ok _ _ _ H4).
  - intros i t b x c Hi Hi' Hn. specialize (H3 i (below_in _ _ Hi')). apply orb_true_iff in H3 as [H3|H3].
    + apply N.ltb_lt in H3. lia.
    + rewrite Hn in H3. exact (time_free_b_ok _ _ _ H3 x c).
Qed.
Lemma merge_ok_b_ok cfg g other : merge_ok_b cfg g other = true -> merge_ok cfg g other.
Proof.
  unfold merge_ok_b. rewrite !andb_true_iff. intros [[[[H1 H2] H3] H4] H5]. constructor.
  - intros x k Hk. exact (free_or_ok _ _ _ (all_in_lookup_ok _ _ H1 x k Hk)).
  - intros _ x k Hk. pose proof (all_in_lookup_ok _ _ H2 x k Hk) as K. apply andb_true_iff in K as [K1 K2]. split; apply free_or_ok; assumption.
  - intros _ u v ku kv Ha Hu Hv Hne Hl. pose proof (all_in_lookup_ok _ _ (all_in_lookup_ok _ _ H3 u ku Hu) v kv Hv) as K.
    cbn beta in K. unfold adjacent in Ha. rewrite Ha, Hl, N.eqb_refl, orb_false_r in K. exact (Hne (bool_decide_eq_true_1 _ K)).
  - intros x (l & ol & Ho & [s Hs] & Hx). rewrite forallb_forall in H4.
    specialize (H4 (l, ol) (proj1 (elem_of_list_In _ _) (proj2 (elem_of_map_to_list _ _ _) Ho))). cbn [fst snd] in H4. rewrite Hs, forallb_forall in H4.
    specialize (H4 x (proj1 (elem_of_list_In _ _) Hx)). apply andb_true_iff in H4 as [H4 Hd]. apply andb_true_iff in H4 as [H4 Hc].
    apply andb_true_iff in H4 as [Ha Hb]. split; [|split; [|split]].
    + destruct (layer_of other x) eqn:E; [exfalso|reflexivity]. assert (K : g_has_node other x = true) by (apply has_node_layer; eauto).
      rewrite K in Ha. discriminate.
    + intros y Hy E. apply has_node_layer in Hy as [k Hk]. pose proof (all_in_lookup_ok _ _ Hb y k Hk) as K. cbn beta in K.
      rewrite E, N.eqb_refl in K. discriminate.
    + intros k Hk. rewrite Hk in Hc. apply negb_true_iff, Hc.
    + apply no_foreign_b_ok, Hd.
  - intros l p d Hd. assert (K : merge_dynamic g other l p); [|exact (K d Hd)]. apply (merge_dynamic_b_ok g other l p d Hd).
    unfold g_dlayer in Hd. destruct (g_dlayers other !! l) as [m|] eqn:Em; [|discriminate]. rewrite forallb_forall in H5.
    specialize (H5 (l, m) (proj1 (elem_of_list_In _ _) (proj2 (elem_of_map_to_list _ _ _) Em))). cbn [fst snd] in H5. rewrite forallb_forall in H5.
    exact (H5 (p, d) (proj1 (elem_of_list_In _ _) (proj2 (elem_of_map_to_list _ _ _) Hd))).
Qed.
Definition one_parent_b (g : Graph) : bool :=
  all_in_lookup g (fun x kx => all_in_lookup g (fun p kp => all_in_lookup g (fun q kq =>
    match g_has_edge g p x, g_has_edge g q x with
    | Ok true, Ok true => (p =? q) || negb (lk_layer kx <? lk_layer kp) || negb (lk_layer kx <? lk_layer kq)
    | _, _ => true end))).
Lemma one_parent_b_ok g : one_parent_b g = true -> one_parent g.
Proof.
  intros H x p q (A1 & kp & kx & P1 & P2 & P3) (A2 & kq & kx' & Q1 & Q2 & Q3). assert (kx' = kx) by congruence. subst kx'.
  pose proof (all_in_lookup_ok _ _ (all_in_lookup_ok _ _ (all_in_lookup_ok _ _ H x kx P2) p kp P1) q kq Q1) as K. cbn beta in K.
  unfold adjacent in A1, A2. rewrite A1, A2 in K. apply N.ltb_lt in P3, Q3. rewrite P3, Q3, !orb_false_r in K. apply N.eqb_eq, K.
Qed.

(** ** A case
    The graph: place 10 active, 11 and 12 archived, rooms 20 (above 10 and 11) and 21 (above 12), two
    agent poses.  The graph merged in: 10 and 11 moved, 12 removed, a new place 13 next to 11, a new
    room 22 above 11, a third agent pose (the second one two units further than in the graph), the
    edge 10 - 11 removed. *)
Definition active_at (x y z : N) : NodeAttrs := Attrs.ANode (mkBase (mkVec3 x y z) 0 true false).
Definition vadd_ex (a b : Vec3) : Vec3 := mkVec3 (v_x a + v_x b) (v_y a + v_y b) (v_z a + v_z b).
Definition vsub_ex (a b : Vec3) : Vec3 := mkVec3 (v_x a - v_x b) (v_y a - v_y b) (v_z a - v_z b).
Definition mg_ops : list gop :=
  [ GEmplace PLACES 10 (active_at 0 0 0); GEmplace PLACES 11 (base_at 1 0 0); GEmplace PLACES 12 (base_at 2 0 0);
    GEmplace ROOMS 20 (base_at 0 1 0); GEmplace ROOMS 21 (base_at 2 1 0);
    GEmplaceDyn AGENTS pfx_a 1 (base_at 0 0 1) true; GEmplaceDyn AGENTS pfx_a 2 (base_at 0 5 2) true;
    GInsertEdge 10 11 (Some (mkEA true 5)); GInsertEdge 11 12 None;
    GInsertParentEdge 10 20 None; GInsertParentEdge 20 11 None; GInsertParentEdge 12 21 None;
    GInsertParentEdge (agent 1) 10 None ].
Definition mo_ops : list gop :=
  [ GEmplace PLACES 10 (base_at 7 0 0); GEmplace PLACES 11 (base_at 8 0 0); GEmplace PLACES 12 (base_at 9 0 0);
    GEmplace PLACES 13 (base_at 3 0 0); GInsertEdge 10 11 None; GInsertEdge 11 13 (Some (mkEA true 6));
    GEmplace ROOMS 22 (base_at 0 2 0); GInsertParentEdge 22 11 None;
    GEmplaceDyn AGENTS pfx_a 1 (base_at 0 0 1) true; GEmplaceDyn AGENTS pfx_a 2 (base_at 0 3 2) true;
    GEmplaceDyn AGENTS pfx_a 3 (base_at 0 4 2) true;
    GRemoveNode 12; GRemoveEdge 10 11 ].
Definition mg : Graph := match run_b ex_start mg_ops with Some g => g | None => ex_start end.
Definition mo : Graph := match run_b ex_start mo_ops with Some g => g | None => ex_start end.
Lemma mg_reachable : reachable mg. Proof. apply run_b_start. vm_compute. reflexivity. Qed.
Lemma mo_reachable : reachable mo. Proof. apply run_b_start. vm_compute. reflexivity. Qed.
Lemma mg_mo_ok : merge_ok mc_default mg mo. Proof. apply merge_ok_b_ok. vm_compute. reflexivity. Qed.
Lemma mo_one_parent : one_parent mo. Proof. apply one_parent_b_ok. vm_compute. reflexivity. Qed.
(** The nodes [other] reports as removed from layers [g] has. *)
Definition reported_removed_list (g other : Graph) : list N :=
  concat (map (fun y => match g_layers g !! (fst y) with None => [] | Some _ => fst (sl_get_removed_nodes (snd y) false) end) (map_to_list (g_layers other))).
Definition merged : result (Graph * Graph) := g_merge_graph vadd_ex vsub_ex mg mo mc_default.
Definition where_at (g : Graph) (x : N) : option (LayerKey * option Z * Vec3) :=
  match node_data g x with Some (k, t, b) => Some (k, t, attrs_position b) | None => None end.
Example C27_case :
  reachable mg /\ reachable mo /\ merge_ok mc_default mg mo /\ one_parent mo /\ mc_previous mc_default = None /\
  bool_decide (reported_removed_list mg mo = [12]) = true /\
  match merged with
  | Ok (g', _) =>
      map (where_at g') [10; 11; 12; 13; 22; agent 1; agent 2] =
        [ Some (key_static PLACES, None, mkVec3 7 0 0); Some (key_static PLACES, None, mkVec3 1 0 0); None;
          Some (key_static PLACES, None, mkVec3 3 0 0); Some (key_static ROOMS, None, mkVec3 0 2 0);
          Some (key_dynamic AGENTS pfx_a, Some 2%Z, mkVec3 0 5 2); Some (key_dynamic AGENTS pfx_a, Some 3%Z, mkVec3 0 6 2) ] /\
      map (fun p => bool_decide (is_Some (edge_at g' (fst p) (snd p)))) [(10, 11); (11, 12); (11, 13); (20, 11); (22, 11); (20, 10); (agent 1, agent 2); (agent 1, 10)]
        = [false; false; true; false; true; true; true; true]
  | _ => False
  end.
Proof.
  split; [exact mg_reachable|]. split; [exact mo_reachable|]. split; [exact mg_mo_ok|]. split; [exact mo_one_parent|]. split; [reflexivity|].
  split; [vm_compute; reflexivity|]. vm_compute. split; reflexivity.
Qed.

(** ** Where the natural statement fails *)
(** Without update_archived the attributes of an archived (inactive) node are not taken over. *)
Theorem C27_attributes_not_taken_over_refuted : exists g other g' other' x k t b,
  reachable g /\ reachable other /\ merge_ok mc_default g other /\
  g_merge_graph vadd_ex vsub_ex g other mc_default = Ok (g', other') /\ ~ merged_away g (lk_layer k) x /\
  node_data other x = Some (k, t, b) /\ node_data g' x <> Some (k, t, b).
Proof.
  destruct (C27_merge_succeeds vadd_ex vsub_ex mc_default mg mo mg_reachable mo_reachable mg_mo_ok) as (g' & o' & E & _).
  assert (Hm : ~ merged_away mg PLACES 11).
  { intros (s & Hs & Hc). assert (K : match g_layers mg !! PLACES with Some s => negb (bool_decide (sl_check_node s 11 = NMerged)) | None => true end = true) by (vm_compute; reflexivity).
    rewrite Hs in K. apply negb_true_iff, bool_decide_eq_false in K. exact (K Hc). }
  destruct (node_data mo 11) as [[[k t] b]|] eqn:Ed.
  2: { exfalso. assert (K : match node_data mo 11 with Some _ => true | None => false end = true) by (vm_compute; reflexivity). rewrite Ed in K. discriminate. }
  assert (Hk : k = key_static PLACES).
  { assert (K : match node_data mo 11 with Some (k, _, _) => bool_decide (k = key_static PLACES) | None => true end = true) by (vm_compute; reflexivity).
    rewrite Ed in K. exact (bool_decide_eq_true_1 _ K). }
  subst k. exists mg, mo, g', o', 11, (key_static PLACES), t, b.
  split; [exact mg_reachable|]. split; [exact mo_reachable|]. split; [exact mg_mo_ok|]. split; [exact E|]. split; [exact Hm|]. split; [exact Ed|].
  intros Hn. assert (K : match g_merge_graph vadd_ex vsub_ex mg mo mc_default, node_data mo 11 with
      | Ok (g1, _), Some (_, _, b) => match node_data g1 11 with Some (_, _, b1) => negb (bool_decide (attrs_position b1 = attrs_position b)) | None => false end
      | _, _ => false end = true) by (vm_compute; reflexivity).
  rewrite E, Ed, Hn in K. apply negb_true_iff, bool_decide_eq_false in K. apply K. reflexivity.
Qed.
Print Assumptions C27_attributes_not_taken_over_refuted.

(** If a node of a dynamic layer was removed from the graph, merging a graph that has it dereferences
    a null pointer. *)
Definition mg_gap : Graph := match run_b ex_start (mg_ops ++ [GRemoveNode (agent 0)]) with Some g => g | None => ex_start end.
Theorem C27_merge_into_gap_refuted : exists g other, reachable g /\ reachable other /\
  g_merge_graph vadd_ex vsub_ex g other mc_default = UB.
Proof.
  exists mg_gap, mo. split; [apply run_b_start; vm_compute; reflexivity|]. split; [exact mo_reachable|].
  assert (K : match g_merge_graph vadd_ex vsub_ex mg_gap mo mc_default with UB => true | _ => false end = true) by (vm_compute; reflexivity).
  destruct (g_merge_graph vadd_ex vsub_ex mg_gap mo mc_default); congruence.
Qed.
Print Assumptions C27_merge_into_gap_refuted.

(** A node that moved to a lower layer in [other] is lost: room 20 removed and put back as a place. *)
Definition mo_moved : Graph := match run_b ex_start [GEmplace ROOMS 20 (base_at 0 1 0); GRemoveNode 20; GEmplace PLACES 20 (base_at 0 1 0)] with Some g => g | None => ex_start end.
Theorem C27_moved_node_lost_refuted : exists g other g' other', reachable g /\ reachable other /\
  layer_of other 20 = Some (key_static PLACES) /\ layer_of g 20 = Some (key_static ROOMS) /\
  g_merge_graph vadd_ex vsub_ex g other mc_default = Ok (g', other') /\ g_has_node g' 20 = false /\ stored_in g' (key_static PLACES) 20.
Proof.
  destruct (g_merge_graph vadd_ex vsub_ex mg mo_moved mc_default) as [[g' o']| |] eqn:E.
  2,3: exfalso; assert (K : match g_merge_graph vadd_ex vsub_ex mg mo_moved mc_default with Ok _ => true | _ => false end = true) by (vm_compute; reflexivity);
       rewrite E in K; discriminate.
  exists mg, mo_moved, g', o'. split; [exact mg_reachable|]. split; [apply run_b_start; vm_compute; reflexivity|].
  split; [apply is_in_ok; vm_compute; reflexivity|]. split; [apply is_in_ok; vm_compute; reflexivity|]. split; [exact E|].
  assert (K : match g_merge_graph vadd_ex vsub_ex mg mo_moved mc_default with
      | Ok (g1, _) => negb (g_has_node g1 20) && match g_layers g1 !! PLACES with Some s => sl_has_node s 20 | None => false end
      | _ => false end = true) by (vm_compute; reflexivity).
  rewrite E in K. apply andb_true_iff in K as [K1 K2]. split; [apply negb_true_iff, K1|].
  unfold stored_in. cbn [lk_dynamic key_static lk_layer lk_prefix]. destruct (g_layers g' !! PLACES) as [s|]; [|discriminate].
  split; [reflexivity|]. eauto.
Qed.
Print Assumptions C27_moved_node_lost_refuted.
