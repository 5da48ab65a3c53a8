(** C32-C34: adjacency matrices, ancestors, layer views. *)
From Coq Require Import NArith ZArith Bool List Lia.
From stdpp Require Import base list gmap fin_maps relations.
From Verif.Model Require Import Types Mesh Attrs Node EdgeContainer SLayer DLayer Graph Search Views.
From Verif.Spec Require Import EdgeLog LayerLog AbstractGraph GraphHistory GraphObs Search Views.
From Verif.Proof Require Import Keys EdgeLogP SLayerP LayerLogP2 GraphRep GraphSim GraphObsP MatrixP MatrixP2 ViewP.
From Verif.Properties Require Import ExGraph P04_Layer P08_Search.
Local Open Scope N_scope.
#[local] Arguments edge_key : simpl never.

Lemma api_wf l : api_layer l -> sl_wf l.
Proof.
  intros [[lid H]|(g & lid & Hr & Hl)].
  - destruct (reach_LR _ _ H) as [c HR]. apply HR.
  - destruct (reachable_RepL g Hr) as [a [HR _]]. apply (rp_part _ _ HR (key_static lid) l); [intros _; reflexivity|exact Hl].
Qed.
Lemma linked_irrefl l u : sl_wf l -> sl_has_edge l u u = false.
Proof.
  intros Hw. apply not_true_iff_false. intros K. unfold sl_has_edge in K. rewrite ec_contains_true in K.
  destruct (sl_edge_key l u u Hw K) as [? _]. contradiction.
Qed.

(** C32: the dense adjacency matrix.  The weight function is called as weight(larger id,
    smaller id) for the value that stays. *)
Theorem C32_dense_adjacency_matrix : forall (W : Type) (zero : W) (weight : N -> N -> W) l ord,
  api_layer l -> valid_ordering l ord ->
  exists m, adjacency_matrix zero l ord weight = Ok m /\ mt_size m = size ord /\
    forall u v i j, ord !! u = Some i -> ord !! v = Some j ->
      mat_get zero m i j = (if sl_has_edge l u v then weight (N.max u v) (N.min u v) else zero) /\
      mat_get zero m j i = mat_get zero m i j /\ mat_get zero m i i = zero.
Proof.
  intros W zero weight l ord Hl [Ho Hi]. pose proof (api_wf l Hl) as Hw.
  destruct (adjacency_ok zero (fun x _ => x) (fun x => x) l ord weight Hw) as (m & E & Hs & Hc & Hd & _).
  - intros x [i Hx]. apply (Ho x i Hx).
  - exact Hi.
  - intros x i Hx. apply (Ho x i Hx).
  - assert (forall u v i j, ord !! u = Some i -> ord !! v = Some j ->
      mat_get zero m i j = (if sl_has_edge l u v then weight (N.max u v) (N.min u v) else zero)) as H.
    { intros u v i j Hu Hv. unfold mat_get. destruct (decide (u = v)) as [->|Hne].
      - assert (i = j) as -> by congruence. rewrite (Hd v j Hu), (linked_irrefl l v Hw). reflexivity.
      - rewrite (Hc u v i j Hu Hv Hne). unfold final_cell. destruct (sl_has_edge l u v); reflexivity. }
    exists m. split; [exact E|]. split; [exact Hs|]. intros u v i j Hu Hv. split; [apply H; assumption|]. split.
    + rewrite (H u v i j Hu Hv), (H v u j i Hv Hu), N.max_comm, N.min_comm. unfold sl_has_edge, ec_contains. rewrite edge_key_comm. reflexivity.
    + unfold mat_get. rewrite (Hd u i Hu). reflexivity.
Qed.
Print Assumptions C32_dense_adjacency_matrix.

(** C32: the sparse adjacency matrix calls the weight function once per direction. *)
Theorem C32_sparse_adjacency_matrix : forall (W : Type) (zero : W) add (weight : N -> N -> W) l ord,
  api_layer l -> valid_ordering l ord ->
  exists m, sparse_adjacency add l ord weight = Ok m /\ mt_size m = size ord /\
    forall u v i j, ord !! u = Some i -> ord !! v = Some j ->
      mat_get zero m i j = (if sl_has_edge l u v then weight u v else zero) /\ mat_get zero m i i = zero.
Proof.
  intros W zero add weight l ord Hl [Ho Hi]. pose proof (api_wf l Hl) as Hw.
  destruct (sparse_adjacency_ok add l ord weight Hw) as (m & E & Hs & Hc & Hd & _).
  - intros x [i Hx]. apply (Ho x i Hx).
  - exact Hi.
  - intros x i Hx. apply (Ho x i Hx).
  - exists m. split; [exact E|]. split; [exact Hs|]. intros u v i j Hu Hv. unfold mat_get. rewrite (Hd u i Hu). split; [|reflexivity].
    destruct (decide (u = v)) as [->|Hne].
    + assert (i = j) as -> by congruence. rewrite (Hd v j Hu), (linked_irrefl l v Hw). reflexivity.
    + rewrite (Hc u v i j Hu Hv Hne). destruct (sl_has_edge l u v); reflexivity.
Qed.
Print Assumptions C32_sparse_adjacency_matrix.

(** C32: the Laplacians in exact arithmetic.  For a symmetric weight function both have minus
    the edge weight off the diagonal and every row sums to zero. *)
Theorem C32_laplacian_matrices : forall (W : Type) (zero : W) add opp (weight : N -> N -> W) l ord,
  abelian_group zero add opp -> (forall x y, weight x y = weight y x) -> api_layer l -> valid_ordering l ord ->
  exists m s, laplacian zero add opp l ord weight = Ok m /\ sparse_laplacian zero add opp l ord weight = Ok s /\
    mt_size m = size ord /\ mt_size s = size ord /\
    (forall u v i j, ord !! u = Some i -> ord !! v = Some j ->
      (u <> v -> mat_get zero m i j = if sl_has_edge l u v then opp (weight u v) else zero) /\
      mat_get zero s i j = mat_get zero m i j) /\
    (forall u i, ord !! u = Some i -> row_sum zero add m i = zero /\ row_sum zero add s i = zero).
Proof.
  intros W zero add opp weight l ord HG Hsym Hl [Ho Hi]. pose proof (api_wf l Hl) as Hw.
  assert (forall x, is_Some (ord !! x) -> is_Some (sl_nodes l !! x)) as H1 by (intros x [i Hx]; apply (Ho x i Hx)).
  assert (forall x i, ord !! x = Some i -> i < N.of_nat (size ord)) as H2 by (intros x i Hx; apply (Ho x i Hx)).
  destruct (laplacian_ok zero add opp l ord weight Hw H1 Hi H2) as (m & E & Hs & Hc & Hd & _).
  destruct (sparse_laplacian_ok zero add opp l ord weight Hw H1 Hi H2) as (s & Es & Hss & Hcs & Hds & _).
  assert (forall u v, weight (N.max u v) (N.min u v) = weight u v) as Hmm.
  { intros u v. destruct (N.le_ge_cases u v) as [L|L].
    - rewrite N.max_r, N.min_l by exact L. apply Hsym.
    - rewrite N.max_l, N.min_r by exact L. reflexivity. }
  exists m, s. split; [exact E|]. split; [exact Es|]. split; [exact Hs|]. split; [exact Hss|]. split.
  - intros u v i j Hu Hv. split.
    + intros Hne. unfold mat_get. rewrite (Hc u v i j Hu Hv Hne). unfold final_cell. rewrite Hmm. destruct (sl_has_edge l u v); reflexivity.
    + unfold mat_get. destruct (decide (u = v)) as [->|Hne].
      * assert (i = j) as -> by congruence. rewrite (Hd v j Hu), (Hds v j Hu). reflexivity.
      * rewrite (Hc u v i j Hu Hv Hne), (Hcs u v i j Hu Hv Hne). unfold final_cell. rewrite Hmm. reflexivity.
  - intros u i Hu. split.
    + apply (row_sum_zero zero add opp l ord weight Hw H1 Hi H2 HG m u i Hs Hu); [|exact (Hd u i Hu)].
      intros v j Hv Hne. rewrite (Hc u v i j Hu Hv Hne). unfold final_cell. rewrite Hmm. reflexivity.
    + apply (row_sum_zero zero add opp l ord weight Hw H1 Hi H2 HG s u i Hss Hu); [|exact (Hds u i Hu)].
      intros v j Hv Hne. apply (Hcs u v i j Hu Hv Hne).
Qed.
Print Assumptions C32_laplacian_matrices.

(** A non-trivial case: the path 1 - 2 - 3 - 4 of [ex_path], nodes 2, 3, 4, 9 indexed. *)
Definition ex_ord : gmap N N := {[2 := 1; 3 := 0; 4 := 3; 9 := 2]}.
Theorem C32_case : api_layer ex_path /\ valid_ordering ex_path ex_ord /\
  abelian_group 0%Z Z.add Z.opp /\
  (exists m, laplacian 0%Z Z.add Z.opp ex_path ex_ord (fun u v => Z.of_N (u + v)) = Ok m /\
     map (fun i => map (fun j => mat_get 0%Z m i j) [0; 1; 2; 3]) [0; 1; 2; 3]
     = [[12; -5; 0; -7]; [-5; 5; 0; 0]; [0; 0; 0; 0]; [-7; 0; 0; 7]]%Z).
Proof.
  split; [left; exists 3; eexists; reflexivity|]. split; [|split].
  - split.
    + intros x i H. apply (elem_of_map_to_list (M := gmap N)) in H.
      assert (Forall (fun y => sl_has_node ex_path (fst y) = true /\ snd y < N.of_nat (size ex_ord)) (map_to_list ex_ord)) as HF.
      { vm_compute. repeat constructor. }
      rewrite List.Forall_forall in HF. destruct (HF (x, i)) as [H1 H2]; [apply elem_of_list_In, H|]. split; [|exact H2].
      apply sl_has_node_true, H1.
    + intros x y i Hx Hy. apply (elem_of_map_to_list (M := gmap N)) in Hx, Hy.
      assert (forallb (fun a => forallb (fun b => negb (snd a =? snd b) || (fst a =? fst b)) (map_to_list ex_ord)) (map_to_list ex_ord) = true) as HF by (vm_compute; reflexivity).
      rewrite forallb_forall in HF. specialize (HF (x, i) ltac:(apply elem_of_list_In, Hx)). rewrite forallb_forall in HF.
      specialize (HF (y, i) ltac:(apply elem_of_list_In, Hy)). cbn in HF. rewrite N.eqb_refl in HF. apply N.eqb_eq, HF.
  - split; [intros; lia|]. split; [intros; lia|]. split; intros; lia.
  - eexists. split; vm_compute; reflexivity.
Qed.

(** C32, as first stated for every weight function, is false: with weight(u,v) = u the dense
    Laplacian has a row that does not sum to zero, and dense and sparse adjacency differ. *)
Theorem C32_asymmetric_weights_refuted : exists m a s,
  laplacian 0%Z Z.add Z.opp ex_path ex_ord (fun u _ => Z.of_N u) = Ok m /\ row_sum 0%Z Z.add m 0 <> 0%Z /\
  adjacency_matrix 0%Z ex_path ex_ord (fun u _ => Z.of_N u) = Ok a /\
  sparse_adjacency Z.add ex_path ex_ord (fun u _ => Z.of_N u) = Ok s /\ mat_get 0%Z a 1 0 <> mat_get 0%Z s 1 0.
Proof.
  eexists _, _, _. split; [vm_compute; reflexivity|]. split; [vm_compute; discriminate|].
  split; [vm_compute; reflexivity|]. split; [vm_compute; reflexivity|]. vm_compute. discriminate.
Qed.
Print Assumptions C32_asymmetric_weights_refuted.

(** C33: for a layer with id at least 1, getAncestorsOfLayer ends and calls back exactly the
    nodes of that layer (or partition) below the given node; each once if no node has two
    parents.  For layer 0 only the first half holds. *)
Theorem C33_callback_on_exactly_the_nodes_below : forall g k p, reachable g ->
  (exists lid, k = key_static lid) \/ (exists lid pfx, k = key_dynamic lid pfx) ->
  exists vs, finishes (fun fuel => ancestors g k fuel p) vs /\
    (forall d, d ∈ vs -> layer_of g d = Some k /\ below g p d) /\
    (1 <= lk_layer k -> forall d, d ∈ vs <-> layer_of g d = Some k /\ below g p d) /\
    (one_parent g -> NoDup vs).
Proof.
  intros g k p Hr Hk. destruct (reachable_RepL g Hr) as [a [HR _]].
  assert (canon k) as Hc by (destruct Hk as [[lid ->]|(lid & pfx & ->)]; auto).
  destruct (ancestors_ok g a HR k Hc p) as (vs & H1 & H2 & H3 & H4). exists vs. split; [exact H1|]. split; [exact H2|]. split; [|exact H4].
  intros Hl d. split; [apply H2|]. intros [K1 K2]. exact (H3 Hl d K1 K2).
Qed.
Print Assumptions C33_callback_on_exactly_the_nodes_below.
(** Case: places below room 20, agent poses below it. *)
Theorem C33_case : reachable ex_graph /\ ancestors ex_graph (key_static PLACES) 10 20 = Some (Ok [10; 11]) /\
  ancestors ex_graph (key_dynamic AGENTS pfx_a) 10 20 = Some (Ok [agent 1]).
Proof. split; [exact ex_reachable|]. split; vm_compute; reflexivity. Qed.

(** C33 for layer 0: a node below a layer-1 node is missed, because the test that stops the
    walk compares the layer id with the key converted to bool. *)
Definition low_start : Graph := match g_new [0; 1; 2] with Ok g => g | _ => ex_start end.
Definition low_ops : list gop :=
  [ GEmplace 0 100 a0; GEmplace 1 101 a0; GEmplace 2 102 a0; GInsertEdge 101 100 None; GInsertEdge 102 101 None ].
Definition low_graph : Graph := match run_b low_start low_ops with Some g => g | None => low_start end.
Theorem C33_layer_zero_refuted : exists g p d, reachable g /\ layer_of g d = Some (key_static 0) /\ is_parent_of g p d /\
  finishes (fun fuel => ancestors g (key_static 0) fuel p) [].
Proof.
  assert (reachable low_start) as Hs.
  { apply (reach_new [0; 1; 2]); [reflexivity|]. apply (bool_decide_eq_false_1 (UNKNOWN_LAYER ∈ [0; 1; 2])). vm_compute. reflexivity. }
  assert (reachable low_graph) as Hr.
  { unfold low_graph. destruct (run_b low_start low_ops) as [g|] eqn:E; [|exact Hs]. exact (run_b_reachable _ _ _ Hs E). }
  exists low_graph, 101, 100. split; [exact Hr|]. split; [vm_compute; reflexivity|]. split.
  - split; [vm_compute; reflexivity|]. exists (key_static 1), (key_static 0). split; [vm_compute; reflexivity|]. split; [vm_compute; reflexivity|]. vm_compute. reflexivity.
  - exists 1%nat. intros fuel Hf. destruct fuel as [|f]; [lia|]. vm_compute. reflexivity.
Qed.
Print Assumptions C33_layer_zero_refuted.

(** C34: iterating over a view gives exactly the nodes of the layer that pass the filter, each
    once, in ascending order of id. *)
Theorem C34_view_shows_exactly_the_selected_nodes : forall l filter, api_layer l ->
  exists vs, (exists n, forall fuel, (n <= fuel)%nat -> view_nodes filter l fuel = Some vs) /\
    (forall nd, nd ∈ vs <-> sl_find_node l (n_id nd) = Some nd /\ filter nd = true) /\
    Sorting.Sorted.StronglySorted (fun a b => n_id a < n_id b) vs.
Proof. intros l filter Hl. exact (view_spec filter l (api_wf l Hl)). Qed.
Print Assumptions C34_view_shows_exactly_the_selected_nodes.
Theorem C34_case : api_layer ex_path /\
  option_map (map n_id) (view_nodes (fun nd => n_id nd mod 2 =? 1) ex_path 10) = Some [1; 3; 7; 9].
Proof. split; [left; exists 3; eexists; reflexivity|]. vm_compute. reflexivity. Qed.
