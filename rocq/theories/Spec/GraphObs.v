(** What a caller can observe of a graph, and the graphs a caller can reach.
    Everything here is defined from the public queries of the model: hasNode, findNode,
    getLayerForNode, hasEdge, findEdge, getLayer. *)
From Coq Require Import NArith ZArith Bool List.
From stdpp Require Import base list gmap fin_maps.
From Verif.Model Require Import Types Mesh Attrs Node EdgeContainer SLayer DLayer Graph.
From Verif.Spec Require Import AbstractGraph GraphHistory LayerLog.
Local Open Scope N_scope.

(** The partition getLayerForNode reports. *)
Definition layer_of (g : Graph) (x : N) : option LayerKey := g_layer_for_node g x.
(** The node findNode returns ([None] for a null pointer). *)
Definition node_at (g : Graph) (x : N) : option Node :=
  match g_find_node g x with Ok o => o | _ => None end.
(** Partition, timestamp and attributes of a node. *)
Definition node_data (g : Graph) (x : N) : option (LayerKey * option Z * NodeAttrs) :=
  match layer_of g x, node_at g x with
  | Some k, Some n => Some (k, n_time n, n_attrs n)
  | _, _ => None
  end.
(** hasEdge / findEdge *)
Definition adjacent (g : Graph) (u v : N) : Prop := g_has_edge g u v = Ok true.
Definition edge_at (g : Graph) (u v : N) : option Edge :=
  match g_find_edge g u v with Ok (o, _) => o | _ => None end.

(** Some layer of the graph holds [x]: the static layer [l], or the dynamic layer [l],[p]. *)
Definition stored_in (g : Graph) (k : LayerKey) (x : N) : Prop :=
  if lk_dynamic k
  then x < 2 ^ 64 /\ exists d, g_dlayer g (lk_layer k) (lk_prefix k) = Some d /\ dl_has_node d x = true
  else lk_prefix k = 0 /\ exists s, g_layers g !! lk_layer k = Some s /\ sl_has_node s x = true.

(** The pair {u,v} is the pair {x,y}. *)
Definition same_pair (u v x y : N) : Prop := (u = x /\ v = y) \/ (u = y /\ v = x).
#[global] Instance same_pair_dec u v x y : Decision (same_pair u v x y). Proof. unfold same_pair. apply _. Defined.

Definition same_nodes (g g' : Graph) : Prop := forall x, node_data g' x = node_data g x.
Definition same_edges (g g' : Graph) : Prop := forall u v, edge_at g' u v = edge_at g u v.

(** [p] is a parent of [c]: linked and on a layer with a larger LayerId. *)
Definition is_parent_of (g : Graph) (p c : N) : Prop :=
  adjacent g p c /\ exists kp kc, layer_of g p = Some kp /\ layer_of g c = Some kc /\ lk_layer kc < lk_layer kp.

(** ** Calls covered by the graph theorems.
    Each restriction excludes calls that do misbehave (the [_refuted] theorems show them), or
    arguments outside the value range of the C++ types. *)

(** Dynamic layers: a valid LayerId, a 32-bit prefix whose 24-bit sub-index is 0. *)
Definition dyn_args (l : LayerId) (p : N) : Prop := l <> UNKNOWN_LAYER /\ p < 2 ^ 32 /\ prefix_sub p = 0.
(** emplacePrevDynamicNode: the id is already known (no effect), or it is a 64-bit id and no
    node of that dynamic layer has that time. *)
Definition prev_args (g : Graph) (l : LayerId) (id : N) (t : Z) : Prop :=
  g_has_node g id = true \/
  (id < 2 ^ 64 /\ dyn_args l (prefix_from_id id) /\
   forall x at_, node_data g x <> Some (key_dynamic l (prefix_from_id id), Some t, at_)).
(** No edge between [n] and a node of another partition with the same LayerId. *)
Definition no_foreign_sibling (g : Graph) (n : N) : Prop :=
  forall v k kv, adjacent g n v -> layer_of g n = Some k -> layer_of g v = Some kv ->
    lk_layer k = lk_layer kv -> kv = k.

Definition allowed (g : Graph) (o : gop) : Prop :=
  match o with
  | GEmplaceDyn l p _ _ _ =>
      dyn_args l p /\ forall d, g_dlayer g l p = Some d -> dl_next d = dl_size d /\ dl_size d < 2 ^ 32
  | GEmplacePrev l id t _ => prev_args g l id t
  | GAddOrUpdateNode l id _ (Some t) => prev_args g l id t
  | GCreateDyn l p => dyn_args l p
  | GInsertParentEdge u v _ =>
      forall ku kv, layer_of g u = Some ku -> layer_of g v = Some kv -> lk_layer ku <> lk_layer kv
  | GRemoveNode n => no_foreign_sibling g n
  | GMergeNodes f t =>
      no_foreign_sibling g f /\
      (forall k, layer_of g f = Some k -> layer_of g t = Some k -> f <> t -> lk_dynamic k = false)
  | _ => True
  end.

(** updateFromLayer(other, edges): [other] is a stand-alone layer none of whose nodes sits in
    another layer of the graph; the keys of [edges] are those of their edges; every edge of
    [other] at a node new to the graph is listed.  (The edges of [other] itself always qualify.) *)
Definition update_ok (g : Graph) (other : SLayer) (edges : gmap EdgeKey Edge) : Prop :=
  layer_reachable (sl_id other) other /\
  (forall x, sl_has_node other x = true -> layer_of g x = None \/ layer_of g x = Some (key_static (sl_id other))) /\
  (forall k e, edges !! k = Some e -> k = edge_key (e_src e) (e_tgt e)) /\
  (forall k e, ec_edges (sl_edges other) !! k = Some e ->
     layer_of g (e_src e) = None \/ layer_of g (e_tgt e) = None -> is_Some (edges !! k)).

(** The number of slots ever appended to a dynamic layer. *)
Definition num_slots (g : Graph) (l : LayerId) (p : N) : N :=
  match g_dlayer g l p with Some d => dl_size d | None => 0 end.

(** mergeGraph(other, config).
    [reported_removed g other x]: a layer of [other] that [g] also has reports [x] as removed. *)
Definition reported_removed (g other : Graph) (x : N) : Prop :=
  exists l ol, g_layers other !! l = Some ol /\ is_Some (g_layers g !! l) /\ x ∈ fst (sl_get_removed_nodes ol false).
(** A dynamic layer of [other]: none of its nodes was removed; the layer of the same name in
    [g] appends at its end and still has its nodes up to the size of the other one; the times
    of the nodes to be appended are not in use. *)
Definition merge_dynamic (g other : Graph) (l : LayerId) (p : N) : Prop :=
  forall d, g_dlayer other l p = Some d ->
    (forall i, i < dl_size d -> layer_of other (prefix_make_id p i) = Some (key_dynamic l p)) /\
    (forall d0, g_dlayer g l p = Some d0 -> dl_next d0 = dl_size d0 /\
       forall i, i < dl_size d0 -> i < dl_size d -> layer_of g (prefix_make_id p i) = Some (key_dynamic l p)) /\
    (forall i t b x c, num_slots g l p <= i -> i < dl_size d -> node_data other (prefix_make_id p i) = Some (key_dynamic l p, Some t, b) ->
       node_data g x <> Some (key_dynamic l p, Some t, c)).
(** The node that [x] was merged into according to the table given with the configuration: its
    entry there, and [x] itself without a table or an entry. *)
Definition renamed (cfg : MergeConfig) (x : N) : N :=
  match mc_previous cfg with Some table => default x (table !! x) | None => x end.
Record merge_ok (cfg : MergeConfig) (g other : Graph) : Prop := {
  (* a node of [other] is unknown to [g] or sits in the same layer there *)
  mk_same_layer : forall x k, layer_of other x = Some k -> layer_of g x = None \/ layer_of g x = Some k;
  (* the node it was merged into, if given, is in its layer too *)
  mk_merged : mc_enforce_parent cfg = true -> forall x k, layer_of other x = Some k ->
    (layer_of g (renamed cfg x) = None \/ layer_of g (renamed cfg x) = Some k) /\
    (layer_of other (renamed cfg x) = None \/ layer_of other (renamed cfg x) = Some k);
  (* [other] has no edge between different partitions with the same LayerId *)
  mk_inter : mc_enforce_parent cfg = true -> forall u v ku kv, adjacent other u v ->
    layer_of other u = Some ku -> layer_of other v = Some kv -> ku <> kv -> lk_layer ku <> lk_layer kv;
  (* a node reported as removed is gone from [other], nothing was merged into it, and removing
     it from [g] is an allowed call on a static node *)
  mk_removed : forall x, reported_removed g other x ->
    layer_of other x = None /\ (forall y, g_has_node other y = true -> renamed cfg y <> x) /\
    (forall k, layer_of g x = Some k -> lk_dynamic k = false) /\ no_foreign_sibling g x;
  mk_dynamic : forall l p, merge_dynamic g other l p
}.

(** Graphs obtained from a fresh graph by allowed calls, reset(layer_ids), updateFromLayer and
    mergeGraph (which may also clear the change reports of the graph that is merged in). *)
Inductive reachable : Graph -> Prop :=
| reach_new ids g : g_new ids = Ok g -> UNKNOWN_LAYER ∉ ids -> reachable g
| reach_step g o b g' : reachable g -> allowed g o -> g_step g o = Ok (b, g') -> reachable g'
| reach_reset g ids : reachable g -> ids <> [] -> UNKNOWN_LAYER ∉ ids -> reachable (g_reset g ids)
| reach_update g other edges b g' other' : reachable g -> update_ok g other edges ->
    g_update_from_layer g other (Some edges) = Ok (b, g', other') -> reachable g'
| reach_merge vadd vsub cfg g other g' other' : reachable g -> reachable other -> merge_ok cfg g other ->
    g_merge_graph vadd vsub g other cfg = Ok (g', other') -> reachable g'
| reach_merged_in vadd vsub cfg g other g' other' : reachable g -> reachable other -> merge_ok cfg g other ->
    g_merge_graph vadd vsub g other cfg = Ok (g', other') -> reachable other'.

(** ** Vocabulary of the individual theorems *)
(** The odometry reconnection: removing [n] from a dynamic layer links its predecessor [p] and
    successor [q] (by id) if [n] was linked to both. *)
Definition reconnects (g : Graph) (n p q : N) : Prop :=
  exists k, lk_dynamic k = true /\ layer_of g n = Some k /\ layer_of g p = Some k /\ layer_of g q = Some k /\
    p = (n + (2 ^ 64 - 1)) mod 2 ^ 64 /\ q = (n + 1) mod 2 ^ 64 /\ adjacent g n p /\ adjacent g n q.

(** [id] was unknown and now exists with data [d]; the other nodes are the same. *)
Definition node_added (g g' : Graph) (id : N) (d : LayerKey * option Z * NodeAttrs) : Prop :=
  g_has_node g id = false /\ node_data g' id = Some d /\ forall x, x <> id -> node_data g' x = node_data g x.

(** Every node has at most one parent. *)
Definition one_parent (g : Graph) : Prop := forall x p q, is_parent_of g p x -> is_parent_of g q x -> p = q.

(** Calls that keep the single-parent discipline: inter-layer edges only through
    insertParentEdge, and only merges of nodes without two different parents. *)
Definition keeps_one_parent (g : Graph) (o : gop) : Prop :=
  match o with
  | GInsertEdge u v _ | GAddOrUpdateEdge u v _ =>
      forall ku kv, layer_of g u = Some ku -> layer_of g v = Some kv -> lk_layer ku = lk_layer kv
  | GMergeNodes f t => forall p q, is_parent_of g p f -> is_parent_of g q t -> p = q
  | _ => True
  end.

(** Histories of allowed calls (a throwing call leaves the graph as it was). *)
Fixpoint allowed_run (g : Graph) (os : list gop) : Prop :=
  match os with
  | [] => True
  | o :: r => allowed g o /\ allowed_run (step_graph g (g_step g o)) r
  end.

(** A call that looks the edge [u - v] up (findEdge / getEdge, setEdgeAttributes,
    addOrUpdateEdge). *)
Definition looks_up (o : gop) (u v : N) : Prop :=
  match o with
  | GFindEdge x y | GSetEdgeAttrs x y _ | GAddOrUpdateEdge x y _ => same_pair x y u v
  | _ => False
  end.
(** [u] and [v] stay adjacent before, between and after the calls of a history. *)
Fixpoint always_adjacent (g : Graph) (os : list gop) (u v : N) : Prop :=
  adjacent g u v /\
  match os with [] => True | o :: r => always_adjacent (step_graph g (g_step g o)) r u v end.

(** ** Copies *)
(** clone() does not copy the timestamps of static nodes: what is compared is the partition,
    the attributes, and the timestamp of a dynamic node. *)
Definition shown (d : LayerKey * option Z * NodeAttrs) : LayerKey * option Z * NodeAttrs :=
  let '(k, t, a) := d in (k, if lk_dynamic k then t else None, a).
Definition looks_like (g c : Graph) : Prop :=
  (forall x, shown <$> node_data c x = shown <$> node_data g x) /\ same_edges g c /\
  (forall l, g_has_layer c l = g_has_layer g l).
(** Calls whose result depends on the slots of a dynamic layer, which a copy does not share. *)
Definition appends_slot (o : gop) : Prop :=
  match o with GEmplaceDyn _ _ _ _ _ | GCreateDyn _ _ => True | _ => False end.
