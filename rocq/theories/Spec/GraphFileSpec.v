(** Which graphs the binary format can hold, and when a graph can be updated from the bytes of
    another one.  Each condition excludes a case that fails (the [_refuted] theorems show
    them) or values outside the range of their C++ types. *)
From Coq Require Import NArith ZArith Bool List.
From stdpp Require Import base list gmap.
From Verif.Model Require Import Types Mesh Attrs Node EdgeContainer SLayer DLayer Graph.
From Verif.Spec Require Import BinarySpec AttrSpec GraphObs.
Local Open Scope N_scope.

Record saveable (h : Graph) : Prop := mkSaveable {
  (** values in range *)
  sv_ids : list_ok (fits 64) (g_layer_ids h);
  sv_node : forall x k t a, node_data h x = Some (k, t, a) ->
    fits 64 x /\ fits 64 (lk_layer k) /\ (forall t', t = Some t' -> fits_signed 64 t') /\ attrs_ok a;
  sv_edge : forall u v e, edge_at h u v = Some e -> edge_attrs_ok (e_info e);
  sv_mesh : forall m, g_mesh h = Some m -> mesh_fits m;
  (** static nodes have no timestamp; dynamic nodes are in layers whose LayerId is also the id
      of a static layer; no dynamic node was ever removed *)
  sv_static : forall x k t a, node_data h x = Some (k, t, a) -> lk_dynamic k = false -> t = None;
  sv_dynamic : forall x k t a, node_data h x = Some (k, t, a) -> lk_dynamic k = true -> lk_layer k ∈ g_layer_ids h;
  sv_slots : forall l p d, g_dlayer h l p = Some d -> None ∉ dl_nodes d }.

(** what a file keeps of a node (see [kept]) *)
Definition kept_data (d : LayerKey * option Z * NodeAttrs) : LayerKey * option Z * NodeAttrs :=
  let '(k, t, a) := d in (k, t, kept a).

(** [g] and [h] agree on where and when the nodes they share are; no two different nodes of
    them share a dynamic layer and a time; a node of [g] that has to go has no edge to a node
    of another layer with the same LayerId. *)
Record updatable (g h : Graph) : Prop := mkUpdatable {
  up_place : forall x k t a k' t' a', node_data g x = Some (k, t, a) -> node_data h x = Some (k', t', a') -> k' = k /\ t' = t;
  up_time : forall x y k t a b, lk_dynamic k = true -> node_data h x = Some (k, t, a) -> node_data g y = Some (k, t, b) -> x = y;
  up_gone : forall x, g_has_node g x = true -> g_has_node h x = false -> no_foreign_sibling g x }.

(** [g'] has the layers, the nodes (layer, timestamp, kept attributes) and the edges (direction
    and attributes) of [h]. *)
Definition loaded_from (h g' : Graph) : Prop :=
  g_layer_ids g' = g_layer_ids h /\ (forall l, g_has_layer g' l = g_has_layer h l) /\
  (forall x, node_data g' x = kept_data <$> node_data h x) /\ same_edges h g'.
(** The same up to the direction in which an edge is stored. *)
Definition updated_from (h g' : Graph) : Prop :=
  g_layer_ids g' = g_layer_ids h /\ (forall l, g_has_layer g' l = g_has_layer h l) /\
  (forall x, node_data g' x = kept_data <$> node_data h x) /\
  (forall u v, e_info <$> edge_at g' u v = e_info <$> edge_at h u v).
