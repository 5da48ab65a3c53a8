(** Vocabulary of the mergeGraph theorems: everything in terms of what a caller can ask the
    graphs ([g] before, [g'] after, [other] the graph merged in). *)
From Coq Require Import NArith ZArith Bool List.
From stdpp Require Import base list gmap fin_maps.
From Verif.Model Require Import Types Mesh Attrs Node EdgeContainer SLayer DLayer Graph.
From Verif.Spec Require Import AbstractGraph GraphHistory GraphObs.
Local Open Scope N_scope.

(** Layer [l] of [g] reports [x] as merged into another node. *)
Definition merged_away (g : Graph) (l : LayerId) (x : N) : Prop :=
  exists s, g_layers g !! l = Some s /\ sl_check_node s x = NMerged.
(** The configuration updates attributes in layer [l] (the default when it says nothing). *)
Definition updates_layer (cfg : MergeConfig) (l : LayerId) : Prop :=
  forall m, mc_update_layer cfg = Some m -> m !! l <> Some false.
(** mergeGraph looks at [x]: it is in a dynamic layer of [other], or in a static one that [g] has. *)
Definition covered (g other : Graph) (x : N) : Prop :=
  exists k, layer_of other x = Some k /\ (lk_dynamic k = true \/ is_Some (g_layers g !! lk_layer k)).
(** How far the last common node of the dynamic layer [l],[p] has moved in [g]. *)
Definition drift (vsub : Vec3 -> Vec3 -> Vec3) (g other : Graph) (l : LayerId) (p : N) (d : Vec3) : Prop :=
  (num_slots g l p = 0 /\ d = mkVec3 0 0 0) \/
  (0 < num_slots g l p /\ exists k t a k' t' b, let x := prefix_make_id p (num_slots g l p - 1) in
     node_data g x = Some (k, t, a) /\ node_data other x = Some (k', t', b) /\ d = vsub (attrs_position a) (attrs_position b)).
(** [p]'s layer is above [c]'s. *)
Definition above (g : Graph) (p c : N) : Prop :=
  exists kp kc, layer_of g p = Some kp /\ layer_of g c = Some kc /\ lk_layer kc < lk_layer kp.

(** The reasons for which the edge {u,v} of [g] may disappear. *)
Inductive dropped (cfg : MergeConfig) (g other g' : Graph) (u v : N) : Prop :=
| by_removed_node x : reported_removed g other x -> x = u \/ x = v -> dropped cfg g other g' u v
| by_removed_edge l ol e : g_layers other !! l = Some ol -> is_Some (g_layers g !! l) ->
    e ∈ fst (sl_get_removed_edges ol false) -> same_pair u v (fst e) (snd e) -> dropped cfg g other g' u v
  (* [other] gives the child [c] a parent [p] it did not have: the edge to its old parent [q] goes *)
| by_new_parent p q c x y : mc_enforce_parent cfg = true -> same_pair u v q c -> above g' q c ->
    adjacent other x y -> same_pair p c (renamed cfg x) (renamed cfg y) -> above g' p c ->
    p <> q -> ~ adjacent g p c -> dropped cfg g other g' u v.
(** [e] is an edge of [other], with its own ends or with the nodes they were merged into. *)
Definition brought (cfg : MergeConfig) (other : Graph) (u v : N) (e : Edge) : Prop :=
  same_pair u v (e_src e) (e_tgt e) /\
  exists x y e0, edge_at other x y = Some e0 /\ e_info e = e_info e0 /\
    ((e_src e = e_src e0 /\ e_tgt e = e_tgt e0) \/
     (e_src e = renamed cfg (e_src e0) /\ e_tgt e = renamed cfg (e_tgt e0))).
