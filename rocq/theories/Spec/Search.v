(** Specification vocabulary for graph searches: paths in a layer, stated through
    hasNode/hasEdge/findNode/findEdge only. *)
From Coq Require Import NArith List.
From stdpp Require Import base list gmap relations.
From Verif.Model Require Import Types Node EdgeContainer SLayer DLayer Graph Search.
From Verif.Spec Require Import LayerLog GraphObs.
Local Open Scope N_scope.

(** [u] and [v] are joined by an edge of the layer. *)
Definition linked (l : SLayer) (u v : N) : Prop := sl_has_edge l u v = true.
(** ... and [v] is one of [ns]. *)
Definition linked_in (l : SLayer) (ns : list N) (u v : N) : Prop := linked l u v /\ v ∈ ns.
(** ... and both [v] and the edge pass the filters. *)
Definition linked_ok (l : SLayer) (nv : Node -> bool) (ev : Edge -> bool) (u v : N) : Prop :=
  (exists nd, sl_find_node l v = Some nd /\ nv nd = true) /\
  (exists e, fst (sl_find_edge l u v) = Some e /\ ev e = true).
Definition passes (l : SLayer) (nv : Node -> bool) (v : N) : Prop :=
  exists nd, sl_find_node l v = Some nd /\ nv nd = true.

(** A path of any length / of length at most [k]. *)
Definition path (R : N -> N -> Prop) : N -> N -> Prop := rtc R.
Definition path_le (R : N -> N -> Prop) (k : nat) (u v : N) : Prop :=
  exists m, (m <= k)%nat /\ nsteps R m u v.

(** The search ends normally with result [x]: for every large enough amount of fuel the
    model returns [x]. *)
Definition finishes {A} (f : nat -> fueled A) (x : A) : Prop :=
  exists n, forall fuel, (n <= fuel)%nat -> f fuel = Some (Ok x).

(** All siblings of nodes of the layer are nodes of the layer (always so for a layer built
    on its own; for a layer of a graph it fails when a node is linked to a node with the
    same layer number in another partition). *)
Definition self_contained (l : SLayer) : Prop :=
  forall u v nd, sl_find_node l u = Some nd -> v ∈ n_sib nd -> sl_has_node l v = true.

(** A layer a program can hold: built on its own, or a static layer of a graph. *)
Definition api_layer (l : SLayer) : Prop :=
  (exists lid, layer_reachable lid l) \/ (exists g lid, reachable g /\ g_layers g !! lid = Some l).

(** Two nodes are listed in the same component. *)
Definition together (cs : list (list N)) (x y : N) : Prop := exists c, c ∈ cs /\ x ∈ c /\ y ∈ c.
(** [y] is in one of the sets. *)
Definition in_some (cs : list (gset N)) (y : N) : Prop := exists c, c ∈ cs /\ y ∈ c.
(** Sharing a node is transitive on the listed sets. *)
Definition shares (a b : gset N) : Prop := exists y, y ∈ a /\ y ∈ b.
Definition sharing_transitive (cs : list (gset N)) : Prop :=
  forall a b c, a ∈ cs -> b ∈ cs -> c ∈ cs -> shares a b -> shares b c -> shares a c.
