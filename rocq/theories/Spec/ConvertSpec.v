(** What a converted graph has to contain. *)
From Coq Require Import NArith Bool List.
From stdpp Require Import base list gmap.
From Verif.Model Require Import Types Attrs Node EdgeContainer Graph.
From Verif.Spec Require Import GraphObs.
Local Open Scope N_scope.

(** [x] is a node of a static layer, or of any layer if dynamic layers are included. *)
Definition shown (dynamic : bool) (g : Graph) (x : N) : bool :=
  match layer_of g x with Some k => dynamic || negb (lk_dynamic k) | None => false end.
(** the attributes of node [x], and of the edge between [u] and [v], as findNode and findEdge give them *)
Definition attributes_of (g : Graph) (x : N) : option NodeAttrs := n_attrs <$> node_at g x.
Definition info_of (g : Graph) (u v : N) : option EdgeAttrs := e_info <$> edge_at g u v.
