(** What expand_rooms promises: rooms are assigned by flooding from the places that have one. *)
From Coq Require Import NArith.
From stdpp Require Import base.
From Verif.Model Require Import Types Graph.
From Verif.Spec Require Import GraphObs.
Local Open Scope N_scope.

(** [p] is the one and only parent of [x] (what get_parent reports). *)
Definition room_of (g : Graph) (x p : N) : Prop := is_parent_of g p x /\ forall q, is_parent_of g q x -> q = p.
(** [x] and [y] are linked and on the same layer (what siblings lists). *)
Definition siblings (g : Graph) (x y : N) : Prop :=
  adjacent g x y /\ exists kx ky, layer_of g x = Some kx /\ layer_of g y = Some ky /\ lk_layer kx = lk_layer ky.
(** [x] is a node of the (static) layer of the places. *)
Definition is_place (g : Graph) (x : N) : Prop := layer_of g x = Some (key_static PLACES).
Definition unassigned (g : Graph) (x : N) : Prop := forall p, ~ room_of g x p.

(** The rooms that can spread to [x]: along siblings without a room, starting next to a place
    that has one. *)
Inductive spreads (g : Graph) (room : N) : N -> Prop :=
| spreads_first p x : is_place g p -> room_of g p room -> siblings g p x -> unassigned g x -> spreads g room x
| spreads_next x y : spreads g room x -> siblings g x y -> unassigned g y -> spreads g room y.

(** The parents after the assignment [new] of rooms, and the only parent if there is just one. *)
Definition parent_after (g : Graph) (new : N -> option N) (x p : N) : Prop := is_parent_of g p x \/ new x = Some p.
Definition room_after (g : Graph) (new : N -> option N) (x p : N) : Prop :=
  parent_after g new x p /\ forall q, parent_after g new x q -> q = p.
(** The rooms [a] and [b] border on each other: a place of [a] has a sibling in [b]. *)
Definition borders (g : Graph) (new : N -> option N) (a b : N) : Prop :=
  a <> b /\ exists x y, is_place g x /\ siblings g x y /\ room_after g new x a /\ room_after g new y b.
