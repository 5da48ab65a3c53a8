(** What repartition_rooms promises. *)
From Coq Require Import NArith List.
From stdpp Require Import base list.
From Verif.Model Require Import Types Attrs Node Graph Repartition.
From Verif.Spec Require Import GraphObs ExpandSpec.
Local Open Scope N_scope.

(** A room of the given graph (there is no dynamic layer of rooms), and an id of a new room. *)
Definition old_room (g : Graph) (x : N) : Prop := layer_of g x = Some (key_static ROOMS).
Definition no_dynamic_rooms (g : Graph) : Prop :=
  forall x k, layer_of g x = Some k -> lk_layer k = ROOMS -> k = key_static ROOMS.
Definition new_id (rooms : list NewRoom) (x : N) : Prop := exists room, room ∈ rooms /\ nr_id room = x.
(** The ids of the new rooms differ, and are free once the old rooms are gone. *)
Definition ids_free (g : Graph) (rooms : list NewRoom) : Prop :=
  NoDup (map nr_id rooms) /\ forall room, room ∈ rooms -> layer_of g (nr_id room) = None \/ old_room g (nr_id room).
(** The attributes of a node. *)
Definition has_attrs (g : Graph) (x : N) (a : NodeAttrs) : Prop := exists n, node_at g x = Some n /\ n_attrs n = a.
(** The place [x] falls into the room [i]: the first of the list whose area has its position. *)
Definition falls_into (g : Graph) (rooms : list NewRoom) (x i : N) : Prop :=
  is_place g x /\ exists a pre room post, has_attrs g x a /\ rooms = pre ++ room :: post /\ nr_id room = i /\
    nr_inside room (attrs_position a) = true /\ forall other, other ∈ pre -> nr_inside other (attrs_position a) = false.
(** [l] has the attributes of the places that fall into the room [i], in some order. *)
Definition places_of (g : Graph) (rooms : list NewRoom) (i : N) (l : list NodeAttrs) : Prop :=
  exists ids, NoDup ids /\ (forall x, x ∈ ids <-> falls_into g rooms x i) /\ Forall2 (has_attrs g) ids l.
(** The parents of a node with the new rooms in place of the old ones. *)
Definition parent_now (g : Graph) (rooms : list NewRoom) (x p : N) : Prop :=
  (is_parent_of g p x /\ ~ old_room g p) \/ falls_into g rooms x p.
Definition room_now (g : Graph) (rooms : list NewRoom) (x p : N) : Prop :=
  parent_now g rooms x p /\ forall q, parent_now g rooms x q -> q = p.
(** A place of [a] has a sibling of [b]. *)
Definition meets (g : Graph) (rooms : list NewRoom) (a b : N) : Prop :=
  a <> b /\ exists x y, is_place g x /\ siblings g x y /\ room_now g rooms x a /\ room_now g rooms y b.

(** The building that new rooms are linked to: some building, if there is one. *)
Definition the_building (g : Graph) (b : option N) : Prop :=
  match b with
  | Some x => layer_of g x = Some (key_static BUILDINGS)
  | None => forall x, layer_of g x <> Some (key_static BUILDINGS)
  end.
(** The links that come: room - building, place - room, room - room. *)
Definition new_link (g : Graph) (rooms : list NewRoom) (b : option N) (u v : N) : Prop :=
  (new_id rooms u /\ b = Some v) \/ falls_into g rooms u v \/ meets g rooms u v.
