(** Queries of the layers of a graph: BaseLayer::getNode and getEdge (include/spark_dsg/
    base_layer.h:78-96) and the ...ByIndex functions of dynamic layers
    (src/dynamic_scene_graph_layer.cpp). *)
From Coq Require Import NArith ZArith Bool List.
From stdpp Require Import base list gmap.
From Verif.Model Require Import Types Mesh Attrs Node EdgeContainer SLayer DLayer Graph.
Local Open Scope N_scope.

(** base_layer.h:78-85, with findNode of a static layer *)
Definition sl_get_node (l : SLayer) (id : N) : result Node := at_ (sl_find_node l id).
(** base_layer.h:87-96 *)
Definition sl_get_edge (l : SLayer) (s t : N) : result (Edge * SLayer) :=
  let '(o, l') := sl_find_edge l s t in let! e := at_ o in Ok (e, l').
(** the same with the functions of a dynamic layer *)
Definition dl_get_node (d : DLayer) (id : N) : result Node := at_ (dl_find_node d id).
Definition dl_get_edge (d : DLayer) (s t : N) : result (Edge * DLayer) :=
  let '(o, d') := dl_find_edge d s t in let! e := at_ o in Ok (e, d').

(** cpp:173-175 *)
Definition dl_find_index (d : DLayer) (i : N) : option Node := match dl_slot d i with Some o => o | None => None end.
(** cpp:177-179 *)
Definition dl_get_index (d : DLayer) (i : N) : result Node := dl_get_node d (prefix_make_id (dl_prefix d) i).
(** cpp:164-167 *)
Definition dl_has_edge_index (d : DLayer) (i j : N) : bool := dl_has_edge d (prefix_make_id (dl_prefix d) i) (prefix_make_id (dl_prefix d) j).
(** cpp:185-188 *)
Definition dl_find_edge_index (d : DLayer) (i j : N) : option Edge * DLayer :=
  dl_find_edge d (prefix_make_id (dl_prefix d) i) (prefix_make_id (dl_prefix d) j).
(** cpp:190-193 *)
Definition dl_get_edge_index (d : DLayer) (i j : N) : result (Edge * DLayer) :=
  dl_get_edge d (prefix_make_id (dl_prefix d) i) (prefix_make_id (dl_prefix d) j).
(** cpp:282-290 *)
Definition dl_position_index (d : DLayer) (i : N) : result Vec3 :=
  if negb (dl_has_index d i) then Throw
  else let! slot := at_ (dl_slot d i) in let! n := deref slot in Ok (attrs_position (n_attrs n)).
