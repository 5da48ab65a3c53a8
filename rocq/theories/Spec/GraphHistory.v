(** Histories of calls on the modelled graph.  [g_step] only dispatches to the model
    functions of Model/Graph.v.  A call that throws leaves the graph as it was: the only
    throwing calls in these histories are [node_lookup_.at] in setEdgeAttributes/findEdge
    (dynamic_scene_graph.cpp:311-312, 421-422), before anything is modified; that nothing
    else throws is part of the refinement theorem. *)
From Coq Require Import NArith ZArith Bool List.
From stdpp Require Import base list gmap fin_maps.
From Verif.Model Require Import Types Mesh Attrs Node EdgeContainer SLayer DLayer Graph.
From Verif.Spec Require Import AbstractGraph.
Local Open Scope N_scope.

Definition g_step (g : Graph) (o : gop) : result (bool * Graph) :=
  match o with
  | GEmplace l id a => Ok (g_emplace_node g l id a)
  | GInsertNode l id t a => Ok (g_insert_node g (Some (node_new id l t a)))
  | GEmplaceDyn l p t a e => g_emplace_dynamic g l p t a e
  | GEmplacePrev l id t a => g_emplace_prev g l id t a
  | GCreateDyn l p => Ok (g_create_dlayer g l p)
  | GAddOrUpdateNode l id a t => g_add_or_update_node g l id a t
  | GSetNodeAttrs id a => g_set_node_attributes g id a
  | GInsertEdge u v i => g_insert_edge g u v i
  | GInsertParentEdge u v i => g_insert_parent_edge g u v i
  | GAddOrUpdateEdge u v i => g_add_or_update_edge g u v i
  | GSetEdgeAttrs u v i => g_set_edge_attributes g u v i
  | GRemoveEdge u v => g_remove_edge g u v
  | GRemoveNode n => g_remove_node g n
  | GMergeNodes f t => g_merge_nodes g f t
  | GFindEdge u v => let! (o, g') := g_find_edge g u v in Ok (match o with Some _ => true | None => false end, g')
  | GMarkStale => Ok (true, g_mark_stale g)
  | GNewNodes c => Ok (true, snd (g_get_new_nodes g c))
  | GRemovedNodes c => Ok (true, snd (g_get_removed_nodes g c))
  | GNewEdges c => Ok (true, snd (g_get_new_edges g c))
  | GRemovedEdges c => Ok (true, snd (g_get_removed_edges g c))
  | GSetMesh m => Ok (true, g_set_mesh g m)
  | GClear => Ok (true, g_clear g)
  end.

Definition step_out (r : result (bool * Graph)) : AOut :=
  match r with Ok (b, _) => ABool b | _ => AThrow end.
Definition step_graph (g : Graph) (r : result (bool * Graph)) : Graph :=
  match r with Ok (_, g') => g' | _ => g end.

(** [None]: undefined behaviour was reached. *)
Fixpoint g_run (g : Graph) (os : list gop) : option (list AOut * Graph) :=
  match os with
  | [] => Some ([], g)
  | o :: r =>
    match g_step g o with
    | UB => None
    | res => match g_run (step_graph g res) r with
             | None => None
             | Some (bs, g'') => Some (step_out res :: bs, g'')
             end
    end
  end.
