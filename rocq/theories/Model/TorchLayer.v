(** * Conversion of one layer to pytorch geometric: scene_graph_layer_to_torch,
    python/src/spark_dsg/torch_conversion.py:116-186

    As in Model/Torch.v; the layer is a SceneGraphLayer or the LayerView of a layer of a graph.  The
    precision of the positions is a parameter.  edge_index holds 32-bit floats (line 162); that
    indices of 2^24 and more are rounded in it is not modelled. *)
From Coq Require Import NArith Bool List.
From stdpp Require Import base list gmap fin_maps sorting.
From Verif.Model Require Import Types Mesh Attrs Node EdgeContainer SLayer Views Queries Iterators PyConvert Torch.
Local Open Scope N_scope.
Local Open Scope list_scope.
Set Default Proof Using "Type".

(** _get_directed_edge, 109-113, on a layer *)
Definition directed_layer_edge (L : SLayer) (id_map : gmap N nat) (e : Edge) : result (nat * nat) :=
  let! s := sl_get_node L (e_src e) in
  let! t := sl_get_node L (e_tgt e) in
  if n_layer s <? n_layer t
  then let! a := at_ (id_map !! e_tgt e) in let! b := at_ (id_map !! e_src e) in Ok (a, b)
  else let! a := at_ (id_map !! e_src e) in let! b := at_ (id_map !! e_tgt e) in Ok (a, b).

Section torch.
Context {F E : Type} (node_converter : SLayer -> Node -> result F)
        (edge_converter : option (SLayer -> Edge -> result E)) (precision : Vec3 -> Vec3).

(** 148-150 *)
Record LState := mkLS { l_feat : list F; l_pos : list Vec3; l_map : gmap N nat }.
(** 152-158 *)
Definition put_layer_row (L : SLayer) (s : LState) (n : Node) : result LState :=
  let idx := length (l_feat s) in
  let! pos := assign (l_pos s) idx (precision (attrs_position (n_attrs n))) in
  let! f := node_converter L n in
  Ok (mkLS (l_feat s ++ [f]) pos (<[n_id n := idx]> (l_map s))).
(** 164-168: the number of the edge and the columns *)
Definition put_layer_column (L : SLayer) (id_map : gmap N nat) (s : nat * list (nat * nat)) (e : Edge) : result (nat * list (nat * nat)) :=
  let! c := directed_layer_edge L id_map e in
  let! cols := assign s.2 s.1 c in
  match edge_converter with
  | None => Ok (S s.1, cols)
  | Some f => let! _ := f L e in Ok (S s.1, cols)
  end.
Record LData := mkLD { ld_x : list F; ld_edge_index : list (nat * nat); ld_pos : list Vec3 }.
(** 170-186.  Line 171 passes the type to torch.tensor as a positional argument, which raises
    TypeError. *)
Definition layer_finish (s : LState) (cols : list (nat * nat)) : result LData :=
  match edge_converter with
  | Some _ => Throw
  | None => Ok (mkLD (l_feat s) (if (0 <? length cols)%nat then to_undirected cols else cols) (l_pos s))
  end.
(** scene_graph_layer_to_torch, 116-186 *)
Definition torch_layer (L : SLayer) : result LData -> Prop :=
  py_then (py_for NodeIter (fun s n r => r = put_layer_row L s n) (py_iter (node_iter L))
             (mkLS [] (replicate (sl_num_nodes L) (mkVec3 0 0 0)) ∅)) (fun s =>
  py_then (py_for EdgeIter (fun c e r => r = put_layer_column L (l_map s) c e) (py_iter (edge_iter (sl_edges L)))
             (0%nat, replicate (sl_num_edges L) (0%nat, 0%nat))) (fun c =>
  eq (layer_finish s c.2))).
End torch.
