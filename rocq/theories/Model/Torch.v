(** * Conversion to pytorch geometric: python/src/spark_dsg/torch_conversion.py

    scene_graph_to_torch_homogeneous (189-278) and _get_directed_edge (109-113).  A tensor is the
    list of its rows (edge_index: of its columns).  The converters given by the caller, the
    precision of the positions and the sum of feature rows are parameters; labels, ids and indices
    are not truncated to the integer types of the tensors; rows of features all have the same
    length (otherwise np.array fails).  Python exceptions are [Throw]. *)
From Coq Require Import NArith Bool List.
From stdpp Require Import base list gmap fin_maps sorting.
From Verif.Model Require Import Types Mesh Attrs Node EdgeContainer SLayer DLayer Graph Views Iterators PyConvert.
Local Open Scope N_scope.
Local Open Scope list_scope.
Set Default Proof Using "Type".

(** tensor[i] = x raises IndexError behind the end *)
Definition assign {A} (l : list A) (i : nat) (x : A) : result (list A) :=
  if (i <? length l)%nat then Ok (<[i := x]> l) else Throw.

(** torch_geometric.utils.to_undirected (an external library, modelled from its documentation):
    all columns and their reversals, sorted, equal ones merged and their features added *)
Definition column_le (a b : nat * nat) : Prop := (a.1 < b.1 \/ (a.1 = b.1 /\ a.2 <= b.2))%nat.
#[global] Instance column_le_dec a b : Decision (column_le a b).
Proof. unfold column_le. apply _. Defined.
Definition swap_column (c : nat * nat) : nat * nat := (c.2, c.1).
Definition to_undirected (cols : list (nat * nat)) : list (nat * nat) :=
  merge_sort column_le (remove_dups (cols ++ map swap_column cols)).
Definition to_undirected_with {E} (add : E -> E -> E) (cols : list (nat * nat)) (feats : list E) : list (nat * nat) * list E :=
  let all := zip cols feats ++ zip (map swap_column cols) feats in
  let keys := to_undirected cols in
  (keys, omap (fun k => match map snd (filter (fun x => x.1 = k) all) with [] => None | f :: r => Some (fold_left add r f) end) keys).

(** attributes.semantic_label: NodeAttributes and AgentNodeAttributes have none (AttributeError) *)
Definition semantic_label (a : NodeAttrs) : result N :=
  match a with
  | ANode _ | AAgent _ => Throw
  | ASem s => Ok (s_label s)
  | AObj o => Ok (s_label (o_sem o))
  | ARoom r => Ok (s_label (r_sem r))
  | APlace p => Ok (s_label (p_sem p))
  | APlace2d p => Ok (s_label (d_sem p))
  | AKhronos k => Ok (s_label (o_sem (k_obj k)))
  end.

(** _get_directed_edge, 109-113 *)
Definition directed_edge (g : Graph) (id_map : gmap N nat) (e : Edge) : result (nat * nat) :=
  let! s := g_get_node g (e_src e) in
  let! t := g_get_node g (e_tgt e) in
  if n_layer s <? n_layer t
  then let! a := at_ (id_map !! e_tgt e) in let! b := at_ (id_map !! e_src e) in Ok (a, b)
  else let! a := at_ (id_map !! e_src e) in let! b := at_ (id_map !! e_tgt e) in Ok (a, b).

Section torch.
Context {F E : Type} (node_converter : Graph -> Node -> result F)
        (edge_converter : option (Graph -> Edge -> result E))
        (precision : Vec3 -> Vec3) (add : E -> E -> E).

(** the lists and dicts of 227-232 *)
Record TState := mkT {
  t_feat : list F; t_pos : list Vec3; t_masks : gmap LayerId (list bool); t_labels : list N;
  t_ids : list N; t_map : gmap N nat }.
(** 234-243 *)
Definition put_row (g : Graph) (s : TState) (n : Node) : result TState :=
  let idx := length (t_feat s) in
  let! mask := at_ (t_masks s !! n_layer n) in
  let! mask' := assign mask idx true in
  let! pos := assign (t_pos s) idx (precision (attrs_position (n_attrs n))) in
  let! f := node_converter g n in
  let! label := semantic_label (n_attrs n) in
  Ok (mkT (t_feat s ++ [f]) pos (<[n_layer n := mask']> (t_masks s)) (t_labels s ++ [label])
          (t_ids s ++ [n_id n]) (<[n_id n := idx]> (t_map s))).
(** 251-255: the number of the edge, the columns, the features *)
Definition put_column (g : Graph) (id_map : gmap N nat) (s : nat * list (nat * nat) * list E) (e : Edge)
  : result (nat * list (nat * nat) * list E) :=
  let! c := directed_edge g id_map e in
  let! cols := assign s.1.2 s.1.1 c in
  match edge_converter with
  | None => Ok (S s.1.1, cols, s.2)
  | Some f => let! x := f g e in Ok (S s.1.1, cols, s.2 ++ [x])
  end.

Record TData := mkD {
  td_x : list F; td_label : list N; td_edge_index : list (nat * nat); td_edge_attr : option (list E);
  td_pos : list Vec3; td_masks : gmap LayerId (list bool); td_ids : list N }.
(** 257-278 *)
Definition finish (undirected : bool) (s : TState) (cols : list (nat * nat)) (feats : list E) : TData :=
  let '(index, attr) :=
    if (0 <? length cols)%nat && undirected
    then match edge_converter with
         | None => (to_undirected cols, feats)
         | Some _ => to_undirected_with add cols feats end
    else (cols, feats) in
  mkD (t_feat s) (t_labels s) index (match edge_converter with None => None | Some _ => Some attr end)
      (t_pos s) (t_masks s) (t_ids s).

(** scene_graph_to_torch_homogeneous, 189-278 *)
Definition torch_homogeneous (g : Graph) (undirected : bool) : result TData -> Prop :=
  let N_ := g_num_static_nodes g in
  py_then (py_for LayerIter (fun m L r => r = Ok (<[sl_id L := replicate N_ false]> m)) (py_iter (layer_iter g)) ∅) (fun masks =>
  py_then (py_for GlobalNodeIter (fun s n r => r = put_row g s n) (py_iter (gn_begin g))
             (mkT [] (replicate N_ (mkVec3 0 0 0)) masks [] [] ∅)) (fun s =>
  py_then (py_for GlobalEdgeIter (fun c e r => r = put_column g (t_map s) c e) (py_iter (ge_begin g))
             (0%nat, replicate (g_num_static_edges g) (0%nat, 0%nat), [])) (fun c =>
  eq (Ok (finish undirected s c.1.2 c.2))))).
End torch.
