(** Model of DynamicSceneGraph.  Sources: include/spark_dsg/dynamic_scene_graph.h,
    src/dynamic_scene_graph.cpp (line numbers below refer to the .cpp file). *)
From Coq Require Import NArith ZArith Bool List.
From stdpp Require Import base list gmap fin_maps.
From Verif.Model Require Import Types Mesh Attrs Node EdgeContainer SLayer DLayer.
Local Open Scope N_scope.

(** layer_ids, layers_, dynamic_layers_, node_lookup_, interlayer_edges_,
    dynamic_interlayer_edges_, mesh_.
    [layers_] maps to non-null pointers, except that operator[] on a missing key would add
    a null pointer: the model returns [UB] there instead. *)
Record Graph := mkG {
  g_layer_ids : list LayerId;
  g_layers : gmap LayerId SLayer;
  g_dlayers : gmap LayerId (gmap N DLayer);
  g_lookup : gmap N LayerKey;
  g_inter : EC;
  g_dinter : EC;
  g_mesh : option Mesh }.

Definition g_with_layers (g : Graph) x := mkG (g_layer_ids g) x (g_dlayers g) (g_lookup g) (g_inter g) (g_dinter g) (g_mesh g).
Definition g_with_dlayers (g : Graph) x := mkG (g_layer_ids g) (g_layers g) x (g_lookup g) (g_inter g) (g_dinter g) (g_mesh g).
Definition g_with_lookup (g : Graph) x := mkG (g_layer_ids g) (g_layers g) (g_dlayers g) x (g_inter g) (g_dinter g) (g_mesh g).
Definition g_with_inter (g : Graph) x := mkG (g_layer_ids g) (g_layers g) (g_dlayers g) (g_lookup g) x (g_dinter g) (g_mesh g).
Definition g_with_dinter (g : Graph) x := mkG (g_layer_ids g) (g_layers g) (g_dlayers g) (g_lookup g) (g_inter g) x (g_mesh g).
Definition g_with_mesh (g : Graph) x := mkG (g_layer_ids g) (g_layers g) (g_dlayers g) (g_lookup g) (g_inter g) (g_dinter g) x.

(** clear(), 63-77: one fresh static layer per configured id.  The stale flags of the two
    inter-layer containers survive (EdgeContainer::reset). *)
Definition g_clear (g : Graph) : Graph :=
  mkG (g_layer_ids g)
      (list_to_map (map (fun l => (l, sl_new l)) (g_layer_ids g)))
      ∅ ∅ (ec_reset (g_inter g)) (ec_reset (g_dinter g)) None.

(** Constructor, 55-61: throws std::domain_error without layers. *)
Definition g_new (layer_ids : list LayerId) : result Graph :=
  match layer_ids with
  | [] => Throw
  | _ => Ok (g_clear (mkG layer_ids ∅ ∅ ∅ ec_empty ec_empty None))
  end.
(** 48-53 *)
Definition default_layer_ids : list LayerId := [OBJECTS; PLACES; ROOMS; BUILDINGS].

(** reset, 79-82: no check for an empty list *)
Definition g_reset (g : Graph) (layer_ids : list LayerId) : Graph :=
  g_clear (mkG layer_ids (g_layers g) (g_dlayers g) (g_lookup g) (g_inter g) (g_dinter g) (g_mesh g)).

(** 333-343 *)
Definition g_has_layer (g : Graph) (l : LayerId) : bool := bool_decide (is_Some (g_layers g !! l)).
Definition g_dlayer (g : Graph) (l : LayerId) (p : N) : option DLayer :=
  match g_dlayers g !! l with None => None | Some m => m !! p end.
Definition g_has_dlayer (g : Graph) (l : LayerId) (p : N) : bool := bool_decide (is_Some (g_dlayer g l p)).

(** Write back a dynamic layer ([dynamic_layers_[l][p]]). *)
Definition g_set_dlayer (g : Graph) (l : LayerId) (p : N) (d : DLayer) : Graph :=
  g_with_dlayers g (<[l := <[p := d]> (default ∅ (g_dlayers g !! l))]> (g_dlayers g)).
Definition g_set_layer (g : Graph) (l : LayerId) (s : SLayer) : Graph :=
  g_with_layers g (<[l := s]> (g_layers g)).

(** 85-97 *)
Definition g_create_dlayer (g : Graph) (l : LayerId) (p : N) : bool * Graph :=
  if g_has_dlayer g l p then (false, g)
  else (true, g_set_dlayer g l p (dl_new l p)).

(** A BaseLayer reference. *)
Inductive BLayer := BS (l : SLayer) | BD (d : DLayer).

(** layerFromKey, 866-877: [.at] throws *)
Definition g_layer_at (g : Graph) (k : LayerKey) : result BLayer :=
  if lk_dynamic k then
    let! d := at_ (g_dlayer g (lk_layer k) (lk_prefix k)) in Ok (BD d)
  else let! l := at_ (g_layers g !! lk_layer k) in Ok (BS l).
Definition g_put_layer (g : Graph) (k : LayerKey) (b : BLayer) : Graph :=
  match b with
  | BS s => g_set_layer g (lk_layer k) s
  | BD d => g_set_dlayer g (lk_layer k) (lk_prefix k) d
  end.

(** Virtual calls of BaseLayer. *)
Definition bl_has_edge (b : BLayer) (s t : N) : bool :=
  match b with BS l => sl_has_edge l s t | BD d => dl_has_edge d s t end.
Definition bl_insert_edge (b : BLayer) (s t : N) (i : option EdgeAttrs) : result (bool * BLayer) :=
  match b with
  | BS l => let! (r, l') := sl_insert_edge l s t i in Ok (r, BS l')
  | BD d => let! (r, d') := dl_insert_edge d s t i in Ok (r, BD d') end.
Definition bl_remove_edge (b : BLayer) (s t : N) : result (bool * BLayer) :=
  match b with
  | BS l => let! (r, l') := sl_remove_edge l s t in Ok (r, BS l')
  | BD d => let! (r, d') := dl_remove_edge d s t in Ok (r, BD d') end.
Definition bl_remove_node (b : BLayer) (id : N) : result (bool * BLayer) :=
  match b with
  | BS l => let! (r, l') := sl_remove_node l id in Ok (r, BS l')
  | BD d => let! (r, d') := dl_remove_node d id in Ok (r, BD d') end.
Definition bl_check_node (b : BLayer) (id : N) : result NodeStatus :=
  match b with BS l => Ok (sl_check_node l id) | BD d => dl_check_node d id end.
Definition bl_edges (b : BLayer) : EC := match b with BS l => sl_edges l | BD d => dl_edges d end.
Definition bl_with_edges (b : BLayer) (e : EC) : BLayer :=
  match b with BS l => BS (sl_with_edges l e) | BD d => BD (dl_with_edges d e) end.

(** getNodePtr, 879-886.  For dynamic layers the index is the 56-bit category id of the
    NodeSymbol.  [Ok None] is a null pointer. *)
Definition g_node_ptr (g : Graph) (id : N) (k : LayerKey) : result (option Node) :=
  if lk_dynamic k then
    let! d := at_ (g_dlayer g (lk_layer k) (lk_prefix k)) in at_ (dl_slot d (sym_index id))
  else
    let! l := at_ (g_layers g !! lk_layer k) in
    let! n := at_ (sl_nodes l !! id) in Ok (Some n).

(** Modify the node through the pointer returned by getNodePtr. *)
Definition g_upd_ptr (g : Graph) (id : N) (k : LayerKey) (f : Node -> Node) : result Graph :=
  if lk_dynamic k then
    let! d := at_ (g_dlayer g (lk_layer k) (lk_prefix k)) in
    let! slot := at_ (dl_slot d (sym_index id)) in
    let! d' := dl_upd d (sym_index id) f in
    Ok (g_set_dlayer g (lk_layer k) (lk_prefix k) d')
  else
    let! l := at_ (g_layers g !! lk_layer k) in
    let! n := at_ (sl_nodes l !! id) in
    let! l' := sl_upd l id f in
    Ok (g_set_layer g (lk_layer k) l').

(** 345-347 *)
Definition g_has_node (g : Graph) (id : N) : bool := bool_decide (is_Some (g_lookup g !! id)).
(** 349-356 *)
Definition g_check_node (g : Graph) (id : N) : result NodeStatus :=
  match g_lookup g !! id with
  | None => Ok NNonexistent
  | Some k => let! b := g_layer_at g k in bl_check_node b id
  end.
(** 391-398; [Ok None] is a null pointer *)
Definition g_find_node (g : Graph) (id : N) : result (option Node) :=
  match g_lookup g !! id with
  | None => Ok None
  | Some k => g_node_ptr g id k
  end.
(** 382-389 *)
Definition g_get_node (g : Graph) (id : N) : result Node :=
  let! o := g_find_node g id in at_ o.
(** 400-407 *)
Definition g_layer_for_node (g : Graph) (id : N) : option LayerKey := g_lookup g !! id.
(** 476-483 *)
Definition g_is_dynamic (g : Graph) (id : N) : bool :=
  match g_lookup g !! id with None => false | Some k => lk_dynamic k end.

(** The inter-layer container used for a pair of keys: 244-251, 425-430 … *)
Definition g_pair_ec (g : Graph) (sk tk : LayerKey) : EC :=
  if lk_dynamic sk || lk_dynamic tk then g_dinter g else g_inter g.
Definition g_with_pair_ec (g : Graph) (sk tk : LayerKey) (e : EC) : Graph :=
  if lk_dynamic sk || lk_dynamic tk then g_with_dinter g e else g_with_inter g e.

(** hasEdge with keys, 888-919.  The out-parameters are set only if both nodes exist;
    otherwise they keep the invalid default key, which is [None] here. *)
Definition g_has_edge_keys (g : Graph) (s t : N) : result (bool * option (LayerKey * LayerKey)) :=
  match g_lookup g !! s with
  | None => Ok (false, None)
  | Some sk =>
    match g_lookup g !! t with
    | None => Ok (false, None)
    | Some tk =>
      if key_eqb sk tk then
        let! b := g_layer_at g sk in Ok (bl_has_edge b s t, Some (sk, tk))
      else Ok (ec_contains (g_pair_ec g sk tk) s t, Some (sk, tk))
    end
  end.
(** 358-360 *)
Definition g_has_edge (g : Graph) (s t : N) : result bool :=
  let! (b, _) := g_has_edge_keys g s t in Ok b.

(** findEdge, 420-433 (touches the stale flag); node_lookup_.at throws *)
Definition g_find_edge (g : Graph) (s t : N) : result (option Edge * Graph) :=
  let! sk := at_ (g_lookup g !! s) in
  let! tk := at_ (g_lookup g !! t) in
  if key_eqb sk tk then
    let! b := g_layer_at g sk in
    Ok (ec_find (bl_edges b) s t, g_put_layer g sk (bl_with_edges b (ec_touch (bl_edges b) s t)))
  else
    let c := g_pair_ec g sk tk in
    Ok (ec_find c s t, g_with_pair_ec g sk tk (ec_touch c s t)).
(** 409-418 *)
Definition g_get_edge (g : Graph) (s t : N) : result (Edge * Graph) :=
  let! (o, g') := g_find_edge g s t in
  let! e := at_ o in Ok (e, g').

(** 99-117 *)
Definition g_emplace_node (g : Graph) (l : LayerId) (id : N) (a : NodeAttrs) : bool * Graph :=
  if g_has_node g id then (false, g)
  else match g_layers g !! l with
       | None => (false, g)
       | Some s =>
         let '(ok, s') := sl_emplace_node s id a in
         let g' := g_set_layer g l s' in
         (ok, if ok then g_with_lookup g' (<[id := key_static l]> (g_lookup g')) else g')
       end.

(** 119-147 *)
Definition g_emplace_dynamic (g : Graph) (l : LayerId) (p : N) (t : Z) (a : NodeAttrs) (add_edge : bool)
  : result (bool * Graph) :=
  let id := match g_dlayer g l p with
            | None => prefix_make_id p 0
            | Some d => prefix_make_id p (dl_next d) end in
  if g_has_node g id then Ok (false, g)
  else
    let g1 := snd (g_create_dlayer g l p) in
    let! d := deref (g_dlayer g1 l p) in
    let! (ok, d') := dl_emplace_node d t a add_edge in
    let g2 := g_set_dlayer g1 l p d' in
    Ok (ok, if ok then g_with_lookup g2 (<[id := key_dynamic l p]> (g_lookup g2)) else g2).

(** 149-172 *)
Definition g_emplace_prev (g : Graph) (l : LayerId) (id : N) (t : Z) (a : NodeAttrs)
  : result (bool * Graph) :=
  if g_has_node g id then Ok (false, g)
  else
    let p := prefix_from_id id in
    let g1 := snd (g_create_dlayer g l p) in
    let! d := deref (g_dlayer g1 l p) in
    let '(ok, d') := dl_emplace_at d t (prefix_index id) a in
    let g2 := g_set_dlayer g1 l p d' in
    Ok (ok, if ok then g_with_lookup g2 (<[id := key_dynamic l p]> (g_lookup g2)) else g2).

(** 174-197; a node freshly built by the caller *)
Definition g_insert_node (g : Graph) (node : option Node) : bool * Graph :=
  match node with
  | None => (false, g)
  | Some n =>
    if g_has_node g (n_id n) then (false, g)
    else match g_layers g !! n_layer n with
         | None => (false, g)
         | Some s =>
           let '(ok, s') := sl_insert_node s (Some n) in
           let g' := g_set_layer g (n_layer n) s' in
           (ok, if ok then g_with_lookup g' (<[n_id n := key_static (n_layer n)]> (g_lookup g')) else g')
         end
  end.

(** 199-224 *)
Definition g_add_or_update_node (g : Graph) (l : LayerId) (id : N) (a : NodeAttrs) (stamp : option Z)
  : result (bool * Graph) :=
  match g_layers g !! l with
  | None => Ok (false, g)
  | Some s =>
    match g_lookup g !! id with
    | Some k => let! g' := g_upd_ptr g id k (set_attrs a) in Ok (true, g')
    | None =>
      match stamp with
      | Some t => g_emplace_prev g l id t a
      | None =>
        let '(ok, s') := sl_emplace_node s id a in
        let g' := g_set_layer g l s' in
        Ok (ok, if ok then g_with_lookup g' (<[id := key_static l]> (g_lookup g')) else g')
      end
    end
  end.

(** addAncestry, 921-937 *)
Definition g_add_ancestry (g : Graph) (s t : N) (sk tk : LayerKey) : result Graph :=
  let! _ := g_node_ptr g s sk in
  let! _ := g_node_ptr g t tk in
  if key_is_parent sk tk then
    let! g1 := g_upd_ptr g s sk (add_chd t) in g_upd_ptr g1 t tk (add_par s)
  else if key_is_parent tk sk then
    let! g1 := g_upd_ptr g t tk (add_chd s) in g_upd_ptr g1 s sk (add_par t)
  else
    let! g1 := g_upd_ptr g s sk (add_sib t) in g_upd_ptr g1 t tk (add_sib s).

(** removeAncestry, 939-955 *)
Definition g_remove_ancestry (g : Graph) (s t : N) (sk tk : LayerKey) : result Graph :=
  let! _ := g_node_ptr g s sk in
  let! _ := g_node_ptr g t tk in
  if key_is_parent sk tk then
    let! g1 := g_upd_ptr g s sk (del_chd t) in g_upd_ptr g1 t tk (del_par s)
  else if key_is_parent tk sk then
    let! g1 := g_upd_ptr g t tk (del_chd s) in g_upd_ptr g1 s sk (del_par t)
  else
    let! g1 := g_upd_ptr g s sk (del_sib t) in g_upd_ptr g1 t tk (del_sib s).

(** removeInterlayerEdge, 972-986 *)
Definition g_remove_interlayer_keys (g : Graph) (s t : N) (sk tk : LayerKey) : result Graph :=
  let! g1 := g_remove_ancestry g s t sk tk in
  let! c := ec_remove (g_pair_ec g1 sk tk) s t in
  Ok (g_with_pair_ec g1 sk tk c).
Definition g_remove_interlayer (g : Graph) (s t : N) : result Graph :=
  let! sk := at_ (g_lookup g !! s) in
  let! tk := at_ (g_lookup g !! t) in
  g_remove_interlayer_keys g s t sk tk.

(** removeEdge, 458-474 *)
Definition g_remove_edge (g : Graph) (s t : N) : result (bool * Graph) :=
  let! (has, keys) := g_has_edge_keys g s t in
  if negb has then Ok (false, g)
  else match keys with
       | None => Ok (false, g)
       | Some (sk, tk) =>
         if negb (key_valid sk) || negb (key_valid tk) then Ok (false, g)
         else if key_eqb sk tk then
           let! b := g_layer_at g sk in
           let! (r, b') := bl_remove_edge b s t in
           Ok (r, g_put_layer g sk b')
         else let! g' := g_remove_interlayer_keys g s t sk tk in Ok (true, g')
       end.

(** insertEdge, 226-255 *)
Definition g_insert_edge (g : Graph) (s t : N) (info : option EdgeAttrs) : result (bool * Graph) :=
  let! (has, keys) := g_has_edge_keys g s t in
  if has then Ok (false, g)
  else match keys with
       | None => Ok (false, g)
       | Some (sk, tk) =>
         if negb (key_valid sk) || negb (key_valid tk) then Ok (false, g)
         else if key_eqb sk tk then
           let! b := g_layer_at g sk in
           let! (r, b') := bl_insert_edge b s t info in
           Ok (r, g_put_layer g sk b')
         else
           let! g1 := g_add_ancestry g s t sk tk in
           Ok (true, g_with_pair_ec g1 sk tk (ec_insert (g_pair_ec g1 sk tk) s t info))
       end.

(** dropAllParents, 957-970 *)
Definition g_drop_all_parents (g : Graph) (s t : N) (sk tk : LayerKey) : result Graph :=
  let! so := g_node_ptr g s sk in
  let! to := g_node_ptr g t tk in
  let src_parent := key_is_parent sk tk in
  let! n := deref (if src_parent then to else so) in
  let child := if src_parent then t else s in
  rfold (fun g p => let! (_, g') := g_remove_edge g child p in Ok g') (elements (n_par n)) g.

(** insertParentEdge, 257-286 *)
Definition g_insert_parent_edge (g : Graph) (s t : N) (info : option EdgeAttrs) : result (bool * Graph) :=
  let! (has, keys) := g_has_edge_keys g s t in
  if has then Ok (false, g)
  else match keys with
       | None => Ok (false, g)
       | Some (sk, tk) =>
         if negb (key_valid sk) || negb (key_valid tk) then Ok (false, g)
         else
           let! g0 := (if negb (key_eqb sk tk) then g_drop_all_parents g s t sk tk else Ok g) in
           let! g1 := g_add_ancestry g0 s t sk tk in
           Ok (true, g_with_pair_ec g1 sk tk (ec_insert (g_pair_ec g1 sk tk) s t info))
       end.

(** setNodeAttributes, 298-306 *)
Definition g_set_node_attributes (g : Graph) (id : N) (a : NodeAttrs) : result (bool * Graph) :=
  match g_lookup g !! id with
  | None => Ok (false, g)
  | Some k => let! g' := g_upd_ptr g id k (set_attrs a) in Ok (true, g')
  end.

(** setEdgeAttributes, 308-331; node_lookup_.at throws *)
Definition g_set_edge_attributes (g : Graph) (s t : N) (a : EdgeAttrs) : result (bool * Graph) :=
  let! sk := at_ (g_lookup g !! s) in
  let! tk := at_ (g_lookup g !! t) in
  let upd c := match ec_find c s t with
               | None => (false, c)
               | Some _ => (true, ec_set_info (ec_touch c s t) s t a) end in
  if key_eqb sk tk then
    let! b := g_layer_at g sk in
    let '(r, c) := upd (bl_edges b) in
    Ok (r, g_put_layer g sk (bl_with_edges b c))
  else
    let '(r, c) := upd (g_pair_ec g sk tk) in
    Ok (r, g_with_pair_ec g sk tk c).

(** addOrUpdateEdge, 288-296 *)
Definition g_add_or_update_edge (g : Graph) (s t : N) (a : EdgeAttrs) : result (bool * Graph) :=
  let! has := g_has_edge g s t in
  if has then g_set_edge_attributes g s t a else g_insert_edge g s t (Some a).

(** removeNode, 435-456 *)
Definition g_remove_node (g : Graph) (id : N) : result (bool * Graph) :=
  match g_lookup g !! id with
  | None => Ok (false, g)
  | Some k =>
    let! o := g_node_ptr g id k in
    let! n := deref o in
    let! g1 := rfold (fun g t => g_remove_interlayer g id t) (elements (n_chd n)) g in
    (* parents_ is read after the children loop, through the same pointer *)
    let! o1 := g_node_ptr g1 id k in
    let! n1 := deref o1 in
    let! g2 := rfold (fun g t => g_remove_interlayer g id t) (elements (n_par n1)) g1 in
    let! b := g_layer_at g2 k in
    let! (_, b') := bl_remove_node b id in
    let g3 := g_put_layer g2 k b' in
    Ok (true, g_with_lookup g3 (delete id (g_lookup g3)))
  end.

(** rewireInterlayerEdge, 988-1034.  When [hasEdge] fails early because a node is unknown
    the two keys stay invalid (default constructed): [key_unknown]. *)
Definition g_rewire_interlayer (g : Graph) (s ns t : N) : result Graph :=
  if s =? ns then Ok g
  else
    let! sk := at_ (g_lookup g !! s) in
    let! (has, keys) := g_has_edge_keys g ns t in
    let '(nsk, tk) := match keys with Some p => p | None => (key_unknown, key_unknown) end in
    if has then g_remove_interlayer_keys g s t sk tk
    else
      let! g1 := g_remove_ancestry g s t sk tk in
      let! g2 := g_add_ancestry g1 ns t nsk tk in
      let c := g_pair_ec g2 sk tk in
      match ec_find c s t with
      | None => Ok g2
      | Some e =>
        let! c' := ec_remove (ec_touch c s t) s t in
        let g3 := g_with_pair_ec g2 sk tk c' in
        Ok (g_with_pair_ec g3 nsk tk (ec_insert (g_pair_ec g3 nsk tk) ns t (Some (e_info e))))
      end.

(** mergeNodes, 581-614.  [layers_[info.layer]] is used even for dynamic nodes: a missing
    static layer is a null dereference, a missing node throws. *)
Definition g_merge_nodes (g : Graph) (from to : N) : result (bool * Graph) :=
  match g_lookup g !! from, g_lookup g !! to with
  | Some fk, Some tk =>
    if from =? to then Ok (false, g)
    else if negb (key_eqb fk tk) then Ok (false, g)
    else
      let! l := deref (g_layers g !! lk_layer fk) in
      let! n := at_ (sl_nodes l !! from) in
      let! g1 := rfold (fun g t => g_rewire_interlayer g from to t) (elements (n_par n)) g in
      let! l1 := deref (g_layers g1 !! lk_layer fk) in
      let! n1 := deref (sl_nodes l1 !! from) in
      let! g2 := rfold (fun g t => g_rewire_interlayer g from to t) (elements (n_chd n1)) g1 in
      let! l2 := deref (g_layers g2 !! lk_layer fk) in
      let! (_, l3) := sl_merge_nodes l2 from to in
      let g3 := g_set_layer g2 (lk_layer fk) l3 in
      Ok (true, g_with_lookup g3 (delete from (g_lookup g3)))
  | _, _ => Ok (false, g)
  end.

(** *** Counts, 485-564 *)
Definition sum_list (l : list nat) : nat := fold_right Nat.add 0%nat l.
Definition g_all_dlayers (g : Graph) : list DLayer :=
  concat (map (fun x => map snd (map_to_list (snd x))) (map_to_list (g_dlayers g))).
Definition g_num_layers (g : Graph) : nat :=
  (size (g_layers g)
   + length (filter (fun l => g_layers g !! l = None) (map fst (map_to_list (g_dlayers g)))))%nat.
Definition g_num_dlayers_of_type (g : Graph) (l : LayerId) : nat :=
  match g_dlayers g !! l with None => 0%nat | Some m => size m end.
Definition g_num_dlayers (g : Graph) : nat :=
  sum_list (map (fun x => size (snd x)) (map_to_list (g_dlayers g))).
Definition g_num_static_nodes (g : Graph) : nat :=
  sum_list (map (fun x => sl_num_nodes (snd x)) (map_to_list (g_layers g))).
Definition g_num_dynamic_nodes (g : Graph) : nat := sum_list (map dl_num_nodes (g_all_dlayers g)).
Definition g_num_nodes (g : Graph) (include_mesh : bool) : nat :=
  (g_num_static_nodes g + g_num_dynamic_nodes g
   + match g_mesh g with
     | Some m => if include_mesh then length (m_points m) else 0
     | None => 0 end)%nat.
Definition g_num_static_edges (g : Graph) : nat :=
  (ec_size (g_inter g) + sum_list (map (fun x => sl_num_edges (snd x)) (map_to_list (g_layers g))))%nat.
Definition g_num_dynamic_edges (g : Graph) : nat :=
  (ec_size (g_dinter g) + sum_list (map dl_num_edges (g_all_dlayers g)))%nat.
Definition g_num_edges (g : Graph) : nat := (g_num_static_edges g + g_num_dynamic_edges g)%nat.

(** getPosition, 566-579 *)
Definition g_get_position (g : Graph) (id : N) : result Vec3 :=
  let! k := at_ (g_lookup g !! id) in
  let! b := g_layer_at g k in
  match b with BS l => sl_get_position l id | BD d => dl_get_position d id end.

(** *** updateFromLayer, 616-658.  [edges] is the optional edge map of the call. *)
Definition g_update_node1 (st : SLayer * gmap N LayerKey) (x : N * Node) : SLayer * gmap N LayerKey :=
  let '(l, lookup) := st in
  let '(id, other) := x in
  match sl_nodes l !! id with
  | Some n => (sl_with_nodes l (<[id := set_attrs (n_attrs other) n]> (sl_nodes l)), lookup)
  | None => (mkSL (sl_id l) (<[id := other]> (sl_nodes l)) (<[id := NNew]> (sl_status l)) (sl_edges l),
             <[id := key_static (sl_id l)]> lookup)
  end.
Definition g_update_edge1 (l : SLayer) (x : EdgeKey * Edge) : result SLayer :=
  let '(k, e) := x in
  if sl_has_edge l (e_src e) (e_tgt e) then
    match ec_edges (sl_edges l) !! k with
    | None => Throw
    | Some old => Ok (sl_with_edges l (mkEC (<[k := mkEdge (e_src old) (e_tgt old) (e_info e)]> (ec_edges (sl_edges l)))
                                        (ec_status (sl_edges l)) (ec_stale (sl_edges l))))
    end
  else let! (_, l') := sl_insert_edge l (e_src e) (e_tgt e) (Some (e_info e)) in Ok l'.
(** Result: return value, this graph, the other layer afterwards. *)
Definition g_update_from_layer (g : Graph) (other : SLayer) (edges : option (gmap EdgeKey Edge))
  : result (bool * Graph * SLayer) :=
  match g_layers g !! sl_id other with
  | None => Ok (false, g, other)
  | Some l =>
    let '(l1, lk) := fold_left g_update_node1 (map_to_list (sl_nodes other)) (l, g_lookup g) in
    let other' := sl_reset other in
    let! l2 := (match edges with
                | None => Ok l1
                | Some m => rfold g_update_edge1 (map_to_list m) l1 end) in
    Ok (true, g_with_lookup (g_set_layer g (sl_id other) l2) lk, other')
  end.

(** *** Change reports through visitLayers, 726-760, 1044-1055 *)
Definition visit_static {R} (f : SLayer -> list R * SLayer) (m : gmap LayerId SLayer)
  : list R * gmap LayerId SLayer :=
  (concat (map (fun x => fst (f (snd x))) (map_to_list m)), (fun l => snd (f l)) <$> m).
Definition visit_dynamic {R} (f : DLayer -> list R * DLayer) (m : gmap LayerId (gmap N DLayer))
  : list R * gmap LayerId (gmap N DLayer) :=
  (concat (map (fun x => concat (map (fun y => fst (f (snd y))) (map_to_list (snd x)))) (map_to_list m)),
   (fun (mm : gmap N DLayer) => (fun d => snd (f d)) <$> mm) <$> m).

Definition g_get_removed_nodes (g : Graph) (clear : bool) : list N * Graph :=
  let '(r1, ls) := visit_static (fun l => sl_get_removed_nodes l clear) (g_layers g) in
  let '(r2, ds) := visit_dynamic (fun d => dl_get_removed_nodes d clear) (g_dlayers g) in
  (r1 ++ r2, g_with_dlayers (g_with_layers g ls) ds).
Definition g_get_new_nodes (g : Graph) (clear : bool) : list N * Graph :=
  let '(r1, ls) := visit_static (fun l => sl_get_new_nodes l clear) (g_layers g) in
  let '(r2, ds) := visit_dynamic (fun d => dl_get_new_nodes d clear) (g_dlayers g) in
  (r1 ++ r2, g_with_dlayers (g_with_layers g ls) ds).
Definition g_get_removed_edges (g : Graph) (clear : bool) : list EdgeKey * Graph :=
  let '(r1, ls) := visit_static (fun l => sl_get_removed_edges l clear) (g_layers g) in
  let '(r2, ds) := visit_dynamic (fun d => dl_get_removed_edges d clear) (g_dlayers g) in
  let '(r3, c) := ec_get_removed (g_inter g) clear in
  let '(r4, c') := ec_get_removed (g_dinter g) clear in
  (r1 ++ r2 ++ r3 ++ r4, g_with_dinter (g_with_inter (g_with_dlayers (g_with_layers g ls) ds) c) c').
Definition g_get_new_edges (g : Graph) (clear : bool) : list EdgeKey * Graph :=
  let '(r1, ls) := visit_static (fun l => sl_get_new_edges l clear) (g_layers g) in
  let '(r2, ds) := visit_dynamic (fun d => dl_get_new_edges d clear) (g_dlayers g) in
  let '(r3, c) := ec_get_new (g_inter g) clear in
  let '(r4, c') := ec_get_new (g_dinter g) clear in
  (r1 ++ r2 ++ r3 ++ r4, g_with_dinter (g_with_inter (g_with_dlayers (g_with_layers g ls) ds) c) c').

(** *** Stale edges, 762-788, 1036-1042 *)
Definition g_mark_stale (g : Graph) : Graph :=
  mkG (g_layer_ids g)
      ((fun l => sl_with_edges l (ec_set_stale (sl_edges l))) <$> g_layers g)
      ((fun (m : gmap N DLayer) => (fun d => dl_with_edges d (ec_set_stale (dl_edges d))) <$> m) <$> g_dlayers g)
      (g_lookup g) (ec_set_stale (g_inter g)) (ec_set_stale (g_dinter g)) (g_mesh g).

Definition stale_keys (c : EC) : list EdgeKey := keys_with (fun b => b) (ec_stale c).
Definition g_remove_stale (g : Graph) (ks : list EdgeKey) : result Graph :=
  rfold (fun g k => let! (_, g') := g_remove_edge g (fst k) (snd k) in Ok g') ks g.
(** The stale sets are read when each container is reached; [removeEdge] never changes
    them, so reading them all from the initial graph is equivalent. *)
Definition g_remove_all_stale (g : Graph) : result Graph :=
  let! g1 := g_remove_stale g (concat (map (fun x => stale_keys (sl_edges (snd x))) (map_to_list (g_layers g)))) in
  let! g2 := g_remove_stale g1 (concat (map (fun d => stale_keys (dl_edges d)) (g_all_dlayers g))) in
  let! g3 := g_remove_stale g2 (stale_keys (g_inter g)) in
  g_remove_stale g3 (stale_keys (g_dinter g)).

(** *** clone, 790-833 *)
Definition g_insert_all (g : Graph) (es : list (EdgeKey * Edge)) : result Graph :=
  rfold (fun g (x : EdgeKey * Edge) =>
           let e := snd x in
           let! (_, g') := g_insert_edge g (e_src e) (e_tgt e) (Some (e_info e)) in Ok g') es g.
Definition g_clone (g : Graph) : result Graph :=
  let! c0 := g_new (g_layer_ids g) in
  let! c1 := rfold (fun c (x : N * LayerKey) =>
               let! o := g_node_ptr g (fst x) (snd x) in
               let! n := deref o in
               if lk_dynamic (snd x) then
                 let! t := at_ (n_time n) in
                 let! (_, c') := g_emplace_prev c (n_layer n) (n_id n) t (n_attrs n) in Ok c'
               else Ok (snd (g_emplace_node c (n_layer n) (n_id n) (n_attrs n))))
             (map_to_list (g_lookup g)) c0 in
  let! c2 := rfold (fun c (x : LayerId * SLayer) => g_insert_all c (map_to_list (ec_edges (sl_edges (snd x)))))
                   (map_to_list (g_layers g)) c1 in
  let! c3 := rfold (fun c d => g_insert_all c (map_to_list (ec_edges (dl_edges d)))) (g_all_dlayers g) c2 in
  let! c4 := g_insert_all c3 (map_to_list (ec_edges (g_inter g))) in
  let! c5 := g_insert_all c4 (map_to_list (ec_edges (g_dinter g))) in
  Ok (g_with_mesh c5 (g_mesh g)).

(** *** mergeGraph, 660-724.  [other] is const, but clearing removal reports mutates its
    layers through pointers, so the new [other] is returned as well. *)
Section MergeGraph.
  Variable vadd vsub : Vec3 -> Vec3 -> Vec3.

  Definition g_merge_dlayers (g other : Graph) (cfg : MergeConfig) : result Graph :=
    rfold (fun g (x : LayerId * N * DLayer) =>
             let '(l, p, od) := x in
             let g1 := snd (g_create_dlayer g l p) in
             let! d := deref (g_dlayer g1 l p) in
             let! (d', lk) := dl_merge_layer vadd vsub cfg d od (g_lookup g1) in
             Ok (g_with_lookup (g_set_dlayer g1 l p d') lk))
          (concat (map (fun x => map (fun y => (fst x, fst y, snd y)) (map_to_list (snd x)))
                       (map_to_list (g_dlayers other)))) g.

  (** 671-689 for one shared static layer *)
  Definition g_merge_layer1 (cfg : MergeConfig) (st : Graph * Graph) (x : LayerId * SLayer) : result (Graph * Graph) :=
    let '(g, other) := st in
    let '(l, ol) := x in
    match g_layers g !! l with
    | None => Ok st
    | Some _ =>
      let '(removed, ol1) := sl_get_removed_nodes ol (mc_clear_removed cfg) in
      let! g1 := rfold (fun g id => let! (_, g') := g_remove_node g id in Ok g') removed g in
      let '(removed_e, e1) := ec_get_removed (sl_edges ol1) (mc_clear_removed cfg) in
      let ol2 := sl_with_edges ol1 e1 in
      let! g2 := rfold (fun g (k : EdgeKey) =>
                   let! s := deref (g_layers g !! l) in
                   let! (_, s') := sl_remove_edge s (fst k) (snd k) in
                   Ok (g_set_layer g l s')) removed_e g1 in
      let! s := deref (g_layers g2 !! l) in
      let! (s', lk) := sl_merge_layer s ol2 cfg (g_lookup g2) in
      Ok (g_with_lookup (g_set_layer g2 l s') lk, g_set_layer other l ol2)
    end.

  Definition g_merge_edge1 (cfg : MergeConfig) (g : Graph) (x : EdgeKey * Edge) : result Graph :=
    let e := snd x in
    let ns := mc_merged_id cfg (e_src e) in
    let nt := mc_merged_id cfg (e_tgt e) in
    if ns =? nt then Ok g
    else
      let! (_, g') := (if mc_enforce_parent cfg then g_insert_parent_edge g ns nt (Some (e_info e))
                       else g_insert_edge g ns nt (Some (e_info e))) in
      Ok g'.

  Definition g_merge_graph (g other : Graph) (cfg : MergeConfig) : result (Graph * Graph) :=
    let! g1 := g_merge_dlayers g other cfg in
    let! (g2, other') := rfold (g_merge_layer1 cfg) (map_to_list (g_layers other)) (g1, other) in
    let! g3 := rfold (g_merge_edge1 cfg) (map_to_list (ec_edges (g_inter other))) g2 in
    let! g4 := rfold (g_merge_edge1 cfg) (map_to_list (ec_edges (g_dinter other))) g3 in
    Ok (g4, other').
End MergeGraph.

(** 860-864 *)
Definition g_set_mesh (g : Graph) (m : option Mesh) : Graph := g_with_mesh g m.
Definition g_has_mesh (g : Graph) : bool := match g_mesh g with Some _ => true | None => false end.
