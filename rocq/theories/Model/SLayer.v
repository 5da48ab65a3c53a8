(** Model of SceneGraphLayer (static layers).
    Sources: include/spark_dsg/scene_graph_layer.h, src/scene_graph_layer.cpp.
    Every operation returns the new layer together with the C++ return value. *)
From Coq Require Import NArith ZArith Bool List.
From stdpp Require Import base list gmap fin_maps.
From Verif.Model Require Import Types Mesh Attrs Node EdgeContainer.
Local Open Scope N_scope.

(** scene_graph_layer.h: id, nodes_, nodes_status_, edges_ *)
Record SLayer := mkSL {
  sl_id : LayerId;
  sl_nodes : gmap N Node;
  sl_status : gmap N NodeStatus;
  sl_edges : EC }.

Definition sl_new (id : LayerId) : SLayer := mkSL id ∅ ∅ ec_empty.                (* cpp:48 *)

Definition sl_with_nodes (l : SLayer) (n : gmap N Node) : SLayer := mkSL (sl_id l) n (sl_status l) (sl_edges l).
Definition sl_with_status (l : SLayer) (s : gmap N NodeStatus) : SLayer := mkSL (sl_id l) (sl_nodes l) s (sl_edges l).
Definition sl_with_edges (l : SLayer) (e : EC) : SLayer := mkSL (sl_id l) (sl_nodes l) (sl_status l) e.

(** [nodes_[id]->...]: operator[] on a missing key creates a null pointer which is then
    dereferenced. *)
Definition sl_upd (l : SLayer) (id : N) (f : Node -> Node) : result SLayer :=
  match sl_nodes l !! id with
  | None => UB
  | Some n => Ok (sl_with_nodes l (<[id := f n]> (sl_nodes l)))
  end.

Definition sl_has_node (l : SLayer) (id : N) : bool := bool_decide (is_Some (sl_nodes l !! id)). (* cpp:108-110 *)
(** cpp:112-117 *)
Definition sl_check_node (l : SLayer) (id : N) : NodeStatus :=
  match sl_status l !! id with None => NNonexistent | Some s => s end.
Definition sl_has_edge (l : SLayer) (s t : N) : bool := ec_contains (sl_edges l) s t. (* cpp:119-121 *)
Definition sl_find_node (l : SLayer) (id : N) : option Node := sl_nodes l !! id.      (* cpp:123-126 *)
Definition sl_num_nodes (l : SLayer) : nat := size (sl_nodes l).                      (* h:165 *)
Definition sl_num_edges (l : SLayer) : nat := ec_size (sl_edges l).                   (* h:170 *)
(** cpp:128-130; touches the stale flag *)
Definition sl_find_edge (l : SLayer) (s t : N) : option Edge * SLayer :=
  (ec_find (sl_edges l) s t, sl_with_edges l (ec_touch (sl_edges l) s t)).
(** cpp:270-278 *)
Definition sl_get_position (l : SLayer) (id : N) : result Vec3 :=
  let! n := at_ (sl_nodes l !! id) in Ok (attrs_position (n_attrs n)).

(** cpp:50-54: the status becomes NEW even if the node already exists *)
Definition sl_emplace_node (l : SLayer) (id : N) (a : NodeAttrs) : bool * SLayer :=
  let l1 := sl_with_status l (<[id := NNew]> (sl_status l)) in
  match sl_nodes l !! id with
  | Some _ => (false, l1)
  | None => (true, sl_with_nodes l1 (<[id := node_new id (sl_id l) None a]> (sl_nodes l1)))
  end.

(** cpp:56-77; a null pointer is [None] *)
Definition sl_insert_node (l : SLayer) (node : option Node) : bool * SLayer :=
  match node with
  | None => (false, l)
  | Some n =>
    if negb (n_layer n =? sl_id l) then (false, l)
    else if sl_has_node l (n_id n) then (false, l)
    else (true, mkSL (sl_id l) (<[n_id n := n]> (sl_nodes l))
                     (<[n_id n := NNew]> (sl_status l)) (sl_edges l))
  end.

(** cpp:79-106 *)
Definition sl_insert_edge (l : SLayer) (s t : N) (info : option EdgeAttrs) : result (bool * SLayer) :=
  if s =? t then Ok (false, l)
  else if sl_has_edge l s t then Ok (false, l)
  else if negb (sl_has_node l s) then Ok (false, l)
  else if negb (sl_has_node l t) then Ok (false, l)
  else
    let! l1 := sl_upd l s (add_sib t) in
    let! l2 := sl_upd l1 t (add_sib s) in
    Ok (true, sl_with_edges l2 (ec_insert (sl_edges l2) s t info)).

(** cpp:170-180 *)
Definition sl_remove_edge (l : SLayer) (s t : N) : result (bool * SLayer) :=
  if negb (sl_has_edge l s t) then Ok (false, l)
  else
    let! l1 := sl_upd l s (del_sib t) in
    let! l2 := sl_upd l1 t (del_sib s) in
    let! e := ec_remove (sl_edges l2) s t in
    Ok (true, sl_with_edges l2 e).

(** cpp:132-147 *)
Definition sl_remove_node (l : SLayer) (id : N) : result (bool * SLayer) :=
  match sl_nodes l !! id with
  | None => Ok (false, l)
  | Some n =>
    let! l1 := rfold (fun l t => let! (_, l') := sl_remove_edge l id t in Ok l')
                     (elements (n_sib n)) l in
    Ok (true, mkSL (sl_id l1) (delete id (sl_nodes l1)) (<[id := NDeleted]> (sl_status l1)) (sl_edges l1))
  end.

(** cpp:182-211 *)
Definition sl_rewire_edge (l : SLayer) (s t ns nt : N) : result (bool * SLayer) :=
  if negb (sl_has_edge l s t) then Ok (false, l)
  else if negb (sl_has_node l ns) || negb (sl_has_node l nt) then Ok (false, l)
  else if (s =? ns) && (t =? nt) then Ok (false, l)
  else if (ns =? nt) || sl_has_edge l ns nt then
    let! (_, l') := sl_remove_edge l s t in Ok (true, l')
  else
    let! e := ec_rewire (sl_edges l) s t ns nt in
    let l0 := sl_with_edges l e in
    let! l1 := sl_upd l0 s (del_sib t) in
    let! l2 := sl_upd l1 t (del_sib s) in
    let! l3 := sl_upd l2 ns (add_sib nt) in
    let! l4 := sl_upd l3 nt (add_sib ns) in
    Ok (true, l4).

(** cpp:149-168 *)
Definition sl_merge_nodes (l : SLayer) (from to : N) : result (bool * SLayer) :=
  if negb (sl_has_node l from) || negb (sl_has_node l to) then Ok (false, l)
  else if from =? to then Ok (false, l)
  else
    let! n := at_ (sl_nodes l !! from) in
    let! l1 := rfold (fun l t => let! (_, l') := sl_rewire_edge l from t to t in Ok l')
                     (elements (n_sib n)) l in
    Ok (true, mkSL (sl_id l1) (delete from (sl_nodes l1)) (<[from := NMerged]> (sl_status l1)) (sl_edges l1)).

(** cpp:213-252, node part of mergeLayer for one node of the other layer; [lookup] is the
    graph's node lookup ([insert] does not overwrite). *)
Definition sl_merge_node1 (update_attributes : bool) (cfg : MergeConfig)
    (st : SLayer * gmap N LayerKey) (x : N * Node) : SLayer * gmap N LayerKey :=
  let '(l, lookup) := st in
  let '(oid, other) := x in
  match sl_status l !! oid with
  | Some NMerged => st
  | _ =>
    match sl_nodes l !! oid with
    | Some n =>
      if negb update_attributes then st
      else if negb (mc_update_archived cfg) && negb (attrs_is_active (n_attrs n)) then st
      else (sl_with_nodes l (<[oid := set_attrs (n_attrs other) n]> (sl_nodes l)), lookup)
    | None =>
      (mkSL (sl_id l) (<[n_id other := node_new (n_id other) (sl_id l) None (n_attrs other)]> (sl_nodes l))
            (<[n_id other := NNew]> (sl_status l)) (sl_edges l),
       match lookup !! n_id other with
       | Some _ => lookup
       | None => <[n_id other := key_static (sl_id l)]> lookup end)
    end
  end.

(** cpp:254-267, edge part of mergeLayer *)
Definition sl_merge_edge1 (cfg : MergeConfig) (l : SLayer) (x : EdgeKey * Edge) : result SLayer :=
  let e := snd x in
  if sl_has_edge l (e_src e) (e_tgt e) then Ok l
  else
    let ns := mc_merged_id cfg (e_src e) in
    let nt := mc_merged_id cfg (e_tgt e) in
    if ns =? nt then Ok l
    else let! (_, l') := sl_insert_edge l ns nt (Some (e_info e)) in Ok l'.

(** cpp:213-268 *)
Definition sl_merge_layer (l other : SLayer) (cfg : MergeConfig) (lookup : gmap N LayerKey)
  : result (SLayer * gmap N LayerKey) :=
  let upd := match mc_update_layer cfg with
             | None => true
             | Some m => match m !! sl_id l with None => true | Some b => b end end in
  let '(l1, lk1) := fold_left (sl_merge_node1 upd cfg) (map_to_list (sl_nodes other)) (l, lookup) in
  let! l2 := rfold (sl_merge_edge1 cfg) (map_to_list (ec_edges (sl_edges other))) l1 in
  Ok (l2, lk1).

Definition n_is_new (s : NodeStatus) : bool := match s with NNew => true | _ => false end.
Definition n_is_removed (s : NodeStatus) : bool := match s with NDeleted | NMerged => true | _ => false end.
Definition n_is_deleted (s : NodeStatus) : bool := match s with NDeleted => true | _ => false end.

(** cpp:280-292 *)
Definition sl_get_new_nodes (l : SLayer) (clear : bool) : list N * SLayer :=
  (keys_with n_is_new (sl_status l),
   if clear then sl_with_status l ((fun s => if n_is_new s then NVisible else s) <$> sl_status l) else l).

(** cpp:303-320: MERGED entries are reported but never cleared *)
Definition sl_get_removed_nodes (l : SLayer) (clear : bool) : list N * SLayer :=
  (keys_with n_is_removed (sl_status l),
   if clear then sl_with_status l (filter (fun kv => n_is_deleted (snd kv) = false) (sl_status l)) else l).

(** cpp:322-329 *)
Definition sl_get_new_edges (l : SLayer) (clear : bool) : list EdgeKey * SLayer :=
  let '(r, e) := ec_get_new (sl_edges l) clear in (r, sl_with_edges l e).
Definition sl_get_removed_edges (l : SLayer) (clear : bool) : list EdgeKey * SLayer :=
  let '(r, e) := ec_get_removed (sl_edges l) clear in (r, sl_with_edges l e).

(** cpp:331-335 *)
Definition sl_reset (l : SLayer) : SLayer := mkSL (sl_id l) ∅ ∅ (ec_reset (sl_edges l)).

(** cpp:357-384: cloneImpl/clone with a node filter.  [nodes_status_.at] throws if a node
    has no status. *)
Definition sl_clone (l : SLayer) (is_valid : Node -> bool) : result SLayer :=
  let! l1 := rfold (fun acc x =>
               let '(id, n) := x in
               if negb (is_valid n) then Ok acc
               else
                 let '(_, acc1) := sl_emplace_node acc id (n_attrs n) in
                 let! st := at_ (sl_status l !! id) in
                 Ok (sl_with_status acc1 (<[id := st]> (sl_status acc1))))
             (map_to_list (sl_nodes l)) (sl_new (sl_id l)) in
  rfold (fun acc (x : EdgeKey * Edge) =>
           let e := snd x in
           let! (_, acc') := sl_insert_edge acc (e_src e) (e_tgt e) (Some (e_info e)) in Ok acc')
        (map_to_list (ec_edges (sl_edges l))) l1.
