(** Model of DynamicSceneGraphLayer.
    Sources: include/spark_dsg/dynamic_scene_graph_layer.h, src/dynamic_scene_graph_layer.cpp.
    Timestamps (chrono nanoseconds, int64) are [Z].  The positional arithmetic in
    mergeLayer is a pair of parameters ([vadd]/[vsub] on bit patterns). *)
From Coq Require Import NArith ZArith Bool List.
From stdpp Require Import base list gmap fin_maps.
From Verif.Model Require Import Types Mesh Attrs Node EdgeContainer SLayer.
Local Open Scope N_scope.

(** h:98-100, 129-136.  [None] in [dl_nodes] is a null unique_ptr. *)
Record DLayer := mkDL {
  dl_id : LayerId;
  dl_prefix : N;
  dl_times : gset Z;
  dl_nodes : list (option Node);
  dl_status : gmap N NodeStatus;
  dl_next : N;
  dl_edges : EC }.

Definition dl_new (id : LayerId) (p : N) : DLayer := mkDL id p ∅ [] ∅ 0 ec_empty. (* cpp:45-46 *)

Definition dl_with_nodes (d : DLayer) (n : list (option Node)) : DLayer :=
  mkDL (dl_id d) (dl_prefix d) (dl_times d) n (dl_status d) (dl_next d) (dl_edges d).
Definition dl_with_edges (d : DLayer) (e : EC) : DLayer :=
  mkDL (dl_id d) (dl_prefix d) (dl_times d) (dl_nodes d) (dl_status d) (dl_next d) e.
Definition dl_with_status (d : DLayer) (s : gmap N NodeStatus) : DLayer :=
  mkDL (dl_id d) (dl_prefix d) (dl_times d) (dl_nodes d) s (dl_next d) (dl_edges d).

Definition dl_size (d : DLayer) : N := N.of_nat (length (dl_nodes d)).
(** nodes_[i] / nodes_.at(i) on a valid index (or null) *)
Definition dl_slot (d : DLayer) (i : N) : option (option Node) :=
  if i <? dl_size d then dl_nodes d !! N.to_nat i else None.

(** [nodes_[i]->...]: out of range or null is undefined behaviour *)
Definition dl_upd (d : DLayer) (i : N) (f : Node -> Node) : result DLayer :=
  match dl_slot d i with
  | Some (Some n) => Ok (dl_with_nodes d (<[N.to_nat i := Some (f n)]> (dl_nodes d)))
  | _ => UB
  end.

(** cpp:151-158 *)
Definition dl_has_index (d : DLayer) (i : N) : bool :=
  match dl_status d !! i with
  | Some NVisible | Some NNew => true
  | _ => false
  end.
(** cpp:135-141 *)
Definition dl_has_node (d : DLayer) (id : N) : bool :=
  prefix_matches (dl_prefix d) id && dl_has_index d (prefix_index id).
(** cpp:143-149: node_status_.at throws *)
Definition dl_check_node (d : DLayer) (id : N) : result NodeStatus :=
  if negb (prefix_matches (dl_prefix d) id) then Ok NNonexistent
  else at_ (dl_status d !! prefix_index id).
Definition dl_has_edge (d : DLayer) (s t : N) : bool := ec_contains (dl_edges d) s t. (* cpp:160-162 *)
(** cpp:169-175: the prefix of the id is not checked *)
Definition dl_find_node (d : DLayer) (id : N) : option Node :=
  match dl_slot d (prefix_index id) with Some o => o | None => None end.
Definition dl_find_edge (d : DLayer) (s t : N) : option Edge * DLayer :=
  (ec_find (dl_edges d) s t, dl_with_edges d (ec_touch (dl_edges d) s t)).
Definition dl_num_nodes (d : DLayer) : nat := size (dl_times d).                      (* h:56 *)
Definition dl_num_edges (d : DLayer) : nat := ec_size (dl_edges d).                   (* h:58 *)

(** cpp:195-217 *)
Definition dl_insert_edge (d : DLayer) (s t : N) (info : option EdgeAttrs) : result (bool * DLayer) :=
  if s =? t then Ok (false, d)
  else if dl_has_edge d s t then Ok (false, d)
  else if negb (dl_has_node d s) || negb (dl_has_node d t) then Ok (false, d)
  else
    let! d1 := dl_upd d (prefix_index s) (add_sib t) in
    let! d2 := dl_upd d1 (prefix_index t) (add_sib s) in
    Ok (true, dl_with_edges d2 (ec_insert (dl_edges d2) s t info)).

(** cpp:225-235 *)
Definition dl_remove_edge (d : DLayer) (s t : N) : result (bool * DLayer) :=
  if negb (dl_has_edge d s t) then Ok (false, d)
  else
    let! d1 := dl_upd d (prefix_index s) (del_sib t) in
    let! d2 := dl_upd d1 (prefix_index t) (del_sib s) in
    let! e := ec_remove (dl_edges d2) s t in
    Ok (true, dl_with_edges d2 e).

(** cpp:90-111 *)
Definition dl_emplace_node (d : DLayer) (stamp : Z) (a : NodeAttrs) (add_edge : bool) : result (bool * DLayer) :=
  if bool_decide (stamp ∈ dl_times d) then Ok (false, d)
  else
    let id := prefix_make_id (dl_prefix d) (dl_next d) in
    let d1 := mkDL (dl_id d) (dl_prefix d) ({[stamp]} ∪ dl_times d)
                (dl_nodes d ++ [Some (node_new id (dl_id d) (Some stamp) a)])
                (<[dl_size d := NNew]> (dl_status d)) (dl_next d) (dl_edges d) in
    let! d2 := (if add_edge && (1 <? dl_size d1) then
                  let! (_, d') := dl_insert_edge d1 (prefix_make_id (dl_prefix d) (dl_size d1 - 2))
                                    (prefix_make_id (dl_prefix d) (dl_size d1 - 1)) None in
                  Ok d'
                else Ok d1) in
    Ok (true, mkDL (dl_id d2) (dl_prefix d2) (dl_times d2) (dl_nodes d2) (dl_status d2)
                (dl_next d + 1) (dl_edges d2)).

(** cpp:120-126: push_back(nullptr); node_status_[nodes_.size()] = DELETED, [k] times.
    The index used is the size *after* the push. *)
Fixpoint dl_pad (k : nat) (nodes : list (option Node)) (st : gmap N NodeStatus)
  : list (option Node) * gmap N NodeStatus :=
  match k with
  | O => (nodes, st)
  | S k' => let nodes' := nodes ++ [None] in
            dl_pad k' nodes' (<[N.of_nat (length nodes') := NDeleted]> st)
  end.

(** cpp:113-133: neither next_node_ nor duplicate timestamps are considered *)
Definition dl_emplace_at (d : DLayer) (stamp : Z) (index : N) (a : NodeAttrs) : bool * DLayer :=
  if dl_has_index d index then (false, d)
  else
    let '(nodes, st) :=
      (if dl_size d <=? index
       then dl_pad (S (N.to_nat (index - dl_size d))) (dl_nodes d) (dl_status d)
       else (dl_nodes d, dl_status d)) in
    let id := prefix_make_id (dl_prefix d) index in
    (true, mkDL (dl_id d) (dl_prefix d) ({[stamp]} ∪ dl_times d)
             (<[N.to_nat index := Some (node_new id (dl_id d) (Some stamp) a)]> nodes)
             (<[index := NNew]> st) (dl_next d) (dl_edges d)).

(** cpp:242-270.  [node - 1] and [node + 1] are uint64 arithmetic. *)
Definition dl_remove_node (d : DLayer) (id : N) : result (bool * DLayer) :=
  if negb (dl_has_node d id) then Ok (false, d)
  else
    let index := prefix_index id in
    let! slot := at_ (dl_slot d index) in
    let! n := deref slot in
    let targets := n_sib n in
    let prev := (id + (two64 - 1)) mod two64 in
    let next := (id + 1) mod two64 in
    let has_prev := dl_has_node d prev && bool_decide (prev ∈ targets) in
    let has_next := dl_has_node d next && bool_decide (next ∈ targets) in
    let! d1 := (if has_prev && has_next
                then let! (_, d') := dl_insert_edge d prev next None in Ok d'
                else Ok d) in
    let! d2 := rfold (fun d t => let! (_, d') := dl_remove_edge d id t in Ok d')
                     (elements targets) d1 in
    let! slot2 := at_ (dl_slot d2 index) in
    let! n2 := deref slot2 in
    let! tm := deref (n_time n2) in
    Ok (true, mkDL (dl_id d2) (dl_prefix d2) (dl_times d2 ∖ {[tm]})
                (<[N.to_nat index := None]> (dl_nodes d2))
                (<[index := NDeleted]> (dl_status d2)) (dl_next d2) (dl_edges d2)).

(** cpp:272-290 *)
Definition dl_get_position (d : DLayer) (id : N) : result Vec3 :=
  if negb (dl_has_node d id) then Throw
  else
    let! slot := at_ (dl_slot d (prefix_index id)) in
    let! n := deref slot in Ok (attrs_position (n_attrs n)).

(** cpp:292-305 *)
Definition dl_get_new_nodes (d : DLayer) (clear : bool) : list N * DLayer :=
  (map (prefix_make_id (dl_prefix d)) (keys_with n_is_new (dl_status d)),
   if clear then dl_with_status d ((fun s => if n_is_new s then NVisible else s) <$> dl_status d) else d).
(** cpp:307-324 *)
Definition dl_get_removed_nodes (d : DLayer) (clear : bool) : list N * DLayer :=
  (map (prefix_make_id (dl_prefix d)) (keys_with n_is_deleted (dl_status d)),
   if clear then dl_with_status d (filter (fun kv => n_is_deleted (snd kv) = false) (dl_status d)) else d).
(** cpp:326-334 *)
Definition dl_get_new_edges (d : DLayer) (clear : bool) : list EdgeKey * DLayer :=
  let '(r, e) := ec_get_new (dl_edges d) clear in (r, dl_with_edges d e).
Definition dl_get_removed_edges (d : DLayer) (clear : bool) : list EdgeKey * DLayer :=
  let '(r, e) := ec_get_removed (dl_edges d) clear in (r, dl_with_edges d e).

(** *** mergeLayer (cpp:48-88) *)
Section MergeLayer.
  (** Eigen::Vector3d addition/subtraction on bit patterns; any functions. *)
  Variable vadd vsub : Vec3 -> Vec3 -> Vec3.
  Variable cfg : MergeConfig.

  Record DMerge := mkDMerge { dm_layer : DLayer; dm_lookup : gmap N LayerKey; dm_delta : Vec3 }.

  (** Body of the node loop (cpp:54-76) for index [i]; [slot] is [other.nodes_[i]]. *)
  Definition dl_merge_node1 (st : DMerge) (x : N * option Node) : result DMerge :=
    let '(i, slot) := x in
    let! other := deref slot in
    let d := dm_layer st in
    if i <? dl_next d then
      match dl_slot d i with
      | Some (Some n) =>
        let pos := attrs_position (n_attrs n) in
        let delta := vsub pos (attrs_position (n_attrs other)) in
        if negb (mc_update_dynamic cfg) then Ok (mkDMerge d (dm_lookup st) delta)
        else
          let! d' := dl_upd d i (set_attrs (attrs_set_position (n_attrs other) pos)) in
          Ok (mkDMerge d' (dm_lookup st) delta)
      | _ => UB
      end
    else
      let! tm := at_ (n_time other) in
      let! (_, d1) := dl_emplace_node d tm (n_attrs other) false in
      (* nodes_.back(): undefined on an empty vector, dereferenced *)
      let last := dl_size d1 - 1 in
      if dl_size d1 =? 0 then UB
      else
        let! d2 := dl_upd d1 last (fun n => set_attrs (attrs_set_position (n_attrs n)
                      (vadd (attrs_position (n_attrs n)) (dm_delta st))) n) in
        match dl_slot d2 last with
        | Some (Some n) =>
          Ok (mkDMerge d2 (match dm_lookup st !! n_id n with
                           | Some _ => dm_lookup st
                           | None => <[n_id n := key_dynamic (dl_id d2) (dl_prefix d2)]> (dm_lookup st) end)
                       (dm_delta st))
        | _ => UB
        end.

  Definition dl_merge_edge1 (d : DLayer) (x : EdgeKey * Edge) : result DLayer :=
    let e := snd x in
    if dl_has_edge d (e_src e) (e_tgt e) then Ok d
    else let! (_, d') := dl_insert_edge d (e_src e) (e_tgt e) (Some (e_info e)) in Ok d'.

  Definition dl_merge_layer (d other : DLayer) (lookup : gmap N LayerKey)
    : result (DLayer * gmap N LayerKey) :=
    let idx := map N.of_nat (seq 0 (length (dl_nodes other))) in
    let! st := rfold dl_merge_node1 (combine idx (dl_nodes other)) (mkDMerge d lookup (mkVec3 0 0 0)) in
    let! d2 := rfold dl_merge_edge1 (map_to_list (ec_edges (dl_edges other))) (dm_layer st) in
    Ok (d2, dm_lookup st).
End MergeLayer.
