(** Reading and writing whole graphs.
    Sources: src/serialization/graph_binary_serialization.cpp,
    include/spark_dsg/serialization/attribute_serialization.h (Visitor),
    src/serialization/file_io.cpp:80-119.
    std::map and std::unordered_set are iterated in the order of [map_to_list]/[elements]
    (the theorems do not depend on the order).  An exception leaves the graph being updated
    in an intermediate state, which the model does not return. *)
From Coq Require Import NArith ZArith Bool List String.
From stdpp Require Import base list gmap fin_maps.
From Verif.Model Require Import Types Mesh Attrs Node EdgeContainer SLayer DLayer Graph Binary Versioning AttrCodec Registry.
Local Open Scope N_scope.

(** The names given to REGISTER_NODE_ATTRIBUTES / REGISTER_EDGE_ATTRIBUTES
    (node_attributes.h:141-422, edge_attributes.h:103) *)
Definition kind_name (k : Kind) : Name :=
  match k with
  | KNode => str "NodeAttributes" | KSem => str "SemanticNodeAttributes" | KObj => str "ObjectNodeAttributes"
  | KRoom => str "RoomNodeAttributes" | KPlace => str "PlaceNodeAttributes" | KPlace2d => str "Place2dNodeAttributes"
  | KAgent => str "AgentNodeAttributes" | KKhronos => str "KhronosObjectAttributes"
  end.
Definition edge_name : Name := str "EdgeAttributes".

(** What static initialisation leaves behind in a program: its registries and the type ids of
    the attribute classes (registration().type_id). *)
Record Program := mkProgram {
  pg_nodes : Registry Kind; pg_type : Kind -> N;
  pg_edges : Registry unit; pg_edge_type : N }.

(* ------------------------------------------------------------------ *)
(** ** Writing *)
(** Visitor::to, attribute_serialization.h:178-186 *)
Definition write_attrs (env : Env) (p : Program) (a : NodeAttrs) : result (list N) :=
  seq_writes [cd_write c_u8 (pg_type p (kind_of a)); write_attr_fields env a].
Definition write_edge_attrs (p : Program) (a : EdgeAttrs) : result (list N) :=
  seq_writes [cd_write c_u8 (pg_edge_type p); write_fields edge_fields a].
Definition c_stamp := codec_option 0%Z c_nanoseconds.
(** graph_binary_serialization.cpp:43-49 *)
Definition write_node (env : Env) (p : Program) (n : Node) : result (list N) :=
  seq_writes [fixed_array 4; cd_write c_u64 (n_layer n); cd_write c_u64 (n_id n); cd_write c_stamp (n_time n);
              write_attrs env p (n_attrs n)].
(** graph_binary_serialization.cpp:51-56 *)
Definition write_edge (p : Program) (e : Edge) : result (list N) :=
  seq_writes [fixed_array 3; cd_write c_u64 (e_src e); cd_write c_u64 (e_tgt e); write_edge_attrs p (e_info e)].

Definition static_nodes (g : Graph) : list Node :=
  concat (map (fun x : LayerId * SLayer => map snd (map_to_list (sl_nodes (snd x)))) (map_to_list (g_layers g))).
(** the slots of the dynamic layers; removed nodes are null pointers *)
Definition dynamic_slots (g : Graph) : list (option Node) := concat (map dl_nodes (g_all_dlayers g)).
Definition all_edges (g : Graph) : list Edge :=
  concat (map (fun x : LayerId * SLayer => map snd (map_to_list (ec_edges (sl_edges (snd x))))) (map_to_list (g_layers g))) ++
  concat (map (fun d => map snd (map_to_list (ec_edges (dl_edges d)))) (g_all_dlayers g)) ++
  map snd (map_to_list (ec_edges (g_inter g))) ++ map snd (map_to_list (ec_edges (g_dinter g))).
(** startDynamicArray / endDynamicArray, binary_serialization.cpp:77-79 *)
Definition dynamic_array (l : list (result (list N))) : result (list N) :=
  seq_writes (Ok [T_ARRXX] :: l ++ [Ok [T_ARRYY]]).
Definition c_names := codec_vector [] c_string.
(** writeGraph, graph_binary_serialization.cpp:98-158 *)
Definition write_graph (env : Env) (p : Program) (g : Graph) (include_mesh : bool) : result (list N) :=
  seq_writes [
    cd_write c_u64s (g_layer_ids g);
    cd_write c_names (rg_names (pg_nodes p)); cd_write c_names (rg_names (pg_edges p));
    dynamic_array (map (write_node env p) (static_nodes g));
    dynamic_array (map (fun o => let! n := deref o in write_node env p n) (dynamic_slots g));
    dynamic_array (map (write_edge p) (all_edges g));
    match g_mesh g with
    | Some m => if include_mesh then seq_writes [cd_write c_bool true; cd_write c_mesh m] else cd_write c_bool false
    | None => cd_write c_bool false
    end].

(* ------------------------------------------------------------------ *)
(** ** Reading *)
(** a graph operation inside a reader *)
Definition lift {A} (r : result A) : Reader A :=
  match r with Ok a => ret a | Throw => fail Exception | UB => fail Undefined end.
(** Visitor::from, attribute_serialization.h:205-222: nothing is skipped for an unknown type *)
Definition read_attrs (env : Env) (f : Factory Kind) : Reader (option NodeAttrs) :=
  let* t := cd_read c_u8 0 in
  match create_by_id f t with
  | None => ret None
  | Some k => let* a := read_attr_fields env k in ret (Some a)
  end.
Definition read_edge_attrs (f : Factory unit) : Reader (option EdgeAttrs) :=
  let* t := cd_read c_u8 0 in
  match create_by_id f t with
  | None => ret None
  | Some _ => let* a := read_fields edge_fields ea_default in ret (Some a)
  end.
(** parseNode, graph_binary_serialization.cpp:64-82 *)
Definition parse_node (env : Env) (f : Factory Kind) (g : Graph) : Reader (N * Graph) :=
  let* _ := check_array_length 4 in
  let* layer := cd_read c_u64 0 in
  let* node := cd_read c_u64 0 in
  let* stamp := cd_read c_stamp None in
  let* attrs := read_attrs env f in
  match attrs with
  | None => ret (node, g)
  | Some a => let* (_, g') := lift (g_add_or_update_node g layer node a stamp) in ret (node, g')
  end.
(** parseEdge, graph_binary_serialization.cpp:84-96.  A null attribute pointer becomes default attributes in a new edge
    (edge_container.cpp:46-56); storing it in an existing one leaves a null pointer that the
    next access dereferences. *)
Definition parse_edge (f : Factory unit) (g : Graph) : Reader Graph :=
  let* _ := check_array_length 3 in
  let* s := cd_read c_u64 0 in
  let* t := cd_read c_u64 0 in
  let* attrs := read_edge_attrs f in
  match attrs with
  | Some a => let* (_, g') := lift (g_add_or_update_edge g s t a) in ret g'
  | None =>
    let* has := lift (g_has_edge g s t) in
    if (has : bool) then fail Undefined else let* (_, g') := lift (g_insert_edge g s t None) in ret g'
  end.
(** [while (!isDynamicArrayEnd()) ...]; [fuel] bounds the number of rounds *)
Fixpoint read_loop {S} (step : S -> Reader S) (fuel : nat) (s : S) : Reader S :=
  match fuel with
  | O => fail Diverged
  | Datatypes.S fuel => let* e := is_dynamic_array_end in if (e : bool) then ret s else let* s' := step s in read_loop step fuel s'
  end.
(** checkDynamicArray and the loop; every round consumes a byte, so one more round than there
    are bytes is never needed (C37) *)
Definition read_dynamic_array {S} (step : S -> Reader S) (s : S) : Reader S := fun buf pos =>
  (let* _ := check_dynamic_array in read_loop step (Datatypes.S (length buf)) s) buf pos.
(** loadFactory, graph_binary_serialization.cpp:160-170 *)
Definition load_factory {T} (env : Env) (r : Registry T) : Reader (Factory T) :=
  if version_ltb (ev_version env) (mkV 1 0 2) then ret (reg_current r)
  else let* names := cd_read c_names [] in ret (reg_from_names r names).
Definition node_round (env : Env) (f : Factory Kind) (st : Graph * gset N) : Reader (Graph * gset N) :=
  let* (x, g') := parse_node env f (fst st) in ret (g', snd st ∖ {[x]}).
(** updateGraph on a deserializer, graph_binary_serialization.cpp:172-217 *)
Definition update_graph (env : Env) (p : Program) (g : Graph) : Reader Graph :=
  let* _ := (if version_ltb (ev_version env) (mkV 1 0 2) then cd_read c_u64 0 else ret 0) in
  let* node_factory := load_factory env (pg_nodes p) in
  let* edge_factory := load_factory env (pg_edges p) in
  let* st1 := read_dynamic_array (node_round env node_factory) (g, dom (g_lookup g)) in
  let* st2 := read_dynamic_array (node_round env node_factory) st1 in
  let* g3 := lift (rfold (fun g x => let! (_, g') := g_remove_node g x in Ok g') (elements (snd st2)) (fst st2)) in
  let* g4 := read_dynamic_array (parse_edge edge_factory) (g_mark_stale g3) in
  let* g5 := lift (g_remove_all_stale g4) in
  let* m := check_if_true in
  if (m : bool) then let* mesh := cd_read c_mesh (mesh_new true false false false) in ret (g_set_mesh g5 (Some mesh)) else ret g5.
(** readGraph, graph_binary_serialization.cpp:219-231 *)
Definition read_graph (env : Env) (p : Program) : Reader Graph :=
  let* ids := cd_read c_u64s [] in
  let* g := lift (g_new ids) in
  update_graph env p g.
(** updateGraph on a buffer, graph_binary_serialization.cpp:233-245 *)
Definition update_from_buffer (env : Env) (p : Program) (g : Graph) : Reader Graph :=
  let* ids := cd_read c_u64s [] in
  update_graph env p (if bool_decide (g_layer_ids g = ids) then g else g_reset g ids).

(* ------------------------------------------------------------------ *)
(** ** Files (file_io.cpp:82-116): the bytes of the file *)
Definition save_binary (env : Env) (p : Program) (g : Graph) (include_mesh : bool) : result (list N) :=
  seq_writes [header_bytes header_current; write_graph env p g include_mesh].
(** loadDsgBinary; the graph reader gets the rest of the file as its buffer *)
Definition load_binary (fsub : N -> N -> N) (p : Program) (file : list N) : outcome Graph :=
  match load_prologue file with
  | Ok (h, offset) => read_graph (mkEnv (h_version h) fsub) p (drop (N.to_nat offset) file) 0
  | Throw => Fail Exception
  | UB => Fail Undefined
  end.
