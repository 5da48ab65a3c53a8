(** Graphs as JSON.
    Sources: src/serialization/graph_json_serialization.cpp, src/serialization/file_io.cpp:118-130
    (the file holds the text and nothing else).  Maps are iterated in the order of [map_to_list]
    (the theorems do not depend on the order).  The texts of error messages and logging are not
    modelled. *)
From Coq Require Import NArith ZArith Bool List String.
From stdpp Require Import base list gmap fin_maps.
From Verif.Model Require Import Types Mesh Attrs Node EdgeContainer SLayer DLayer Graph Binary Versioning AttrCodec Registry GraphCodec Json Rotation JsonCodec.
Local Open Scope N_scope.

(** graph_json_serialization.cpp:49-56 *)
Definition node_to_json (env : Env) (n : Node) : json :=
  let o := [(str "id", JInt (Z.of_N (n_id n))); (str "layer", JInt (Z.of_N (n_layer n))); (str "attributes", attrs_to_json env (n_attrs n))] in
  JObject (match n_time n with Some t => obj_set o (str "timestamp") (JInt t) | None => o end).
(** graph_json_serialization.cpp:58-61 *)
Definition edge_to_json (e : Edge) : json :=
  JObject [(str "source", JInt (Z.of_N (e_src e))); (str "target", JInt (Z.of_N (e_tgt e))); (str "info", edge_attrs_to_json (e_info e))].

(** graph_json_serialization.cpp:63-89; nanoseconds(uint64_t) converts to the signed count *)
Definition node_from_json (env : Env) (f : Factory Kind) (g : Graph) (j : json) : result Graph :=
  let! ji := j_at j (str "id") in let! id := get_unsigned 64 ji in
  let! jl := j_at j (str "layer") in let! layer := get_unsigned 64 jl in
  let! ja := j_at j (str "attributes") in let! o := attrs_from_json env f ja in
  match o with
  | None => Throw
  | Some a =>
    let! (added, g') :=
      (if j_contains j (str "timestamp") then
         let! jt := j_at j (str "timestamp") in let! t := get_unsigned 64 jt in
         g_emplace_prev g layer id (wrap_signed 64 (Z.of_N t)) a
       else Ok (g_emplace_node g layer id a)) in
    if (added : bool) then Ok g' else Throw
  end.
(** graph_json_serialization.cpp:91-104: unknown edge attributes are a null pointer, for which the edge gets the default
    attributes *)
Definition edge_from_json (f : Factory unit) (g : Graph) (j : json) : result Graph :=
  let! js := j_at j (str "source") in let! s := get_unsigned 64 js in
  let! jt := j_at j (str "target") in let! t := get_unsigned 64 jt in
  let! ji := j_at j (str "info") in let! a := edge_attrs_from_json f ji in
  let! (added, g') := g_insert_edge g s t a in
  if (added : bool) then Ok g' else Throw.

(** 130-145: the indices of removed nodes are skipped *)
Definition dlayer_nodes (d : DLayer) : result (list Node) :=
  map_result (fun i => at_ (dl_find_node d (prefix_make_id (dl_prefix d) i)))
    (filter (fun i => dl_has_index d i = true) (map N.of_nat (seq 0 (length (dl_nodes d))))).
Definition ec_list (c : EC) : list Edge := map snd (map_to_list (ec_edges c)).
Definition json_edges (g : Graph) : list Edge :=
  concat (map (fun x : LayerId * SLayer => ec_list (sl_edges (snd x))) (map_to_list (g_layers g))) ++
  ec_list (g_inter g) ++ ec_list (g_dinter g) ++ concat (map (fun d => ec_list (dl_edges d)) (g_all_dlayers g)).
Definition header_field : list N := IDENTIFIER ++ str "_header".
(** writeGraph, graph_json_serialization.cpp:108-162.  The node and edge records are built in one pass over the layers; the
    arrays are the same. *)
Definition write_graph_json (env : Env) (g : Graph) (include_mesh : bool) : result json :=
  let! ds := map_result dlayer_nodes (g_all_dlayers g) in
  let record := [
    (header_field, jc_to jc_header header_current);
    (str "directed", JBool false); (str "multigraph", JBool false);
    (str "nodes", JArray (map (node_to_json env) (static_nodes g ++ concat ds)));
    (str "edges", JArray (map edge_to_json (json_edges g)));
    (str "layer_ids", jc_to jc_u64s (g_layer_ids g))] in
  match g_mesh g with
  | Some m => if include_mesh then let! t := mesh_to_text m in dump (JObject (record ++ [(str "mesh", t)])) else dump (JObject record)
  | None => dump (JObject record)
  end.
(** readGraph, graph_json_serialization.cpp:164-195; there is no compatibility check.  [record.at("mesh").dump()] is parsed
    again. *)
Definition read_graph_json (fsub : N -> N -> N) (p : Program) (j : json) : result Graph :=
  let! h := (if j_contains j header_field then let! x := j_at j header_field in jc_from jc_header x else Ok header_legacy) in
  let env := mkEnv (h_version h) fsub in
  let! jl := j_at j (str "layer_ids") in let! ids := jc_from jc_u64s jl in
  let! g0 := g_new ids in
  let! jn := j_at j (str "nodes") in
  let! g1 := rfold (node_from_json env (reg_current (pg_nodes p))) (j_items jn) g0 in
  let! je := j_at j (str "edges") in
  let! g2 := rfold (edge_from_json (reg_current (pg_edges p))) (j_items je) g1 in
  if j_contains j (str "mesh") then
    let! jm := j_at j (str "mesh") in let! t := dump jm in let! m := mesh_from_text t in Ok (g_set_mesh g2 (Some m))
  else Ok g2.
