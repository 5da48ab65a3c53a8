(** SceneGraphLogger: include/spark_dsg/scene_graph_logger.h, src/scene_graph_logger.cpp.
    Files are a map from paths to their contents.  Opening a file always succeeds (a failing
    ofstream would drop the row silently). *)
From Coq Require Import NArith Bool List String.
From stdpp Require Import base list gmap fin_maps strings.
From Verif.Model Require Import Types Mesh Attrs Node EdgeContainer SLayer DLayer Graph Views Names.
Local Open Scope string_scope.
Local Open Scope N_scope.

Definition Files := gmap string string.
(** scene_graph_logger.h:59-62 *)
Record Logger := mkLogger { lg_dir : string; lg_names : gmap LayerId string; lg_header : bool }.
(** h:46, cpp:65 *)
Definition logger_new : Logger := mkLogger "" ∅ true.
(** h:51 *)
Definition lg_set_path (lg : Logger) (folder : string) : Logger := mkLogger folder (lg_names lg) (lg_header lg).
(** h:53-55: std::map::insert keeps an existing name *)
Definition lg_set_name (lg : Logger) (l : LayerId) (name : string) : Logger :=
  match lg_names lg !! l with
  | Some _ => lg
  | None => mkLogger (lg_dir lg) (<[l := name]> (lg_names lg)) (lg_header lg)
  end.

Definition newline : string := char 10.
Definition csv_header : string := "nodes_active,nodes_removed,nodes_merged,nodes_w_parents,nodes_w_children,edges" ++ newline.
Record Stats := mkStats { st_active : N; st_removed : N; st_merged : N; st_parents : N; st_children : N; st_edges : N }.
(** cpp:59-60 *)
Definition csv_row (s : Stats) : string :=
  show_N (st_active s) ++ "," ++ show_N (st_removed s) ++ "," ++ show_N (st_merged s) ++ "," ++ show_N (st_parents s) ++ "," ++
  show_N (st_children s) ++ "," ++ show_N (st_edges s) ++ newline.
(** cpp:42-63: truncate and write the header, or append *)
Definition write_stats (s : Stats) (path : string) (header : bool) (fs : Files) : Files :=
  let old := if header then csv_header else match fs !! path with Some t => t | None => "" end in
  <[path := old ++ csv_row s]> fs.

(** the loop over nodes_status_, cpp:82-104 *)
Definition count_node (g : Graph) (s : Stats) (x : N * NodeStatus) : result Stats :=
  match snd x with
  | NNew | NVisible =>
    let! n := g_get_node g (fst x) in
    Ok (mkStats (st_active s + 1) (st_removed s) (st_merged s)
          (if node_has_parent n then st_parents s + 1 else st_parents s)
          (if node_has_children n then st_children s + 1 else st_children s) (st_edges s))
  | NDeleted => Ok (mkStats (st_active s) (st_removed s + 1) (st_merged s) (st_parents s) (st_children s) (st_edges s))
  | NMerged => Ok (mkStats (st_active s) (st_removed s) (st_merged s + 1) (st_parents s) (st_children s) (st_edges s))
  | NNonexistent => Ok s
  end.
Definition layer_stats (g : Graph) (L : SLayer) : result Stats :=
  let! s := rfold (count_node g) (map_to_list (sl_status L)) (mkStats 0 0 0 0 0 0) in
  Ok (mkStats (st_active s) (st_removed s) (st_merged s) (st_parents s) (st_children s) (N.of_nat (sl_num_edges L))).
(** cpp:108-109 *)
Definition csv_path (dir name : string) : string := dir ++ "/" ++ name ++ "_layer.csv".
(** the body of the loop over layers_, cpp:73-118 *)
Definition log_layer (lg : Logger) (g : Graph) (fs : Files) (x : LayerId * SLayer) : result Files :=
  match lg_names lg !! fst x with
  | None => Ok fs
  | Some name =>
    if Nat.eqb (sl_num_nodes (snd x)) 0 && negb (lg_header lg) then Ok fs
    else let! s := layer_stats g (snd x) in Ok (write_stats s (csv_path (lg_dir lg) name) (lg_header lg) fs)
  end.
(** cpp:69-122 *)
Definition log_graph (lg : Logger) (g : Graph) (fs : Files) : result (Logger * Files) :=
  let! fs' := rfold (log_layer lg g) (ascending (g_layers g)) fs in
  Ok (mkLogger (lg_dir lg) (lg_names lg) false, fs').
