(** The header that decides how data is decoded, and the calls that use it, in a process with
    several threads.
    Sources: include/spark_dsg/serialization/versioning.h:127-160, src/serialization/file_io.cpp:82-116,
    src/serialization/graph_json_serialization.cpp:164-198, src/serialization/mesh_serialization.cpp:183-213,
    src/serialization/graph_binary_serialization.cpp:172-245, python/bindings/spark_dsg_bindings.cpp:803-824.
    The decoders read the header again for every attribute; here a call reads it once, when it
    starts to decode (C69_no_interference: it cannot change in between).  [warned_legacy_],
    which only silences repeated warnings, is not modelled. *)
From Coq Require Import NArith ZArith Bool List String.
From stdpp Require Import base list gmap functions.
From Verif.Model Require Import Types Mesh Attrs Node EdgeContainer SLayer DLayer Graph Binary Versioning AttrCodec Registry GraphCodec Json Rotation JsonCodec GraphJson.
Local Open Scope N_scope.

(** What a call does to GlobalInfo::loaded_header_ until it answers. *)
Inductive Prog (A : Type) :=
| Done (a : A)
| Enter (h : Header) (k : Prog A)      (* ScopedInfo::ScopedInfo, versioning.h:149-152 *)
| Leave (k : Prog A)                   (* ScopedInfo::~ScopedInfo, 154 *)
| Seen (k : Header -> Prog A).         (* GlobalInfo::loadedHeader, 137 *)
Arguments Done {A}. Arguments Enter {A}. Arguments Leave {A}. Arguments Seen {A}.
Fixpoint prog_bind {A B} (p : Prog A) (f : A -> Prog B) : Prog B :=
  match p with
  | Done a => f a
  | Enter h k => Enter h (prog_bind k f)
  | Leave k => Leave (prog_bind k f)
  | Seen k => Seen (fun h => prog_bind (k h) f)
  end.
(** A block with a local ScopedInfo: the destructor runs when the block ends, by return or by
    an exception (an answer [Throw] or [Fail Exception]). *)
Definition scoped {A} (h : Header) (body : Prog A) : Prog A := Enter h (prog_bind body (fun a => Leave (Done a))).
Definition env_of (fsub : N -> N -> N) (h : Header) : Env := mkEnv (h_version h) fsub.

(** The calls of a user, with the bytes or the document they are given *)
Inductive Call :=
| LoadBinary (file : list N)                  (* DynamicSceneGraph::load of a binary file *)
| LoadJson (j : json)                         (* DynamicSceneGraph::load of a JSON file *)
| FromBinary (bytes : list N)                 (* binary::readGraph, from_binary *)
| UpdateFrom (g : Graph) (bytes : list N)     (* binary::updateGraph, update_from_binary *)
| ToBinary (g : Graph) (include_mesh : bool)  (* binary::writeGraph, to_binary *)
| SaveBinary (g : Graph) (include_mesh : bool)
| SaveJson (g : Graph) (include_mesh : bool)
| MeshFromJson (j : json)                     (* Mesh::deserializeFromJson *)
| MeshFromBinary (bytes : list N).            (* Mesh::deserializeFromBinary *)
Inductive Answer :=
| RGraph (o : outcome Graph) | RGraphJ (r : result Graph) | RBytes (r : result (list N)) | RJson (r : result json)
| RMesh (o : outcome Mesh) | RMeshJ (r : result Mesh).

(** loadDsgBinary, file_io.cpp:99-116: the scope starts after the checks *)
Definition load_binary_prog (fsub : N -> N -> N) (p : Program) (file : list N) : Prog (outcome Graph) :=
  match load_prologue file with
  | Ok (h, offset) => scoped h (Seen (fun h' => Done (read_graph (env_of fsub h') p (drop (N.to_nat offset) file) 0)))
  | Throw => Done (Fail Exception)
  | UB => Done (Fail Undefined)
  end.
(** Mesh::deserializeFromJson, mesh_serialization.cpp:183-199: decides by the header of the
    record, not by the global one *)
Definition mesh_json_prog (j : json) : Prog (result Mesh) :=
  match (if j_contains j (str "header") then let! x := j_at j (str "header") in jc_from jc_header x else Ok header_legacy) with
  | Ok h => scoped h (Done (if version_leb (h_version h) (mkV 1 0 1) then mesh_from_legacy j else jc_from jc_mesh j))
  | Throw => Done Throw
  | UB => Done UB
  end.
(** json::readGraph, graph_json_serialization.cpp:172-188 *)
Definition read_body (env : Env) (p : Program) (j : json) : result Graph :=
  let! jl := j_at j (str "layer_ids") in let! ids := jc_from jc_u64s jl in
  let! g0 := g_new ids in
  let! jn := j_at j (str "nodes") in
  let! g1 := rfold (node_from_json env (reg_current (pg_nodes p))) (j_items jn) g0 in
  let! je := j_at j (str "edges") in
  rfold (edge_from_json (reg_current (pg_edges p))) (j_items je) g1.
(** json::readGraph, 164-198: the scope of the mesh is inside the scope of the graph *)
Definition load_json_prog (fsub : N -> N -> N) (p : Program) (j : json) : Prog (result Graph) :=
  match (if j_contains j header_field then let! x := j_at j header_field in jc_from jc_header x else Ok header_legacy) with
  | Ok h => scoped h (Seen (fun h' =>
      match read_body (env_of fsub h') p j with
      | Ok g =>
        if j_contains j (str "mesh") then
          match (let! jm := j_at j (str "mesh") in dump jm) with
          | Ok t => prog_bind (mesh_json_prog t) (fun r => Done (let! m := r in Ok (g_set_mesh g (Some m))))
          | Throw => Done Throw
          | UB => Done UB
          end
        else Done (Ok g)
      | Throw => Done Throw
      | UB => Done UB
      end))
  | Throw => Done Throw
  | UB => Done UB
  end.
(** Reading and writing attributes goes through the same serialization_info
    (node_attributes.cpp:130-142, 181-196), which looks at the global header in both
    directions.  Writers of files write the current header (file_io.cpp:85-87). *)
Definition call_prog (fsub : N -> N -> N) (p : Program) (c : Call) : Prog Answer :=
  match c with
  | LoadBinary file => prog_bind (load_binary_prog fsub p file) (fun o => Done (RGraph o))
  | LoadJson j => prog_bind (load_json_prog fsub p j) (fun r => Done (RGraphJ r))
  | FromBinary bytes => Seen (fun h => Done (RGraph (read_graph (env_of fsub h) p bytes 0)))
  | UpdateFrom g bytes => Seen (fun h => Done (RGraph (update_from_buffer (env_of fsub h) p g bytes 0)))
  | ToBinary g im => Seen (fun h => Done (RBytes (write_graph (env_of fsub h) p g im)))
  | SaveBinary g im => Seen (fun h => Done (RBytes (save_binary (env_of fsub h) p g im)))
  | SaveJson g im => Seen (fun h => Done (RJson (write_graph_json (env_of fsub h) g im)))
  | MeshFromJson j => prog_bind (mesh_json_prog j) (fun r => Done (RMeshJ r))
  | MeshFromBinary bytes => Done (RMesh (cd_read c_mesh (mesh_new true false false false) bytes 0))
  end.

(* ------------------------------------------------------------------ *)
(** ** Threads.  [loaded_header_] is thread_local (versioning.h:158): each thread has its own
    cell, which starts as the current header. *)
Definition cell_of (t : nat) : nat := t.
Record Thread := mkThread { th_now : option (Prog Answer); th_todo : list Call; th_got : list Answer }.
Record Process := mkProcess { pr_cells : nat -> Header; pr_threads : nat -> Thread }.
Definition pr_start (work : nat -> list Call) : Process := mkProcess (fun _ => header_current) (fun t => mkThread None (work t) []).
(** one step of thread [t]: begin the next call, one access to the header, or answer *)
Definition pr_step (fsub : N -> N -> N) (p : Program) (s : Process) (t : nat) : Process :=
  let th := pr_threads s t in
  let put cells th' := mkProcess cells (<[t := th']> (pr_threads s)) in
  match th_now th with
  | None => match th_todo th with
            | [] => s
            | c :: r => put (pr_cells s) (mkThread (Some (call_prog fsub p c)) r (th_got th))
            end
  | Some (Done a) => put (pr_cells s) (mkThread None (th_todo th) (th_got th ++ [a]))
  | Some (Enter h k) => put (<[cell_of t := h]> (pr_cells s)) (mkThread (Some k) (th_todo th) (th_got th))
  | Some (Leave k) => put (<[cell_of t := header_current]> (pr_cells s)) (mkThread (Some k) (th_todo th) (th_got th))
  | Some (Seen k) => put (pr_cells s) (mkThread (Some (k (pr_cells s (cell_of t)))) (th_todo th) (th_got th))
  end.
Definition pr_run (fsub : N -> N -> N) (p : Program) (s : Process) (schedule : list nat) : Process :=
  fold_left (pr_step fsub p) schedule s.
