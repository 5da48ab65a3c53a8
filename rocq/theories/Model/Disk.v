(** Saving and loading files by name.
    Sources: src/dynamic_scene_graph.cpp:835-858, src/serialization/file_io.cpp:82-130,
    src/serialization/mesh_serialization.cpp:178-262.
    A file system is a map from names to contents; different names are different files (no links,
    no ".." or "." components).  A content is a JSON text (the document it denotes), the proper
    beginning of a JSON text, a directory, or bytes that are not a JSON text. *)
From Coq Require Import NArith ZArith Bool List String.
From stdpp Require Import base list gmap.
From Verif.Model Require Import Types Mesh Attrs Node EdgeContainer SLayer DLayer Graph Binary Versioning AttrCodec Registry GraphCodec Json Rotation JsonCodec GraphJson.
Local Open Scope N_scope.

Inductive Content := Bytes (b : list N) | Text (j : json) | Torn | Folder.
Definition Disk := gmap (list N) Content.
(** std::ofstream(filepath) and what is written to it.  [os] says for which names the operating
    system lets the process create or overwrite a file.  The state of the stream is never looked
    at (file_io.cpp:94-96, 121-122; mesh_serialization.cpp:219, 229-231), so if it cannot be
    opened nothing happens. *)
Definition file_put (os : list N -> bool) (d : Disk) (f : list N) (c : Content) : Disk :=
  match d !! f with
  | Some Folder => d
  | _ => if os f then <[f := c]> d else d
  end.
(** the bytes an std::ifstream yields: none for a directory or a missing file; a JSON text is
    ASCII or UTF-8, and only its first byte matters to the readers: it is not that of a header *)
Inductive Input := InBytes (b : list N) | InText.
Definition file_get (d : Disk) (f : list N) : Input :=
  match d !! f with Some (Bytes b) => InBytes b | Some (Text _) => InText | Some Torn => InText | Some Folder => InBytes [] | None => InBytes [] end.
(** nlohmann::json::parse of the contents of a file *)
Definition file_json (d : Disk) (f : list N) : result json := match d !! f with Some (Text j) => Ok j | _ => Throw end.
Definition outcome_result {A} (o : outcome A) : result A :=
  match o with Val a _ => Ok a | Fail Exception => Throw | Fail _ => UB end.

(** When a process is killed while it saves: before the file is opened, or when [n] bytes of the
    new contents have reached it. *)
Inductive Killed := NotKilled | BeforeOpen | AfterBytes (n : nat).
Definition put_binary os (d : Disk) (f bs : list N) (k : Killed) : Disk :=
  match k with NotKilled => file_put os d f (Bytes bs) | BeforeOpen => d | AfterBytes n => file_put os d f (Bytes (take n bs)) end.
(** The stream is opened, which truncates the file, before the text is made (file_io.cpp:121-122,
    mesh_serialization.cpp:219-220). *)
Definition put_json os (d : Disk) (f : list N) (text : result json) (k : Killed) : result unit * Disk :=
  match k with
  | BeforeOpen => (Ok tt, d)
  | AfterBytes _ => (Ok tt, file_put os d f Torn)
  | NotKilled => match text with
                 | Ok j => (Ok tt, file_put os (file_put os d f Torn) f (Text j))
                 | Throw => (Throw, file_put os d f Torn)
                 | UB => (UB, file_put os d f Torn)
                 end
  end.
(** DynamicSceneGraph::save, dynamic_scene_graph.cpp:835-844; saveDsgBinary, file_io.cpp:82-97 (all
    bytes are there before the file is opened); saveDsgJson, 118-123 *)
Definition save_graph (env : Env) (p : Program) os (d : Disk) (g : Graph) (path : list N) (include_mesh : bool) (k : Killed) : result unit * Disk :=
  match verify_file path with
  | Ok (FT_JSON, f) => put_json os d f (write_graph_json env g include_mesh) k
  | Ok (_, f) => match save_binary env p g include_mesh with
                 | Ok bs => (Ok tt, put_binary os d f bs k)
                 | Throw => (Throw, d)
                 | UB => (UB, d)
                 end
  | Throw => (Throw, d)
  | UB => (UB, d)
  end.
(** DynamicSceneGraph::load, dynamic_scene_graph.cpp:846-858: the name is looked for before it gets
    its extension.  loadDsgBinary, file_io.cpp:99-116; loadDsgJson, 125-130.  A text has no header,
    so it is of the legacy version and refused. *)
Definition load_graph (fsub : N -> N -> N) (p : Program) (d : Disk) (path : list N) : result Graph :=
  match d !! path with
  | None => Throw
  | Some _ =>
    let! (t, f) := verify_file path in
    match t with
    | FT_JSON => let! j := file_json d f in read_graph_json fsub p j
    | _ => match file_get d f with
           | InBytes b => outcome_result (load_binary fsub p b)
           | InText => let! _ := check_compatibility header_legacy header_current in UB
           end
    end
  end.
(** Mesh::save, mesh_serialization.cpp:215-232 *)
Definition save_mesh os (d : Disk) (m : Mesh) (path : list N) (k : Killed) : result unit * Disk :=
  match verify_file path with
  | Ok (FT_JSON, f) => put_json os d f (mesh_to_text m) k
  | Ok (_, f) => match seq_writes [header_bytes header_current; cd_write c_mesh m] with
                 | Ok bs => (Ok tt, put_binary os d f bs k)
                 | Throw => (Throw, d)
                 | UB => (UB, d)
                 end
  | Throw => (Throw, d)
  | UB => (UB, d)
  end.
(** Mesh::load, mesh_serialization.cpp:234-262: a binary file must have a header *)
Definition load_mesh_binary (buf : list N) : outcome Mesh :=
  match header_parse buf with
  | Val None _ => Fail Exception
  | Val (Some h) offset =>
    match check_compatibility h header_current with
    | Ok _ => cd_read c_mesh (mesh_new true false false false) (drop (N.to_nat offset) buf) 0
    | Throw => Fail Exception
    | UB => Fail Undefined
    end
  | Fail e => Fail e
  end.
Definition load_mesh (d : Disk) (path : list N) : result Mesh :=
  match d !! path with
  | None => Throw
  | Some _ =>
    let! (t, f) := verify_file path in
    match t with
    | FT_JSON => let! j := file_json d f in mesh_from_text j
    | _ => match file_get d f with InBytes b => outcome_result (load_mesh_binary b) | InText => Throw end
    end
  end.

(* ------------------------------------------------------------------ *)
(** ** Histories: saves by any programs, killed or not, loads, and whatever other processes do to files *)
Inductive DiskOp :=
| DSave (p : Program) (g : Graph) (path : list N) (include_mesh : bool) (k : Killed)
| DSaveMesh (m : Mesh) (path : list N) (k : Killed)
| DLoad (p : Program) (path : list N)
| DLoadMesh (path : list N)
| DOther (f : list N) (c : option Content).
Definition disk_step (env : Env) os (d : Disk) (o : DiskOp) : Disk :=
  match o with
  | DSave p g path im k => (save_graph env p os d g path im k).2
  | DSaveMesh m path k => (save_mesh os d m path k).2
  | DLoad _ _ => d
  | DLoadMesh _ => d
  | DOther f c => match c with Some c => <[f := c]> d | None => delete f d end
  end.
Definition disk_run (env : Env) os (d : Disk) (l : list DiskOp) : Disk := fold_left (disk_step env os) l d.
