(** Model of versioned file headers and of file type resolution.
    Sources: include/spark_dsg/serialization/versioning.h, src/serialization/versioning.cpp,
    src/serialization/binary_conversions.cpp:144-156, src/serialization/file_io.cpp:49-80,
    CMakeLists.txt:2.  Warnings printed for outdated headers are not modelled. *)
From Coq Require Import NArith ZArith Bool List Ascii String.
From stdpp Require Import base list gmap.
From Verif.Model Require Import Types Mesh Attrs Binary.
Local Open Scope N_scope.

(** a C++ string literal as a byte list *)
Definition str (s : string) : list N := map N_of_ascii (list_ascii_of_string s).

(** versioning.h:56-76 *)
Record Version := mkV { v_major : N; v_minor : N; v_patch : N }.
#[global] Instance Version_eq_dec : EqDecision Version. Proof. solve_decision. Defined.
(** versioning.cpp:100-102, 104-115; h:67-72 *)
Definition version_eqb (a b : Version) : bool :=
  (v_major a =? v_major b) && (v_minor a =? v_minor b) && (v_patch a =? v_patch b).
Definition version_ltb (a b : Version) : bool :=
  if v_major a <? v_major b then true
  else if v_major a =? v_major b then
    if v_minor a <? v_minor b then true
    else if v_minor a =? v_minor b then v_patch a <? v_patch b
    else false
  else false.
Definition version_leb (a b : Version) : bool := negb (version_ltb b a).

(** versioning.h:83-106 *)
Record Header := mkHeader { h_project : list N; h_version : Version }.
Definition IDENTIFIER : list N := str "SPARK_DSG".
Definition header_current : Header := mkHeader (str "main") (mkV 1 0 4).   (* cpp:132-139, CMakeLists.txt:2 *)
Definition header_legacy : Header := mkHeader (str "main") (mkV 1 0 0).    (* cpp:141-146 *)

(** binary_conversions.cpp:144-156 *)
Definition c_header : Codec Header := mkCodec
  (fun h => seq_writes [cd_write c_string (h_project h); cd_write c_u8 (v_major (h_version h));
                        cd_write c_u8 (v_minor (h_version h)); cd_write c_u8 (v_patch (h_version h))])
  (fun old => let* p := cd_read c_string (h_project old) in
              let* a := cd_read c_u8 (v_major (h_version old)) in
              let* b := cd_read c_u8 (v_minor (h_version old)) in
              let* c := cd_read c_u8 (v_patch (h_version old)) in
              ret (mkHeader p (mkV a b c))).
(** FileHeader::serializeToBinary, versioning.cpp:124-130 *)
Definition header_bytes (h : Header) : result (list N) :=
  seq_writes [cd_write c_string IDENTIFIER; cd_write c_header h].
(** FileHeader::deserializeFromBinary, versioning.cpp:166-188; [Val (Some h) offset].  The
    offset is not assigned when there is no header. *)
Definition header_parse (buf : list N) : outcome (option Header) :=
  (let* t := curr_type in
   if negb (t =? T_ARR32) then ret None
   else
     let* id := cd_read c_string [] in
     if negb (bool_decide (id = IDENTIFIER)) then ret None
     else let* h := cd_read c_header (mkHeader (str "main") (mkV 0 0 0)) in ret (Some h)) buf 0.

(** checkProjectCompatibility, versioning.cpp:68-98; PROJECT_COMPATIBILITY is empty (h:51-52) *)
Definition PROJECT_COMPATIBILITY : list (list N * list (list N)) := [].
Fixpoint assoc (k : list N) (l : list (list N * list (list N))) : option (list (list N)) :=
  match l with [] => None | (a, b) :: r => if bool_decide (a = k) then Some b else assoc k r end.
Definition check_project (loaded current : Header) : result unit :=
  if bool_decide (h_project loaded = h_project current) then Ok tt
  else match assoc (h_project current) PROJECT_COMPATIBILITY with
       | None => Throw
       | Some compatible => if bool_decide (h_project loaded ∈ compatible) then Ok tt else Throw
       end.
(** checkCompatibility, versioning.cpp:47-66 *)
Definition check_compatibility (loaded current : Header) : result unit :=
  if version_ltb (h_version loaded) (mkV 1 0 2) then Throw else check_project loaded current.

(** The checks of loadDsgBinary (file_io.cpp:99-116): header, or legacy, then compatibility;
    the position where the graph data starts. *)
Definition load_prologue (buf : list N) : result (Header * N) :=
  match header_parse buf with
  | Val o offset =>
    let h := default header_legacy o in
    let! _ := check_compatibility h header_current in
    match o with Some _ => Ok (h, offset) | None => UB end
  | Fail Exception => Throw
  | Fail _ => UB
  end.

(* ------------------------------------------------------------------ *)
(** ** file_io: paths are byte strings, separator '/', as std::filesystem on POSIX *)
Inductive FileType := FT_JSON | FT_BINARY | FT_NONE | FT_UNKNOWN.
Definition SLASH : N := 47.
Definition DOT : N := 46.
(** path::filename *)
Fixpoint filename_acc (acc path : list N) : list N :=
  match path with [] => rev acc | c :: r => if c =? SLASH then filename_acc [] r else filename_acc (c :: acc) r end.
Definition filename (path : list N) : list N := filename_acc [] path.
(** the suffix of [l] starting at its last dot *)
Fixpoint last_dot (l : list N) : option (list N) :=
  match l with
  | [] => None
  | c :: r => match last_dot r with
              | Some s => Some s
              | None => if c =? DOT then Some (c :: r) else None
              end
  end.
(** path::extension: empty for ".", "..", no dot, or only a leading dot *)
Definition extension (path : list N) : list N :=
  let f := filename path in
  if bool_decide (f = [DOT]) || bool_decide (f = [DOT; DOT]) then []
  else match f with
       | [] => []
       | _ :: r => match last_dot r with Some s => s | None => [] end
       end.
Definition JSON_EXT : list N := str ".json".
Definition BSON_EXT : list N := str ".bson".
Definition BINARY_EXT : list N := str ".sparkdsg".
(** identifyFileType, file_io.cpp:49-59 *)
Definition identify_file (path : list N) : FileType :=
  let ext := extension path in
  if bool_decide (ext = []) then FT_NONE
  else if bool_decide (ext = JSON_EXT) || bool_decide (ext = BSON_EXT) then FT_JSON
  else if bool_decide (ext = BINARY_EXT) then FT_BINARY
  else FT_UNKNOWN.
(** verifyFileExtension, file_io.cpp:61-80; the path is changed in place *)
Definition verify_file (path : list N) : result (FileType * list N) :=
  match identify_file path with
  | FT_NONE => Ok (FT_BINARY, path ++ BINARY_EXT)
  | FT_UNKNOWN => Throw
  | t => Ok (t, path)
  end.
