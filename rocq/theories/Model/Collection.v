(** * Collections of layers in Python: python/src/spark_dsg/io.py

    Layers and their bytes are parameters: [enc] and [dec] are to_bson and from_bson ([None]: an
    exception), [nodes] and [edges] are num_nodes and num_edges.  The bindings of the pinned commit
    have neither to_bson nor from_bson (spark_dsg_bindings.cpp:463-516), so there [enc] and [dec]
    are always [None].  A path is a [str] as std::filesystem has it (Versioning.v), normalised as
    pathlib does, with a file name; save only takes a pathlib.Path.  Opening files for reading and
    writing succeeds unless one is missing, nobody writes to a mapped file (its bytes are taken
    when it is opened), and the members of a record have their types (offset and size are not
    negative; the offsets are a list of IndexInfo). *)
From Coq Require Import NArith ZArith Bool List String.
From stdpp Require Import base list gmap.
From Verif.Model Require Import Types Versioning.
Local Open Scope Z_scope.
Local Open Scope list_scope.
Set Default Proof Using "Type".

(** IndexInfo, io.py:43-51 *)
Record Info := mkInfo { i_index : Z; i_offset : nat; i_size : nat; i_nodes : nat; i_edges : nat }.
(** The contents of the records (.json files; [None]: json.load raises) and of the .graphs files. *)
Record Files := mkFiles { f_records : gmap (list N) (option (list Info)); f_graphs : gmap (list N) (list N) }.
(** PurePath.suffix: the extension, but a name that ends in a dot has none *)
Definition py_suffix (path : list N) : list N :=
  let e := extension path in if bool_decide (e = [DOT]) then [] else e.
(** PurePath.with_suffix *)
Definition with_suffix (path e : list N) : list N := take (length path - length (py_suffix path)) path ++ e.
Definition record_path (path : list N) : list N := with_suffix path (str ".json"%string).
Definition graph_path (path : list N) : list N := with_suffix path (str ".graphs"%string).

(** ** Slices, as [x for x in range(len)][slice] has them (PySlice_AdjustIndices) *)
Record Slice := mkSlice { s_start : option Z; s_stop : option Z; s_step : option Z }.
Definition clip (n lo hi x : Z) : Z := if x <? 0 then Z.max (x + n) lo else Z.min x hi.
(** [None]: ValueError, the step is zero *)
Definition positions (n : Z) (s : Slice) : option (list Z) :=
  let step := default 1 (s_step s) in
  if step =? 0 then None
  else if 0 <? step then
    let a := default 0 (clip n 0 n <$> s_start s) in
    let b := default n (clip n 0 n <$> s_stop s) in
    Some (map (fun i => a + i * step) (seqZ 0 ((b - a + step - 1) / step)))
  else
    let a := default (n - 1) (clip n (-1) (n - 1) <$> s_start s) in
    let b := default (-1) (clip n (-1) (n - 1) <$> s_stop s) in
    Some (map (fun i => a + i * step) (seqZ 0 ((a - b - step - 1) / - step))).

Section collection.
Context {L : Type} (enc : L -> option (list N)) (dec : list N -> option L) (nodes edges : L -> nat).

(** io.py:199-214: what has been written when the loop ends or is left, and the offsets *)
Fixpoint write (c : list (Z * L)) (offset : nat) (out : list N) (offsets : list Info) : list N * option (list Info) :=
  match c with
  | [] => (out, Some offsets)
  | (k, l) :: r =>
    match enc l with
    | None => (out, None)
    | Some b => write r (offset + length b)%nat (out ++ b) (offsets ++ [mkInfo k offset (length b) (nodes l) (edges l)])
    end
  end.
(** LayerCollection.save, io.py:193-217.  [c] is a dictionary: the pairs in the order they were
    inserted in, no key twice. *)
Definition save (d : Files) (c : list (Z * L)) (path : list N) : result unit * Files :=
  let (out, o) := write c 0 [] [] in
  let graphs := <[graph_path path := out]> (f_graphs d) in
  match o with
  | None => (Throw, mkFiles (f_records d) graphs)
  | Some l => (Ok tt, mkFiles (<[record_path path := Some l]> (f_records d)) graphs)
  end.

(** _index (the dictionary as pairs) and _mmap *)
Record Coll := mkColl { c_index : option (list (Z * Info)); c_mmap : option (list N) }.
(** __init__, io.py:97-108 *)
Definition new : Coll := mkColl None None.
(** self._index[info.index] = info *)
Fixpoint put (i : Info) (l : list (Z * Info)) : list (Z * Info) :=
  match l with
  | [] => [(i_index i, i)]
  | (k, j) :: r => if k =? i_index i then (k, i) :: r else (k, j) :: put i r
  end.
(** open, io.py:123-143.  Mapping an empty file raises ValueError, after _index is set. *)
Definition open (d : Files) (path : list N) (c : Coll) : result unit * Coll :=
  match f_records d !! record_path path, f_graphs d !! graph_path path with
  | Some (Some offsets), Some bytes =>
    let index := fold_left (fun l i => put i l) offsets [] in
    match bytes with
    | [] => (Throw, mkColl (Some index) (c_mmap c))
    | _ => (Ok tt, mkColl (Some index) (Some bytes))
    end
  | _, _ => (Throw, c)
  end.
(** close, io.py:145-149 *)
Definition close (c : Coll) : Coll := mkColl (c_index c) None.
(** requires_open, io.py:82-91, and valid, io.py:119-121: the members, or RuntimeError *)
Definition opened (c : Coll) : result (list (Z * Info) * list N) :=
  match c_index c, c_mmap c with Some l, Some m => Ok (l, m) | _, _ => Throw end.
Definition find (l : list (Z * Info)) (k : Z) : option Info := snd <$> List.find (fun p => fst p =? k) l.
(** _get_graph, io.py:151-159.  The outer [None] is IndexError, the inner one that from_bson
    raises. *)
Definition get_graph (l : list (Z * Info)) (m : list N) (k : Z) : option (option L) :=
  i ← find l k; Some (dec (take (i_size i) (drop (i_offset i) m))).
Definition from_option' (o : option (option L)) : result L := match o with Some (Some x) => Ok x | _ => Throw end.
Definition len (c : Coll) : result Z := let! (l, _) := opened c in Ok (Z.of_nat (length l)).
Definition indices (c : Coll) : result (list Z) := let! (l, _) := opened c in Ok (map fst l).
(** __getitem__, io.py:161-180, with an int *)
Definition item (c : Coll) (k : Z) : result L :=
  let! (l, m) := opened c in from_option' (get_graph l m (if k <? 0 then Z.of_nat (length l) + k else k)).
Fixpoint each (f : Z -> result L) (l : list Z) : result (list L) :=
  match l with
  | [] => Ok []
  | k :: r => let! x := f k in let! xs := each f r in Ok (x :: xs)
  end.
(** ... and with a slice *)
Definition items (c : Coll) (s : Slice) : result (list L) :=
  let! (l, m) := opened c in
  match positions (Z.of_nat (length l)) s with
  | None => Throw
  | Some ps => each (fun k => from_option' (get_graph l m k)) ps
  end.
(** for x in collection: the class has no __iter__, so Python calls __getitem__ with 0, 1, ...
    until it raises IndexError.  At most length l + 1 calls are needed. *)
Fixpoint iterate (n : nat) (l : list (Z * Info)) (m : list N) (k : Z) : result (list L) :=
  match n with
  | O => UB
  | S n =>
    match get_graph l m k with
    | None => Ok []
    | Some None => Throw
    | Some (Some x) => let! xs := iterate n l m (k + 1) in Ok (x :: xs)
    end
  end.
Definition iter (c : Coll) : result (list L) := let! (l, m) := opened c in iterate (S (length l)) l m 0.
End collection.
