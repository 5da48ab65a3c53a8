(** Model of the binary (msgpack-like) format.
    Sources: include/spark_dsg/serialization/binary_serialization.h,
    src/serialization/binary_serialization.cpp, include/spark_dsg/serialization/binary_conversions.h.
    (src/serialization/binary_serializer.cpp is not compiled: it is not in CMakeLists.txt.)

    Bytes are [N] below 256, a buffer is a list of bytes, [size_t] arithmetic is modulo 2^64.
    Every raw memory access goes through [byte_at], which fails with [OutOfBounds] outside
    the buffer.  Simplifications: the host is little endian (NeedEndianSwap() is a constant
    [false]: the static_cast in EndianTest, h:181-189, converts the value and never looks at
    memory); unaligned word reads are allowed; memory exhaustion by a huge declared length
    (vector::resize) is not modelled. *)
From Coq Require Import NArith ZArith Bool List.
From stdpp Require Import base list gmap.
From Verif.Model Require Import Types Mesh Attrs.
Local Open Scope N_scope.

(** How a read can fail: a C++ exception; a read outside the buffer; other undefined
    behaviour; a loop that never ends. *)
Inductive fault := Exception | OutOfBounds | Undefined | Diverged.
(** Result of a read: the value and the new [pos_]. *)
Inductive outcome (A : Type) := Val (a : A) (pos : N) | Fail (f : fault).
Arguments Val {A} a pos.
Arguments Fail {A} f.
Definition Reader (A : Type) : Type := list N -> N -> outcome A.
Definition ret {A} (a : A) : Reader A := fun _ pos => Val a pos.
Definition fail {A} (f : fault) : Reader A := fun _ _ => Fail f.
Definition bind {A B} (m : Reader A) (k : A -> Reader B) : Reader B :=
  fun buf pos => match m buf pos with Val a pos' => k a buf pos' | Fail f => Fail f end.
Notation "'let*' x ':=' m 'in' k" := (bind m (fun x => k))
  (at level 200, x pattern, m at level 100, k at level 200, right associativity).

(** PackType, h:226-244 *)
Definition T_NIL : N := 192.    Definition T_FALSE : N := 194.  Definition T_TRUE : N := 195.
Definition T_FLOAT32 : N := 202. Definition T_FLOAT64 : N := 203.
Definition T_UINT8 : N := 204.  Definition T_UINT16 : N := 205. Definition T_UINT32 : N := 206. Definition T_UINT64 : N := 207.
Definition T_INT8 : N := 208.   Definition T_INT16 : N := 209.  Definition T_INT32 : N := 210.  Definition T_INT64 : N := 211.
Definition T_STR32 : N := 219.  Definition T_ARR32 : N := 221.
Definition T_ARRXX : N := 0.    Definition T_ARRYY : N := 1.

(* ------------------------------------------------------------------ *)
(** ** Writing: the bytes appended to the buffer, or an exception *)
(** writeWord, h:201-207: [nb] bytes, least significant first *)
Fixpoint word_bytes (nb : nat) (v : N) : list N :=
  match nb with O => [] | S k => v mod 256 :: word_bytes k (v / 256) end.
(** startFixedArray, cpp:81-90 *)
Definition fixed_array (length : N) : result (list N) :=
  if two32 - 1 <? length then Throw else Ok (T_ARR32 :: word_bytes 4 length).
(** several writes in a row *)
Fixpoint seq_writes (l : list (result (list N))) : result (list N) :=
  match l with
  | [] => Ok []
  | w :: r => let! b := w in let! bs := seq_writes r in Ok (b ++ bs)
  end.

(* ------------------------------------------------------------------ *)
(** ** Reading *)
(** check_valid, cpp:236-242 *)
Definition check_valid (num_bytes num_elements : N) : Reader unit := fun buf pos =>
  if N.of_nat (length buf) <? (pos + (num_elements * num_bytes) mod two64) mod two64
  then Fail Exception else Val tt pos.
(** ref_[pos_] *)
Definition byte_at : Reader N := fun buf pos =>
  match buf !! N.to_nat pos with None => Fail OutOfBounds | Some b => Val b pos end.
(** pos_ += n *)
Definition advance (n : N) : Reader unit := fun _ pos => Val tt ((pos + n) mod two64).
(** readWord (h:216-221) followed by pos_ += sizeof(T) *)
Fixpoint take_word (nb : nat) : Reader N :=
  match nb with
  | O => ret 0
  | S k => let* b := byte_at in let* _ := advance 1 in let* r := take_word k in ret (b + 256 * r)
  end.
(** the range constructor std::string(ptr, length) followed by pos_ += length *)
Fixpoint take_bytes (n : nat) : Reader (list N) :=
  match n with
  | O => ret []
  | S k => let* b := byte_at in let* _ := advance 1 in let* r := take_bytes k in ret (b :: r)
  end.

(** getCurrType, cpp:194-197 *)
Definition curr_type : Reader N := let* _ := check_valid 1 1 in byte_at.
(** checkType, cpp:121-129 *)
Definition check_type (t : N) : Reader unit :=
  let* r := curr_type in if t =? r then advance 1 else fail Exception.
(** checkDynamicArray, cpp:131-139 *)
Definition check_dynamic_array : Reader unit :=
  let* r := curr_type in if r =? T_ARRXX then advance 1 else fail Exception.
(** isDynamicArrayEnd, cpp:141-149 *)
Definition is_dynamic_array_end : Reader bool :=
  let* r := curr_type in
  if r =? T_ARRYY then let* _ := advance 1 in ret true else ret false.
(** readFixedArrayLength, cpp:168-180; getReadPtr h:437-441 *)
Definition read_array_length : Reader N :=
  let* t := curr_type in
  if (t =? T_ARR32) || (t =? T_STR32) then
    let* _ := advance 1 in let* _ := check_valid 4 1 in take_word 4
  else fail Exception.
(** checkFixedArrayLength, cpp:151-166: the comparison (cpp:162) is between the argument and
    itself, so the declared length is never looked at. *)
Definition check_array_length (length : N) : Reader unit :=
  let* t := curr_type in
  if (t =? T_ARR32) || (t =? T_STR32) then
    let* _ := advance 1 in let* _ := check_valid 4 1 in let* ref_length := take_word 4 in
    if length =? length then ret tt else fail Exception
  else fail Exception.
(** checkIfTrue, cpp:182-192: exceptions are swallowed *)
Definition check_if_true : Reader bool := fun buf pos =>
  match (let* t := curr_type in let* _ := check_type t in ret (t =? T_TRUE)) buf pos with
  | Fail Exception => Val false pos
  | o => o
  end.

(* ------------------------------------------------------------------ *)
(** ** Codecs: what [BinarySerializer::write] appends for a value, and what
    [BinaryDeserializer::read] does to a destination variable holding [old]. *)
Record Codec (A : Type) := mkCodec { cd_write : A -> result (list N); cd_read : A -> Reader A }.
Arguments mkCodec {A} _ _.
Arguments cd_write {A} _ _.
Arguments cd_read {A} _ _.

(** integral scalars, h:314-318 and 386-392: unsigned of [nb] bytes *)
Definition codec_uint (tag : N) (nb : nat) : Codec N := mkCodec
  (fun v => Ok (tag :: word_bytes nb v))
  (fun _ => let* _ := check_type tag in let* _ := check_valid (N.of_nat nb) 1 in take_word nb).
Definition c_u8 := codec_uint T_UINT8 1.
Definition c_u16 := codec_uint T_UINT16 2.
Definition c_u32 := codec_uint T_UINT32 4.
Definition c_u64 := codec_uint T_UINT64 8.
(** float, double: the bit pattern as a word, cpp:96-104 and 214-228 *)
Definition c_f32 := codec_uint T_FLOAT32 4.
Definition c_f64 := codec_uint T_FLOAT64 8.
(** two's complement *)
Definition to_bits (nb : nat) (z : Z) : N := Z.to_N (z mod 2 ^ (8 * Z.of_nat nb))%Z.
Definition of_bits (nb : nat) (v : N) : Z :=
  let z := Z.of_N v in
  if (z <? 2 ^ (8 * Z.of_nat nb - 1))%Z then z else (z - 2 ^ (8 * Z.of_nat nb))%Z.
Definition codec_int (tag : N) (nb : nat) : Codec Z := mkCodec
  (fun v => Ok (tag :: word_bytes nb (to_bits nb v)))
  (fun _ => let* _ := check_type tag in let* _ := check_valid (N.of_nat nb) 1 in
            let* w := take_word nb in ret (of_bits nb w)).
Definition c_i8 := codec_int T_INT8 1.
Definition c_i16 := codec_int T_INT16 2.
Definition c_i32 := codec_int T_INT32 4.
Definition c_i64 := codec_int T_INT64 8.
(** std::chrono::nanoseconds, h:329-333 and 406-411: the 64-bit count *)
Definition c_nanoseconds := c_i64.
(** bool, cpp:92-94 and 199-212 *)
Definition c_bool : Codec bool := mkCodec
  (fun b : bool => Ok [if b then T_TRUE else T_FALSE])
  (fun _ => let* t := curr_type in let* _ := check_type t in
            if t =? T_FALSE then ret false
            else if t =? T_TRUE then ret true else fail Exception).
(** std::string, cpp:106-109 and 230-234 *)
Definition c_string : Codec (list N) := mkCodec
  (fun s => let! h := fixed_array (N.of_nat (length s)) in Ok (h ++ s))
  (fun _ => let* n := read_array_length in let* _ := check_valid 1 n in take_bytes (N.to_nat n)).
(** std::optional, h:320-327 and 394-404: reading nil leaves the destination as it is *)
Definition codec_option {A} (dflt : A) (c : Codec A) : Codec (option A) := mkCodec
  (fun o => match o with Some v => cd_write c v | None => Ok [T_NIL] end)
  (fun old => let* t := curr_type in
              if t =? T_NIL then let* _ := check_type T_NIL in ret old
              else let* v := cd_read c dflt in ret (Some v)).

(** [for (i = 0; i < n; ++i) s.read(values[i])] over the elements of a resized container *)
Fixpoint read_each {A} (c : Codec A) (olds : list A) : Reader (list A) :=
  match olds with
  | [] => ret []
  | o :: r => let* v := cd_read c o in let* vs := read_each c r in ret (v :: vs)
  end.
Definition write_each {A} (c : Codec A) (l : list A) : result (list N) :=
  seq_writes (map (cd_write c) l).
Definition write_array {A} (c : Codec A) (l : list A) : result (list N) :=
  let! h := fixed_array (N.of_nat (length l)) in let! b := write_each c l in Ok (h ++ b).
(** std::vector, h:445-460; resize keeps the old elements *)
Definition codec_vector {A} (dflt : A) (c : Codec A) : Codec (list A) := mkCodec
  (write_array c)
  (fun old => let* n := read_array_length in read_each c (resize (N.to_nat n) dflt old)).
(** std::list, h:462-478: cleared first *)
Definition codec_list {A} (dflt : A) (c : Codec A) : Codec (list A) := mkCodec
  (write_array c)
  (fun _ => let* n := read_array_length in read_each c (replicate (N.to_nat n) dflt)).
(** std::array<T, n>, h:480-494 *)
Definition codec_array {A} (n : nat) (c : Codec A) : Codec (list A) := mkCodec
  (write_array c)
  (fun old => let* _ := check_array_length (N.of_nat n) in read_each c old).

(** std::set and std::unordered_set, h:496-532.  [order] is the container's iteration order. *)
Fixpoint read_set {A} `{Countable A} (dflt : A) (c : Codec A) (n : nat) (s : gset A) : Reader (gset A) :=
  match n with
  | O => ret s
  | S k => let* v := cd_read c dflt in read_set dflt c k ({[v]} ∪ s)
  end.
Definition codec_set {A} `{Countable A} (order : gset A -> list A) (dflt : A) (c : Codec A) : Codec (gset A) := mkCodec
  (fun s => write_array c (order s))
  (fun _ => let* n := read_array_length in read_set dflt c (N.to_nat n) ∅).
(** std::map and std::unordered_map, h:534-574: [values[key]] is default constructed when
    the key is new *)
Definition write_pair {K V} (ck : Codec K) (cv : Codec V) (kv : K * V) : result (list N) :=
  let! a := cd_write ck (fst kv) in let! b := cd_write cv (snd kv) in Ok (a ++ b).
Fixpoint read_map {K V} `{Countable K} (dk : K) (dv : V) (ck : Codec K) (cv : Codec V) (n : nat) (m : gmap K V)
  : Reader (gmap K V) :=
  match n with
  | O => ret m
  | S k => let* key := cd_read ck dk in
           let* v := cd_read cv (default dv (m !! key)) in
           read_map dk dv ck cv k (<[key := v]> m)
  end.
Definition codec_map {K V} `{Countable K} (order : gmap K V -> list (K * V)) (dk : K) (dv : V)
    (ck : Codec K) (cv : Codec V) : Codec (gmap K V) := mkCodec
  (fun m => let l := order m in
            let! h := fixed_array (N.of_nat (length l)) in
            let! b := seq_writes (map (write_pair ck cv) l) in Ok (h ++ b))
  (fun _ => let* n := read_array_length in read_map dk dv ck cv (N.to_nat n) ∅).

(** Eigen::MatrixBase, binary_conversions.h:76-112.  [fixed_rows]/[fixed_cols] are the
    compile-time dimensions ([None]: Eigen::Dynamic).  Signed overflow of rows * cols + 2 and
    a resize to a negative or statically impossible shape are undefined (the second is
    guarded only by eigen_assert).  Elements are row-major. *)
Definition int64_ok (z : Z) : bool := (- 2 ^ 63 <=? z)%Z && (z <? 2 ^ 63)%Z.
Definition shape_ok (fixed_rows fixed_cols : option N) (rows cols : Z) : bool :=
  (0 <=? rows)%Z && (0 <=? cols)%Z &&
  match fixed_rows with None => true | Some r => (Z.of_N r =? rows)%Z end &&
  match fixed_cols with None => true | Some c => (Z.of_N c =? cols)%Z end.
Definition codec_matrix (fixed_rows fixed_cols : option N) (c : Codec N) : Codec Matrix := mkCodec
  (fun m => let! h := fixed_array (mx_rows m * mx_cols m + 2) in
            let! r := cd_write c_i64 (Z.of_N (mx_rows m)) in
            let! k := cd_write c_i64 (Z.of_N (mx_cols m)) in
            let! b := write_each c (mx_data m) in Ok (h ++ r ++ k ++ b))
  (fun _ =>
     let* n := read_array_length in
     if n <? 2 then fail Exception
     else
       let* rows := cd_read c_i64 0%Z in
       let* cols := cd_read c_i64 0%Z in
       if negb (int64_ok (rows * cols) && int64_ok (rows * cols + 2)) then fail Undefined
       else if negb (rows * cols + 2 =? Z.of_N n)%Z then fail Exception
       else if negb (shape_ok fixed_rows fixed_cols rows cols) then fail Undefined
       else
         let* d := read_each c (replicate (Z.to_nat (rows * cols)) 0) in
         ret (mkMatrix (Z.to_N rows) (Z.to_N cols) d)).

(** Eigen::Matrix<Scalar, 3, 1>, binary_conversions.h:115-129 *)
Definition codec_vec3 (c : Codec N) : Codec Vec3 := mkCodec
  (fun v => seq_writes [cd_write c (v_x v); cd_write c (v_y v); cd_write c (v_z v)])
  (fun old => let* x := cd_read c (v_x old) in let* y := cd_read c (v_y old) in
              let* z := cd_read c (v_z old) in ret (mkVec3 x y z)).
(** Eigen::Quaternion, binary_conversions.h:131-149 *)
Definition codec_quat (c : Codec N) : Codec Quat := mkCodec
  (fun q => seq_writes [fixed_array 4; cd_write c (q_w q); cd_write c (q_x q); cd_write c (q_y q); cd_write c (q_z q)])
  (fun old => let* _ := check_array_length 4 in
              let* w := cd_read c (q_w old) in let* x := cd_read c (q_x old) in
              let* y := cd_read c (q_y old) in let* z := cd_read c (q_z old) in ret (mkQuat w x y z)).

(* ------------------------------------------------------------------ *)
(** ** Structures described by a list of fields, visited in order
    (serialization::field, attribute_serialization.h:135-166) *)
Record Field (T : Type) := mkField {
  fd_type : Type; fd_codec : Codec fd_type; fd_get : T -> fd_type; fd_set : fd_type -> T -> T }.
Arguments mkField {T fd_type} _ _ _.
Arguments fd_type {T} _.
Arguments fd_codec {T} _.
Arguments fd_get {T} _ _.
Arguments fd_set {T} _ _ _.
Definition write_fields {T} (fs : list (Field T)) (t : T) : result (list N) :=
  seq_writes (map (fun f => cd_write (fd_codec f) (fd_get f t)) fs).
Fixpoint read_fields {T} (fs : list (Field T)) (t : T) : Reader T :=
  match fs with
  | [] => ret t
  | f :: r => let* v := cd_read (fd_codec f) (fd_get f t) in read_fields r (fd_set f v t)
  end.
Definition codec_fields {T} (fs : list (Field T)) : Codec T := mkCodec (write_fields fs) (read_fields fs).
(** fields of a base class seen from a derived class *)
Definition lift_field {S T} (up : T -> S) (put : S -> T -> T) (f : Field S) : Field T :=
  mkField (fd_codec f) (fun t => fd_get f (up t)) (fun v t => put (fd_set f v (up t)) t).
