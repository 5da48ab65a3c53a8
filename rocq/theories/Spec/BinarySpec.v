(** What it means for a binary reader to give back what was written and to respect its
    buffer.  Nothing here mentions how readers or writers work. *)
From Coq Require Import NArith ZArith Bool List.
From stdpp Require Import base list gmap.
From Verif.Model Require Import Types Mesh Attrs Binary.
Local Open Scope N_scope.

Definition len {A} (l : list A) : N := N.of_nat (length l).
(** No object is larger than 2^63 - 1 bytes on the supported platforms. *)
Definition max_object : N := 2 ^ 63.
Definition is_byte (b : N) : Prop := b < 256.

(** Started at the first byte of [bs], wherever [bs] lies in the buffer, the reader returns
    [a] and stops at the byte following [bs]. *)
Definition reads_back {A} (r : Reader A) (bs : list N) (a : A) : Prop :=
  forall before after, len (before ++ bs ++ after) < max_object ->
    r (before ++ bs ++ after) (len before) = Val a (len before + len bs).

(** Whatever is written for a [valid] value is a byte string from which a [fresh] destination
    variable gets that value back. *)
Definition round_trips {A} (c : Codec A) (valid fresh : A -> Prop) : Prop :=
  forall a old bs, valid a -> fresh old -> cd_write c a = Ok bs ->
    Forall is_byte bs /\ reads_back (cd_read c old) bs a.

(** Every [valid] value can be written, and it reads back. *)
Definition saves_and_loads {A} (c : Codec A) (valid fresh : A -> Prop) : Prop :=
  (forall a, valid a -> exists bs, cd_write c a = Ok bs) /\ round_trips c valid fresh.

(** On every buffer and from every position in it, the reader never touches a byte outside,
    always terminates, and leaves the position inside the buffer, not before where it was. *)
Definition stays_inside {A} (r : Reader A) : Prop :=
  forall buf pos, Forall is_byte buf -> len buf < max_object -> pos <= len buf ->
    match r buf pos with
    | Val _ pos' => pos <= pos' <= len buf
    | Fail f => f <> OutOfBounds /\ f <> Diverged
    end.
(** As before, and reading has no undefined behaviour of another kind either. *)
Definition safe_on_all {A} (r : Reader A) : Prop :=
  stays_inside r /\
  forall buf pos, Forall is_byte buf -> len buf < max_object -> pos <= len buf -> r buf pos <> Fail Undefined.

(** Values that fit the C++ type. *)
Definition fits (bits : N) (v : N) : Prop := v < 2 ^ bits.
Definition fits_signed (bits : Z) (v : Z) : Prop := (- 2 ^ (bits - 1) <= v < 2 ^ (bits - 1))%Z.
Definition any {A} (_ : A) : Prop := True.
(** An order in which a container is iterated: each element once. *)
Definition lists_set {A} `{Countable A} (order : gset A -> list A) : Prop :=
  forall s, NoDup (order s) /\ forall x, x ∈ order s <-> x ∈ s.
Definition lists_map {K V} `{Countable K} (order : gmap K V -> list (K * V)) : Prop :=
  forall m, NoDup (map fst (order m)) /\ forall k v, (k, v) ∈ order m <-> m !! k = Some v.
(** A matrix with one entry per position, in a shape the compile-time dimensions allow. *)
Definition matrix_shaped (fixed_rows fixed_cols : option N) (m : Matrix) : Prop :=
  len (mx_data m) = mx_rows m * mx_cols m /\
  mx_rows m < max_object /\ mx_cols m < max_object /\
  (forall r, fixed_rows = Some r -> mx_rows m = r) /\ (forall c, fixed_cols = Some c -> mx_cols m = c).

(** every encoding has a first byte and it is not the nil tag *)
Definition not_nil {A} (c : Codec A) : Prop :=
  forall a bs, cd_write c a = Ok bs -> exists t r, bs = t :: r /\ t <> T_NIL.
(** The longest container the format can hold has 2^32 - 1 elements. *)
Definition short {A} (l : list A) : Prop := len l < 2 ^ 32.

(** The types the library can serialise: any nesting of containers over the primitive types
    ([matrices]: whether Eigen matrices of run-time shape occur). *)
Inductive serialisable (matrices : bool) : forall A, Codec A -> Prop :=
| ser_u8 : serialisable matrices N c_u8
| ser_u16 : serialisable matrices N c_u16
| ser_u32 : serialisable matrices N c_u32
| ser_u64 : serialisable matrices N c_u64
| ser_f32 : serialisable matrices N c_f32
| ser_f64 : serialisable matrices N c_f64
| ser_i8 : serialisable matrices Z c_i8
| ser_i16 : serialisable matrices Z c_i16
| ser_i32 : serialisable matrices Z c_i32
| ser_i64 : serialisable matrices Z c_i64
| ser_nanoseconds : serialisable matrices Z c_nanoseconds
| ser_bool : serialisable matrices bool c_bool
| ser_string : serialisable matrices (list N) c_string
| ser_option A d (c : Codec A) : serialisable matrices A c -> serialisable matrices (option A) (codec_option d c)
| ser_vector A d (c : Codec A) : serialisable matrices A c -> serialisable matrices (list A) (codec_vector d c)
| ser_list A d (c : Codec A) : serialisable matrices A c -> serialisable matrices (list A) (codec_list d c)
| ser_array A n (c : Codec A) : serialisable matrices A c -> serialisable matrices (list A) (codec_array n c)
| ser_set A `{Countable A} order d (c : Codec A) :
    serialisable matrices A c -> serialisable matrices (gset A) (codec_set order d c)
| ser_map K V `{Countable K} order dk dv (ck : Codec K) (cv : Codec V) :
    serialisable matrices K ck -> serialisable matrices V cv ->
    serialisable matrices (gmap K V) (codec_map order dk dv ck cv)
| ser_vec3 (c : Codec N) : serialisable matrices N c -> serialisable matrices Vec3 (codec_vec3 c)
| ser_quat (c : Codec N) : serialisable matrices N c -> serialisable matrices Quat (codec_quat c)
| ser_matrix fr fc (c : Codec N) : matrices = true -> serialisable matrices N c ->
    serialisable matrices Matrix (codec_matrix fr fc c).
