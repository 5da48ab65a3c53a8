(** Whole-mesh operations: the matrices of the Python bindings
    (python/bindings/spark_dsg_bindings.cpp:60-129, bound as get_vertices, set_vertices,
    get_faces, set_faces) and Mesh::transform (src/mesh.cpp:245-249).
    A dynamic Eigen matrix is its number of rows and its columns; entries of MatrixXd are the
    bit patterns of doubles, entries of MatrixXi are [Z] in the range of int. *)
From Coq Require Import NArith ZArith Bool List.
From Coq Require Import Floats.SpecFloat.
From stdpp Require Import base list gmap.
From Verif.Model Require Import Types Numbers BBox Attrs Json Rotation Node.
From Verif.Model Require Import Mesh.
Local Open Scope N_scope.

Record Columns (T : Type) := mkColumns { cs_rows : N; cs_cols : list (list T) }.
Arguments mkColumns {T}. Arguments cs_rows {T}. Arguments cs_cols {T}.
(** points(r, i): unchecked with assertions disabled *)
Definition entry {T} (p : Columns T) (r i : nat) : result T := deref (cs_cols p !! i ≫= fun c => c !! r).

(** double arithmetic on bit patterns *)
Definition double_of_bits (v : N) : spec_float :=
  if fl_finite 11 52 v then
    match fl_sig 11 52 v with
    | N0 => S754_zero (fl_sign 11 52 v)
    | Npos p => S754_finite (fl_sign 11 52 v) p (fl_scale 11 52 v)
    end
  else if fl_man 52 v =? 0 then S754_infinity (fl_sign 11 52 v) else S754_nan.
Definition bits_of_double (x : spec_float) : N :=
  match x with
  | S754_zero s => fl_pack 11 52 s 0
  | S754_infinity s => fl_inf 11 52 s
  | S754_nan => fl_quiet_nan 11 52
  | S754_finite s p e => fl_round 11 52 s (Npos p) e
  end.
Definition double_255 : spec_float := binary_normalize 53 1024 255 0 false.
(** c / 255.0 *)
Definition channel_out (c : N) : N :=
  bits_of_double (SFdiv 53 1024 (binary_normalize 53 1024 (Z.of_N c) 0 false) double_255).
(** static_cast<uint8_t>(v * 255): undefined outside of the range of uint8_t *)
Definition channel_in (v : N) : result N :=
  match f32_trunc (SFmul 53 1024 (double_of_bits v) double_255) with
  | Some b => if b <? 256 then Ok b else UB
  | None => UB
  end.

(** getEigenVertices, spark_dsg_bindings.cpp:60-80 *)
Definition vertex_column (m : Mesh) (i : nat) : result (list N) :=
  let! pos := mesh_pos m (N.of_nat i) in
  let! rgb := (if N.of_nat i <? N.of_nat (length (m_colors m)) then
                 let! c := mesh_color m (N.of_nat i) in Ok [channel_out (c_r c); channel_out (c_g c); channel_out (c_b c)]
               else Ok [0; 0; 0]) in
  Ok ([float_to_double (v_x pos); float_to_double (v_y pos); float_to_double (v_z pos)] ++ rgb).
Definition get_vertices (m : Mesh) : result (Columns N) :=
  let! cols := map_result (vertex_column m) (seq 0 (length (m_points m))) in Ok (mkColumns 6 cols).
(** setEigenVertices, spark_dsg_bindings.cpp:82-101 *)
Definition set_vertex (points : Columns N) (m : Mesh) (i : nat) : result Mesh :=
  let! x := entry points 0 i in let! y := entry points 1 i in let! z := entry points 2 i in
  let! m := mesh_set_pos m (N.of_nat i) (mkVec3 (double_to_float x) (double_to_float y) (double_to_float z)) in
  if m_has_colors m then
    let! r := entry points 3 i in let! g := entry points 4 i in let! b := entry points 5 i in
    let! r := channel_in r in let! g := channel_in g in let! b := channel_in b in
    mesh_set_color m (N.of_nat i) (mkColor r g b 255)
  else Ok m.
Definition set_vertices (m : Mesh) (points : Columns N) : result Mesh :=
  if negb (cs_rows points =? 6) then Throw
  else rfold (set_vertex points) (seq 0 (length (cs_cols points))) (mesh_resize_vertices (length (cs_cols points)) m).

(** getEigenFaces, spark_dsg_bindings.cpp:103-113: size_t converted to int *)
Definition face_column (m : Mesh) (i : nat) : result (list Z) :=
  let! f := mesh_face m (N.of_nat i) in
  Ok [wrap_signed 32 (Z.of_N (f_0 f)); wrap_signed 32 (Z.of_N (f_1 f)); wrap_signed 32 (Z.of_N (f_2 f))].
Definition get_faces (m : Mesh) : result (Columns Z) :=
  let! cols := map_result (face_column m) (seq 0 (length (m_faces m))) in Ok (mkColumns 3 cols).
(** setEigenFaces, spark_dsg_bindings.cpp:115-129: static_cast<size_t>(int) *)
Definition to_size (z : Z) : N := Z.to_N (z mod 2 ^ 64).
Definition set_face (indices : Columns Z) (m : Mesh) (i : nat) : result Mesh :=
  let! a := entry indices 0 i in let! b := entry indices 1 i in let! c := entry indices 2 i in
  mesh_set_face m (N.of_nat i) (mkFace (to_size a) (to_size b) (to_size c)).
Definition set_faces (m : Mesh) (indices : Columns Z) : result Mesh :=
  if negb (cs_rows indices =? 3) then Throw
  else rfold (set_face indices) (seq 0 (length (cs_cols indices))) (mesh_resize_faces (length (cs_cols indices)) m).

(** transform * point for an Eigen::Isometry3f with linear part [r] and translation [t]
    (Eigen multiplies the 3x4 matrix with the homogeneous point, from the left) *)
Definition transform_point (A : Arith) (r : M3 A) (t p : V3 A) : V3 A := v_add A (m_apply A r p) t.
(** Mesh::transform, mesh.cpp:245-249 *)
Definition mesh_transform (m : Mesh) (r : M3 spec_float) (t : V3 spec_float) : Mesh :=
  mkMesh (m_has_colors m) (m_has_stamps m) (m_has_labels m) (m_has_first m)
    (map (fun p => let q := transform_point binary32 r t (mkV3 (sf_of_bits (v_x p)) (sf_of_bits (v_y p)) (sf_of_bits (v_z p))) in
                   mkVec3 (bits_of_sf (vx q)) (bits_of_sf (vy q)) (bits_of_sf (vz q))) (m_points m))
    (m_colors m) (m_stamps m) (m_first m) (m_labels m) (m_faces m).
