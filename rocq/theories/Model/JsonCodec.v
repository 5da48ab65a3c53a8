(** JSON conversions of attributes, meshes and headers.
    Sources: src/serialization/json_conversions.cpp, include/spark_dsg/serialization/json_conversions.h,
    src/serialization/mesh_serialization.cpp:48-133, 178-199, src/node_attributes.cpp,
    src/edge_attributes.cpp, include/spark_dsg/serialization/attribute_serialization.h. *)
From Coq Require Import NArith ZArith Bool List String.
From stdpp Require Import base list gmap.
From Verif.Model Require Import Types Mesh Attrs Binary Versioning AttrCodec Registry GraphCodec Json Rotation.
Local Open Scope N_scope.

(** to_json / from_json of a type *)
Record JCodec (A : Type) := mkJC { jc_to : A -> json; jc_from : json -> result A }.
Arguments mkJC {A}. Arguments jc_to {A}. Arguments jc_from {A}.

Definition jc_bool : JCodec bool := mkJC JBool get_bool.
Definition jc_string : JCodec (list N) := mkJC JString get_string.
Definition jc_unsigned (bits : N) : JCodec N := mkJC (fun v => JInt (Z.of_N v)) (get_unsigned bits).
Definition jc_u8 := jc_unsigned 8.
Definition jc_u32 := jc_unsigned 32.
Definition jc_u64 := jc_unsigned 64.
Definition jc_i32 : JCodec Z := mkJC JInt get_int32.
Definition jc_f64 : JCodec N := mkJC JFloat get_double.
Definition jc_f32 : JCodec N := mkJC (fun v => JFloat (float_to_double v)) get_float.
Definition jc_list {A} (c : JCodec A) : JCodec (list A) := mkJC (fun l => JArray (map (jc_to c) l)) (get_list (jc_from c)).
Definition jc_map {V} (c : JCodec V) : JCodec (gmap (list N) V) :=
  mkJC (fun m => JObject (map (fun x : list N * V => (fst x, jc_to c (snd x))) (map_to_list m))) (get_map (jc_from c)).

(** Eigen matrices, json_conversions.h:85-132.  A null coefficient is
    numeric_limits<Scalar>::quiet_NaN(), which is 0 for integers.  Without coefficients nothing
    is pushed and the value stays null. *)
Definition coeff (c : JCodec N) (nan : N) (j : json) : result N := match j with JNull => Ok nan | _ => jc_from c j end.
Definition coeffs_to (c : JCodec N) (l : list N) : json :=
  match l with [] => JNull | _ => JArray (map (jc_to c) l) end.
Definition coeffs_from (c : JCodec N) (nan : N) (j : json) : result (list N) :=
  match j with
  | JArray l => map_result (coeff c nan) l
  | _ => if j_size j =? 0 then Ok [] else Throw
  end.
(** the size check: [rows * cols] is an int product (overflow is undefined), compared as size_t;
    a matrix of negative size is undefined *)
Definition shape_check (rows cols : Z) (vec : json) : result unit :=
  let p := (rows * cols)%Z in
  if ((p <? - 2 ^ 31) || (2 ^ 31 <=? p))%Z then UB
  else if negb (Z.of_N (j_size vec) =? p)%Z then Throw
  else if ((rows <? 0) || (cols <? 0))%Z then UB
  else Ok tt.
Definition int_size (n : N) : Z := wrap_signed 32 (Z.of_N n).
Definition jc_matrix (fixed_rows fixed_cols : option N) (c : JCodec N) (nan : N) : JCodec Matrix := mkJC
  (fun m => match fixed_rows, fixed_cols with
            | None, None => j_object [(str "rows", JInt (Z.of_N (mx_rows m))); (str "cols", JInt (Z.of_N (mx_cols m)));
                                      (str "data", coeffs_to c (mx_data m))]
            | _, _ => coeffs_to c (mx_data m)
            end)
  (fun j =>
     let! (rows, cols, vec) :=
       match fixed_rows, fixed_cols with
       | None, None =>
         let! jr := j_at j (str "rows") in let! r := get_int32 jr in
         let! jc := j_at j (str "cols") in let! c := get_int32 jc in
         let! v := j_at j (str "data") in Ok (r, c, v)
       | None, Some c => Ok (int_size (j_size j / c), Z.of_N c, j)
       | Some r, None => Ok (Z.of_N r, int_size (j_size j / r), j)
       | Some r, Some c => Ok (Z.of_N r, Z.of_N c, j)
       end in
     let! _ := shape_check rows cols vec in
     let! data := coeffs_from c nan vec in
     Ok (mkMatrix (Z.to_N rows) (Z.to_N cols) data)).
Definition nan32 : N := fl_quiet_nan 8 23.
Definition nan64 : N := fl_quiet_nan 11 52.
(** a 3x1 matrix *)
Definition jc_vec3 (c : JCodec N) (nan : N) : JCodec Vec3 := mkJC
  (fun v => JArray [jc_to c (v_x v); jc_to c (v_y v); jc_to c (v_z v)])
  (fun j => let! m := jc_from (jc_matrix (Some 3) (Some 1) c nan) j in
            match mx_data m with [x; y; z] => Ok (mkVec3 x y z) | _ => UB end).
Definition jc_vec3f := jc_vec3 jc_f32 nan32.
Definition jc_vec3d := jc_vec3 jc_f64 nan64.
Definition jc_matrix2d := jc_matrix (Some 2) (Some 2) jc_f64 nan64.
Definition jc_matrixXd := jc_matrix None None jc_f64 nan64.
Definition jc_bowids := jc_matrix None (Some 1) jc_u32 0.
Definition jc_vectorXf := jc_matrix None (Some 1) jc_f32 nan32.
(** json_conversions.h:134-146 *)
Definition jc_quat (c : JCodec N) : JCodec Quat := mkJC
  (fun q => j_object [(str "w", jc_to c (q_w q)); (str "x", jc_to c (q_x q)); (str "y", jc_to c (q_y q)); (str "z", jc_to c (q_z q))])
  (fun j => let! jw := j_at j (str "w") in let! w := jc_from c jw in
            let! jx := j_at j (str "x") in let! x := jc_from c jx in
            let! jy := j_at j (str "y") in let! y := jc_from c jy in
            let! jz := j_at j (str "z") in let! z := jc_from c jz in
            Ok (mkQuat w x y z)).
Definition jc_quatd := jc_quat jc_f64.
Definition jc_quatf := jc_quat jc_f32.

(** json_conversions.cpp:108-136: an object, or an array of 3 or 4 components *)
Definition jc_color : JCodec Color := mkJC
  (fun c => j_object [(str "r", jc_to jc_u8 (c_r c)); (str "g", jc_to jc_u8 (c_g c));
                      (str "b", jc_to jc_u8 (c_b c)); (str "a", jc_to jc_u8 (c_a c))])
  (fun j =>
     match j with
     | JArray l =>
       let! jr := j_nth j 0 in let! r := jc_from jc_u8 jr in
       let! jg := j_nth j 1 in let! g := jc_from jc_u8 jg in
       let! jb := j_nth j 2 in let! b := jc_from jc_u8 jb in
       if 3 <? j_size j then let! ja := j_nth j 3 in let! a := jc_from jc_u8 ja in Ok (mkColor r g b a)
       else Ok (mkColor r g b 255)
     | _ =>
       let! jr := j_at j (str "r") in let! r := jc_from jc_u8 jr in
       let! jg := j_at j (str "g") in let! g := jc_from jc_u8 jg in
       let! jb := j_at j (str "b") in let! b := jc_from jc_u8 jb in
       if j_contains j (str "a") then let! ja := j_at j (str "a") in let! a := jc_from jc_u8 ja in Ok (mkColor r g b a)
       else Ok (mkColor r g b (c_a color_default))
     end).
(** node_attributes.cpp:185-190: three bytes as a matrix; writing in that mode writes
    uninitialised memory (not modelled: the components are written) *)
Definition jc_color_legacy : JCodec Color := mkJC
  (fun c => coeffs_to jc_u8 [c_r c; c_g c; c_b c])
  (fun j => let! v := jc_from (jc_vec3 jc_u8 0) j in Ok (mkColor (v_x v) (v_y v) (v_z v) 255)).

(** NLOHMANN_JSON_SERIALIZE_ENUM, json_conversions.h:44-50: the first entry is the fallback in
    both directions *)
Definition box_types : list (Z * list N) :=
  [(0%Z, str "INVALID"); (1%Z, str "AABB"); (3%Z, str "RAABB"); (2%Z, str "OBB")].
Definition type_to (t : Z) : json :=
  match find (fun x : Z * list N => (fst x =? t)%Z) box_types with Some x => JString (snd x) | None => JString (str "INVALID") end.
Definition type_from (j : json) : Z :=
  match j with
  | JString s => match find (fun x : Z * list N => bool_decide (snd x = s)) box_types with Some x => fst x | None => 0%Z end
  | _ => 0%Z
  end.
(** json_conversions.cpp:50-81.  The rotation goes through a quaternion. *)
Definition jc_bbox (env : Env) : JCodec BoundingBox := mkJC
  (fun b => j_object [(str "type", type_to (bb_type b)); (str "dimensions", jc_to jc_vec3f (bb_dim b));
                      (str "world_P_center", jc_to jc_vec3f (bb_center b));
                      (str "world_R_center", jc_to jc_quatf (quatf_of_rot (bb_rot b)))])
  (fun j =>
     let! jt := j_at j (str "type") in
     let t := match jt with JNull => 0%Z | _ => type_from jt end in
     if (t =? 0)%Z then Ok (mkBBox 0 (bb_dim bbox_default) (bb_center bbox_default) (bb_rot bbox_default))
     else
       let! d := (if version_ltb (ev_version env) (mkV 1 0 3) then
                    let! jx := j_at j (str "max") in let! mx := jc_from jc_vec3f jx in
                    let! jn := j_at j (str "min") in let! mn := jc_from jc_vec3f jn in
                    Ok (vsub_with (ev_fsub env) mx mn)
                  else let! jd := j_at j (str "dimensions") in jc_from jc_vec3f jd) in
       let! jp := j_at j (str "world_P_center") in let! c := jc_from jc_vec3f jp in
       let! jq := j_at j (str "world_R_center") in let! q := jc_from jc_quatf jq in
       Ok (mkBBox t d c (rot_of_quatf q))).

(** json_conversions.cpp:83-106 *)
Definition jc_nvi : JCodec NearestVertexInfo := mkJC
  (fun i => j_object [(str "block", JArray (map (jc_to jc_i32) (nv_block i))); (str "voxel_pos", JArray (map (jc_to jc_f64) (nv_voxel i)));
                      (str "vertex", jc_to jc_u64 (nv_vertex i));
                      (str "label", match nv_label i with Some l => jc_to jc_u32 l | None => JNull end)])
  (fun j =>
     let! jb := j_at j (str "block") in
     let! b := map_result (fun i => let! x := j_nth jb i in jc_from jc_i32 x) [0; 1; 2]%nat in
     let! jp := j_at j (str "voxel_pos") in
     let! p := map_result (fun i => let! x := j_nth jp i in jc_from jc_f64 x) [0; 1; 2]%nat in
     let! jv := j_at j (str "vertex") in let! v := jc_from jc_u64 jv in
     if j_contains j (str "label") then
       let! jl := j_at j (str "label") in
       match jl with JNull => Ok (mkNVI b p v None) | _ => let! l := jc_from jc_u32 jl in Ok (mkNVI b p v (Some l)) end
     else Ok (mkNVI b p v None)).
Definition jc_nvis := jc_list jc_nvi.
Definition jc_u64s := jc_list jc_u64.
Definition jc_u32s := jc_list jc_u32.
Definition jc_u8s := jc_list jc_u8.
Definition jc_points := jc_list jc_vec3f.
(** std::array<size_t, 3>: elements after the third are ignored *)
Definition jc_face : JCodec Face := mkJC
  (fun f => JArray (map (jc_to jc_u64) (face_list f)))
  (fun j => match j with
            | JArray _ => let! l := map_result (fun i => let! x := j_nth j i in jc_from jc_u64 x) [0; 1; 2]%nat in Ok (list_face l)
            | _ => Throw
            end).

(** json_conversions.cpp:150-163 *)
Definition jc_header : JCodec Header := mkJC
  (fun h => j_object [(str "project_name", JString (h_project h));
                      (str "version", j_object [(str "major", jc_to jc_u8 (v_major (h_version h)));
                                                (str "minor", jc_to jc_u8 (v_minor (h_version h)));
                                                (str "patch", jc_to jc_u8 (v_patch (h_version h)))])])
  (fun j =>
     let! jp := j_at j (str "project_name") in let! p := get_string jp in
     let! v1 := j_at j (str "version") in let! ja := j_at v1 (str "major") in let! a := jc_from jc_u8 ja in
     let! v2 := j_at j (str "version") in let! jb := j_at v2 (str "minor") in let! b := jc_from jc_u8 jb in
     let! v3 := j_at j (str "version") in let! jc := j_at v3 (str "patch") in let! c := jc_from jc_u8 jc in
     Ok (mkHeader p (mkV a b c))).

(** mesh_serialization.cpp:76-133; empty members are not written *)
Definition member {A} (name : list N) (c : JCodec (list A)) (l : list A) : list (list N * json) :=
  match l with [] => [] | _ => [(name, jc_to c l)] end.
Definition read_member {A} (name : list N) (c : JCodec A) (old : A) (j : json) : result A :=
  if j_contains j name then let! x := j_at j name in jc_from c x else Ok old.
Definition jc_mesh : JCodec Mesh := mkJC
  (fun m => j_object (
     [(str "header", jc_to jc_header header_current);
      (str "has_colors", JBool (m_has_colors m)); (str "has_timestamps", JBool (m_has_stamps m));
      (str "has_labels", JBool (m_has_labels m)); (str "has_first_seen_stamps", JBool (m_has_first m))] ++
     member (str "points") jc_points (m_points m) ++ member (str "colors") (jc_list jc_color) (m_colors m) ++
     member (str "stamps") jc_u64s (m_stamps m) ++ member (str "first_seen_stamps") jc_u64s (m_first m) ++
     member (str "labels") jc_u32s (m_labels m) ++ member (str "faces") (jc_list jc_face) (m_faces m)))
  (fun j =>
     let! j1 := j_at j (str "has_colors") in let! hc := get_bool j1 in
     let! j2 := j_at j (str "has_timestamps") in let! ht := get_bool j2 in
     let! j3 := j_at j (str "has_labels") in let! hl := get_bool j3 in
     let! j4 := j_at j (str "has_first_seen_stamps") in let! hf := get_bool j4 in
     let! pts := read_member (str "points") jc_points [] j in
     let! cols := read_member (str "colors") (jc_list jc_color) [] j in
     let! sts := read_member (str "stamps") jc_u64s [] j in
     let! fst := read_member (str "first_seen_stamps") jc_u64s [] j in
     let! labs := read_member (str "labels") jc_u32s [] j in
     let! fcs := read_member (str "faces") (jc_list jc_face) [] j in
     Ok (mkMesh hc ht hl hf pts cols sts fst labs fcs)).
(** deserializeMeshLegacy, mesh_serialization.cpp:48-74 *)
Definition legacy_vertex (v : json) : result (Vec3 * Color) :=
  let! jx := j_at v (str "x") in let! x := get_float jx in
  let! jy := j_at v (str "y") in let! y := get_float jy in
  let! jz := j_at v (str "z") in let! z := get_float jz in
  let! jr := j_at v (str "r") in let! r := get_unsigned 8 jr in
  let! jg := j_at v (str "g") in let! g := get_unsigned 8 jg in
  let! jb := j_at v (str "b") in let! b := get_unsigned 8 jb in
  Ok (mkVec3 x y z, mkColor r g b 255).
Definition legacy_face (f : json) : result Face :=
  let! l := map_result (fun i => let! x := j_nth f i in get_unsigned 64 x) [0; 1; 2]%nat in Ok (list_face l).
Definition mesh_from_legacy (j : json) : result Mesh :=
  let! vs := (if j_contains j (str "vertices") then let! x := j_at j (str "vertices") in map_result legacy_vertex (j_items x) else Ok []) in
  let! fs := (if j_contains j (str "faces") then let! x := j_at j (str "faces") in map_result legacy_face (j_items x) else Ok []) in
  Ok (mkMesh true false false false (map fst vs) (map snd vs) [] [] [] fs).
(** serializeToJson, mesh_serialization.cpp:178-181; deserializeFromJson, 183-199 *)
Definition mesh_to_text (m : Mesh) : result json := dump (jc_to jc_mesh m).
Definition mesh_from_text (j : json) : result Mesh :=
  let! h := (if j_contains j (str "header") then let! x := j_at j (str "header") in jc_from jc_header x else Ok header_legacy) in
  if version_leb (h_version h) (mkV 1 0 1) then mesh_from_legacy j else jc_from jc_mesh j.

(* ------------------------------------------------------------------ *)
(** ** serialization_info with a JsonWriter or JsonReader (attribute_serialization.h:71-98):
    the writer assigns record[name], the reader skips names that are not in the record *)
Record JField (S : Type) := mkJF_ { jf_ty : Type; jf_name : list N; jf_codec : JCodec jf_ty; jf_get : S -> jf_ty; jf_set : jf_ty -> S -> S }.
Arguments jf_ty {S}. Arguments jf_name {S}. Arguments jf_codec {S}. Arguments jf_get {S}. Arguments jf_set {S}.
Definition mkJF {S A} (name : list N) (c : JCodec A) (get : S -> A) (set : A -> S -> S) : JField S := mkJF_ S A name c get set.
Definition lift_jfield {S B} (get : S -> B) (set : B -> S -> S) (f : JField B) : JField S :=
  mkJF (jf_name f) (jf_codec f) (fun s => jf_get f (get s)) (fun v s => set (jf_set f v (get s)) s).
Definition write_jfields {S} (fs : list (JField S)) (s : S) (o : list (list N * json)) : list (list N * json) :=
  fold_left (fun o f => obj_set o (jf_name f) (jc_to (jf_codec f) (jf_get f s))) fs o.
Definition read_jfield {S} (j : json) (f : JField S) (s : S) : result S :=
  if j_contains j (jf_name f) then
    let! x := j_at j (jf_name f) in let! v := jc_from (jf_codec f) x in Ok (jf_set f v s)
  else Ok s.
Fixpoint read_jfields {S} (fs : list (JField S)) (j : json) (s : S) : result S :=
  match fs with [] => Ok s | f :: r => let! s' := read_jfield j f s in read_jfields r j s' end.

(** NodeAttributes::serialization_info, node_attributes.cpp:130-140 *)
Definition base_jfields (env : Env) : list (JField BaseAttrs) := [
  mkJF (str "position") jc_vec3d a_pos (fun v b => mkBase v (a_time b) (a_active b) (a_predicted b));
  mkJF (str "last_update_time_ns") jc_u64 a_time (fun v b => mkBase (a_pos b) v (a_active b) (a_predicted b));
  mkJF (str "is_active") jc_bool a_active (fun v b => mkBase (a_pos b) (a_time b) v (a_predicted b))] ++
  if version_ltb (ev_version env) (mkV 1 0 4) then []
  else [mkJF (str "is_predicted") jc_bool a_predicted (fun v b => mkBase (a_pos b) (a_time b) (a_active b) v)].

(** SemanticNodeAttributes, 181-196 *)
Definition sem_jfields (env : Env) : list (JField SemAttrs) :=
  map (lift_jfield s_base (fun b s => sem_set_base s b)) (base_jfields env) ++ [
  mkJF (str "name") jc_string s_name (fun v s => mkSem (s_base s) v (s_color s) (s_bbox s) (s_label s) (s_feature s));
  mkJF (str "color") (if version_leb (ev_version env) (mkV 1 0 2) then jc_color_legacy else jc_color) s_color
    (fun v s => mkSem (s_base s) (s_name s) v (s_bbox s) (s_label s) (s_feature s));
  mkJF (str "bounding_box") (jc_bbox env) s_bbox (fun v s => mkSem (s_base s) (s_name s) (s_color s) v (s_label s) (s_feature s));
  mkJF (str "semantic_label") jc_u32 s_label (fun v s => mkSem (s_base s) (s_name s) (s_color s) (s_bbox s) v (s_feature s));
  mkJF (str "semantic_feature") jc_matrixXd s_feature (fun v s => mkSem (s_base s) (s_name s) (s_color s) (s_bbox s) (s_label s) v)].

(** ObjectNodeAttributes, 231-236 *)
Definition obj_jfields (env : Env) : list (JField ObjAttrs) :=
  map (lift_jfield o_sem (fun s o => mkObj s (o_mesh_conn o) (o_registered o) (o_rot o))) (sem_jfields env) ++ [
  mkJF (str "mesh_connections") jc_u64s o_mesh_conn (fun v o => mkObj (o_sem o) v (o_registered o) (o_rot o));
  mkJF (str "registered") jc_bool o_registered (fun v o => mkObj (o_sem o) (o_mesh_conn o) v (o_rot o));
  mkJF (str "world_R_object") jc_quatd o_rot (fun v o => mkObj (o_sem o) (o_mesh_conn o) (o_registered o) v)].

(** RoomNodeAttributes, 271-274 *)
Definition room_jfields (env : Env) : list (JField RoomAttrs) :=
  map (lift_jfield r_sem (fun s r => mkRoom s (r_probs r))) (sem_jfields env) ++ [
  mkJF (str "semantic_class_probabilities") (jc_map jc_f64) r_probs (fun v r => mkRoom (r_sem r) v)].

(** PlaceNodeAttributes, 309-323 *)
Definition place_jfields (env : Env) : list (JField PlaceAttrs) :=
  let set_sem s p := mkPlace s (p_distance p) (p_basis p) (p_voxblox p) (p_pcl p) (p_labels p) (p_deform p)
                       (p_real p) (p_cleanup p) (p_frontier p) (p_scale p) (p_orient p) (p_nfv p) in
  map (lift_jfield p_sem set_sem) (sem_jfields env) ++ [
  mkJF (str "distance") jc_f64 p_distance (fun v p => mkPlace (p_sem p) v (p_basis p) (p_voxblox p) (p_pcl p) (p_labels p) (p_deform p)
                       (p_real p) (p_cleanup p) (p_frontier p) (p_scale p) (p_orient p) (p_nfv p));
  mkJF (str "num_basis_points") jc_u32 p_basis (fun v p => mkPlace (p_sem p) (p_distance p) v (p_voxblox p) (p_pcl p) (p_labels p) (p_deform p)
                       (p_real p) (p_cleanup p) (p_frontier p) (p_scale p) (p_orient p) (p_nfv p));
  mkJF (str "voxblox_mesh_connections") jc_nvis p_voxblox (fun v p => mkPlace (p_sem p) (p_distance p) (p_basis p) v (p_pcl p) (p_labels p) (p_deform p)
                       (p_real p) (p_cleanup p) (p_frontier p) (p_scale p) (p_orient p) (p_nfv p));
  mkJF (str "pcl_mesh_connections") jc_u64s p_pcl (fun v p => mkPlace (p_sem p) (p_distance p) (p_basis p) (p_voxblox p) v (p_labels p) (p_deform p)
                       (p_real p) (p_cleanup p) (p_frontier p) (p_scale p) (p_orient p) (p_nfv p));
  mkJF (str "mesh_vertex_labels") jc_u8s p_labels (fun v p => mkPlace (p_sem p) (p_distance p) (p_basis p) (p_voxblox p) (p_pcl p) v (p_deform p)
                       (p_real p) (p_cleanup p) (p_frontier p) (p_scale p) (p_orient p) (p_nfv p));
  mkJF (str "deformation_connections") jc_u64s p_deform (fun v p => mkPlace (p_sem p) (p_distance p) (p_basis p) (p_voxblox p) (p_pcl p) (p_labels p) v
                       (p_real p) (p_cleanup p) (p_frontier p) (p_scale p) (p_orient p) (p_nfv p));
  mkJF (str "real_place") jc_bool p_real (fun v p => mkPlace (p_sem p) (p_distance p) (p_basis p) (p_voxblox p) (p_pcl p) (p_labels p) (p_deform p)
                       v (p_cleanup p) (p_frontier p) (p_scale p) (p_orient p) (p_nfv p));
  mkJF (str "active_frontier") jc_bool p_frontier (fun v p => mkPlace (p_sem p) (p_distance p) (p_basis p) (p_voxblox p) (p_pcl p) (p_labels p) (p_deform p)
                       (p_real p) (p_cleanup p) v (p_scale p) (p_orient p) (p_nfv p));
  mkJF (str "frontier_scale") jc_vec3d p_scale (fun v p => mkPlace (p_sem p) (p_distance p) (p_basis p) (p_voxblox p) (p_pcl p) (p_labels p) (p_deform p)
                       (p_real p) (p_cleanup p) (p_frontier p) v (p_orient p) (p_nfv p));
  mkJF (str "orientation") jc_quatd p_orient (fun v p => mkPlace (p_sem p) (p_distance p) (p_basis p) (p_voxblox p) (p_pcl p) (p_labels p) (p_deform p)
                       (p_real p) (p_cleanup p) (p_frontier p) (p_scale p) v (p_nfv p));
  mkJF (str "need_cleanup") jc_bool p_cleanup (fun v p => mkPlace (p_sem p) (p_distance p) (p_basis p) (p_voxblox p) (p_pcl p) (p_labels p) (p_deform p)
                       (p_real p) v (p_frontier p) (p_scale p) (p_orient p) (p_nfv p));
  mkJF (str "num_frontier_voxels") jc_u64 p_nfv (fun v p => mkPlace (p_sem p) (p_distance p) (p_basis p) (p_voxblox p) (p_pcl p) (p_labels p) (p_deform p)
                       (p_real p) (p_cleanup p) (p_frontier p) (p_scale p) (p_orient p) v)].

(** Place2dNodeAttributes, 371-384: pcl_min_index, pcl_max_index and need_finish_merge are
    not serialised *)
Definition place2d_jfields (env : Env) : list (JField Place2dAttrs) :=
  let set_sem s d := mkPlace2d s (d_boundary d) (d_centroid d) (d_compress d) (d_expand d) (d_pcl_boundary d)
     (d_voxblox d) (d_pcl d) (d_min d) (d_max d) (d_labels d) (d_deform d) (d_finish_merge d) (d_cleanup_split d) (d_active_mesh d) in
  map (lift_jfield d_sem set_sem) (sem_jfields env) ++ [
  mkJF (str "boundary") (jc_list jc_vec3d) d_boundary (fun v d => mkPlace2d (d_sem d) v (d_centroid d) (d_compress d) (d_expand d) (d_pcl_boundary d)
     (d_voxblox d) (d_pcl d) (d_min d) (d_max d) (d_labels d) (d_deform d) (d_finish_merge d) (d_cleanup_split d) (d_active_mesh d));
  mkJF (str "ellipse_centroid") jc_vec3d d_centroid (fun v d => mkPlace2d (d_sem d) (d_boundary d) v (d_compress d) (d_expand d) (d_pcl_boundary d)
     (d_voxblox d) (d_pcl d) (d_min d) (d_max d) (d_labels d) (d_deform d) (d_finish_merge d) (d_cleanup_split d) (d_active_mesh d));
  mkJF (str "ellipse_matrix_compress") jc_matrix2d d_compress (fun v d => mkPlace2d (d_sem d) (d_boundary d) (d_centroid d) v (d_expand d) (d_pcl_boundary d)
     (d_voxblox d) (d_pcl d) (d_min d) (d_max d) (d_labels d) (d_deform d) (d_finish_merge d) (d_cleanup_split d) (d_active_mesh d));
  mkJF (str "ellipse_matrix_expand") jc_matrix2d d_expand (fun v d => mkPlace2d (d_sem d) (d_boundary d) (d_centroid d) (d_compress d) v (d_pcl_boundary d)
     (d_voxblox d) (d_pcl d) (d_min d) (d_max d) (d_labels d) (d_deform d) (d_finish_merge d) (d_cleanup_split d) (d_active_mesh d));
  mkJF (str "pcl_boundary_connections") jc_u64s d_pcl_boundary (fun v d => mkPlace2d (d_sem d) (d_boundary d) (d_centroid d) (d_compress d) (d_expand d) v
     (d_voxblox d) (d_pcl d) (d_min d) (d_max d) (d_labels d) (d_deform d) (d_finish_merge d) (d_cleanup_split d) (d_active_mesh d));
  mkJF (str "voxblox_mesh_connections") jc_nvis d_voxblox (fun v d => mkPlace2d (d_sem d) (d_boundary d) (d_centroid d) (d_compress d) (d_expand d) (d_pcl_boundary d)
     v (d_pcl d) (d_min d) (d_max d) (d_labels d) (d_deform d) (d_finish_merge d) (d_cleanup_split d) (d_active_mesh d));
  mkJF (str "pcl_mesh_connections") jc_u64s d_pcl (fun v d => mkPlace2d (d_sem d) (d_boundary d) (d_centroid d) (d_compress d) (d_expand d) (d_pcl_boundary d)
     (d_voxblox d) v (d_min d) (d_max d) (d_labels d) (d_deform d) (d_finish_merge d) (d_cleanup_split d) (d_active_mesh d));
  mkJF (str "mesh_vertex_labels") jc_u8s d_labels (fun v d => mkPlace2d (d_sem d) (d_boundary d) (d_centroid d) (d_compress d) (d_expand d) (d_pcl_boundary d)
     (d_voxblox d) (d_pcl d) (d_min d) (d_max d) v (d_deform d) (d_finish_merge d) (d_cleanup_split d) (d_active_mesh d));
  mkJF (str "deformation_connections") jc_u64s d_deform (fun v d => mkPlace2d (d_sem d) (d_boundary d) (d_centroid d) (d_compress d) (d_expand d) (d_pcl_boundary d)
     (d_voxblox d) (d_pcl d) (d_min d) (d_max d) (d_labels d) v (d_finish_merge d) (d_cleanup_split d) (d_active_mesh d));
  mkJF (str "need_cleanup_splitting") jc_bool d_cleanup_split (fun v d => mkPlace2d (d_sem d) (d_boundary d) (d_centroid d) (d_compress d) (d_expand d) (d_pcl_boundary d)
     (d_voxblox d) (d_pcl d) (d_min d) (d_max d) (d_labels d) (d_deform d) (d_finish_merge d) v (d_active_mesh d));
  mkJF (str "has_active_mesh_indices") jc_bool d_active_mesh (fun v d => mkPlace2d (d_sem d) (d_boundary d) (d_centroid d) (d_compress d) (d_expand d) (d_pcl_boundary d)
     (d_voxblox d) (d_pcl d) (d_min d) (d_max d) (d_labels d) (d_deform d) (d_finish_merge d) (d_cleanup_split d) v)].

(** AgentNodeAttributes, 428-434 *)
Definition agent_jfields (env : Env) : list (JField AgentAttrs) :=
  map (lift_jfield g_base (fun b a => mkAgent b (g_rot a) (g_ext a) (g_dbow_ids a) (g_dbow_vals a))) (base_jfields env) ++ [
  mkJF (str "world_R_body") jc_quatd g_rot (fun v a => mkAgent (g_base a) v (g_ext a) (g_dbow_ids a) (g_dbow_vals a));
  mkJF (str "external_key") jc_u64 g_ext (fun v a => mkAgent (g_base a) (g_rot a) v (g_dbow_ids a) (g_dbow_vals a));
  mkJF (str "dbow_ids") jc_bowids g_dbow_ids (fun v a => mkAgent (g_base a) (g_rot a) (g_ext a) v (g_dbow_vals a));
  mkJF (str "dbow_values") jc_vectorXf g_dbow_vals (fun v a => mkAgent (g_base a) (g_rot a) (g_ext a) (g_dbow_ids a) v)].

(** KhronosObjectAttributes, 472-481: starts from SemanticNodeAttributes::serialization_info,
    not ObjectNodeAttributes' *)
Definition khronos_jfields (env : Env) : list (JField KhronosAttrs) :=
  let set_sem s k := mkKhronos (mkObj s (o_mesh_conn (k_obj k)) (o_registered (k_obj k)) (o_rot (k_obj k)))
     (k_first k) (k_last k) (k_mesh k) (k_traj_t k) (k_traj_p k) (k_points k) (k_details k) in
  map (lift_jfield (fun k => o_sem (k_obj k)) set_sem) (sem_jfields env) ++ [
  mkJF (str "first_observed_ns") jc_u64s k_first (fun v k => mkKhronos (k_obj k) v (k_last k) (k_mesh k) (k_traj_t k) (k_traj_p k) (k_points k) (k_details k));
  mkJF (str "last_observed_ns") jc_u64s k_last (fun v k => mkKhronos (k_obj k) (k_first k) v (k_mesh k) (k_traj_t k) (k_traj_p k) (k_points k) (k_details k));
  mkJF (str "mesh") jc_mesh k_mesh (fun v k => mkKhronos (k_obj k) (k_first k) (k_last k) v (k_traj_t k) (k_traj_p k) (k_points k) (k_details k));
  mkJF (str "trajectory_positions") jc_points k_traj_p (fun v k => mkKhronos (k_obj k) (k_first k) (k_last k) (k_mesh k) (k_traj_t k) v (k_points k) (k_details k));
  mkJF (str "trajectory_timestamps") jc_u64s k_traj_t (fun v k => mkKhronos (k_obj k) (k_first k) (k_last k) (k_mesh k) v (k_traj_p k) (k_points k) (k_details k));
  mkJF (str "dynamic_object_points") (jc_list jc_points) k_points (fun v k => mkKhronos (k_obj k) (k_first k) (k_last k) (k_mesh k) (k_traj_t k) (k_traj_p k) v (k_details k));
  mkJF (str "details") (jc_map jc_u64s) k_details (fun v k => mkKhronos (k_obj k) (k_first k) (k_last k) (k_mesh k) (k_traj_t k) (k_traj_p k) (k_points k) v)].

(** EdgeAttributes, edge_attributes.cpp:68-71 *)
Definition edge_jfields : list (JField EdgeAttrs) := [
  mkJF (str "weighted") jc_bool ea_weighted (fun v e => mkEA v (ea_weight e));
  mkJF (str "weight") jc_f64 ea_weight (fun v e => mkEA (ea_weighted e) v)].


(** Visitor::to and Visitor::from, attribute_serialization.h:168-176, 188-203; [kind_name] is
    registration().name *)
Definition attrs_to_json (env : Env) (a : NodeAttrs) : json :=
  let o := [(str "type", JString (kind_name (kind_of a)))] in
  JObject (match a with
  | ANode b => write_jfields (base_jfields env) b o
  | ASem s => write_jfields (sem_jfields env) s o
  | AObj x => write_jfields (obj_jfields env) x o
  | ARoom r => write_jfields (room_jfields env) r o
  | APlace p => write_jfields (place_jfields env) p o
  | APlace2d p => write_jfields (place2d_jfields env) p o
  | AAgent x => write_jfields (agent_jfields env) x o
  | AKhronos k => write_jfields (khronos_jfields env) k o
  end).
Definition kind_from_json (env : Env) (k : Kind) (j : json) : result NodeAttrs :=
  match k with
  | KNode => rmap ANode (read_jfields (base_jfields env) j base_default)
  | KSem => rmap ASem (read_jfields (sem_jfields env) j sem_default)
  | KObj => rmap AObj (read_jfields (obj_jfields env) j obj_default)
  | KRoom => rmap ARoom (read_jfields (room_jfields env) j room_default)
  | KPlace => rmap APlace (read_jfields (place_jfields env) j place_default)
  | KPlace2d => rmap APlace2d (read_jfields (place2d_jfields env) j place2d_default)
  | KAgent => rmap AAgent (read_jfields (agent_jfields env) j agent_default)
  | KKhronos => rmap AKhronos (read_jfields (khronos_jfields env) j khronos_default)
  end.
(** [Ok None]: a null pointer *)
Definition attrs_from_json (env : Env) (f : Factory Kind) (j : json) : result (option NodeAttrs) :=
  let! jt := j_at j (str "type") in let! name := get_string jt in
  match create_by_name f name with
  | None => Ok None
  | Some k => rmap Some (kind_from_json env k j)
  end.
Definition edge_attrs_to_json (a : EdgeAttrs) : json :=
  JObject (write_jfields edge_jfields a [(str "type", JString edge_name)]).
Definition edge_attrs_from_json (f : Factory unit) (j : json) : result (option EdgeAttrs) :=
  let! jt := j_at j (str "type") in let! name := get_string jt in
  match create_by_name f name with
  | None => Ok None
  | Some _ => rmap Some (read_jfields edge_jfields j ea_default)
  end.
