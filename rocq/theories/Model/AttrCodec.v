(** Serialisation and comparison of node attributes, edge attributes and meshes.
    Sources: src/node_attributes.cpp, src/edge_attributes.cpp, include/spark_dsg/node_attributes.h,
    src/serialization/binary_conversions.cpp, src/serialization/mesh_serialization.cpp:135-176,
    include/spark_dsg/serialization/attribute_serialization.h.
    One [serialization_info] drives both directions, so a structure is a list of fields.
    The JSON direction is in Model/JsonCodec.v. *)
From Coq Require Import NArith ZArith Bool List.
From stdpp Require Import base list gmap.
From Verif.Model Require Import Types Mesh Attrs Binary Versioning.
Local Open Scope N_scope.

(** io::GlobalInfo::loadedHeader() and the single precision subtraction used for legacy
    bounding boxes (the only arithmetic in the whole reader). *)
Record Env := mkEnv { ev_version : Version; ev_fsub : N -> N -> N }.

(** binary_conversions.cpp:118-130; a Color destination *)
Definition c_color : Codec Color := codec_fields [
  mkField c_u8 c_r (fun v c => mkColor v (c_g c) (c_b c) (c_a c));
  mkField c_u8 c_g (fun v c => mkColor (c_r c) v (c_b c) (c_a c));
  mkField c_u8 c_b (fun v c => mkColor (c_r c) (c_g c) v (c_a c));
  mkField c_u8 c_a (fun v c => mkColor (c_r c) (c_g c) (c_b c) v)].
(** node_attributes.cpp:185-189: versions up to 1.0.2 read three bytes; writing in that mode
    writes an uninitialised vector *)
Definition c_color_legacy : Codec Color := mkCodec
  (fun _ => UB)
  (fun _ => let* v := cd_read (codec_vec3 c_u8) (mkVec3 0 0 0) in ret (mkColor (v_x v) (v_y v) (v_z v) 255)).

Definition c_vec3f := codec_vec3 c_f32.
Definition c_vec3d := codec_vec3 c_f64.
Definition c_quatd := codec_quat c_f64.
Definition c_matrix3f := codec_matrix (Some 3) (Some 3) c_f32.
Definition c_matrix2d := codec_matrix (Some 2) (Some 2) c_f64.
Definition c_matrixXd := codec_matrix None None c_f64.
Definition c_bowids := codec_matrix None (Some 1) c_u32.
Definition c_vectorXf := codec_matrix None (Some 1) c_f32.

Definition vsub_with (fsub : N -> N -> N) (a b : Vec3) : Vec3 :=
  mkVec3 (fsub (v_x a) (v_x b)) (fsub (v_y a) (v_y b)) (fsub (v_z a) (v_z b)).
(** binary_conversions.cpp:44-78: before 1.0.3 the corners were stored (reading only) *)
Definition c_bbox (env : Env) : Codec BoundingBox := mkCodec
  (fun b => seq_writes [fixed_array 4; cd_write c_i32 (bb_type b); cd_write c_vec3f (bb_dim b);
                        cd_write c_vec3f (bb_center b); cd_write c_matrix3f (bb_rot b)])
  (fun old =>
     let legacy := version_ltb (ev_version env) (mkV 1 0 3) in
     let* _ := check_array_length (if legacy then 5 else 4) in
     let* t := cd_read c_i32 0%Z in
     let* d := (if legacy then
                  let* mn := cd_read c_vec3f (mkVec3 0 0 0) in
                  let* mx := cd_read c_vec3f (mkVec3 0 0 0) in
                  ret (vsub_with (ev_fsub env) mx mn)
                else cd_read c_vec3f (bb_dim old)) in
     let* c := cd_read c_vec3f (bb_center old) in
     let* r := cd_read c_matrix3f (bb_rot old) in
     ret (mkBBox t d c r)).

(** binary_conversions.cpp:80-116 *)
Definition c_nvi : Codec NearestVertexInfo := mkCodec
  (fun i => seq_writes [fixed_array 4; fixed_array 3; write_each c_i32 (nv_block i);
                        fixed_array 3; write_each c_f64 (nv_voxel i);
                        cd_write c_u64 (nv_vertex i); cd_write (codec_option 0 c_u32) (nv_label i)])
  (fun old =>
     let* _ := check_array_length 4 in
     let* _ := check_array_length 3 in
     let* b := read_each c_i32 (nv_block old) in
     let* _ := check_array_length 3 in
     let* p := read_each c_f64 (nv_voxel old) in
     let* v := cd_read c_u64 (nv_vertex old) in
     let* l := cd_read (codec_option 0 c_u32) (nv_label old) in
     ret (mkNVI b p v l)).
(** value-initialised element of a resized vector *)
Definition nvi_default : NearestVertexInfo := mkNVI [0; 0; 0]%Z [0; 0; 0] 0 None.

(** mesh_serialization.cpp:135-176; Face = std::array<size_t, 3> *)
Definition face_list (f : Face) : list N := [f_0 f; f_1 f; f_2 f].
Definition list_face (l : list N) : Face :=
  match l with [a; b; c] => mkFace a b c | _ => mkFace 0 0 0 end.
Definition c_face : Codec Face := mkCodec
  (fun f => cd_write (codec_array 3 c_u64) (face_list f))
  (fun old => let* l := cd_read (codec_array 3 c_u64) (face_list old) in ret (list_face l)).
Definition vec3_zero : Vec3 := mkVec3 0 0 0.
Definition c_points := codec_vector vec3_zero c_vec3f.
Definition c_colors := codec_vector color_default c_color.
Definition c_u64s := codec_vector 0 c_u64.
Definition c_u32s := codec_vector 0 c_u32.
Definition c_u8s := codec_vector 0 c_u8.
Definition c_faces := codec_vector (mkFace 0 0 0) c_face.
Definition c_mesh : Codec Mesh := mkCodec
  (fun m => seq_writes [cd_write c_bool (m_has_colors m); cd_write c_bool (m_has_stamps m);
                        cd_write c_bool (m_has_labels m); cd_write c_bool (m_has_first m);
                        cd_write c_points (m_points m); cd_write c_colors (m_colors m);
                        cd_write c_u64s (m_stamps m); cd_write c_u32s (m_labels m);
                        cd_write c_u64s (m_first m); cd_write c_faces (m_faces m)])
  (fun _ =>
     let* hc := cd_read c_bool false in let* ht := cd_read c_bool false in
     let* hl := cd_read c_bool false in let* hf := cd_read c_bool false in
     let* pts := cd_read c_points [] in let* cols := cd_read c_colors [] in
     let* sts := cd_read c_u64s [] in let* labs := cd_read c_u32s [] in
     let* fst := cd_read c_u64s [] in let* fcs := cd_read c_faces [] in
     ret (mkMesh hc ht hl hf pts cols sts fst labs fcs)).

(* ------------------------------------------------------------------ *)
(** ** Fields of the attribute classes *)
(** NodeAttributes::serialization_info, node_attributes.cpp:130-140 *)
Definition base_fields (env : Env) : list (Field BaseAttrs) := [
  mkField c_vec3d a_pos (fun v b => mkBase v (a_time b) (a_active b) (a_predicted b));
  mkField c_u64 a_time (fun v b => mkBase (a_pos b) v (a_active b) (a_predicted b));
  mkField c_bool a_active (fun v b => mkBase (a_pos b) (a_time b) v (a_predicted b))] ++
  if version_ltb (ev_version env) (mkV 1 0 4) then []
  else [mkField c_bool a_predicted (fun v b => mkBase (a_pos b) (a_time b) (a_active b) v)].

(** SemanticNodeAttributes, 181-196 *)
Definition sem_fields (env : Env) : list (Field SemAttrs) :=
  map (lift_field s_base (fun b s => sem_set_base s b)) (base_fields env) ++ [
  mkField c_string s_name (fun v s => mkSem (s_base s) v (s_color s) (s_bbox s) (s_label s) (s_feature s));
  mkField (if version_leb (ev_version env) (mkV 1 0 2) then c_color_legacy else c_color) s_color
    (fun v s => mkSem (s_base s) (s_name s) v (s_bbox s) (s_label s) (s_feature s));
  mkField (c_bbox env) s_bbox (fun v s => mkSem (s_base s) (s_name s) (s_color s) v (s_label s) (s_feature s));
  mkField c_u32 s_label (fun v s => mkSem (s_base s) (s_name s) (s_color s) (s_bbox s) v (s_feature s));
  mkField c_matrixXd s_feature (fun v s => mkSem (s_base s) (s_name s) (s_color s) (s_bbox s) (s_label s) v)].

(** ObjectNodeAttributes, 231-236; std::list *)
Definition obj_fields (env : Env) : list (Field ObjAttrs) :=
  map (lift_field o_sem (fun s o => mkObj s (o_mesh_conn o) (o_registered o) (o_rot o))) (sem_fields env) ++ [
  mkField (codec_list 0 c_u64) o_mesh_conn (fun v o => mkObj (o_sem o) v (o_registered o) (o_rot o));
  mkField c_bool o_registered (fun v o => mkObj (o_sem o) (o_mesh_conn o) v (o_rot o));
  mkField c_quatd o_rot (fun v o => mkObj (o_sem o) (o_mesh_conn o) (o_registered o) v)].

(** RoomNodeAttributes, 271-274.  std::map iterates in key order; the model uses the order of
    [map_to_list] (the theorem on maps is for every order). *)
Definition room_fields (env : Env) : list (Field RoomAttrs) :=
  map (lift_field r_sem (fun s r => mkRoom s (r_probs r))) (sem_fields env) ++ [
  mkField (codec_map map_to_list [] 0 c_string c_f64) r_probs (fun v r => mkRoom (r_sem r) v)].

(** PlaceNodeAttributes, 309-323 *)
Definition c_nvis := codec_vector nvi_default c_nvi.
Definition place_fields (env : Env) : list (Field PlaceAttrs) :=
  let set_sem s p := mkPlace s (p_distance p) (p_basis p) (p_voxblox p) (p_pcl p) (p_labels p) (p_deform p)
                       (p_real p) (p_cleanup p) (p_frontier p) (p_scale p) (p_orient p) (p_nfv p) in
  map (lift_field p_sem set_sem) (sem_fields env) ++ [
  mkField c_f64 p_distance (fun v p => mkPlace (p_sem p) v (p_basis p) (p_voxblox p) (p_pcl p) (p_labels p) (p_deform p)
                       (p_real p) (p_cleanup p) (p_frontier p) (p_scale p) (p_orient p) (p_nfv p));
  mkField c_u32 p_basis (fun v p => mkPlace (p_sem p) (p_distance p) v (p_voxblox p) (p_pcl p) (p_labels p) (p_deform p)
                       (p_real p) (p_cleanup p) (p_frontier p) (p_scale p) (p_orient p) (p_nfv p));
  mkField c_nvis p_voxblox (fun v p => mkPlace (p_sem p) (p_distance p) (p_basis p) v (p_pcl p) (p_labels p) (p_deform p)
                       (p_real p) (p_cleanup p) (p_frontier p) (p_scale p) (p_orient p) (p_nfv p));
  mkField c_u64s p_pcl (fun v p => mkPlace (p_sem p) (p_distance p) (p_basis p) (p_voxblox p) v (p_labels p) (p_deform p)
                       (p_real p) (p_cleanup p) (p_frontier p) (p_scale p) (p_orient p) (p_nfv p));
  mkField c_u8s p_labels (fun v p => mkPlace (p_sem p) (p_distance p) (p_basis p) (p_voxblox p) (p_pcl p) v (p_deform p)
                       (p_real p) (p_cleanup p) (p_frontier p) (p_scale p) (p_orient p) (p_nfv p));
  mkField c_u64s p_deform (fun v p => mkPlace (p_sem p) (p_distance p) (p_basis p) (p_voxblox p) (p_pcl p) (p_labels p) v
                       (p_real p) (p_cleanup p) (p_frontier p) (p_scale p) (p_orient p) (p_nfv p));
  mkField c_bool p_real (fun v p => mkPlace (p_sem p) (p_distance p) (p_basis p) (p_voxblox p) (p_pcl p) (p_labels p) (p_deform p)
                       v (p_cleanup p) (p_frontier p) (p_scale p) (p_orient p) (p_nfv p));
  mkField c_bool p_frontier (fun v p => mkPlace (p_sem p) (p_distance p) (p_basis p) (p_voxblox p) (p_pcl p) (p_labels p) (p_deform p)
                       (p_real p) (p_cleanup p) v (p_scale p) (p_orient p) (p_nfv p));
  mkField c_vec3d p_scale (fun v p => mkPlace (p_sem p) (p_distance p) (p_basis p) (p_voxblox p) (p_pcl p) (p_labels p) (p_deform p)
                       (p_real p) (p_cleanup p) (p_frontier p) v (p_orient p) (p_nfv p));
  mkField c_quatd p_orient (fun v p => mkPlace (p_sem p) (p_distance p) (p_basis p) (p_voxblox p) (p_pcl p) (p_labels p) (p_deform p)
                       (p_real p) (p_cleanup p) (p_frontier p) (p_scale p) v (p_nfv p));
  mkField c_bool p_cleanup (fun v p => mkPlace (p_sem p) (p_distance p) (p_basis p) (p_voxblox p) (p_pcl p) (p_labels p) (p_deform p)
                       (p_real p) v (p_frontier p) (p_scale p) (p_orient p) (p_nfv p));
  mkField c_u64 p_nfv (fun v p => mkPlace (p_sem p) (p_distance p) (p_basis p) (p_voxblox p) (p_pcl p) (p_labels p) (p_deform p)
                       (p_real p) (p_cleanup p) (p_frontier p) (p_scale p) (p_orient p) v)].

(** Place2dNodeAttributes, 371-384: pcl_min_index, pcl_max_index and need_finish_merge are
    not serialised *)
Definition place2d_fields (env : Env) : list (Field Place2dAttrs) :=
  let set_sem s d := mkPlace2d s (d_boundary d) (d_centroid d) (d_compress d) (d_expand d) (d_pcl_boundary d)
     (d_voxblox d) (d_pcl d) (d_min d) (d_max d) (d_labels d) (d_deform d) (d_finish_merge d) (d_cleanup_split d) (d_active_mesh d) in
  map (lift_field d_sem set_sem) (sem_fields env) ++ [
  mkField (codec_vector vec3_zero c_vec3d) d_boundary (fun v d => mkPlace2d (d_sem d) v (d_centroid d) (d_compress d) (d_expand d) (d_pcl_boundary d)
     (d_voxblox d) (d_pcl d) (d_min d) (d_max d) (d_labels d) (d_deform d) (d_finish_merge d) (d_cleanup_split d) (d_active_mesh d));
  mkField c_vec3d d_centroid (fun v d => mkPlace2d (d_sem d) (d_boundary d) v (d_compress d) (d_expand d) (d_pcl_boundary d)
     (d_voxblox d) (d_pcl d) (d_min d) (d_max d) (d_labels d) (d_deform d) (d_finish_merge d) (d_cleanup_split d) (d_active_mesh d));
  mkField c_matrix2d d_compress (fun v d => mkPlace2d (d_sem d) (d_boundary d) (d_centroid d) v (d_expand d) (d_pcl_boundary d)
     (d_voxblox d) (d_pcl d) (d_min d) (d_max d) (d_labels d) (d_deform d) (d_finish_merge d) (d_cleanup_split d) (d_active_mesh d));
  mkField c_matrix2d d_expand (fun v d => mkPlace2d (d_sem d) (d_boundary d) (d_centroid d) (d_compress d) v (d_pcl_boundary d)
     (d_voxblox d) (d_pcl d) (d_min d) (d_max d) (d_labels d) (d_deform d) (d_finish_merge d) (d_cleanup_split d) (d_active_mesh d));
  mkField c_u64s d_pcl_boundary (fun v d => mkPlace2d (d_sem d) (d_boundary d) (d_centroid d) (d_compress d) (d_expand d) v
     (d_voxblox d) (d_pcl d) (d_min d) (d_max d) (d_labels d) (d_deform d) (d_finish_merge d) (d_cleanup_split d) (d_active_mesh d));
  mkField c_nvis d_voxblox (fun v d => mkPlace2d (d_sem d) (d_boundary d) (d_centroid d) (d_compress d) (d_expand d) (d_pcl_boundary d)
     v (d_pcl d) (d_min d) (d_max d) (d_labels d) (d_deform d) (d_finish_merge d) (d_cleanup_split d) (d_active_mesh d));
  mkField c_u64s d_pcl (fun v d => mkPlace2d (d_sem d) (d_boundary d) (d_centroid d) (d_compress d) (d_expand d) (d_pcl_boundary d)
     (d_voxblox d) v (d_min d) (d_max d) (d_labels d) (d_deform d) (d_finish_merge d) (d_cleanup_split d) (d_active_mesh d));
  mkField c_u8s d_labels (fun v d => mkPlace2d (d_sem d) (d_boundary d) (d_centroid d) (d_compress d) (d_expand d) (d_pcl_boundary d)
     (d_voxblox d) (d_pcl d) (d_min d) (d_max d) v (d_deform d) (d_finish_merge d) (d_cleanup_split d) (d_active_mesh d));
  mkField c_u64s d_deform (fun v d => mkPlace2d (d_sem d) (d_boundary d) (d_centroid d) (d_compress d) (d_expand d) (d_pcl_boundary d)
     (d_voxblox d) (d_pcl d) (d_min d) (d_max d) (d_labels d) v (d_finish_merge d) (d_cleanup_split d) (d_active_mesh d));
  mkField c_bool d_cleanup_split (fun v d => mkPlace2d (d_sem d) (d_boundary d) (d_centroid d) (d_compress d) (d_expand d) (d_pcl_boundary d)
     (d_voxblox d) (d_pcl d) (d_min d) (d_max d) (d_labels d) (d_deform d) (d_finish_merge d) v (d_active_mesh d));
  mkField c_bool d_active_mesh (fun v d => mkPlace2d (d_sem d) (d_boundary d) (d_centroid d) (d_compress d) (d_expand d) (d_pcl_boundary d)
     (d_voxblox d) (d_pcl d) (d_min d) (d_max d) (d_labels d) (d_deform d) (d_finish_merge d) (d_cleanup_split d) v)].

(** AgentNodeAttributes, 428-434 *)
Definition agent_fields (env : Env) : list (Field AgentAttrs) :=
  map (lift_field g_base (fun b a => mkAgent b (g_rot a) (g_ext a) (g_dbow_ids a) (g_dbow_vals a))) (base_fields env) ++ [
  mkField c_quatd g_rot (fun v a => mkAgent (g_base a) v (g_ext a) (g_dbow_ids a) (g_dbow_vals a));
  mkField c_u64 g_ext (fun v a => mkAgent (g_base a) (g_rot a) v (g_dbow_ids a) (g_dbow_vals a));
  mkField c_bowids g_dbow_ids (fun v a => mkAgent (g_base a) (g_rot a) (g_ext a) v (g_dbow_vals a));
  mkField c_vectorXf g_dbow_vals (fun v a => mkAgent (g_base a) (g_rot a) (g_ext a) (g_dbow_ids a) v)].

(** KhronosObjectAttributes, 472-481: starts from SemanticNodeAttributes::serialization_info,
    not ObjectNodeAttributes' *)
Definition khronos_fields (env : Env) : list (Field KhronosAttrs) :=
  let set_sem s k := mkKhronos (mkObj s (o_mesh_conn (k_obj k)) (o_registered (k_obj k)) (o_rot (k_obj k)))
     (k_first k) (k_last k) (k_mesh k) (k_traj_t k) (k_traj_p k) (k_points k) (k_details k) in
  map (lift_field (fun k => o_sem (k_obj k)) set_sem) (sem_fields env) ++ [
  mkField c_u64s k_first (fun v k => mkKhronos (k_obj k) v (k_last k) (k_mesh k) (k_traj_t k) (k_traj_p k) (k_points k) (k_details k));
  mkField c_u64s k_last (fun v k => mkKhronos (k_obj k) (k_first k) v (k_mesh k) (k_traj_t k) (k_traj_p k) (k_points k) (k_details k));
  mkField c_mesh k_mesh (fun v k => mkKhronos (k_obj k) (k_first k) (k_last k) v (k_traj_t k) (k_traj_p k) (k_points k) (k_details k));
  mkField c_points k_traj_p (fun v k => mkKhronos (k_obj k) (k_first k) (k_last k) (k_mesh k) (k_traj_t k) v (k_points k) (k_details k));
  mkField c_u64s k_traj_t (fun v k => mkKhronos (k_obj k) (k_first k) (k_last k) (k_mesh k) v (k_traj_p k) (k_points k) (k_details k));
  mkField (codec_vector [] c_points) k_points (fun v k => mkKhronos (k_obj k) (k_first k) (k_last k) (k_mesh k) (k_traj_t k) (k_traj_p k) v (k_details k));
  mkField (codec_map map_to_list [] [] c_string c_u64s) k_details (fun v k => mkKhronos (k_obj k) (k_first k) (k_last k) (k_mesh k) (k_traj_t k) (k_traj_p k) (k_points k) v)].

(** EdgeAttributes, edge_attributes.cpp:68-71 *)
Definition edge_fields : list (Field EdgeAttrs) := [
  mkField c_bool ea_weighted (fun v e => mkEA v (ea_weight e));
  mkField c_f64 ea_weight (fun v e => mkEA (ea_weighted e) v)].

(* ------------------------------------------------------------------ *)
(** ** Default-constructed attributes (node_attributes.cpp; uninitialised members are 0) *)
Definition base_default : BaseAttrs := mkBase (mkVec3 0 0 0) 0 false false.         (* 106-109; h:109-115 *)
Definition float_one : N := 1065353216.
Definition bbox_default : BoundingBox :=                                            (* bounding_box.h:227-236 *)
  mkBBox 0%Z (mkVec3 0 0 0) (mkVec3 0 0 0) (mkMatrix 3 3 [float_one; 0; 0; 0; float_one; 0; 0; 0; float_one]).
Definition sem_default : SemAttrs :=                                                (* 152-156 *)
  mkSem base_default [] color_default bbox_default (two32 - 1) (mkMatrix 0 0 []).
Definition quat_identity : Quat := mkQuat double_one 0 0 0.
Definition obj_default : ObjAttrs := mkObj sem_default [] false quat_identity.      (* 214-217 *)
Definition room_default : RoomAttrs := mkRoom sem_default ∅.                        (* 260 *)
Definition place_default : PlaceAttrs :=                                            (* 285-296, h:285-290 *)
  mkPlace sem_default 0 0 [] [] [] [] true false false (mkVec3 0 0 0) quat_identity 0.
Definition place2d_default : Place2dAttrs :=                                        (* 349-355; h:322-348 *)
  mkPlace2d sem_default [] (mkVec3 0 0 0) (mkMatrix 2 2 [0; 0; 0; 0]) (mkMatrix 2 2 [0; 0; 0; 0]) [] [] [] 0 0 [] [] false false false.
Definition agent_default : AgentAttrs :=                                            (* 409 *)
  mkAgent base_default (mkQuat 0 0 0 0) 0 (mkMatrix 0 1 []) (mkMatrix 0 1 []).
Definition khronos_default : KhronosAttrs :=                                        (* 451 *)
  mkKhronos obj_default [] [] (mesh_new true false false false) [] [] [] ∅.

(** The registered attribute classes *)
Inductive Kind := KNode | KSem | KObj | KRoom | KPlace | KPlace2d | KAgent | KKhronos.
#[global] Instance Kind_eq_dec : EqDecision Kind. Proof. solve_decision. Defined.
Definition kind_of (a : NodeAttrs) : Kind :=
  match a with
  | ANode _ => KNode | ASem _ => KSem | AObj _ => KObj | ARoom _ => KRoom | APlace _ => KPlace
  | APlace2d _ => KPlace2d | AAgent _ => KAgent | AKhronos _ => KKhronos
  end.
(** virtual serialization_info with a BinaryWriter *)
Definition write_attr_fields (env : Env) (a : NodeAttrs) : result (list N) :=
  match a with
  | ANode b => write_fields (base_fields env) b
  | ASem s => write_fields (sem_fields env) s
  | AObj o => write_fields (obj_fields env) o
  | ARoom r => write_fields (room_fields env) r
  | APlace p => write_fields (place_fields env) p
  | APlace2d p => write_fields (place2d_fields env) p
  | AAgent a => write_fields (agent_fields env) a
  | AKhronos k => write_fields (khronos_fields env) k
  end.
Definition rmapr {A B} (f : A -> B) (r : Reader A) : Reader B := let* a := r in ret (f a).
(** construction followed by serialization_info with a BinaryReader *)
Definition read_attr_fields (env : Env) (k : Kind) : Reader NodeAttrs :=
  match k with
  | KNode => rmapr ANode (read_fields (base_fields env) base_default)
  | KSem => rmapr ASem (read_fields (sem_fields env) sem_default)
  | KObj => rmapr AObj (read_fields (obj_fields env) obj_default)
  | KRoom => rmapr ARoom (read_fields (room_fields env) room_default)
  | KPlace => rmapr APlace (read_fields (place_fields env) place_default)
  | KPlace2d => rmapr APlace2d (read_fields (place2d_fields env) place2d_default)
  | KAgent => rmapr AAgent (read_fields (agent_fields env) agent_default)
  | KKhronos => rmapr AKhronos (read_fields (khronos_fields env) khronos_default)
  end.

(* ------------------------------------------------------------------ *)
(** ** operator== *)
(** floating point == on bit patterns: NaN differs from everything, the zeros are equal.
    [e], [m]: exponent and mantissa widths. *)
Definition f_mantissa (m v : N) : N := N.land v (2 ^ m - 1).
Definition f_exponent (e m v : N) : N := N.land (N.shiftr v m) (2 ^ e - 1).
Definition f_nan (e m v : N) : bool := (f_exponent e m v =? 2 ^ e - 1) && negb (f_mantissa m v =? 0).
Definition f_zero (e m v : N) : bool := (f_exponent e m v =? 0) && (f_mantissa m v =? 0).
Definition f_eqb (e m a b : N) : bool :=
  negb (f_nan e m a) && negb (f_nan e m b) && ((a =? b) || (f_zero e m a && f_zero e m b)).
Definition f32_eqb := f_eqb 8 23.
Definition f64_eqb := f_eqb 11 52.
Definition f64_nan := f_nan 11 52.
Definition f32_nan := f_nan 8 23.
(** Eigen operator== : all coefficients *)
Definition vec3_eqb (feq : N -> N -> bool) (a b : Vec3) : bool :=
  feq (v_x a) (v_x b) && feq (v_y a) (v_y b) && feq (v_z a) (v_z b).
Fixpoint all2 {A} (eq : A -> A -> bool) (a b : list A) : bool :=
  match a, b with [], [] => true | x :: r, y :: s => eq x y && all2 eq r s | _, _ => false end.
Definition matrix_eqb (feq : N -> N -> bool) (a b : Matrix) : bool :=
  (mx_rows a =? mx_rows b) && (mx_cols a =? mx_cols b) && all2 feq (mx_data a) (mx_data b).
(** quaternionsEqual, node_attributes.cpp:238-243 *)
Definition quat_eqb (feq : N -> N -> bool) (a b : Quat) : bool :=
  feq (q_w a) (q_w b) && feq (q_x a) (q_x b) && feq (q_y a) (q_y b) && feq (q_z a) (q_z b).
(** matricesEqual, 74-92: two NaNs count as equal *)
Definition nan_or_eq (a b : N) : bool := (f64_nan a && f64_nan b) || f64_eqb a b.
(** 94-100 *)
Definition nvi_eqb (a b : NearestVertexInfo) : bool :=
  bool_decide (nv_block a = nv_block b) && all2 f64_eqb (nv_voxel a) (nv_voxel b) &&
  (nv_vertex a =? nv_vertex b) && bool_decide (nv_label a = nv_label b).
(** bounding_box.cpp:240-254 *)
Definition bbox_eqb (a b : BoundingBox) : bool :=
  if negb (bb_type a =? bb_type b)%Z then false
  else if (bb_type a =? 0)%Z then true
  else if negb (vec3_eqb f32_eqb (bb_dim a) (bb_dim b)) || negb (vec3_eqb f32_eqb (bb_center a) (bb_center b)) then false
  else if (bb_type a =? 1)%Z then true
  else matrix_eqb f32_eqb (bb_rot a) (bb_rot b).
(** mesh.cpp:251-258 *)
Definition mesh_eqb (a b : Mesh) : bool :=
  Bool.eqb (m_has_colors a) (m_has_colors b) && Bool.eqb (m_has_stamps a) (m_has_stamps b) &&
  Bool.eqb (m_has_labels a) (m_has_labels b) && Bool.eqb (m_has_first a) (m_has_first b) &&
  all2 (vec3_eqb f32_eqb) (m_points a) (m_points b) && bool_decide (m_colors a = m_colors b) &&
  bool_decide (m_stamps a = m_stamps b) && bool_decide (m_first a = m_first b) &&
  bool_decide (m_labels a = m_labels b) && bool_decide (m_faces a = m_faces b).
(** is_equal, node_attributes.cpp: 146-150, 198-212, 245-258, 276-283, 325-347, 386-407, 436-449, 483-498.
    The left operand's class decides; [other] is downcast to that class. *)
Definition base_eqb (a b : BaseAttrs) : bool :=
  vec3_eqb nan_or_eq (a_pos a) (a_pos b) && (a_time a =? a_time b) &&
  Bool.eqb (a_active a) (a_active b) && Bool.eqb (a_predicted a) (a_predicted b).
Definition sem_eqb (a b : SemAttrs) : bool :=
  base_eqb (s_base a) (s_base b) && bool_decide (s_name a = s_name b) && bool_decide (s_color a = s_color b) &&
  bbox_eqb (s_bbox a) (s_bbox b) && (s_label a =? s_label b) && matrix_eqb f64_eqb (s_feature a) (s_feature b).
Definition obj_eqb (a b : ObjAttrs) : bool :=
  sem_eqb (o_sem a) (o_sem b) && bool_decide (o_mesh_conn a = o_mesh_conn b) &&
  Bool.eqb (o_registered a) (o_registered b) && quat_eqb f64_eqb (o_rot a) (o_rot b).
Definition place_eqb (a b : PlaceAttrs) : bool :=
  sem_eqb (p_sem a) (p_sem b) && f64_eqb (p_distance a) (p_distance b) && (p_basis a =? p_basis b) &&
  all2 nvi_eqb (p_voxblox a) (p_voxblox b) && bool_decide (p_pcl a = p_pcl b) &&
  bool_decide (p_labels a = p_labels b) && bool_decide (p_deform a = p_deform b) &&
  Bool.eqb (p_real a) (p_real b) && Bool.eqb (p_frontier a) (p_frontier b) &&
  vec3_eqb f64_eqb (p_scale a) (p_scale b) && quat_eqb f64_eqb (p_orient a) (p_orient b) &&
  Bool.eqb (p_cleanup a) (p_cleanup b) && (p_nfv a =? p_nfv b).
Definition place2d_eqb (a b : Place2dAttrs) : bool :=
  sem_eqb (d_sem a) (d_sem b) && all2 (vec3_eqb f64_eqb) (d_boundary a) (d_boundary b) &&
  vec3_eqb f64_eqb (d_centroid a) (d_centroid b) && matrix_eqb f64_eqb (d_compress a) (d_compress b) &&
  matrix_eqb f64_eqb (d_expand a) (d_expand b) && bool_decide (d_pcl_boundary a = d_pcl_boundary b) &&
  all2 nvi_eqb (d_voxblox a) (d_voxblox b) && bool_decide (d_pcl a = d_pcl b) &&
  bool_decide (d_labels a = d_labels b) && bool_decide (d_deform a = d_deform b) &&
  Bool.eqb (d_cleanup_split a) (d_cleanup_split b) && Bool.eqb (d_active_mesh a) (d_active_mesh b).
Definition agent_eqb (a b : AgentAttrs) : bool :=
  base_eqb (g_base a) (g_base b) && quat_eqb f64_eqb (g_rot a) (g_rot b) && (g_ext a =? g_ext b) &&
  matrix_eqb N.eqb (g_dbow_ids a) (g_dbow_ids b) && matrix_eqb f32_eqb (g_dbow_vals a) (g_dbow_vals b).
Definition khronos_eqb (a b : KhronosAttrs) : bool :=
  obj_eqb (k_obj a) (k_obj b) && bool_decide (k_first a = k_first b) && bool_decide (k_last a = k_last b) &&
  mesh_eqb (k_mesh a) (k_mesh b) && all2 (vec3_eqb f32_eqb) (k_traj_p a) (k_traj_p b) &&
  all2 (all2 (vec3_eqb f32_eqb)) (k_points a) (k_points b) && bool_decide (k_details a = k_details b).
(** NodeAttributes::operator== *)
Definition attrs_eqb (a b : NodeAttrs) : bool :=
  match a, b with
  | ANode x, _ => base_eqb x (attrs_base b)
  | ASem x, ASem y => sem_eqb x y
  | ASem x, AObj y => sem_eqb x (o_sem y)
  | ASem x, ARoom y => sem_eqb x (r_sem y)
  | ASem x, APlace y => sem_eqb x (p_sem y)
  | ASem x, APlace2d y => sem_eqb x (d_sem y)
  | ASem x, AKhronos y => sem_eqb x (o_sem (k_obj y))
  | AObj x, AObj y => obj_eqb x y
  | AObj x, AKhronos y => obj_eqb x (k_obj y)
  | ARoom x, ARoom y => sem_eqb (r_sem x) (r_sem y)
  | APlace x, APlace y => place_eqb x y
  | APlace2d x, APlace2d y => place2d_eqb x y
  | AAgent x, AAgent y => agent_eqb x y
  | AKhronos x, AKhronos y => khronos_eqb x y
  | _, _ => false
  end.
Definition edge_attrs_eqb (a b : EdgeAttrs) : bool :=                              (* edge_attributes.cpp:77-79 *)
  Bool.eqb (ea_weighted a) (ea_weighted b) && f64_eqb (ea_weight a) (ea_weight b).
