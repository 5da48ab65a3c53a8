(** Which attributes, meshes and graphs JSON can hold, and what comes back.  Only data types are
    mentioned here, except that the rotation of a bounding box is what the two Eigen conversions
    (matrix to quaternion and back, Model/Rotation.v) make of it. *)
From Coq Require Import NArith ZArith Bool List String.
From stdpp Require Import base list gmap.
From Verif.Model Require Import Types Mesh Attrs Node EdgeContainer SLayer DLayer Graph AttrCodec Rotation.
From Verif.Spec Require Import BinarySpec AttrSpec GraphObs.
Local Open Scope N_scope.

(** ** UTF-8: a sequence of encoded Unicode scalar values *)
Definition scalar_value (c : N) : Prop := c < 0xD800 \/ 0xE000 <= c < 0x110000.
Definition utf8_encode (c : N) : list N :=
  if c <? 0x80 then [c]
  else if c <? 0x800 then [0xC0 + c / 64; 0x80 + c mod 64]
  else if c <? 0x10000 then [0xE0 + c / 4096; 0x80 + c / 64 mod 64; 0x80 + c mod 64]
  else [0xF0 + c / 262144; 0x80 + c / 4096 mod 64; 0x80 + c / 64 mod 64; 0x80 + c mod 64].
Definition is_utf8 (s : list N) : Prop := exists cs, Forall scalar_value cs /\ s = concat (map utf8_encode cs).

(** ** Floating point numbers: infinities and NaN have no JSON representation *)
Definition is_finite (exponent mantissa v : N) : Prop := (v / 2 ^ mantissa) mod 2 ^ exponent <> 2 ^ exponent - 1.
#[global] Instance is_finite_dec e m v : Decision (is_finite e m v). Proof. unfold is_finite. apply _. Defined.
Definition finite64 (v : N) : Prop := fits 64 v /\ is_finite 11 52 v.
Definition quiet_nan64 : N := 0x7FF8000000000000.
Definition quiet_nan32 : N := 0x7FC00000.
(** coefficients of vectors and matrices that are not finite come back as NaN *)
Definition coeff64 (v : N) : N := if decide (is_finite 11 52 v) then v else quiet_nan64.
Definition coeff32 (v : N) : N := if decide (is_finite 8 23 v) then v else quiet_nan32.
Definition vec_of (f : N -> N) (v : Vec3) : Vec3 := mkVec3 (f (v_x v)) (f (v_y v)) (f (v_z v)).
Definition matrix_of (f : N -> N) (m : Matrix) : Matrix := mkMatrix (mx_rows m) (mx_cols m) (map f (mx_data m)).
Definition finite_quat (q : Quat) : Prop := finite64 (q_w q) /\ finite64 (q_x q) /\ finite64 (q_y q) /\ finite64 (q_z q).
(** one coefficient per position; the shape is an int *)
Definition json_matrix (rows cols : option N) (bits : N) (m : Matrix) : Prop :=
  len (mx_data m) = mx_rows m * mx_cols m /\ mx_rows m < 2 ^ 31 /\ mx_cols m < 2 ^ 31 /\ mx_rows m * mx_cols m < 2 ^ 31 /\
  (forall r, rows = Some r -> mx_rows m = r) /\ (forall c, cols = Some c -> mx_cols m = c) /\ Forall (fits bits) (mx_data m).

(** ** Bounding boxes: an INVALID box comes back default constructed *)
Definition rotation_through_quaternion (m : Matrix) : Matrix := rot_of_quatf (quatf_of_rot m).
Definition box_valid (b : BoundingBox) : Prop := bb_type b = 1%Z \/ bb_type b = 2%Z \/ bb_type b = 3%Z.
#[global] Instance box_valid_dec b : Decision (box_valid b). Proof. unfold box_valid. apply _. Defined.
Definition finite32 (v : N) : Prop := fits 32 v /\ is_finite 8 23 v.
Definition json_bbox (b : BoundingBox) : Prop :=
  vec_ok 32 (bb_dim b) /\ vec_ok 32 (bb_center b) /\
  (box_valid b -> let q := quatf_of_rot (bb_rot b) in finite32 (q_w q) /\ finite32 (q_x q) /\ finite32 (q_y q) /\ finite32 (q_z q)).
Definition no_rotation : Matrix := mkMatrix 3 3 [0x3F800000; 0; 0; 0; 0x3F800000; 0; 0; 0; 0x3F800000].
Definition bbox_through (b : BoundingBox) : BoundingBox :=
  if decide (box_valid b) then mkBBox (bb_type b) (vec_of coeff32 (bb_dim b)) (vec_of coeff32 (bb_center b)) (rotation_through_quaternion (bb_rot b))
  else mkBBox 0 (mkVec3 0 0 0) (mkVec3 0 0 0) no_rotation.

(** ** Values JSON can hold *)
Definition json_nvi (i : NearestVertexInfo) : Prop :=
  (length (nv_block i) = 3%nat /\ Forall (fits_signed 32) (nv_block i)) /\
  (length (nv_voxel i) = 3%nat /\ Forall finite64 (nv_voxel i)) /\
  fits 64 (nv_vertex i) /\ (forall l, nv_label i = Some l -> fits 32 l).
Definition json_mesh (m : Mesh) : Prop :=
  Forall (vec_ok 32) (m_points m) /\ Forall color_ok (m_colors m) /\ Forall (fits 64) (m_stamps m) /\
  Forall (fits 32) (m_labels m) /\ Forall (fits 64) (m_first m) /\ Forall face_ok (m_faces m).
Definition json_sem (s : SemAttrs) : Prop :=
  base_ok (s_base s) /\ is_utf8 (s_name s) /\ color_ok (s_color s) /\ json_bbox (s_bbox s) /\
  fits 32 (s_label s) /\ json_matrix None None 64 (s_feature s).
Definition json_ok (a : NodeAttrs) : Prop :=
  match a with
  | ANode b => base_ok b
  | ASem s => json_sem s
  | AObj o => json_sem (o_sem o) /\ Forall (fits 64) (o_mesh_conn o) /\ finite_quat (o_rot o)
  | ARoom r => json_sem (r_sem r) /\ forall k v, r_probs r !! k = Some v -> is_utf8 k /\ finite64 v
  | APlace p => json_sem (p_sem p) /\ finite64 (p_distance p) /\ fits 32 (p_basis p) /\ Forall json_nvi (p_voxblox p) /\
      Forall (fits 64) (p_pcl p) /\ Forall (fits 8) (p_labels p) /\ Forall (fits 64) (p_deform p) /\
      vec_ok 64 (p_scale p) /\ finite_quat (p_orient p) /\ fits 64 (p_nfv p)
  | APlace2d d => json_sem (d_sem d) /\ Forall (vec_ok 64) (d_boundary d) /\ vec_ok 64 (d_centroid d) /\
      json_matrix (Some 2) (Some 2) 64 (d_compress d) /\ json_matrix (Some 2) (Some 2) 64 (d_expand d) /\
      Forall (fits 64) (d_pcl_boundary d) /\ Forall json_nvi (d_voxblox d) /\ Forall (fits 64) (d_pcl d) /\
      Forall (fits 8) (d_labels d) /\ Forall (fits 64) (d_deform d)
  | AAgent g => base_ok (g_base g) /\ finite_quat (g_rot g) /\ fits 64 (g_ext g) /\
      json_matrix None (Some 1) 32 (g_dbow_ids g) /\ json_matrix None (Some 1) 32 (g_dbow_vals g)
  | AKhronos k => json_sem (o_sem (k_obj k)) /\ Forall (fits 64) (k_first k) /\ Forall (fits 64) (k_last k) /\ json_mesh (k_mesh k) /\
      Forall (vec_ok 32) (k_traj_p k) /\ Forall (fits 64) (k_traj_t k) /\ Forall (Forall (vec_ok 32)) (k_points k) /\
      forall key v, k_details k !! key = Some v -> is_utf8 key /\ Forall (fits 64) v
  end.
Definition json_edge (e : EdgeAttrs) : Prop := finite64 (ea_weight e).

(** ** What comes back *)
Definition base_through (b : BaseAttrs) : BaseAttrs := mkBase (vec_of coeff64 (a_pos b)) (a_time b) (a_active b) (a_predicted b).
Definition sem_through (s : SemAttrs) : SemAttrs :=
  mkSem (base_through (s_base s)) (s_name s) (s_color s) (bbox_through (s_bbox s)) (s_label s) (matrix_of coeff64 (s_feature s)).
Definition mesh_through (m : Mesh) : Mesh :=
  mkMesh (m_has_colors m) (m_has_stamps m) (m_has_labels m) (m_has_first m) (map (vec_of coeff32) (m_points m))
    (m_colors m) (m_stamps m) (m_first m) (m_labels m) (m_faces m).
(** the members that are not serialised come back default constructed, as from binary files *)
Definition through_json (a : NodeAttrs) : NodeAttrs :=
  match a with
  | ANode b => ANode (base_through b)
  | ASem s => ASem (sem_through s)
  | AObj o => AObj (mkObj (sem_through (o_sem o)) (o_mesh_conn o) (o_registered o) (o_rot o))
  | ARoom r => ARoom (mkRoom (sem_through (r_sem r)) (r_probs r))
  | APlace p => APlace (mkPlace (sem_through (p_sem p)) (p_distance p) (p_basis p) (p_voxblox p) (p_pcl p) (p_labels p) (p_deform p)
      (p_real p) (p_cleanup p) (p_frontier p) (vec_of coeff64 (p_scale p)) (p_orient p) (p_nfv p))
  | APlace2d d => APlace2d (mkPlace2d (sem_through (d_sem d)) (map (vec_of coeff64) (d_boundary d)) (vec_of coeff64 (d_centroid d))
      (matrix_of coeff64 (d_compress d)) (matrix_of coeff64 (d_expand d)) (d_pcl_boundary d) (d_voxblox d) (d_pcl d) 0 0
      (d_labels d) (d_deform d) false (d_cleanup_split d) (d_active_mesh d))
  | AAgent g => AAgent (mkAgent (base_through (g_base g)) (g_rot g) (g_ext g) (g_dbow_ids g) (matrix_of coeff32 (g_dbow_vals g)))
  | AKhronos k => AKhronos (mkKhronos (mkObj (sem_through (o_sem (k_obj k))) [] false (mkQuat double_one 0 0 0)) (k_first k) (k_last k)
      (mesh_through (k_mesh k)) (k_traj_t k) (map (vec_of coeff32) (k_traj_p k)) (map (map (vec_of coeff32)) (k_points k)) (k_details k))
  end.

(** ** Graphs.  Unlike in the binary format, dynamic nodes may have been removed and dynamic
    layers need not share their id with a static layer. *)
Record json_saveable (h : Graph) : Prop := mkJsonSaveable {
  js_ids : Forall (fits 64) (g_layer_ids h);
  js_node : forall x k t a, node_data h x = Some (k, t, a) ->
    fits 64 x /\ fits 64 (lk_layer k) /\ (forall t', t = Some t' -> fits_signed 64 t') /\ json_ok a;
  js_edge : forall u v e, edge_at h u v = Some e -> json_edge (e_info e);
  js_mesh : forall m, g_mesh h = Some m -> json_mesh m;
  js_static : forall x k t a, node_data h x = Some (k, t, a) -> lk_dynamic k = false -> t = None }.
Definition through_data (d : LayerKey * option Z * NodeAttrs) : LayerKey * option Z * NodeAttrs :=
  let '(k, t, a) := d in (k, t, through_json a).
Definition loaded_from_json (h g' : Graph) : Prop :=
  g_layer_ids g' = g_layer_ids h /\ (forall l, g_has_layer g' l = g_has_layer h l) /\
  (forall x, node_data g' x = through_data <$> node_data h x) /\ same_edges h g'.

(** ** When nothing is lost: all coefficients are finite, boxes are valid (or default) and their
    rotation survives the conversion to a quaternion and back *)
Definition vec_finite (e m : N) (v : Vec3) : Prop := is_finite e m (v_x v) /\ is_finite e m (v_y v) /\ is_finite e m (v_z v).
Definition default_box : BoundingBox := mkBBox 0 (mkVec3 0 0 0) (mkVec3 0 0 0) no_rotation.
Definition box_exact (b : BoundingBox) : Prop :=
  b = default_box \/
  box_valid b /\ vec_finite 8 23 (bb_dim b) /\ vec_finite 8 23 (bb_center b) /\ rotation_through_quaternion (bb_rot b) = bb_rot b.
Definition base_exact (b : BaseAttrs) : Prop := vec_finite 11 52 (a_pos b).
Definition sem_exact (s : SemAttrs) : Prop := base_exact (s_base s) /\ box_exact (s_bbox s) /\ Forall (is_finite 11 52) (mx_data (s_feature s)).
Definition mesh_exact (m : Mesh) : Prop := Forall (vec_finite 8 23) (m_points m).
Definition json_exact (a : NodeAttrs) : Prop :=
  match a with
  | ANode b => base_exact b
  | ASem s => sem_exact s
  | AObj o => sem_exact (o_sem o)
  | ARoom r => sem_exact (r_sem r)
  | APlace p => sem_exact (p_sem p) /\ vec_finite 11 52 (p_scale p)
  | APlace2d d => sem_exact (d_sem d) /\ Forall (vec_finite 11 52) (d_boundary d) /\ vec_finite 11 52 (d_centroid d) /\
      Forall (is_finite 11 52) (mx_data (d_compress d)) /\ Forall (is_finite 11 52) (mx_data (d_expand d))
  | AAgent g => base_exact (g_base g) /\ Forall (is_finite 8 23) (mx_data (g_dbow_vals g))
  | AKhronos k => sem_exact (o_sem (k_obj k)) /\ mesh_exact (k_mesh k) /\ Forall (vec_finite 8 23) (k_traj_p k) /\ Forall (Forall (vec_finite 8 23)) (k_points k)
  end.

(** ** The names of the members of the JSON object of each class, besides "type" *)
Local Open Scope string_scope.
Local Open Scope list_scope.
Definition base_names : list string := ["position"; "last_update_time_ns"; "is_active"; "is_predicted"].
Definition sem_names : list string := base_names ++ ["name"; "color"; "bounding_box"; "semantic_label"; "semantic_feature"].
Definition json_names (k : Kind) : list string :=
  match k with
  | KNode => base_names
  | KSem => sem_names
  | KObj => sem_names ++ ["mesh_connections"; "registered"; "world_R_object"]
  | KRoom => sem_names ++ ["semantic_class_probabilities"]
  | KPlace => sem_names ++ ["distance"; "num_basis_points"; "voxblox_mesh_connections"; "pcl_mesh_connections"; "mesh_vertex_labels"; "deformation_connections";
      "real_place"; "active_frontier"; "frontier_scale"; "orientation"; "need_cleanup"; "num_frontier_voxels"]
  | KPlace2d => sem_names ++ ["boundary"; "ellipse_centroid"; "ellipse_matrix_compress"; "ellipse_matrix_expand"; "pcl_boundary_connections"; "voxblox_mesh_connections";
      "pcl_mesh_connections"; "mesh_vertex_labels"; "deformation_connections"; "need_cleanup_splitting"; "has_active_mesh_indices"]
  | KAgent => base_names ++ ["world_R_body"; "external_key"; "dbow_ids"; "dbow_values"]
  | KKhronos => sem_names ++ ["first_observed_ns"; "last_observed_ns"; "mesh"; "trajectory_positions"; "trajectory_timestamps"; "dynamic_object_points"; "details"]
  end.
