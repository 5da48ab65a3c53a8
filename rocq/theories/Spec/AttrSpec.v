(** Which attribute values fit their C++ types, what of them a file keeps, and when they
    contain no NaN.  Nothing here mentions the codecs. *)
From Coq Require Import NArith ZArith Bool List.
From stdpp Require Import base list gmap.
From Verif.Model Require Import Types Mesh Attrs.
From Verif.Spec Require Import BinarySpec.
Local Open Scope N_scope.

(* ------------------------------------------------------------------ *)
(** ** Values representable in C++ and short enough for the format *)
Definition vec_ok (bits : N) (v : Vec3) : Prop := fits bits (v_x v) /\ fits bits (v_y v) /\ fits bits (v_z v).
Definition quat_ok (q : Quat) : Prop := fits 64 (q_w q) /\ fits 64 (q_x q) /\ fits 64 (q_y q) /\ fits 64 (q_z q).
Definition color_ok (c : Color) : Prop := fits 8 (c_r c) /\ fits 8 (c_g c) /\ fits 8 (c_b c) /\ fits 8 (c_a c).
Definition text_ok (s : list N) : Prop := short s /\ Forall is_byte s.
Definition list_ok {A} (P : A -> Prop) (l : list A) : Prop := short l /\ Forall P l.
Definition map_ok {V} (P : V -> Prop) (m : gmap (list N) V) : Prop :=
  N.of_nat (size m) < 2 ^ 32 /\ forall k v, m !! k = Some v -> text_ok k /\ P v.
Definition matrix_ok (rows cols : option N) (bits : N) (m : Matrix) : Prop :=
  matrix_shaped rows cols m /\ mx_rows m * mx_cols m + 2 < 2 ^ 32 /\ Forall (fits bits) (mx_data m).
Definition bbox_ok (b : BoundingBox) : Prop :=
  fits_signed 32 (bb_type b) /\ vec_ok 32 (bb_dim b) /\ vec_ok 32 (bb_center b) /\
  matrix_ok (Some 3) (Some 3) 32 (bb_rot b).
Definition nvi_ok (i : NearestVertexInfo) : Prop :=
  (length (nv_block i) = 3%nat /\ Forall (fits_signed 32) (nv_block i)) /\
  (length (nv_voxel i) = 3%nat /\ Forall (fits 64) (nv_voxel i)) /\
  fits 64 (nv_vertex i) /\ (forall l, nv_label i = Some l -> fits 32 l).
Definition face_ok (f : Face) : Prop := fits 64 (f_0 f) /\ fits 64 (f_1 f) /\ fits 64 (f_2 f).
Definition mesh_fits (m : Mesh) : Prop :=
  list_ok (vec_ok 32) (m_points m) /\ list_ok color_ok (m_colors m) /\ list_ok (fits 64) (m_stamps m) /\
  list_ok (fits 32) (m_labels m) /\ list_ok (fits 64) (m_first m) /\ list_ok face_ok (m_faces m).
Definition base_ok (b : BaseAttrs) : Prop := vec_ok 64 (a_pos b) /\ fits 64 (a_time b).
Definition sem_ok (s : SemAttrs) : Prop :=
  base_ok (s_base s) /\ text_ok (s_name s) /\ color_ok (s_color s) /\ bbox_ok (s_bbox s) /\
  fits 32 (s_label s) /\ matrix_ok None None 64 (s_feature s).
Definition obj_ok (o : ObjAttrs) : Prop := sem_ok (o_sem o) /\ list_ok (fits 64) (o_mesh_conn o) /\ quat_ok (o_rot o).
Definition room_ok (r : RoomAttrs) : Prop := sem_ok (r_sem r) /\ map_ok (fits 64) (r_probs r).
Definition place_ok (p : PlaceAttrs) : Prop :=
  sem_ok (p_sem p) /\ fits 64 (p_distance p) /\ fits 32 (p_basis p) /\ list_ok nvi_ok (p_voxblox p) /\
  list_ok (fits 64) (p_pcl p) /\ list_ok (fits 8) (p_labels p) /\ list_ok (fits 64) (p_deform p) /\
  vec_ok 64 (p_scale p) /\ quat_ok (p_orient p) /\ fits 64 (p_nfv p).
Definition place2d_ok (d : Place2dAttrs) : Prop :=
  sem_ok (d_sem d) /\ list_ok (vec_ok 64) (d_boundary d) /\ vec_ok 64 (d_centroid d) /\
  matrix_ok (Some 2) (Some 2) 64 (d_compress d) /\ matrix_ok (Some 2) (Some 2) 64 (d_expand d) /\
  list_ok (fits 64) (d_pcl_boundary d) /\ list_ok nvi_ok (d_voxblox d) /\ list_ok (fits 64) (d_pcl d) /\
  list_ok (fits 8) (d_labels d) /\ list_ok (fits 64) (d_deform d).
Definition agent_ok (a : AgentAttrs) : Prop :=
  base_ok (g_base a) /\ quat_ok (g_rot a) /\ fits 64 (g_ext a) /\
  matrix_ok None (Some 1) 32 (g_dbow_ids a) /\ matrix_ok None (Some 1) 32 (g_dbow_vals a).
Definition khronos_ok (k : KhronosAttrs) : Prop :=
  obj_ok (k_obj k) /\ list_ok (fits 64) (k_first k) /\ list_ok (fits 64) (k_last k) /\ mesh_fits (k_mesh k) /\
  list_ok (vec_ok 32) (k_traj_p k) /\ list_ok (fits 64) (k_traj_t k) /\
  list_ok (list_ok (vec_ok 32)) (k_points k) /\ map_ok (list_ok (fits 64)) (k_details k).
Definition attrs_ok (a : NodeAttrs) : Prop :=
  match a with
  | ANode b => base_ok b | ASem s => sem_ok s | AObj o => obj_ok o | ARoom r => room_ok r
  | APlace p => place_ok p | APlace2d d => place2d_ok d | AAgent g => agent_ok g | AKhronos k => khronos_ok k
  end.
Definition edge_attrs_ok (e : EdgeAttrs) : Prop := fits 64 (ea_weight e).

(* ------------------------------------------------------------------ *)
(** ** What a file keeps: everything, except three members of 2D places and the members a
    Khronos object inherits from ObjectNodeAttributes, which come back as default
    constructed. *)
Definition kept (a : NodeAttrs) : NodeAttrs :=
  match a with
  | APlace2d d => APlace2d (mkPlace2d (d_sem d) (d_boundary d) (d_centroid d) (d_compress d) (d_expand d)
      (d_pcl_boundary d) (d_voxblox d) (d_pcl d) 0 0 (d_labels d) (d_deform d) false (d_cleanup_split d) (d_active_mesh d))
  | AKhronos k => AKhronos (mkKhronos (mkObj (o_sem (k_obj k)) [] false (mkQuat double_one 0 0 0)) (k_first k) (k_last k)
      (k_mesh k) (k_traj_t k) (k_traj_p k) (k_points k) (k_details k))
  | _ => a
  end.

(* ------------------------------------------------------------------ *)
(** ** IEEE 754: [v] encodes a NaN iff its exponent bits are all ones and its mantissa is not 0 *)
Definition is_nan (exponent mantissa v : N) : Prop :=
  (v / 2 ^ mantissa) mod 2 ^ exponent = 2 ^ exponent - 1 /\ v mod 2 ^ mantissa <> 0.
Definition number64 (v : N) : Prop := ~ is_nan 11 52 v.
Definition number32 (v : N) : Prop := ~ is_nan 8 23 v.
Definition vec_numbers (P : N -> Prop) (v : Vec3) : Prop := P (v_x v) /\ P (v_y v) /\ P (v_z v).
Definition quat_numbers (q : Quat) : Prop := number64 (q_w q) /\ number64 (q_x q) /\ number64 (q_y q) /\ number64 (q_z q).
Definition bbox_numbers (b : BoundingBox) : Prop :=
  vec_numbers number32 (bb_dim b) /\ vec_numbers number32 (bb_center b) /\ Forall number32 (mx_data (bb_rot b)).
Definition nvi_numbers (i : NearestVertexInfo) : Prop := Forall number64 (nv_voxel i).
(** the position is exempt: operator== treats two NaNs there as equal *)
Definition sem_numbers (s : SemAttrs) : Prop := bbox_numbers (s_bbox s) /\ Forall number64 (mx_data (s_feature s)).
Definition numbers (a : NodeAttrs) : Prop :=
  match a with
  | ANode _ => True
  | ASem s => sem_numbers s
  | AObj o => sem_numbers (o_sem o) /\ quat_numbers (o_rot o)
  | ARoom r => sem_numbers (r_sem r)
  | APlace p => sem_numbers (p_sem p) /\ number64 (p_distance p) /\ Forall nvi_numbers (p_voxblox p) /\
      vec_numbers number64 (p_scale p) /\ quat_numbers (p_orient p)
  | APlace2d d => sem_numbers (d_sem d) /\ Forall (vec_numbers number64) (d_boundary d) /\
      vec_numbers number64 (d_centroid d) /\ Forall number64 (mx_data (d_compress d)) /\
      Forall number64 (mx_data (d_expand d)) /\ Forall nvi_numbers (d_voxblox d)
  | AAgent g => quat_numbers (g_rot g) /\ Forall number32 (mx_data (g_dbow_vals g))
  | AKhronos k => sem_numbers (o_sem (k_obj k)) /\ quat_numbers (o_rot (k_obj k)) /\
      Forall (vec_numbers number32) (m_points (k_mesh k)) /\ Forall (vec_numbers number32) (k_traj_p k) /\
      Forall (Forall (vec_numbers number32)) (k_points k)
  end.
(** a Khronos object that has not used the members it inherits from ObjectNodeAttributes *)
Definition no_object_members (a : NodeAttrs) : Prop :=
  forall k, a = AKhronos k -> k_obj k = mkObj (o_sem (k_obj k)) [] false (mkQuat double_one 0 0 0).
