(** Node and edge attribute records.
    Sources: include/spark_dsg/node_attributes.h, include/spark_dsg/edge_attributes.h,
    src/node_attributes.cpp, src/edge_attributes.cpp, include/spark_dsg/bounding_box.h.
    Floating point values are their IEEE bit patterns, strings are byte lists, Eigen
    matrices are (rows, cols, row-major data). *)
From Coq Require Import NArith ZArith Bool List.
From stdpp Require Import base list gmap.
From Verif.Model Require Import Types Mesh.
Local Open Scope N_scope.

(** Eigen::Matrix with dynamic or fixed shape; row-major element list. *)
Record Matrix := mkMatrix { mx_rows : N; mx_cols : N; mx_data : list N }.
(** Eigen::Quaterniond *)
Record Quat := mkQuat { q_w : N; q_x : N; q_y : N; q_z : N }.
(** bounding_box.h:53-58 and 227-236: type tag (int32_t), dimensions, center, 3x3 rotation (float) *)
Record BoundingBox := mkBBox {
  bb_type : Z; bb_dim : Vec3; bb_center : Vec3; bb_rot : Matrix }.

(** node_attributes.h:79-84 *)
Record NearestVertexInfo := mkNVI {
  nv_block : list Z; nv_voxel : list N; nv_vertex : N; nv_label : option N }.

(** node_attributes.h:109-115 *)
Record BaseAttrs := mkBase {
  a_pos : Vec3; a_time : N; a_active : bool; a_predicted : bool }.

(** node_attributes.h:172-180 *)
Record SemAttrs := mkSem {
  s_base : BaseAttrs; s_name : list N; s_color : Color; s_bbox : BoundingBox;
  s_label : N; s_feature : Matrix }.

(** node_attributes.h:209-213 *)
Record ObjAttrs := mkObj {
  o_sem : SemAttrs; o_mesh_conn : list N; o_registered : bool; o_rot : Quat }.

(** node_attributes.h:239; std::map<std::string, double> *)
Record RoomAttrs := mkRoom { r_sem : SemAttrs; r_probs : gmap (list N) N }.

(** node_attributes.h:273-290 *)
Record PlaceAttrs := mkPlace {
  p_sem : SemAttrs; p_distance : N; p_basis : N; p_voxblox : list NearestVertexInfo;
  p_pcl : list N; p_labels : list N; p_deform : list N; p_real : bool; p_cleanup : bool;
  p_frontier : bool; p_scale : Vec3; p_orient : Quat; p_nfv : N }.

(** node_attributes.h:322-348 *)
Record Place2dAttrs := mkPlace2d {
  d_sem : SemAttrs; d_boundary : list Vec3; d_centroid : Vec3; d_compress : Matrix;
  d_expand : Matrix; d_pcl_boundary : list N; d_voxblox : list NearestVertexInfo;
  d_pcl : list N; d_min : N; d_max : N; d_labels : list N; d_deform : list N;
  d_finish_merge : bool; d_cleanup_split : bool; d_active_mesh : bool }.

(** node_attributes.h:371-374 *)
Record AgentAttrs := mkAgent {
  g_base : BaseAttrs; g_rot : Quat; g_ext : N; g_dbow_ids : Matrix; g_dbow_vals : Matrix }.

(** node_attributes.h:399-415 *)
Record KhronosAttrs := mkKhronos {
  k_obj : ObjAttrs; k_first : list N; k_last : list N; k_mesh : Mesh;
  k_traj_t : list N; k_traj_p : list Vec3; k_points : list (list Vec3);
  k_details : gmap (list N) (list N) }.

(** The dynamic type of a [NodeAttributes::Ptr]. *)
Inductive NodeAttrs :=
| ANode (b : BaseAttrs)
| ASem (s : SemAttrs)
| AObj (o : ObjAttrs)
| ARoom (r : RoomAttrs)
| APlace (p : PlaceAttrs)
| APlace2d (p : Place2dAttrs)
| AAgent (a : AgentAttrs)
| AKhronos (k : KhronosAttrs).

(** Upcast to NodeAttributes. *)
Definition attrs_base (a : NodeAttrs) : BaseAttrs :=
  match a with
  | ANode b => b
  | ASem s => s_base s
  | AObj o => s_base (o_sem o)
  | ARoom r => s_base (r_sem r)
  | APlace p => s_base (p_sem p)
  | APlace2d p => s_base (d_sem p)
  | AAgent a => g_base a
  | AKhronos k => s_base (o_sem (k_obj k))
  end.

Definition sem_set_base (s : SemAttrs) (b : BaseAttrs) : SemAttrs :=
  mkSem b (s_name s) (s_color s) (s_bbox s) (s_label s) (s_feature s).
Definition obj_set_base (o : ObjAttrs) (b : BaseAttrs) : ObjAttrs :=
  mkObj (sem_set_base (o_sem o) b) (o_mesh_conn o) (o_registered o) (o_rot o).

(** Assigning members of the base class through the pointer. *)
Definition attrs_set_base (a : NodeAttrs) (b : BaseAttrs) : NodeAttrs :=
  match a with
  | ANode _ => ANode b
  | ASem s => ASem (sem_set_base s b)
  | AObj o => AObj (obj_set_base o b)
  | ARoom r => ARoom (mkRoom (sem_set_base (r_sem r) b) (r_probs r))
  | APlace p => APlace (mkPlace (sem_set_base (p_sem p) b) (p_distance p) (p_basis p)
                          (p_voxblox p) (p_pcl p) (p_labels p) (p_deform p) (p_real p)
                          (p_cleanup p) (p_frontier p) (p_scale p) (p_orient p) (p_nfv p))
  | APlace2d p => APlace2d (mkPlace2d (sem_set_base (d_sem p) b) (d_boundary p) (d_centroid p)
                              (d_compress p) (d_expand p) (d_pcl_boundary p) (d_voxblox p)
                              (d_pcl p) (d_min p) (d_max p) (d_labels p) (d_deform p)
                              (d_finish_merge p) (d_cleanup_split p) (d_active_mesh p))
  | AAgent a => AAgent (mkAgent b (g_rot a) (g_ext a) (g_dbow_ids a) (g_dbow_vals a))
  | AKhronos k => AKhronos (mkKhronos (obj_set_base (k_obj k) b) (k_first k) (k_last k)
                              (k_mesh k) (k_traj_t k) (k_traj_p k) (k_points k) (k_details k))
  end.

Definition attrs_position (a : NodeAttrs) : Vec3 := a_pos (attrs_base a).
Definition attrs_is_active (a : NodeAttrs) : bool := a_active (attrs_base a).
Definition attrs_set_position (a : NodeAttrs) (p : Vec3) : NodeAttrs :=
  let b := attrs_base a in
  attrs_set_base a (mkBase p (a_time b) (a_active b) (a_predicted b)).

(** edge_attributes.h:63-78 *)
Record EdgeAttrs := mkEA { ea_weighted : bool; ea_weight : N }.
(** 1.0 as an IEEE double *)
Definition double_one : N := 4607182418800017408.
(** EdgeAttributes::EdgeAttributes(), edge_attributes.cpp:43 *)
Definition ea_default : EdgeAttrs := mkEA false double_one.

(** A convenient plain attribute value for examples. *)
Definition base_at (x y z : N) : NodeAttrs := ANode (mkBase (mkVec3 x y z) 0 false false).
