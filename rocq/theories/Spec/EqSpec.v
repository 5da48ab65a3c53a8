(** What operator== on node attributes compares.  Nothing here mentions the comparison code.
    [plain a] is [a] with everything removed that == does not distinguish: the sign of a zero,
    the payload of a NaN coordinate of the position, and the members no comparison looks at.
    [seen_as k b] is [b] viewed as an object of class [k]: [b] with the members of its derived
    classes cut off, or nothing if [b]'s class does not derive from [k]. *)
From Coq Require Import NArith ZArith Bool List.
From stdpp Require Import base list gmap.
From Verif.Model Require Import Types Mesh Attrs AttrCodec.
From Verif.Spec Require Import BinarySpec AttrSpec.
Local Open Scope N_scope.

(** all bits but the sign bit are zero *)
Definition plain_float (bits v : N) : N := if v mod 2 ^ (bits - 1) =? 0 then 0 else v.
Definition quiet_nan : N := 9221120237041090560.      (* 0x7FF8000000000000 *)
Definition nan64 (v : N) : bool := ((v / 2 ^ 52) mod 2 ^ 11 =? 2 ^ 11 - 1) && negb (v mod 2 ^ 52 =? 0).
Definition plain_coordinate (v : N) : N := if nan64 v then quiet_nan else plain_float 64 v.

Definition plain_vec (f : N -> N) (v : Vec3) : Vec3 := mkVec3 (f (v_x v)) (f (v_y v)) (f (v_z v)).
Definition plain_quat (q : Quat) : Quat := let f := plain_float 64 in mkQuat (f (q_w q)) (f (q_x q)) (f (q_y q)) (f (q_z q)).
Definition plain_matrix (f : N -> N) (m : Matrix) : Matrix := mkMatrix (mx_rows m) (mx_cols m) (map f (mx_data m)).
Definition zero_vec : Vec3 := mkVec3 0 0 0.
Definition no_matrix : Matrix := mkMatrix 0 0 [].
(** an invalid box (type 0) has no extent, an axis-aligned one (type 1) no rotation *)
Definition plain_bbox (b : BoundingBox) : BoundingBox :=
  if (bb_type b =? 0)%Z then mkBBox 0 zero_vec zero_vec no_matrix
  else mkBBox (bb_type b) (plain_vec (plain_float 32) (bb_dim b)) (plain_vec (plain_float 32) (bb_center b))
         (if (bb_type b =? 1)%Z then no_matrix else plain_matrix (plain_float 32) (bb_rot b)).
Definition plain_nvi (i : NearestVertexInfo) : NearestVertexInfo :=
  mkNVI (nv_block i) (map (plain_float 64) (nv_voxel i)) (nv_vertex i) (nv_label i).
Definition plain_mesh (m : Mesh) : Mesh :=
  mkMesh (m_has_colors m) (m_has_stamps m) (m_has_labels m) (m_has_first m) (map (plain_vec (plain_float 32)) (m_points m))
    (m_colors m) (m_stamps m) (m_first m) (m_labels m) (m_faces m).
Definition plain_base (b : BaseAttrs) : BaseAttrs :=
  mkBase (plain_vec plain_coordinate (a_pos b)) (a_time b) (a_active b) (a_predicted b).
Definition plain_sem (s : SemAttrs) : SemAttrs :=
  mkSem (plain_base (s_base s)) (s_name s) (s_color s) (plain_bbox (s_bbox s)) (s_label s) (plain_matrix (plain_float 64) (s_feature s)).
Definition plain_obj (o : ObjAttrs) : ObjAttrs :=
  mkObj (plain_sem (o_sem o)) (o_mesh_conn o) (o_registered o) (plain_quat (o_rot o)).
Definition plain (a : NodeAttrs) : NodeAttrs :=
  match a with
  | ANode b => ANode (plain_base b)
  | ASem s => ASem (plain_sem s)
  | AObj o => AObj (plain_obj o)
  | ARoom r => ARoom (mkRoom (plain_sem (r_sem r)) ∅)                       (* not the probabilities *)
  | APlace p => APlace (mkPlace (plain_sem (p_sem p)) (plain_float 64 (p_distance p)) (p_basis p) (map plain_nvi (p_voxblox p))
      (p_pcl p) (p_labels p) (p_deform p) (p_real p) (p_cleanup p) (p_frontier p) (plain_vec (plain_float 64) (p_scale p))
      (plain_quat (p_orient p)) (p_nfv p))
  | APlace2d d =>                                       (* not the min/max index and need_finish_merge *)
      APlace2d (mkPlace2d (plain_sem (d_sem d)) (map (plain_vec (plain_float 64)) (d_boundary d))
      (plain_vec (plain_float 64) (d_centroid d)) (plain_matrix (plain_float 64) (d_compress d)) (plain_matrix (plain_float 64) (d_expand d))
      (d_pcl_boundary d) (map plain_nvi (d_voxblox d)) (d_pcl d) 0 0 (d_labels d) (d_deform d) false (d_cleanup_split d) (d_active_mesh d))
  | AAgent g => AAgent (mkAgent (plain_base (g_base g)) (plain_quat (g_rot g)) (g_ext g) (g_dbow_ids g)
      (plain_matrix (plain_float 32) (g_dbow_vals g)))
  | AKhronos k => AKhronos (mkKhronos (plain_obj (k_obj k)) (k_first k) (k_last k) (plain_mesh (k_mesh k))
      [] (map (plain_vec (plain_float 32)) (k_traj_p k)) (map (map (plain_vec (plain_float 32))) (k_points k)) (k_details k))
      (* not the trajectory timestamps *)
  end.

Definition seen_as (k : Kind) (b : NodeAttrs) : option NodeAttrs :=
  match k, b with
  | KNode, _ => Some (ANode (attrs_base b))
  | KSem, ASem s => Some (ASem s)
  | KSem, AObj o => Some (ASem (o_sem o))
  | KSem, ARoom r => Some (ASem (r_sem r))
  | KSem, APlace p => Some (ASem (p_sem p))
  | KSem, APlace2d d => Some (ASem (d_sem d))
  | KSem, AKhronos h => Some (ASem (o_sem (k_obj h)))
  | KObj, AObj o => Some (AObj o)
  | KObj, AKhronos h => Some (AObj (k_obj h))
  | KRoom, ARoom _ | KPlace, APlace _ | KPlace2d, APlace2d _ | KAgent, AAgent _ | KKhronos, AKhronos _ => Some b
  | _, _ => None
  end.
Definition plain_edge (e : EdgeAttrs) : EdgeAttrs := mkEA (ea_weighted e) (plain_float 64 (ea_weight e)).
