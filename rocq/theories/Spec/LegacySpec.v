(** What older versions of the library wrote for node attributes, and what a file from such a
    version says.  Up to 1.0.3 there was no is_predicted flag; up to 1.0.2 colours had three
    components and bounding boxes stored their two corners besides the centre. *)
From Coq Require Import NArith ZArith Bool List.
From stdpp Require Import base list gmap.
From Verif.Model Require Import Types Mesh Attrs Node EdgeContainer SLayer DLayer Graph Binary Versioning AttrCodec Registry GraphCodec.
From Verif.Spec Require Import BinarySpec AttrSpec GraphObs.
Local Open Scope N_scope.

Definition older (v : Version) (major minor patch : N) : Prop :=
  v_major v < major \/ (v_major v = major /\ (v_minor v < minor \/ (v_minor v = minor /\ v_patch v < patch))).
#[global] Instance older_dec v a b c : Decision (older v a b c). Proof. unfold older. solve_decision. Defined.

(** the bytes such a version wrote *)
Definition old_base_bytes (b : BaseAttrs) : result (list N) :=
  seq_writes [cd_write c_vec3d (a_pos b); cd_write c_u64 (a_time b); cd_write c_bool (a_active b)].
Definition old_color_bytes (v : Version) (c : Color) : result (list N) :=
  if decide (older v 1 0 3) then cd_write (codec_vec3 c_u8) (mkVec3 (c_r c) (c_g c) (c_b c)) else cd_write c_color c.
(** [lo], [hi]: the corners; [b]: type, centre and rotation *)
Definition old_box_bytes (v : Version) (lo hi : Vec3) (b : BoundingBox) : result (list N) :=
  if decide (older v 1 0 3)
  then seq_writes [fixed_array 5; cd_write c_i32 (bb_type b); cd_write c_vec3f lo; cd_write c_vec3f hi;
                   cd_write c_vec3f (bb_center b); cd_write c_matrix3f (bb_rot b)]
  else seq_writes [fixed_array 4; cd_write c_i32 (bb_type b); cd_write c_vec3f (bb_dim b);
                   cd_write c_vec3f (bb_center b); cd_write c_matrix3f (bb_rot b)].
Definition old_sem_bytes (v : Version) (lo hi : Vec3) (s : SemAttrs) : result (list N) :=
  seq_writes [old_base_bytes (s_base s); cd_write c_string (s_name s); old_color_bytes v (s_color s);
              old_box_bytes v lo hi (s_bbox s); cd_write c_u32 (s_label s); cd_write c_matrixXd (s_feature s)].

(** what they mean today: not predicted, opaque, the box as wide as its corners are apart *)
Definition not_predicted (b : BaseAttrs) : BaseAttrs := mkBase (a_pos b) (a_time b) (a_active b) false.
Definition from_old (v : Version) (width : Vec3) (s : SemAttrs) : SemAttrs :=
  let c := s_color s in let b := s_bbox s in
  mkSem (not_predicted (s_base s)) (s_name s)
    (if decide (older v 1 0 3) then mkColor (c_r c) (c_g c) (c_b c) 255 else c)
    (if decide (older v 1 0 3) then mkBBox (bb_type b) width (bb_center b) (bb_rot b) else b)
    (s_label s) (s_feature s).

(** the semantic part of attributes, and its replacement *)
Definition sem_of (a : NodeAttrs) : option SemAttrs :=
  match a with
  | ANode _ | AAgent _ => None
  | ASem s => Some s
  | AObj o => Some (o_sem o)
  | ARoom r => Some (r_sem r)
  | APlace p => Some (p_sem p)
  | APlace2d d => Some (d_sem d)
  | AKhronos k => Some (o_sem (k_obj k))
  end.
Definition with_sem (a : NodeAttrs) (s : SemAttrs) : NodeAttrs :=
  match a with
  | ANode _ | AAgent _ => a
  | ASem _ => ASem s
  | AObj o => AObj (mkObj s (o_mesh_conn o) (o_registered o) (o_rot o))
  | ARoom r => ARoom (mkRoom s (r_probs r))
  | APlace p => APlace (mkPlace s (p_distance p) (p_basis p) (p_voxblox p) (p_pcl p) (p_labels p) (p_deform p)
                 (p_real p) (p_cleanup p) (p_frontier p) (p_scale p) (p_orient p) (p_nfv p))
  | APlace2d d => APlace2d (mkPlace2d s (d_boundary d) (d_centroid d) (d_compress d) (d_expand d) (d_pcl_boundary d)
     (d_voxblox d) (d_pcl d) (d_min d) (d_max d) (d_labels d) (d_deform d) (d_finish_merge d) (d_cleanup_split d) (d_active_mesh d))
  | AKhronos k => AKhronos (mkKhronos (mkObj s (o_mesh_conn (k_obj k)) (o_registered (k_obj k)) (o_rot (k_obj k)))
     (k_first k) (k_last k) (k_mesh k) (k_traj_t k) (k_traj_p k) (k_points k) (k_details k))
  end.

(* ------------------------------------------------------------------ *)
(** ** Whole files *)
(** Attributes as an old version wrote them: the parts above in the old layout, the members of
    the class itself as today ([now]: the environment of a current writer). *)
Definition old_part_bytes (v : Version) (lo hi : Vec3) (a : NodeAttrs) : result (list N) :=
  match sem_of a with Some s => old_sem_bytes v lo hi s | None => old_base_bytes (attrs_base a) end.
Definition new_part_bytes (now : Env) (a : NodeAttrs) : result (list N) :=
  write_attr_fields now (match sem_of a with Some s => ASem s | None => ANode (attrs_base a) end).
Definition old_attr_bytes (now : Env) (v : Version) (lo hi : Vec3) (a : NodeAttrs) : result (list N) :=
  let! part := old_part_bytes v lo hi a in
  let! today := new_part_bytes now a in
  let! all := write_attr_fields now a in
  Ok (part ++ drop (length today) all).
(** what the reader makes of them *)
Definition from_old_attrs (v : Version) (width : Vec3) (a : NodeAttrs) : NodeAttrs :=
  match sem_of a with
  | Some s => kept (with_sem a (from_old v width s))
  | None => attrs_set_base a (not_predicted (attrs_base a))
  end.
(** [corners x]: the corners of the box of node [x] *)
Definition old_node_bytes (now : Env) (v : Version) (corners : N -> Vec3 * Vec3) (p : Program) (n : Node) : result (list N) :=
  seq_writes [fixed_array 4; cd_write c_u64 (n_layer n); cd_write c_u64 (n_id n); cd_write c_stamp (n_time n);
              cd_write c_u8 (pg_type p (kind_of (n_attrs n)));
              old_attr_bytes now v (fst (corners (n_id n))) (snd (corners (n_id n))) (n_attrs n)].
(** Before 1.0.2 the id of the mesh layer followed the layer ids, and there were no lists of
    attribute class names. *)
Definition old_graph_bytes (now : Env) (v : Version) (corners : N -> Vec3 * Vec3) (mesh_layer : N) (p : Program) (h : Graph)
    (include_mesh : bool) : result (list N) :=
  seq_writes ([cd_write c_u64s (g_layer_ids h)] ++
    (if decide (older v 1 0 2) then [cd_write c_u64 mesh_layer]
     else [cd_write c_names (rg_names (pg_nodes p)); cd_write c_names (rg_names (pg_edges p))]) ++
    [dynamic_array (map (old_node_bytes now v corners p) (static_nodes h));
     dynamic_array (map (fun o => let! n := deref o in old_node_bytes now v corners p n) (dynamic_slots h));
     dynamic_array (map (write_edge p) (all_edges h));
     match g_mesh h with
     | Some m => if include_mesh then seq_writes [cd_write c_bool true; cd_write c_mesh m] else cd_write c_bool false
     | None => cd_write c_bool false
     end]).
(** [g'] is what a file of version [v] holding [h] means *)
Definition loaded_from_old (fsub : N -> N -> N) (v : Version) (corners : N -> Vec3 * Vec3) (h g' : Graph) : Prop :=
  g_layer_ids g' = g_layer_ids h /\ (forall l, g_has_layer g' l = g_has_layer h l) /\
  (forall x, node_data g' x = match node_data h x with
    | Some (k, t, a) => let '(lo, hi) := corners x in Some (k, t, from_old_attrs v (vsub_with fsub hi lo) a)
    | None => None
    end) /\ same_edges h g'.
