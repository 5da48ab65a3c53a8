(** JSON documents of older versions: what they look like compared with today's, and what they
    mean.  Up to 1.0.3 there was no is_predicted member; up to 1.0.2 colours were arrays of three
    numbers and bounding boxes had their corners "min" and "max" instead of "dimensions"; up to
    1.0.1 the vertices of a mesh were objects with position and colour. *)
From Coq Require Import NArith ZArith Bool List String.
From stdpp Require Import base list gmap.
From Verif.Model Require Import Types Mesh Attrs Node EdgeContainer SLayer DLayer Graph AttrCodec Binary Versioning Registry GraphCodec Json Rotation JsonCodec.
From Verif.Spec Require Import BinarySpec AttrSpec GraphObs LegacySpec JsonSpec.
Local Open Scope N_scope.
Local Open Scope list_scope.

(** the members whose form depends on the version *)
Definition changed_since (v : Version) : list string :=
  if decide (older v 1 0 3) then ["is_predicted"; "color"; "bounding_box"]%string else ["is_predicted"]%string.
(** three numbers *)
Definition color_array (c : Color) : json := JArray [JInt (Z.of_N (c_r c)); JInt (Z.of_N (c_g c)); JInt (Z.of_N (c_b c))].
(** a box with corners [lo] and [hi]; the numbers of a vector are written as today *)
Definition corners_box (lo hi : Vec3) (today box : list (list N * json)) : Prop :=
  obj_get box (str "type") = obj_get today (str "type") /\
  obj_get box (str "world_P_center") = obj_get today (str "world_P_center") /\
  obj_get box (str "world_R_center") = obj_get today (str "world_R_center") /\
  (exists x, obj_get box (str "min") = Some x /\ dump (jc_to jc_vec3f lo) = Ok x) /\
  (exists x, obj_get box (str "max") = Some x /\ dump (jc_to jc_vec3f hi) = Ok x).
(** [o]: the object version [v] wrote for attributes [a], for which today's library writes
    [today] *)
Definition old_object (v : Version) (lo hi : Vec3) (a : NodeAttrs) (today o : list (list N * json)) : Prop :=
  obj_get o (str "type") = obj_get today (str "type") /\
  (forall x, x ∈ json_names (kind_of a) -> x ∉ changed_since v -> obj_get o (str x) = obj_get today (str x)) /\
  (forall s, sem_of a = Some s -> older v 1 0 3 ->
     obj_get o (str "color") = Some (color_array (s_color s)) /\
     exists bt bo, obj_get today (str "bounding_box") = Some (JObject bt) /\ obj_get o (str "bounding_box") = Some (JObject bo) /\ corners_box lo hi bt bo).

(** what it means: as from a binary file of that version, except that an INVALID box is the
    default box *)
Definition from_old_json (v : Version) (width : Vec3) (s : SemAttrs) : SemAttrs :=
  if decide (box_valid (s_bbox s)) then from_old v width s
  else from_old v (mkVec3 0 0 0) s.
Definition old_json_attrs (v : Version) (width : Vec3) (a : NodeAttrs) : NodeAttrs :=
  match sem_of a with
  | Some s => with_sem (through_json a) (from_old_json v width (sem_through s))
  | None => attrs_set_base (through_json a) (not_predicted (base_through (attrs_base a)))
  end.
Definition corner_width (fsub : N -> N -> N) (lo hi : Vec3) : Vec3 :=
  mkVec3 (fsub (coeff32 (v_x hi)) (coeff32 (v_x lo))) (fsub (coeff32 (v_y hi)) (coeff32 (v_y lo))) (fsub (coeff32 (v_z hi)) (coeff32 (v_z lo))).

(* ------------------------------------------------------------------ *)
(** ** Meshes *)
Definition number32 (v : N) : json := JFloat (float_to_double v).
Definition byte_number (v : N) : json := JInt (Z.of_N v).
Definition old_vertex (p : Vec3) (c : Color) (j : json) : Prop := exists o, j = JObject o /\
  obj_get o (str "x") = Some (number32 (v_x p)) /\ obj_get o (str "y") = Some (number32 (v_y p)) /\ obj_get o (str "z") = Some (number32 (v_z p)) /\
  obj_get o (str "r") = Some (byte_number (c_r c)) /\ obj_get o (str "g") = Some (byte_number (c_g c)) /\ obj_get o (str "b") = Some (byte_number (c_b c)).
Definition face_array (f : Face) : json := JArray [JInt (Z.of_N (f_0 f)); JInt (Z.of_N (f_1 f)); JInt (Z.of_N (f_2 f))].
(** up to 1.0.1: vertices with position and colour, and faces *)
Definition vertices_mesh (m : Mesh) (o : list (list N * json)) : Prop :=
  exists vs, obj_get o (str "vertices") = Some (JArray vs) /\ length (m_colors m) = length (m_points m) /\
    Forall2 (fun pc j => old_vertex (fst pc) (snd pc) j) (zip (m_points m) (m_colors m)) vs /\
    obj_get o (str "faces") = Some (JArray (map face_array (m_faces m))).
Definition opaque (c : Color) : Color := mkColor (c_r c) (c_g c) (c_b c) 255.
Definition from_vertices (m : Mesh) : Mesh := mkMesh true false false false (m_points m) (map opaque (m_colors m)) [] [] [] (m_faces m).
(** afterwards: as today *)
Definition mesh_members : list string :=
  ["has_colors"; "has_timestamps"; "has_labels"; "has_first_seen_stamps"; "points"; "colors"; "stamps"; "first_seen_stamps"; "labels"; "faces"]%string.
Definition like_today (m : Mesh) (o : list (list N * json)) : Prop :=
  exists today, mesh_to_text m = Ok (JObject today) /\ forall x, x ∈ mesh_members -> obj_get o (str x) = obj_get today (str x).
(** the header of a document; documents before headers were introduced have none *)
Definition of_version (field : list N) (v : Version) (o : list (list N * json)) : Prop :=
  (exists name j, obj_get o field = Some j /\ is_utf8 name /\ v_major v < 256 /\ v_minor v < 256 /\ v_patch v < 256 /\ dump (jc_to jc_header (mkHeader name v)) = Ok j) \/
  (obj_get o field = None /\ v = mkV 1 0 0).
Definition mesh_document (v : Version) (m : Mesh) (o : list (list N * json)) : Prop :=
  of_version (str "header") v o /\ if decide (older v 1 0 2) then vertices_mesh m o else like_today m o.
Definition mesh_meant (v : Version) (m : Mesh) : Mesh := if decide (older v 1 0 2) then from_vertices m else mesh_through m.
Definition old_json_mesh (v : Version) (m : Mesh) : Prop := json_mesh m /\ (older v 1 0 2 -> Forall (vec_finite 8 23) (m_points m)).

(* ------------------------------------------------------------------ *)
(** ** Graphs *)
Definition header_name : list N := str "SPARK_DSG_header".
(** a JSON text: names are UTF-8 and numbers are finite *)
Definition is_text (j : json) : Prop := dump j = Ok j.
Definition old_node (v : Version) (corners : N -> Vec3 * Vec3) (h : Graph) (jt jo : json) : Prop :=
  exists x k t a nt no ta ao, node_data h x = Some (k, t, a) /\ jt = JObject nt /\ jo = JObject no /\ obj_get nt (str "id") = Some (JInt (Z.of_N x)) /\
    (forall name, name ∈ ["id"; "layer"; "timestamp"]%string -> obj_get no (str name) = obj_get nt (str name)) /\
    obj_get nt (str "attributes") = Some (JObject ta) /\ obj_get no (str "attributes") = Some (JObject ao) /\
    old_object v (fst (corners x)) (snd (corners x)) a ta ao.
(** [o]: what version [v] wrote for [h], for which today's library writes [today]; the mesh is
    [m], if there is one *)
Definition old_document (v : Version) (corners : N -> Vec3 * Vec3) (h : Graph) (m : option Mesh) (today o : list (list N * json)) : Prop :=
  is_text (JObject o) /\ of_version header_name v o /\
  obj_get o (str "layer_ids") = obj_get today (str "layer_ids") /\ obj_get o (str "edges") = obj_get today (str "edges") /\
  (exists ts os, obj_get today (str "nodes") = Some (JArray ts) /\ obj_get o (str "nodes") = Some (JArray os) /\ Forall2 (old_node v corners h) ts os) /\
  match m with
  | Some m => exists mo, obj_get o (str "mesh") = Some (JObject mo) /\ old_json_mesh v m /\ mesh_document v m mo
  | None => obj_get o (str "mesh") = None
  end.
Definition loaded_from_old_json (fsub : N -> N -> N) (v : Version) (corners : N -> Vec3 * Vec3) (h g' : Graph) : Prop :=
  g_layer_ids g' = g_layer_ids h /\ (forall l, g_has_layer g' l = g_has_layer h l) /\
  (forall x, node_data g' x = match node_data h x with
    | Some (k, t, a) => let '(lo, hi) := corners x in Some (k, t, old_json_attrs v (corner_width fsub lo hi) a)
    | None => None
    end) /\ same_edges h g'.
