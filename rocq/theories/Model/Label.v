(** * Labels for rooms in Python: add_gt_room_label, python/src/spark_dsg/mp3d.py:491-556

    The rooms of the house file are parameters: the label and the test pos_on_same_floor of each
    (mp3d.py:192-202, 243-251).  So are the polygon of a list of places (_get_combined_polygon,
    mp3d.py:319-327) and the ratio of areas (shapely): [None] means that they raise.  [less] is
    the comparison of two ratios, [below] the comparison with min_iou_threshold.  What
    verbose=True prints is not modelled. *)
From Coq Require Import NArith Bool List.
From stdpp Require Import base list gmap.
From Verif.Model Require Import Types Mesh Attrs Node EdgeContainer SLayer DLayer Graph PyConvert Expand Repartition.
Local Open Scope N_scope.
Local Open Scope list_scope.
Set Default Proof Using "Type".

(** attributes.semantic_label = l, spark_dsg_bindings.cpp:270: the attributes of places, objects
    and rooms have the member; on other attributes Python raises AttributeError *)
Definition sem_set_label (s : SemAttrs) (l : N) : SemAttrs :=
  mkSem (s_base s) (s_name s) (s_color s) (s_bbox s) l (s_feature s).
Definition obj_set_label (o : ObjAttrs) (l : N) : ObjAttrs :=
  mkObj (sem_set_label (o_sem o) l) (o_mesh_conn o) (o_registered o) (o_rot o).
Definition attrs_set_label (a : NodeAttrs) (l : N) : option NodeAttrs :=
  match a with
  | ANode _ | AAgent _ => None
  | ASem s => Some (ASem (sem_set_label s l))
  | AObj o => Some (AObj (obj_set_label o l))
  | ARoom r => Some (ARoom (Attrs.mkRoom (sem_set_label (r_sem r) l) (r_probs r)))
  | APlace p => Some (APlace (mkPlace (sem_set_label (p_sem p) l) (p_distance p) (p_basis p)
                          (p_voxblox p) (p_pcl p) (p_labels p) (p_deform p) (p_real p)
                          (p_cleanup p) (p_frontier p) (p_scale p) (p_orient p) (p_nfv p)))
  | APlace2d p => Some (APlace2d (mkPlace2d (sem_set_label (d_sem p) l) (d_boundary p) (d_centroid p)
                              (d_compress p) (d_expand p) (d_pcl_boundary p) (d_voxblox p)
                              (d_pcl p) (d_min p) (d_max p) (d_labels p) (d_deform p)
                              (d_finish_merge p) (d_cleanup_split p) (d_active_mesh p)))
  | AKhronos k => Some (AKhronos (mkKhronos (obj_set_label (k_obj k) l) (k_first k) (k_last k)
                              (k_mesh k) (k_traj_t k) (k_traj_p k) (k_points k) (k_details k)))
  end.

Record GtRoom := mkGt { gr_label : N; gr_floor : Vec3 -> bool }.

Section label.
Context {P S : Type} (area : list NodeAttrs -> option P) (iou : GtRoom -> P -> option S) (less : S -> S -> bool) (below : S -> bool).

(** mp3d.py:533-545: the ratios for the rooms of the house on the same floor *)
Definition score (pos : Vec3) (p : P) (acc : list (GtRoom * S)) (gt : GtRoom) : result (list (GtRoom * S)) :=
  if gr_floor gt pos then let! s := at_ (iou gt p) in Ok (acc ++ [(gt, s)]) else Ok acc.
(** max(l, key=lambda x: x[1]), mp3d.py:547: the first of the largest; ValueError if [l] is empty *)
Definition best (l : list (GtRoom * S)) : result (GtRoom * S) :=
  match l with
  | [] => Throw
  | x :: r => Ok (fold_left (fun m y => if less (snd m) (snd y) then y else m) r x)
  end.
(** mp3d.py:516-518 with use_hydra_polygon; 520-530 without it: a BoundingBox has no min_corner
    in Python (spark_dsg_bindings.cpp:209-241), and attributes without a box have no
    bounding_box, so that AttributeError is raised either way *)
Definition room_area (polygon : bool) (g : Graph) (room : Node) : result P -> Prop :=
  if polygon
  then py_then (py_over (child_attrs g) (elements (n_chd room)) []) (fun l => eq (at_ (area l)))
  else eq Throw.
(** mp3d.py:516-554, one round: the new attributes of the room, if any *)
Definition room_label (gts : list GtRoom) (polygon : bool) (g : Graph) (id : N) : result (option NodeAttrs) -> Prop :=
  py_then (eq (g_get_node g id)) (fun room =>
    py_then (room_area polygon g room) (fun p =>
      py_then (eq (rfold (score (attrs_position (n_attrs room)) p) gts [])) (fun scores =>
        py_then (eq (best scores)) (fun m r =>
          if below (snd m) then r = Ok None
          else r = (let! a := at_ (attrs_set_label (n_attrs room) (gr_label (fst m))) in Ok (Some a)))))).
(** mp3d.py:512-554: the graph after the loop, and whether an exception left it.  The attributes
    are changed in place; nodes that share one attributes object are not modelled. *)
Inductive label_loop (gts : list GtRoom) (polygon : bool) : list N -> Graph -> Graph * result unit -> Prop :=
| label_end g : label_loop gts polygon [] g (g, Ok tt)
| label_keep x l g r : room_label gts polygon g x (Ok None) -> label_loop gts polygon l g r -> label_loop gts polygon (x :: l) g r
| label_set x l g a b g1 r : room_label gts polygon g x (Ok (Some a)) -> g_set_node_attributes g x a = Ok (b, g1) ->
    label_loop gts polygon l g1 r -> label_loop gts polygon (x :: l) g r
| label_throw x l g : room_label gts polygon g x Throw -> label_loop gts polygon (x :: l) g (g, Throw)
| label_ub x l g : room_label gts polygon g x UB -> label_loop gts polygon (x :: l) g (g, UB).
(** add_gt_room_label: the rooms in any order; without their layer G.get_layer raises *)
Definition add_gt_room_label (gts : list GtRoom) (polygon : bool) (g : Graph) (r : Graph * result unit) : Prop :=
  match layer_nodes g ROOMS with
  | Ok ids => exists l, l ≡ₚ ids /\ label_loop gts polygon l g r
  | Throw => r = (g, Throw)
  | UB => r = (g, UB)
  end.
End label.
