(** Boxes around nodes of a graph and around meshes: computeAncestorBoundingBox
    (src/scene_graph_utilities.cpp:64-98) and BoundingBox::MeshAdaptor (src/bounding_box.cpp:281-288).
    [cast] converts one stored coefficient (a double of a position, a float of a mesh vertex)
    into a number of the arithmetic. *)
From Coq Require Import NArith Bool List.
From stdpp Require Import base list gmap.
From Verif.Model Require Import Types Mesh Attrs Node EdgeContainer SLayer DLayer Graph Search Views Numbers BBox.
Local Open Scope N_scope.
Local Open Scope list_scope.

Section fit.
Context (A : Arith) (cast : N -> A).
Definition cast_point (v : Vec3) : V3 A := mkV3 (cast (v_x v)) (cast (v_y v)) (cast (v_z v)).

(** PointAdaptor::get for every index.  The code calls it again whenever it needs a point; the
    model reads all points once, in order (nothing changes in between, and with no points
    get is not called). *)
Fixpoint points_of {I} (get : I -> result Vec3) (l : list I) : result (list (V3 A)) :=
  match l with
  | [] => Ok []
  | x :: r => let! p := get x in let! ps := points_of get r in Ok (cast_point p :: ps)
  end.

(** computeAncestorBoundingBox, scene_graph_utilities.cpp:84-98, with NodeAdaptor, 64-82.
    [child_layer] (a LayerId) converts to the key of a static layer.  extract looks at the type
    before any point: with INVALID or OBB no position is read. *)
Definition reads_points (t : box_type) : bool := match t with AABB | RAABB => true | INVALID | OBB => false end.
Definition fit {I} (get : I -> result Vec3) (l : list I) (t : box_type) : result (Box A) :=
  if reads_points t then let! ps := points_of get l in Ok (box_extract A ps t) else Ok (box_default A).
Definition ancestor_box (g : Graph) (parent : N) (child_layer : LayerId) (t : box_type) (fuel : nat) : fueled (Box A) :=
  match ancestors g (key_static child_layer) fuel parent with
  | None => None
  | Some (Ok nodes) => Some (fit (g_get_position g) nodes t)
  | Some Throw => Some Throw
  | Some UB => Some UB
  end.

(** MeshAdaptor: all vertices, or those at the given indices; [indices->at] cannot throw, as the
    index is below [indices->size()]; mesh.pos throws out of range (mesh.cpp:113). *)
Definition mesh_indices (m : Mesh) (indices : option (list N)) : list N :=
  match indices with Some l => l | None => map N.of_nat (seq 0 (length (m_points m))) end.
Definition mesh_box (m : Mesh) (indices : option (list N)) (t : box_type) : result (Box A) :=
  fit (mesh_pos m) (mesh_indices m indices) t.
End fit.
