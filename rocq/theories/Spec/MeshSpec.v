(** Reading of the mesh theorems (C43, C44). *)
From Coq Require Import NArith ZArith Bool List.
From stdpp Require Import base list gmap.
From Verif.Model Require Import Types Mesh.
Local Open Scope N_scope.

(** Calls of the mesh interface (the data members are public in C++; writing them directly is
    not covered). *)
Inductive mop :=
| MResizeVertices (n : nat) | MResizeFaces (n : nat) | MClear
| MSetPos (i : N) (p : Vec3) | MSetColor (i : N) (c : Color) | MSetStamp (i t : N)
| MSetFirst (i t : N) | MSetLabel (i t : N) | MSetFace (i : N) (f : Face)
| MEraseVertices (s : gset N) | MEraseFaces (s : gset N) (update_vertices : bool).
Definition mesh_step (m : Mesh) (o : mop) : result Mesh :=
  match o with
  | MResizeVertices n => Ok (mesh_resize_vertices n m)
  | MResizeFaces n => Ok (mesh_resize_faces n m)
  | MClear => Ok (mesh_clear m)
  | MSetPos i p => mesh_set_pos m i p
  | MSetColor i c => mesh_set_color m i c
  | MSetStamp i t => mesh_set_stamp m i t
  | MSetFirst i t => mesh_set_first m i t
  | MSetLabel i t => mesh_set_label m i t
  | MSetFace i f => mesh_set_face m i f
  | MEraseVertices s => mesh_erase_vertices m s
  | MEraseFaces s u => mesh_erase_faces m s u
  end.
Inductive mesh_reachable : Mesh -> Prop :=
| mr_new hc ht hl hf : mesh_reachable (mesh_new hc ht hl hf)
| mr_step m o m' : mesh_reachable m -> mesh_step m o = Ok m' -> mesh_reachable m'.

(** Everything the accessors tell about vertex [i]. *)
Definition vertex (m : Mesh) (i : N) :=
  (mesh_pos m i, mesh_color m i, mesh_stamp m i, mesh_first m i, mesh_label m i).
(** The enabled per-vertex arrays. *)
Definition same_config (m m' : Mesh) : Prop :=
  m_has_colors m' = m_has_colors m /\ m_has_stamps m' = m_has_stamps m /\
  m_has_labels m' = m_has_labels m /\ m_has_first m' = m_has_first m.

(** The indices 0 .. n-1 that are not in [s], ascending. *)
Definition survivors (s : gset N) (n : N) : list N :=
  List.filter (fun i => negb (bool_decide (i ∈ s))) (map N.of_nat (seq 0 (N.to_nat n))).
Definition corners (f : Face) : list N := [f_0 f; f_1 f; f_2 f].
(** Face [f'] has the corners of [f] under the new numbering: new index j is old index kept[j]. *)
Definition renumbered (kept : list N) (f f' : Face) : Prop :=
  Forall2 (fun old new => kept !! N.to_nat new = Some old) (corners f) (corners f').
(** Every face refers to existing vertices. *)
Definition valid_faces (m : Mesh) : Prop :=
  forall f c, f ∈ m_faces m -> c ∈ corners f -> c < mesh_num_vertices m.
(** Faces whose index is not in [s]. *)
Definition remaining_faces (s : gset N) (m : Mesh) : list Face :=
  omap (fun i => m_faces m !! N.to_nat i) (survivors s (mesh_num_faces m)).
