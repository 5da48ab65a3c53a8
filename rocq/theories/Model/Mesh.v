(** Model of spark_dsg::Mesh.  Sources: include/spark_dsg/mesh.h, src/mesh.cpp,
    include/spark_dsg/color.h (the Color record).
    Simplifications: floats are their 32-bit patterns; [transform]
    (mesh.cpp:245-249) is in MeshMatrix.v; indices are [N]. *)
From Coq Require Import NArith Bool List.
From stdpp Require Import base list gmap.
From Verif.Model Require Import Types.
Local Open Scope N_scope.

(** color.h:43-48: four uint8_t *)
Record Color := mkColor { c_r : N; c_g : N; c_b : N; c_a : N }.
Definition color_default : Color := mkColor 0 0 0 255.

(** Eigen::Vector3f / Vector3d as three bit patterns *)
Record Vec3 := mkVec3 { v_x : N; v_y : N; v_z : N }.

(** mesh.h:53 Face = std::array<size_t,3> *)
Record Face := mkFace { f_0 : N; f_1 : N; f_2 : N }.

#[global] Instance Color_eq_dec : EqDecision Color. Proof. solve_decision. Defined.
#[global] Instance Vec3_eq_dec : EqDecision Vec3. Proof. solve_decision. Defined.
#[global] Instance Face_eq_dec : EqDecision Face. Proof. solve_decision. Defined.

(** mesh.h:246-255 *)
Record Mesh := mkMesh {
  m_has_colors : bool; m_has_stamps : bool; m_has_labels : bool; m_has_first : bool;
  m_points : list Vec3; m_colors : list Color; m_stamps : list N;
  m_first : list N; m_labels : list N; m_faces : list Face }.

#[global] Instance Mesh_eq_dec : EqDecision Mesh. Proof. solve_decision. Defined.

(** mesh.cpp:41-48 *)
Definition mesh_new (hc ht hl hf : bool) : Mesh := mkMesh hc ht hl hf [] [] [] [] [] [].

(** mesh.cpp:78-87 *)
Definition mesh_empty (m : Mesh) : bool :=
  match m_points m, m_faces m with [], [] => true | _, _ => false end.
Definition mesh_clear (m : Mesh) : Mesh :=
  mkMesh (m_has_colors m) (m_has_stamps m) (m_has_labels m) (m_has_first m) [] [] [] [] [] [].

Definition mesh_num_vertices (m : Mesh) : N := N.of_nat (length (m_points m)). (* 89 *)
Definition mesh_num_faces (m : Mesh) : N := N.of_nat (length (m_faces m)).     (* 91 *)

(** std::vector::resize(n, d) *)
Definition vresize {A} (n : nat) (d : A) (l : list A) : list A := resize n d l.

(** mesh.cpp:93-107.  A new Eigen::Vector3f is uninitialised in C++; the model uses
    zero for it (no property depends on that value). *)
Definition mesh_resize_vertices (n : nat) (m : Mesh) : Mesh :=
  mkMesh (m_has_colors m) (m_has_stamps m) (m_has_labels m) (m_has_first m)
    (vresize n (mkVec3 0 0 0) (m_points m))
    (if m_has_colors m then vresize n color_default (m_colors m) else m_colors m)
    (if m_has_stamps m then vresize n 0 (m_stamps m) else m_stamps m)
    (if m_has_first m then vresize n 0 (m_first m) else m_first m)
    (if m_has_labels m then vresize n 0 (m_labels m) else m_labels m)
    (m_faces m).
(** mesh.cpp:109 *)
Definition mesh_resize_faces (n : nat) (m : Mesh) : Mesh :=
  mkMesh (m_has_colors m) (m_has_stamps m) (m_has_labels m) (m_has_first m)
    (m_points m) (m_colors m) (m_stamps m) (m_first m) (m_labels m)
    (vresize n (mkFace 0 0 0) (m_faces m)).

(** std::vector::at on read *)
Definition vat {A} (l : list A) (i : N) : result A :=
  if i <? N.of_nat (length l) then at_ (l !! N.to_nat i) else Throw.
(** assignment through std::vector::at *)
Definition vset {A} (l : list A) (i : N) (a : A) : result (list A) :=
  if i <? N.of_nat (length l) then Ok (<[N.to_nat i := a]> l) else Throw.

(** mesh.cpp:113-141 *)
Definition mesh_pos (m : Mesh) (i : N) := vat (m_points m) i.
Definition mesh_color (m : Mesh) (i : N) := vat (m_colors m) i.
Definition mesh_stamp (m : Mesh) (i : N) := vat (m_stamps m) i.
Definition mesh_first (m : Mesh) (i : N) := vat (m_first m) i.
Definition mesh_label (m : Mesh) (i : N) := vat (m_labels m) i.
Definition mesh_face (m : Mesh) (i : N) := vat (m_faces m) i.

Definition mesh_set_pos (m : Mesh) (i : N) (p : Vec3) : result Mesh :=
  rmap (fun l => mkMesh (m_has_colors m) (m_has_stamps m) (m_has_labels m) (m_has_first m)
                   l (m_colors m) (m_stamps m) (m_first m) (m_labels m) (m_faces m))
       (vset (m_points m) i p).
Definition mesh_set_color (m : Mesh) (i : N) (c : Color) : result Mesh :=
  rmap (fun l => mkMesh (m_has_colors m) (m_has_stamps m) (m_has_labels m) (m_has_first m)
                   (m_points m) l (m_stamps m) (m_first m) (m_labels m) (m_faces m))
       (vset (m_colors m) i c).
Definition mesh_set_stamp (m : Mesh) (i : N) (t : N) : result Mesh :=
  rmap (fun l => mkMesh (m_has_colors m) (m_has_stamps m) (m_has_labels m) (m_has_first m)
                   (m_points m) (m_colors m) l (m_first m) (m_labels m) (m_faces m))
       (vset (m_stamps m) i t).
Definition mesh_set_first (m : Mesh) (i : N) (t : N) : result Mesh :=
  rmap (fun l => mkMesh (m_has_colors m) (m_has_stamps m) (m_has_labels m) (m_has_first m)
                   (m_points m) (m_colors m) (m_stamps m) l (m_labels m) (m_faces m))
       (vset (m_first m) i t).
Definition mesh_set_label (m : Mesh) (i : N) (t : N) : result Mesh :=
  rmap (fun l => mkMesh (m_has_colors m) (m_has_stamps m) (m_has_labels m) (m_has_first m)
                   (m_points m) (m_colors m) (m_stamps m) (m_first m) l (m_faces m))
       (vset (m_labels m) i t).
Definition mesh_set_face (m : Mesh) (i : N) (f : Face) : result Mesh :=
  rmap (fun l => mkMesh (m_has_colors m) (m_has_stamps m) (m_has_labels m) (m_has_first m)
                   (m_points m) (m_colors m) (m_stamps m) (m_first m) (m_labels m) l)
       (vset (m_faces m) i f).

(** *** eraseVertices (mesh.cpp:143-215) *)

(** The copy loop (mesh.cpp:169-188) for one array: push_back(a[old_index]) for every
    old_index below [n] not in [indices]; [a[old_index]] is unchecked, so a shorter array
    is undefined behaviour.  [i] is old_index. *)
Fixpoint copy_kept {A} (indices : gset N) (i : N) (n : nat) (a : list A) : result (list A) :=
  match n with
  | O => Ok []
  | S n' =>
    let rest := match a with [] => [] | _ :: r => r end in
    if bool_decide (i ∈ indices) then copy_kept indices (i + 1) n' rest
    else match a with
         | [] => UB
         | x :: _ => let! l := copy_kept indices (i + 1) n' rest in Ok (x :: l)
         end
  end.

(** old_to_new (mesh.cpp:145,175) *)
Fixpoint old_to_new (indices : gset N) (i new_index : N) (n : nat) (acc : gmap N N) : gmap N N :=
  match n with
  | O => acc
  | S n' => if bool_decide (i ∈ indices) then old_to_new indices (i + 1) new_index n' acc
            else old_to_new indices (i + 1) (new_index + 1) n' (<[i := new_index]> acc)
  end.

(** Face update (mesh.cpp:196-214): the face is dropped at the first vertex missing in the
    map, otherwise all its three indices are replaced. *)
Definition remap_face (m : gmap N N) (f : Face) : option Face :=
  match m !! f_0 f with
  | None => None
  | Some a => match m !! f_1 f with
              | None => None
              | Some b => match m !! f_2 f with
                          | None => None
                          | Some c => Some (mkFace a b c) end end end.

Fixpoint omap_faces (m : gmap N N) (l : list Face) : list Face :=
  match l with
  | [] => []
  | f :: r => match remap_face m f with
              | Some f' => f' :: omap_faces m r
              | None => omap_faces m r end
  end.

(** [reserve(numVertices() - indices.size())] underflows to a huge size_t and throws
    std::length_error when the index set is larger than the mesh (mesh.cpp:154-155). *)
Definition mesh_erase_vertices (m : Mesh) (indices : gset N) : result Mesh :=
  let nv := length (m_points m) in
  if (nv <? size indices)%nat then Throw
  else
    let! pts := copy_kept indices 0 nv (m_points m) in
    let! cols := (if m_has_colors m then copy_kept indices 0 nv (m_colors m) else Ok []) in
    let! stamps := (if m_has_stamps m then copy_kept indices 0 nv (m_stamps m) else Ok []) in
    let! labels := (if m_has_labels m then copy_kept indices 0 nv (m_labels m) else Ok []) in
    let! first := (if m_has_first m then copy_kept indices 0 nv (m_first m) else Ok []) in
    let o2n := old_to_new indices 0 0 nv ∅ in
    Ok (mkMesh (m_has_colors m) (m_has_stamps m) (m_has_labels m) (m_has_first m)
          pts cols stamps first labels (omap_faces o2n (m_faces m))).

(** *** eraseFaces (mesh.cpp:217-243) *)
Definition face_vertices (fs : list Face) : gset N :=
  list_to_set (concat (map (fun f => [f_0 f; f_1 f; f_2 f]) fs)).

Definition mesh_erase_faces (m : Mesh) (indices : gset N) (update_vertices : bool) : result Mesh :=
  let nf := length (m_faces m) in
  if (nf <? size indices)%nat then Throw
  else
    let! fs := copy_kept indices 0 nf (m_faces m) in
    let m' := mkMesh (m_has_colors m) (m_has_stamps m) (m_has_labels m) (m_has_first m)
                (m_points m) (m_colors m) (m_stamps m) (m_first m) (m_labels m) fs in
    if negb update_vertices then Ok m'
    else
      let all := list_to_set (map N.of_nat (seq 0 (length (m_points m)))) : gset N in
      mesh_erase_vertices m' (all ∖ face_vertices fs).

(** operator== (mesh.cpp:251-258): component-wise.  The model compares float bit patterns;
    C++ compares float values (differs for NaN and signed zero). *)
Definition mesh_eqb (a b : Mesh) : bool := bool_decide (a = b).
