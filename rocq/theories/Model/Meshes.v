(** Model of several spark_dsg::Mesh objects in one program: construction, clone, copy and
    move.  Sources: src/mesh.cpp:41-76, 111, include/spark_dsg/mesh.h:62-72.
    A program state maps the name of each live object to its value.
    Simplifications: the assignment operators write to const members through const_cast
    (which the C++ standard leaves undefined); the model performs the write that is asked for.
    A moved-from std::vector is empty, and a vector moved to itself is empty, as in libstdc++
    (the standard leaves both unspecified). *)
From Coq Require Import NArith Bool List.
From stdpp Require Import base list gmap.
From Verif.Model Require Import Types Mesh.
Local Open Scope N_scope.

Notation Meshes := (gmap N Mesh).

(** mesh.h:67 (defaulted copy constructor) and mesh.cpp:111 (clone) *)
Definition mesh_copy (other : Mesh) : Mesh :=
  mkMesh (m_has_colors other) (m_has_stamps other) (m_has_labels other) (m_has_first other)
    (m_points other) (m_colors other) (m_stamps other) (m_first other) (m_labels other) (m_faces other).

(** mesh.cpp:50-62, operator=(const Mesh&): every member is replaced; nothing of the old value
    of the left side is left. *)
Definition mesh_assign (self other : Mesh) : Mesh :=
  let self := mkMesh (m_has_colors other) (m_has_stamps other) (m_has_labels other) (m_has_first other)
                (m_points self) (m_colors self) (m_stamps self) (m_first self) (m_labels self) (m_faces self) in
  mkMesh (m_has_colors self) (m_has_stamps self) (m_has_labels self) (m_has_first self)
    (m_points other) (m_colors other) (m_stamps other) (m_first other) (m_labels other) (m_faces other).

(** What is left in the source of a move (mesh.cpp:64-76, mesh.h:68): the flags are bool and
    are copied, the vectors are emptied. *)
Definition mesh_moved_from (m : Mesh) : Mesh :=
  mkMesh (m_has_colors m) (m_has_stamps m) (m_has_labels m) (m_has_first m) [] [] [] [] [] [].

(** The statements of the program *)
Inductive hop :=
| HNew (x : N) (hc ht hl hf : bool)   (* Mesh x(hc, ht, hl, hf) *)
| HClone (x y : N)                    (* x = y.clone(), or Mesh x(y) *)
| HConsume (x y : N)                  (* Mesh x(std::move(y)) *)
| HAssign (x y : N)                   (* x = y *)
| HMove (x y : N)                     (* x = std::move(y) *)
| HCall (x : N) (f : Mesh -> result Mesh). (* a call x.f(...) *)

(** A new object needs a new name; a statement about an object that does not exist is not a
    program. *)
Definition heap_step (h : Meshes) (o : hop) : result Meshes :=
  match o with
  | HNew x hc ht hl hf =>
      match h !! x with Some _ => UB | None => Ok (<[x := mesh_new hc ht hl hf]> h) end
  | HClone x y =>
      match h !! x, h !! y with
      | None, Some m => Ok (<[x := mesh_copy m]> h)
      | _, _ => UB
      end
  | HConsume x y =>
      match h !! x, h !! y with
      | None, Some m => Ok (<[x := mesh_copy m]> (<[y := mesh_moved_from m]> h))
      | _, _ => UB
      end
  | HAssign x y =>
      match h !! x, h !! y with
      | Some a, Some b => Ok (<[x := mesh_assign a b]> h)
      | _, _ => UB
      end
  | HMove x y =>
      match h !! x, h !! y with
      | Some a, Some b => Ok (<[y := mesh_moved_from b]> (<[x := mesh_assign a b]> h))
      | _, _ => UB
      end
  | HCall x f =>
      match h !! x with
      | Some m => rmap (fun m' => <[x := m']> h) (f m)
      | None => UB
      end
  end.
