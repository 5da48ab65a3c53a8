(** Reading of the theorems on several meshes (C81): programs over named mesh objects. *)
From Coq Require Import NArith Bool List.
From stdpp Require Import base list gmap.
From Verif.Model Require Import Types Mesh Meshes.
From Verif.Spec Require Import MeshSpec.
Local Open Scope N_scope.

(** The calls are those of the interface of a mesh. *)
Definition interface (o : hop) : Prop :=
  match o with HCall _ f => exists op, forall m, f m = mesh_step m op | _ => True end.

(** The objects a statement names on its left side, or moves from: the others are none of its
    business. *)
Definition writes (o : hop) : list N :=
  match o with
  | HNew x _ _ _ _ => [x] | HClone x _ => [x] | HConsume x y => [x; y]
  | HAssign x _ => [x] | HMove x y => [x; y] | HCall x _ => [x]
  end.
(** The statements that may give an object another configuration *)
Definition reassigns (o : hop) (x : N) : Prop :=
  match o with HAssign z _ => z = x | HMove z _ => z = x | _ => False end.

(** A program: statement by statement.  An exception is caught and the next statement is run
    (the calls that throw change nothing, C44); undefined behaviour ends everything. *)
Fixpoint heap_run (h : Meshes) (os : list hop) : result Meshes :=
  match os with
  | [] => Ok h
  | o :: os' => match heap_step h o with
                | Ok h' => heap_run h' os'
                | Throw => heap_run h os'
                | UB => UB
                end
  end.

(** An object that is there, with no vertex and no face, and with the flags of [b]. *)
Definition emptied (m b : Mesh) : Prop :=
  same_config b m /\ mesh_num_vertices m = 0 /\ mesh_num_faces m = 0 /\ mesh_empty m = true.
