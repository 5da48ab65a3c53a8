(** Which file a name stands for, and which operations write to a file. *)
From Coq Require Import NArith ZArith Bool List String.
From stdpp Require Import base list gmap.
From Verif.Model Require Import Types Mesh Graph Versioning Disk.
From Verif.Spec Require Import FileSpec.
Local Open Scope N_scope.

(** The file of [path] is [f], a JSON file or not: a name without an extension gets one. *)
Definition names (path : list N) (json : bool) (f : list N) : Prop :=
  exists dir file, splits path dir file /\ file <> [] /\
    ((exists ext, has_ext file ext /\ f = path /\ if json then ext = str "json" \/ ext = str "bson" else ext = str "sparkdsg") \/
     (no_ext file /\ json = false /\ f = path ++ str ".sparkdsg")).
Definition may_write (path f : list N) : Prop :=
  exists dir file, splits path dir file /\ ((exists ext, has_ext file ext) /\ f = path \/ no_ext file /\ f = path ++ str ".sparkdsg").
Definition writes (o : DiskOp) (f : list N) : Prop :=
  match o with
  | DSave _ _ path _ _ => may_write path f
  | DSaveMesh _ path _ => may_write path f
  | DLoad _ _ => False
  | DLoadMesh _ => False
  | DOther f' _ => f' = f
  end.
Definition untouched (f : list N) (l : list DiskOp) : Prop := Forall (fun o => ~ writes o f) l.
(** the operating system lets the process write to it, and it is not a directory *)
Definition can_write (os : list N -> bool) (d : Disk) (f : list N) : Prop := os f = true /\ d !! f <> Some Folder.
