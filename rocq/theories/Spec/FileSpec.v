(** Version order and path decomposition, stated independently of the code. *)
From Coq Require Import NArith ZArith Bool List.
From stdpp Require Import base list gmap.
From Verif.Model Require Import Types Versioning.
Local Open Scope N_scope.

(** lexicographic order *)
Definition older (a b : Version) : Prop :=
  v_major a < v_major b \/
  (v_major a = v_major b /\ (v_minor a < v_minor b \/ (v_minor a = v_minor b /\ v_patch a < v_patch b))).
(** [path] consists of a directory part (empty or ending in a slash) and a file name. *)
Definition splits (path dir file : list N) : Prop :=
  path = dir ++ file /\ 47 ∉ file /\ (dir = [] \/ exists d, dir = d ++ [47]).
(** [file] is [stem].[ext]: a non-empty stem before the last dot (".." has no extension). *)
Definition has_ext (file ext : list N) : Prop :=
  exists stem, file = stem ++ 46 :: ext /\ stem <> [] /\ 46 ∉ ext /\ file <> [46; 46].
Definition no_ext (file : list N) : Prop := forall ext, ~ has_ext file ext.
