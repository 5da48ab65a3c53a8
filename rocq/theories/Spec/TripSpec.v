(** Saving a graph and loading it again, any number of times, in either format, by any programs. *)
From Coq Require Import NArith ZArith Bool List.
From stdpp Require Import base list gmap.
From Verif.Model Require Import Types Mesh Attrs Node EdgeContainer SLayer DLayer Graph Binary Versioning AttrCodec Registry GraphCodec Json Rotation JsonCodec GraphJson Disk.
From Verif.Spec Require Import BinarySpec AttrSpec RegistrySpec ProgramSpec GraphObs JsonSpec.
Local Open Scope N_scope.

(** [TBinary p q m]: program [p] saves, program [q] loads, with the mesh or without. *)
Inductive Trip := TBinary (p q : Program) (mesh : bool) | TJson (q : Program) (mesh : bool).
Definition trip (fsub : N -> N -> N) (g : Graph) (t : Trip) : result Graph :=
  let env := mkEnv (h_version header_current) fsub in
  match t with
  | TBinary p q m => let! bs := save_binary env p g m in outcome_result (load_binary fsub q bs)
  | TJson q m => let! text := write_graph_json env g m in read_graph_json fsub q text
  end.
Definition trips (fsub : N -> N -> N) (g : Graph) (ts : list Trip) : result Graph := rfold (trip fsub) ts g.
Definition keeps_mesh (t : Trip) : bool := match t with TBinary _ _ m => m | TJson _ m => m end.
Definition is_json (t : Trip) : bool := match t with TBinary _ _ _ => false | TJson _ _ => true end.

(** the programs have the library's attribute classes *)
Definition trip_programs (t : Trip) : Prop :=
  match t with
  | TBinary p q _ => exists ks ks', program_of ks p /\ program_of ks' q /\ all_classes ks /\ all_classes ks' /\ (length ks <= 256)%nat
  | TJson q _ => exists ks, program_of ks q /\ all_classes ks
  end.
(** no binary file on the way is larger than an object can be *)
Definition small_file (fsub : N -> N -> N) (g : Graph) (t : Trip) : Prop :=
  match t with
  | TBinary p _ m => forall bs, save_binary (mkEnv (h_version header_current) fsub) p g m = Ok bs -> len bs < max_object
  | TJson _ _ => True
  end.
Fixpoint small_files (fsub : N -> N -> N) (g : Graph) (ts : list Trip) : Prop :=
  match ts with
  | [] => True
  | t :: r => small_file fsub g t /\ forall g', trip fsub g t = Ok g' -> small_files fsub g' r
  end.
(** JSON loses nothing of it (C54) *)
Definition json_lossless (h : Graph) : Prop :=
  json_saveable h /\ (forall x k t a, node_data h x = Some (k, t, a) -> json_exact a) /\ (forall m, g_mesh h = Some m -> mesh_exact m).
(** two graphs hold the same layers, nodes, edges and mesh *)
Definition same_contents (g g' : Graph) : Prop :=
  g_layer_ids g = g_layer_ids g' /\ (forall l, g_has_layer g l = g_has_layer g' l) /\ (forall x, node_data g x = node_data g' x) /\
  (forall u v, edge_at g u v = edge_at g' u v) /\ g_mesh g = g_mesh g'.
