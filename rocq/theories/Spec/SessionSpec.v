(** What each call answers when it is the only one ever made: data that carries a header is
    decoded by that header, data that carries none by the current version. *)
From Coq Require Import NArith ZArith Bool List.
From stdpp Require Import base list gmap.
From Verif.Model Require Import Types Mesh Attrs Node Graph Binary Versioning AttrCodec Registry GraphCodec Json JsonCodec GraphJson Session.
Local Open Scope N_scope.

Definition alone (fsub : N -> N -> N) (p : Program) (c : Call) : Answer :=
  let now := mkEnv (h_version header_current) fsub in
  match c with
  | LoadBinary file => RGraph (load_binary fsub p file)
  | LoadJson j => RGraphJ (read_graph_json fsub p j)
  | FromBinary bytes => RGraph (read_graph now p bytes 0)
  | UpdateFrom g bytes => RGraph (update_from_buffer now p g bytes 0)
  | ToBinary g im => RBytes (write_graph now p g im)
  | SaveBinary g im => RBytes (save_binary now p g im)
  | SaveJson g im => RJson (write_graph_json now g im)
  | MeshFromJson j => RMeshJ (mesh_from_text j)
  | MeshFromBinary bytes => RMesh (cd_read c_mesh (mesh_new true false false false) bytes 0)
  end.
(** The number of steps a schedule gives to a thread. *)
Definition turns (schedule : list nat) (t : nat) : nat := length (filter (fun u => u = t) schedule).
