(** What static initialisation does: the attribute classes are registered in some order, and
    each class remembers the type id it was given. *)
From Coq Require Import NArith List.
From stdpp Require Import base list.
From Verif.Model Require Import Types Attrs AttrCodec Registry GraphCodec.
From Verif.Spec Require Import RegistrySpec.

Definition class_list (ks : list Kind) : list (Name * Kind) := map (fun k => (kind_name k, k)) ks.
(** a program whose node attribute classes [ks] were initialised in this order *)
Record program_of (ks : list Kind) (p : Program) : Prop := mkProgramOf {
  po_nodes : exists infos, registers (class_list ks) infos (pg_nodes p) /\
    forall i k info, ks !! i = Some k -> infos !! i = Some info -> pg_type p k = ri_type info;
  po_edges : exists info, registers [(edge_name, tt)] [info] (pg_edges p) /\ pg_edge_type p = ri_type info }.
(** the program has all the classes of the library *)
Definition all_classes (ks : list Kind) : Prop := forall k : Kind, k ∈ ks.
