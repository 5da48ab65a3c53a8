(** What the statistics of a logged layer mean. *)
From Coq Require Import NArith List String.
From stdpp Require Import base list gmap.
From Verif.Model Require Import Types Node SLayer Graph Logger.
From Verif.Spec Require Import GraphObs.
Local Open Scope N_scope.

(** there are [n] values with property [P] *)
Definition is_count {A} (P : A -> Prop) (n : N) : Prop :=
  exists xs : list A, NoDup xs /\ (forall x, x ∈ xs <-> P x) /\ N.of_nat (length xs) = n.
Record describes (g : Graph) (l : LayerId) (L : SLayer) (s : Stats) : Prop := mkDescribes {
  ds_active : is_count (fun x => layer_of g x = Some (key_static l)) (st_active s);
  ds_removed : is_count (fun x => sl_check_node L x = NDeleted) (st_removed s);
  ds_merged : is_count (fun x => sl_check_node L x = NMerged) (st_merged s);
  (* exactly one parent *)
  ds_parents : is_count (fun x => layer_of g x = Some (key_static l) /\ exists p, is_parent_of g p x /\ forall q, is_parent_of g q x -> q = p) (st_parents s);
  ds_children : is_count (fun x => layer_of g x = Some (key_static l) /\ exists v, is_parent_of g x v) (st_children s);
  ds_edges : is_count (fun p => fst p < snd p /\ layer_of g (fst p) = Some (key_static l) /\ layer_of g (snd p) = Some (key_static l) /\ adjacent g (fst p) (snd p)) (st_edges s) }.

(** the rows a layer gets in a series of logged graphs: one for the first graph, and one for
    every later graph in which the layer has nodes *)
Inductive rows_of (l : LayerId) : bool -> list Graph -> list string -> Prop :=
| rows_nil first : rows_of l first [] []
| rows_skip g L gs rows : g_layers g !! l = Some L -> sl_num_nodes L = 0%nat -> rows_of l false gs rows -> rows_of l false (g :: gs) rows
| rows_row first g L s gs rows : g_layers g !! l = Some L -> (first = true \/ sl_num_nodes L <> 0%nat) -> describes g l L s ->
    rows_of l false gs rows -> rows_of l first (g :: gs) (csv_row s :: rows).
