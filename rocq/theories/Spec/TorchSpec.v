(** What the tensors of a converted graph have to contain. *)
From Coq Require Import NArith Bool List.
From stdpp Require Import base list gmap.
From Verif.Model Require Import Types Attrs Node EdgeContainer Graph Torch.
From Verif.Spec Require Import GraphObs ConvertSpec.
Local Open Scope N_scope.

(** The end points of an edge, the one on the larger LayerId first; source and target if equal. *)
Definition arrow (g : Graph) (e : Edge) : N * N :=
  match layer_of g (e_src e), layer_of g (e_tgt e) with
  | Some ks, Some kt => if lk_layer ks <? lk_layer kt then (e_tgt e, e_src e) else (e_src e, e_tgt e)
  | _, _ => (e_src e, e_tgt e)
  end.
(** [rows] has one row for each element of [ids], the one [P] allows for it. *)
Definition rows_for {A} (ids : list N) (rows : list A) (P : N -> A -> Prop) : Prop :=
  length rows = length ids /\ forall i x r, ids !! i = Some x -> rows !! i = Some r -> P x r.
