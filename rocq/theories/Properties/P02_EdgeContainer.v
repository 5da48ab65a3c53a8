(** C05, C06: the edge container, for every sequence of calls.
    The specification is the machine [el_run] of Spec/EdgeLog.v. *)
From Coq Require Import NArith Bool List.
From stdpp Require Import base list gmap fin_maps.
From Verif.Model Require Import Types Attrs EdgeContainer.
From Verif.Spec Require Import EdgeLog.
From Verif.Proof Require Import EdgeLogP.
Local Open Scope N_scope.

(** C05, C06: every answer of every call in every sequence of calls on a fresh container is the
    one of the specification: contains/find/size of a finite map, and the two reports. *)
Theorem C05_C06_edge_container_refines_log : forall os : list ecop,
  Forall2 out_agree (fst (ec_run ec_empty os)) (fst (el_run el_init os)).
Proof. exact ec_history. Qed.
Print Assumptions C05_C06_edge_container_refines_log.

(** C05: the edge records at the end of any sequence. *)
Theorem C05_edge_container_final_edges : forall (os : list ecop) u v,
  ec_find (snd (ec_run ec_empty os)) u v = el_edges (snd (el_run el_init os)) !! edge_key u v.
Proof. exact ec_final_edges. Qed.
Print Assumptions C05_edge_container_final_edges.

(** C06: a clearing report empties the next report, in any state. *)
Theorem C06_second_report_empty : forall c b,
  fst (ec_get_new (snd (ec_get_new c true)) b) = [] /\ fst (ec_get_removed (snd (ec_get_removed c true)) b) = [].
Proof. intros c b. exact (conj (ec_second_new c b) (ec_second_removed c b)). Qed.
Print Assumptions C06_second_report_empty.

(** A history with an insertion, a duplicate insertion in the other direction, a rewiring and reports. *)
Example C05_C06_case :
  fst (ec_run ec_empty [CInsert 1 2 None; CInsert 2 1 (Some (mkEA true 7)); CFind 2 1; CRewire 1 2 1 3; CContains 1 2;
                        CSize; CGetNew true; CGetRemoved true; CRemove 1 2; CRemove 1 3; CGetNew false; CGetRemoved false; CStatus 3 1; CStatus 7 8])
  = [MUnit; MUnit; MEdge (Some (mkEdge 1 2 ea_default)); MUnit; MBool false; MSize 1; MKeys [(1, 3)]; MKeys [(1, 2)];
     MThrow; MUnit; MKeys []; MKeys [(1, 3)]; MStatus EDeleted; MStatus ENonexistent].
Proof. vm_compute. reflexivity. Qed.
