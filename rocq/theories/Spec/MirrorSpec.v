(** A mirror of a graph kept by its change reports.

    The mirror is a set of node ids and a set of edges (pairs of ids in the order EdgeKey keeps
    them).  A synchronisation reads getRemovedNodes, getNewNodes, getRemovedEdges and
    getNewEdges, drops what is reported as removed, then adds what is reported as new. *)
From Coq Require Import NArith ZArith Bool List.
From stdpp Require Import base list gmap fin_maps.
From Verif.Model Require Import Types Mesh Attrs Node EdgeContainer SLayer DLayer Graph.
From Verif.Spec Require Import AbstractGraph GraphHistory GraphObs.
Local Open Scope N_scope.

Definition after_reports {A} (M : A -> Prop) (new removed : list A) (x : A) : Prop :=
  x ∈ new \/ (M x /\ x ∉ removed).

(** The nodes and edges of a graph. *)
Definition its_nodes (g : Graph) (x : N) : Prop := g_has_node g x = true.
Definition its_edges (g : Graph) (k : EdgeKey) : Prop := exists u v, k = edge_key u v /\ adjacent g u v.

(** emplacePrevDynamicNode fills the gap up to the new slot with removed slots (and one more):
    the ids of that prefix must not be in use in another partition. *)
Definition prev_plain (g : Graph) (l : LayerId) (id : N) : Prop :=
  g_has_node g id = true \/
  ((forall x k, layer_of g x = Some k -> prefix_from_id x = prefix_from_id id -> k = key_dynamic l (prefix_from_id id)) /\
   prefix_index id + 1 < 2 ^ 32).
(** Calls between two synchronisations: no clear(), and the reports may be read but not cleared. *)
Definition plain (g : Graph) (o : gop) : Prop :=
  match o with
  | GClear => False
  | GNewNodes c | GRemovedNodes c | GNewEdges c | GRemovedEdges c => c = false
  | GEmplacePrev l id _ _ | GAddOrUpdateNode l id _ (Some _) => prev_plain g l id
  | _ => True
  end.
Fixpoint plain_run (g : Graph) (os : list gop) : Prop :=
  match os with
  | [] => True
  | o :: r => plain g o /\ plain_run (step_graph g (g_step g o)) r
  end.

(** No node of the graph is reported as removed (an id that was removed or merged away in one
    layer and re-created in another one is). *)
Definition none_lost (g : Graph) : Prop := forall x, g_has_node g x = true -> x ∉ fst (g_get_removed_nodes g false).
Definition no_edge_lost (g : Graph) : Prop := forall k, its_edges g k -> k ∉ fst (g_get_removed_edges g false).

(** A mirror follows the graph over any number of rounds: any allowed calls, then the four
    clearing reports. *)
Inductive follows : Graph -> (N -> Prop) -> (EdgeKey -> Prop) -> Graph -> (N -> Prop) -> (EdgeKey -> Prop) -> Prop :=
| follows_start g M E : follows g M E g M E
| follows_round g M E os outs g1 rn a1 nn a2 re a3 ne a4 g' M' E' :
    allowed_run g os -> plain_run g os -> g_run g os = Some (outs, g1) ->
    g_get_removed_nodes g1 true = (rn, a1) -> g_get_new_nodes a1 true = (nn, a2) ->
    g_get_removed_edges a2 true = (re, a3) -> g_get_new_edges a3 true = (ne, a4) ->
    none_lost a4 ->
    follows a4 (after_reports M nn rn) (after_reports E ne re) g' M' E' ->
    follows g M E g' M' E'.
