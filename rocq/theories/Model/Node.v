(** Model of SceneGraphNode and of GraphMergeConfig.
    Sources: include/spark_dsg/scene_graph_node.h, src/scene_graph_node.cpp,
    include/spark_dsg/base_layer.h:42-58. *)
From Coq Require Import NArith ZArith Bool List.
From stdpp Require Import base list gmap.
From Verif.Model Require Import Types Attrs.
Local Open Scope N_scope.

(** scene_graph_node.h:173-203.  Attribute pointers are values (never null). *)
Record Node := mkNode {
  n_id : N; n_layer : LayerId; n_time : option Z; n_attrs : NodeAttrs;
  n_par : gset N; n_sib : gset N; n_chd : gset N }.

(** scene_graph_node.cpp:42-55 *)
Definition node_new (id : N) (layer : LayerId) (t : option Z) (a : NodeAttrs) : Node :=
  mkNode id layer t a ∅ ∅ ∅.

Definition set_attrs (a : NodeAttrs) (n : Node) : Node :=
  mkNode (n_id n) (n_layer n) (n_time n) a (n_par n) (n_sib n) (n_chd n).
Definition add_par (x : N) (n : Node) : Node :=
  mkNode (n_id n) (n_layer n) (n_time n) (n_attrs n) ({[x]} ∪ n_par n) (n_sib n) (n_chd n).
Definition del_par (x : N) (n : Node) : Node :=
  mkNode (n_id n) (n_layer n) (n_time n) (n_attrs n) (n_par n ∖ {[x]}) (n_sib n) (n_chd n).
Definition add_sib (x : N) (n : Node) : Node :=
  mkNode (n_id n) (n_layer n) (n_time n) (n_attrs n) (n_par n) ({[x]} ∪ n_sib n) (n_chd n).
Definition del_sib (x : N) (n : Node) : Node :=
  mkNode (n_id n) (n_layer n) (n_time n) (n_attrs n) (n_par n) (n_sib n ∖ {[x]}) (n_chd n).
Definition add_chd (x : N) (n : Node) : Node :=
  mkNode (n_id n) (n_layer n) (n_time n) (n_attrs n) (n_par n) (n_sib n) ({[x]} ∪ n_chd n).
Definition del_chd (x : N) (n : Node) : Node :=
  mkNode (n_id n) (n_layer n) (n_time n) (n_attrs n) (n_par n) (n_sib n) (n_chd n ∖ {[x]}).

(** scene_graph_node.cpp:71-84 *)
Definition node_has_parent (n : Node) : bool := bool_decide (size (n_par n) = 1%nat).
Definition node_has_siblings (n : Node) : bool := bool_decide (n_sib n ≠ ∅).
Definition node_has_children (n : Node) : bool := bool_decide (n_chd n ≠ ∅).
(** getParent: the single element if there is exactly one *)
Definition node_get_parent (n : Node) : option N :=
  match elements (n_par n) with [p] => Some p | _ => None end.
(** scene_graph_node.cpp:92-99 *)
Definition node_connections (n : Node) : list N :=
  elements (n_sib n) ++ elements (n_chd n) ++ elements (n_par n).

(** base_layer.h:42-58; null map pointers are [None] *)
Record MergeConfig := mkMergeConfig {
  mc_previous : option (gmap N N);
  mc_update_layer : option (gmap LayerId bool);
  mc_update_dynamic : bool;
  mc_update_archived : bool;
  mc_clear_removed : bool;
  mc_enforce_parent : bool }.
Definition mc_default : MergeConfig := mkMergeConfig None None true false false true.
Definition mc_merged_id (c : MergeConfig) (x : N) : N :=
  match mc_previous c with
  | None => x
  | Some m => match m !! x with None => x | Some y => y end
  end.

(** A loop over a container with early failure. *)
Fixpoint rfold {S A} (f : S -> A -> result S) (l : list A) (s : S) : result S :=
  match l with
  | [] => Ok s
  | a :: r => let! s' := f s a in rfold f r s'
  end.
