(** Model of the basic identifier types of spark_dsg.
    Sources: include/spark_dsg/scene_graph_types.h, src/scene_graph_types.cpp,
             include/spark_dsg/node_symbol.h, src/node_symbol.cpp,
             include/spark_dsg/scene_graph_node.h (NodeStatus),
             include/spark_dsg/edge_container.h (EdgeStatus, EdgeKey). *)
From Coq Require Import NArith ZArith Bool String.
From stdpp Require Import base decidable countable.
Local Open Scope N_scope.

(** Outcome of a C++ call.  [Throw]: a C++ exception leaves the call.
    [UB]: a null pointer / out-of-bounds access without a check. *)
Inductive result (A : Type) : Type :=
| Ok (a : A)
| Throw
| UB.
Arguments Ok {A} a.
Arguments Throw {A}.
Arguments UB {A}.

Definition rbind {A B : Type} (m : result A) (k : A -> result B) : result B :=
  match m with Ok a => k a | Throw => Throw | UB => UB end.

Definition rmap {A B : Type} (f : A -> B) (m : result A) : result B :=
  match m with Ok a => Ok (f a) | Throw => Throw | UB => UB end.

(** [std::map::at]-like access: throws when missing. *)
Definition at_ {A : Type} (o : option A) : result A :=
  match o with Some a => Ok a | None => Throw end.

(** Pointer dereference: undefined behaviour when null. *)
Definition deref {A : Type} (o : option A) : result A :=
  match o with Some a => Ok a | None => UB end.

Declare Scope result_scope.
Delimit Scope result_scope with result.
Notation "'let!' x ':=' m 'in' k" := (rbind m (fun x => k))
  (at level 200, x pattern, m at level 100, k at level 200, right associativity) : result_scope.
Open Scope result_scope.

(** uint64_t, uint32_t, uint8_t moduli. *)
Definition two8 : N := 2 ^ 8.
Definition two24 : N := 2 ^ 24.
Definition two32 : N := 2 ^ 32.
Definition two56 : N := 2 ^ 56.
Definition two64 : N := 2 ^ 64.

(** scene_graph_types.h:46-47 *)
Definition NodeId := N.
Definition LayerId := N.

(* ------------------------------------------------------------------ *)
(** ** NodeSymbol: include/spark_dsg/node_symbol.h:52-113, src/node_symbol.cpp:39-44.
    A union of a 64-bit value and the packed bitfield [index:56 | key:8] (gcc, little
    endian: the first bitfield occupies the low bits).  [char] is represented by its
    8-bit pattern. *)
Definition sym_make (key idx : N) : N := (key mod two8) * two56 + idx mod two56. (* node_symbol.cpp:39-42 *)
Definition sym_category (s : N) : N := N.shiftr s 56.                            (* node_symbol.h:74 *)
Definition sym_index (s : N) : N := N.land s (two56 - 1).                        (* node_symbol.h:68 *)
(** operator++ (node_symbol.h:77-87): the 56-bit field wraps, the key is kept. *)
Definition sym_incr (s : N) : N := sym_make (sym_category s) (sym_index s + 1).

(* ------------------------------------------------------------------ *)
(** ** LayerPrefix: scene_graph_types.h:82-116, scene_graph_types.cpp:42-84.
    Represented by its 32-bit [value_.value]. *)
Definition prefix_of_key (key : N) : N := (key mod two8) * two24.                (* types.cpp:42-45 *)
Definition prefix_of_key_idx (key idx : N) : N := (key mod two8) * two24 + idx mod two24. (* 47-50 *)
Definition prefix_from_id (id : N) : N := N.shiftr id 32 mod two32.              (* 54-57 *)
Definition prefix_matches (p id : N) : bool := p =? (N.shiftr id 32 mod two32).  (* 73-75 *)
Definition prefix_make_id (p idx : N) : N := (N.shiftl p 32 + idx) mod two64.    (* 77-79 *)
Definition prefix_index (id : N) : N := N.land (two32 - 1) id.                   (* 81-84 *)
Definition prefix_key (p : N) : N := N.shiftr p 24.                              (* h:102 *)
Definition prefix_sub (p : N) : N := N.land p (two24 - 1).                       (* h:104 *)

(* ------------------------------------------------------------------ *)
(** ** LayerKey: scene_graph_types.h:50-80, scene_graph_types.cpp:86-106 *)
Record LayerKey := mkKey { lk_layer : LayerId; lk_prefix : N; lk_dynamic : bool }.

Definition UNKNOWN_LAYER : LayerId := two64 - 1.                                 (* h:51 *)
Definition key_unknown : LayerKey := mkKey UNKNOWN_LAYER 0 false.                (* cpp:86 *)
Definition key_static (l : LayerId) : LayerKey := mkKey l 0 false.               (* cpp:88 *)
Definition key_dynamic (l : LayerId) (p : N) : LayerKey := mkKey l p true.       (* cpp:90-91 *)
(** operator== cpp:93-104 *)
Definition key_eqb (a b : LayerKey) : bool :=
  if negb (Bool.eqb (lk_dynamic a) (lk_dynamic b)) then false
  else
    let same := lk_layer a =? lk_layer b in
    if negb (lk_dynamic a) && same then true
    else same && (lk_prefix a =? lk_prefix b).
Definition key_is_parent (a b : LayerKey) : bool := lk_layer b <? lk_layer a.    (* cpp:106 *)
Definition key_valid (a : LayerKey) : bool := negb (lk_layer a =? UNKNOWN_LAYER). (* h:70 operator bool *)

(* ------------------------------------------------------------------ *)
(** ** NodeStatus (scene_graph_node.h:55) and EdgeStatus (edge_container.h:50) *)
Inductive NodeStatus := NNew | NVisible | NMerged | NDeleted | NNonexistent.
Inductive EdgeStatus := ENew | EVisible | EDeleted | EMerged | ENonexistent.

#[global] Instance NodeStatus_eq_dec : EqDecision NodeStatus.
Proof. solve_decision. Defined.
#[global] Instance EdgeStatus_eq_dec : EqDecision EdgeStatus.
Proof. solve_decision. Defined.
#[global] Instance LayerKey_eq_dec : EqDecision LayerKey.
Proof. solve_decision. Defined.

(* ------------------------------------------------------------------ *)
(** ** EdgeKey: edge_container.h:83-100.  The constructor sorts the two ids. *)
Definition EdgeKey : Type := (N * N)%type.
Definition edge_key (a b : N) : EdgeKey := (N.min a b, N.max a b).               (* h:84 *)
(** operator== h:86-88, operator< h:90-96 *)
Definition edge_key_eqb (a b : EdgeKey) : bool := (fst a =? fst b) && (snd a =? snd b).
Definition edge_key_ltb (a b : EdgeKey) : bool :=
  if fst a =? fst b then snd a <? snd b else fst a <? fst b.

(* ------------------------------------------------------------------ *)
(** ** DsgLayers (scene_graph_types.h:120-133, scene_graph_types.cpp:108-148) *)
Definition SEGMENTS : LayerId := 1.
Definition OBJECTS : LayerId := 2.
Definition AGENTS : LayerId := 2.
Definition PLACES : LayerId := 3.
Definition STRUCTURE : LayerId := 3.
Definition ROOMS : LayerId := 4.
Definition BUILDINGS : LayerId := 5.
Definition MESH_PLACES : LayerId := 20.
