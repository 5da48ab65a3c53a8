(** Histories of a ZmqGraph from its constructor to its destructor. *)
From Coq Require Import List Bool.
From Verif.Model Require Import Types Zmq ZmqLife.
Import ListNotations.
Set Default Proof Using "Type".

Section spec.
Context {Msg G : Type}.
(** the steps inside calls and the loop body, in order *)
Fixpoint inner (es : list (levent Msg G)) : list (event Msg G) :=
  match es with
  | [] => []
  | Inner e :: es' => e :: inner es'
  | _ :: es' => inner es'
  end.
(** how many steps the receive thread made *)
Fixpoint receiver_steps (es : list (levent Msg G)) : nat :=
  match es with
  | [] => 0
  | Test205 :: es' => S (receiver_steps es')
  | Inner (Take _ | Applied _ | NoMsg | LockR | SetChange | SetGraph | UnlockR) :: es' => S (receiver_steps es')
  | _ :: es' => receiver_steps es'
  end.
(** how many messages the socket delivered *)
Fixpoint delivered_messages (es : list (levent Msg G)) : nat :=
  match es with
  | [] => 0
  | Inner (Take _) :: es' => S (delivered_messages es')
  | _ :: es' => delivered_messages es'
  end.
End spec.
