(** * What histories of the receiver say *)
From Coq Require Import List.
From Verif.Model Require Import Types Zmq.
Import ListNotations.
Set Default Proof Using "Type".

Section spec.
Context {Msg G : Type} (read : Msg -> result G) (update : G -> Msg -> result G).

(** The messages whose contents have been taken over, in order. *)
Fixpoint applied (es : list (event Msg G)) : list Msg :=
  match es with
  | [] => []
  | Applied m :: es' => m :: applied es'
  | _ :: es' => applied es'
  end.

(** The graph made from a list of messages: the first is read, the others are
    updates to it. *)
Inductive holds : list Msg -> G -> Prop :=
| holds_first m g : read m = Ok g -> holds [m] g
| holds_next ms m g g' : holds ms g -> update g m = Ok g' -> holds (ms ++ [m]) g'.

(** The receive loop has announced something after the last graph() call. *)
Definition announced (es : list (event Msg G)) : Prop :=
  exists es1 es2, es = es1 ++ SetChange :: es2 /\ ~ In Clear es2.

(** The latest of the events that [on] or [off] hold of is one [on] holds of: between
    taking and giving back the mutex. *)
Definition inside (on off : event Msg G -> Prop) (es : list (event Msg G)) : Prop :=
  exists es1 e es2, es = es1 ++ e :: es2 /\ on e /\ forall x, In x es2 -> ~ off x.
(** Inside the scope of the lock of receiveLoop (207-213). *)
Definition receiver_inside : list (event Msg G) -> Prop := inside (fun e => e = LockR) (fun e => e = UnlockR).
(** Inside hasChange() or graph(). *)
Definition user_inside : list (event Msg G) -> Prop :=
  inside (fun e => match e with CallHas | CallGraph => True | _ => False end)
    (fun e => match e with RetHas _ | RetGraph _ => True | _ => False end).

(** The receive loop is done with everything it took over: after each message it
    went through its critical section. *)
Definition settled (es : list (event Msg G)) : Prop :=
  forall es1 m es2, es = es1 ++ Applied m :: es2 -> In UnlockR es2.

(** Some graph() call has returned a graph when all the messages taken over by
    now had been taken over. *)
Definition delivered (es : list (event Msg G)) : Prop :=
  exists es1 c es2, es = es1 ++ RetGraph (Some c) :: es2 /\ applied es1 = applied es.
End spec.
