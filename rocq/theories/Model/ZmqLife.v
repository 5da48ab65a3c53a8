(** * The life of a ZmqGraph: src/zmq_interface.cpp:172-187, 203-218

    Around the model of Model/Zmq.v: the constructor starts the receive thread (174-178), the
    loop tests should_shutdown_ (205), the destructor sets it and joins the thread (180-186).
    should_shutdown_ (218) is a std::atomic<bool> that no constructor gives a value; before
    C++20 what it holds is whatever was in memory, here the parameter of [l_init].  The user
    thread makes one call at a time, and the destructor is its last. *)
From Coq Require Import List Bool.
From Verif.Model Require Import Types Zmq.
Import ListNotations.
Set Default Proof Using "Type".

Section life.
Context {Msg G : Type} (read : Msg -> result G) (update : G -> Msg -> result G)
        (clone : G -> result G).

(** The receive thread is at the test of the loop, in its body, or has left the loop. *)
Inductive place := AtTest | InBody | Left.
(** The object exists, its destructor waits for the thread, or it is destroyed. *)
Inductive phase := Alive | Joining | Destroyed.
Record LState := mkL { l_z : ZState Msg G; l_place : place; l_flag : bool; l_phase : phase }.
(** 174-178 *)
Definition l_init (leftover : bool) : LState := mkL z_init AtTest leftover Alive.

Inductive levent :=
| Test205                       (* while (!should_shutdown_) *)
| Inner (e : event Msg G)       (* a step of Model/Zmq.v *)
| CallDelete                    (* ~Detail: should_shutdown_ = true; the thread is joined next *)
| RetDelete.                    (* join returned *)

(** steps of the receive thread among those of Model/Zmq.v *)
Definition by_receiver (e : event Msg G) : bool :=
  match e with Take _ | Applied _ | NoMsg | LockR | SetChange | SetGraph | UnlockR => true | _ => false end.
(** steps after which the loop starts again: recv returned false, or the end of the body *)
Definition ends_body (s : ZState Msg G) (e : event Msg G) : bool :=
  match e, z_rpc s with NoMsg, RPoll false => true | UnlockR, _ => true | _, _ => false end.

Inductive lstep : LState -> levent -> LState -> Prop :=
| ls_test z f ph : lstep (mkL z AtTest f ph) Test205 (mkL z (if f then Left else InBody) f ph)
| ls_receiver z f ph e z' : by_receiver e = true -> step read update clone z e (Next z') ->
    lstep (mkL z InBody f ph) (Inner e) (mkL z' (if ends_body z e then AtTest else InBody) f ph)
| ls_user z pl f e z' : by_receiver e = false -> step read update clone z e (Next z') ->
    lstep (mkL z pl f Alive) (Inner e) (mkL z' pl f Alive)
| ls_delete z pl f : z_upc z = UOut -> lstep (mkL z pl f Alive) CallDelete (mkL z pl true Joining)
| ls_join z f : lstep (mkL z Left f Joining) RetDelete (mkL z Left f Destroyed).

(** What ends the process or is undefined: as in Model/Zmq.v, where the threads are. *)
Definition lfails (s : LState) : Prop :=
  exists e o, step read update clone (l_z s) e o /\ (o = Terminated \/ o = Undefined) /\
    if by_receiver e then l_place s = InBody else l_phase s = Alive.

Inductive lrun (leftover : bool) : list levent -> LState -> Prop :=
| lrun_nil : lrun leftover [] (l_init leftover)
| lrun_snoc es s e s' : lrun leftover es s -> lstep s e s' -> lrun leftover (es ++ [e]) s'.
End life.
Arguments levent : clear implicits.
Arguments LState : clear implicits.
