(** * The receive thread and its user: src/zmq_interface.cpp

    Two threads: the receive thread of ZmqGraph and one thread that calls
    hasChange() and graph().  Modelled: ZmqReceiver::Detail::recv (117-147),
    ZmqReceiver::recv with recv_all (158-168), ZmqGraph::Detail::hasChange
    (188-191), graph (193-201), receiveLoop (204-215).  Not modelled: sockets
    (which messages arrive is not determined: [Take] can deliver any message at
    any time).  The test of the loop (205), the constructor and the destructor
    are around this model in Model/ZmqLife.v.

    One event is one step of one thread.  [Msg] is a message buffer, [G] a graph;
    [read], [update] and [clone] are io::binary::readGraph, updateGraph and
    DynamicSceneGraph::clone. *)
From Coq Require Import List.
From Verif.Model Require Import Types Graph Binary Versioning AttrCodec Registry GraphCodec.
Set Default Proof Using "Type".

Section zmq.
Context {Msg G : Type} (read : Msg -> result G) (update : G -> Msg -> result G)
        (clone : G -> result G).

(** Where the receive thread is.
    - [RPoll got]: in poll; [got] is true in the loop of recv(.., true), after a
      first message was received;
    - [RApply m]: readGraph or updateGraph is working on [m];
    - [RHave]: recv returned true, waiting for the mutex;
    - [RFlag], [RGraph], [RUnlock]: holding it, before has_change_ = true,
      before graph_ = receiver_.graph(), before the end of the scope. *)
Inductive rpc := RPoll (got : bool) | RApply (m : Msg) | RHave | RFlag | RGraph | RUnlock.
(** Where the user thread is: outside; in hasChange(), holding the mutex; in
    graph(), holding it, before has_change_ = false, before the test of graph_,
    and inside clone(). *)
Inductive upc := UOut | UHas | UClear | UTest | UClone.

Record ZState := mkZ {
  z_object : option G;      (* internals_->graph of the receiver: null or the object *)
  z_rpc : rpc;
  z_change : bool;          (* has_change_ *)
  z_graph : bool;           (* graph_ points to the receiver's object (false: null) *)
  z_upc : upc
}.
Definition z_init : ZState := mkZ None (RPoll false) false false UOut.

Inductive event :=
| Take (m : Msg)            (* the socket delivers [m] *)
| Applied (m : Msg)         (* readGraph / updateGraph on [m] returns *)
| NoMsg                     (* poll returns without a message *)
| LockR | SetChange | SetGraph | UnlockR
| CallHas | RetHas (b : bool)
| CallGraph | Clear | Test
| RetGraph (o : option G).

(** What a step leads to: a state, std::terminate (an exception leaves the
    receive thread), or undefined behaviour. *)
Inductive zout := Next (s : ZState) | Terminated | Undefined.

Definition r_holds (r : rpc) : bool :=
  match r with RFlag | RGraph | RUnlock => true | _ => false end.
Definition u_holds (u : upc) : bool :=
  match u with UOut => false | _ => true end.

(** The receive thread writes the object that the user thread is copying: a data
    race.  (The first message makes a new object, to which graph_ does not point
    yet.) *)
Definition racing (s : ZState) : bool :=
  match z_object s, z_rpc s, z_graph s, z_upc s with
  | Some _, RApply _, true, UClone => true
  | _, _, _, _ => false
  end.

Definition with_r (s : ZState) (r : rpc) : ZState :=
  mkZ (z_object s) r (z_change s) (z_graph s) (z_upc s).
Definition with_u (s : ZState) (u : upc) : ZState :=
  mkZ (z_object s) (z_rpc s) (z_change s) (z_graph s) u.

(** One step of one thread ([None]: that thread cannot make it now). *)
Inductive step : ZState -> event -> zout -> Prop :=
| st_take s got m : z_rpc s = RPoll got -> step s (Take m) (Next (with_r s (RApply m)))
| st_race s m : racing s = true -> step s (Applied m) Undefined
| st_race_u s o : racing s = true -> step s (RetGraph o) Undefined
| st_read s m g : z_rpc s = RApply m -> z_object s = None -> read m = Ok g ->
    step s (Applied m) (Next (mkZ (Some g) (RPoll true) (z_change s) (z_graph s) (z_upc s)))
| st_update s m g g' : z_rpc s = RApply m -> racing s = false -> z_object s = Some g ->
    update g m = Ok g' ->
    step s (Applied m) (Next (mkZ (Some g') (RPoll true) (z_change s) (z_graph s) (z_upc s)))
| st_bad s m : z_rpc s = RApply m -> racing s = false ->
    match z_object s with None => read m | Some g => update g m end = Throw ->
    step s (Applied m) Terminated
| st_worse s m : z_rpc s = RApply m -> racing s = false ->
    match z_object s with None => read m | Some g => update g m end = UB ->
    step s (Applied m) Undefined
| st_none s : z_rpc s = RPoll false -> step s NoMsg (Next s)
| st_done s : z_rpc s = RPoll true -> step s NoMsg (Next (with_r s RHave))
| st_lock s : z_rpc s = RHave -> u_holds (z_upc s) = false -> step s LockR (Next (with_r s RFlag))
| st_flag s : z_rpc s = RFlag ->
    step s SetChange (Next (mkZ (z_object s) RGraph true (z_graph s) (z_upc s)))
| st_graph s : z_rpc s = RGraph ->
    step s SetGraph (Next (mkZ (z_object s) RUnlock (z_change s)
      (match z_object s with Some _ => true | None => false end) (z_upc s)))
| st_unlock s : z_rpc s = RUnlock -> step s UnlockR (Next (with_r s (RPoll false)))
| st_has s : z_upc s = UOut -> r_holds (z_rpc s) = false -> step s CallHas (Next (with_u s UHas))
| st_ret_has s : z_upc s = UHas -> step s (RetHas (z_change s)) (Next (with_u s UOut))
| st_call s : z_upc s = UOut -> r_holds (z_rpc s) = false -> step s CallGraph (Next (with_u s UClear))
| st_clear s : z_upc s = UClear ->
    step s Clear (Next (mkZ (z_object s) (z_rpc s) false (z_graph s) UTest))
| st_null s : z_upc s = UTest -> z_graph s = false -> step s (RetGraph None) (Next (with_u s UOut))
| st_test s : z_upc s = UTest -> z_graph s = true -> step s Test (Next (with_u s UClone))
| st_clone s g c : z_upc s = UClone -> racing s = false -> z_object s = Some g -> clone g = Ok c ->
    step s (RetGraph (Some c)) (Next (with_u s UOut))
| st_clone_ub s g o : z_upc s = UClone -> racing s = false -> z_object s = Some g -> clone g = UB ->
    step s (RetGraph o) Undefined.

(** The executions, from the constructor on; the latest event is last. *)
Inductive run : list event -> ZState -> Prop :=
| run_nil : run nil z_init
| run_snoc es s e s' : run es s -> step s e (Next s') -> run (es ++ e :: nil) s'.
End zmq.
Arguments event : clear implicits.
Arguments ZState : clear implicits.
Arguments zout : clear implicits.

(** readGraph and updateGraph on the buffer of a message, 139-144: the buffer is
    read from its start; what follows the graph is ignored. *)
Definition zmq_result {A} (o : outcome A) : result A :=
  match o with
  | Val a _ => Ok a
  | Fail Exception => Throw
  | Fail _ => UB
  end.
Definition zmq_read (env : Env) (p : Program) (m : list BinNums.N) : result Graph :=
  zmq_result (read_graph env p m BinNums.N0).
Definition zmq_update (env : Env) (p : Program) (g : Graph) (m : list BinNums.N) : result Graph :=
  zmq_result (update_from_buffer env p g m BinNums.N0).
