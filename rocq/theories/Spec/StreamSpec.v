(** A sender publishes graphs; the network loses, repeats and reorders messages. *)
From Coq Require Import NArith ZArith Bool List.
From stdpp Require Import base list gmap.
From Verif.Model Require Import Types Mesh Attrs Node EdgeContainer SLayer DLayer Graph Binary Versioning AttrCodec Registry GraphCodec Zmq.
From Verif.Spec Require Import BinarySpec AbstractGraph GraphHistory GraphObs.
Local Open Scope N_scope.

(** every node is where and when [home] says *)
Definition at_home (home : N -> LayerKey * option Z) (h : Graph) : Prop :=
  forall x k t a, node_data h x = Some (k, t, a) -> home x = (k, t).
(** what the published graphs have in common: an id is never used for another place or time, no
    two ids for the same place and time of a dynamic layer; a node that is not in all of them has
    no edge to a node of another layer with the same LayerId *)
Record published_together (home : N -> LayerKey * option Z) (hs : list Graph) : Prop := {
  pt_home : forall h, h ∈ hs -> at_home home h;
  pt_times : forall h h' x y, h ∈ hs -> h' ∈ hs -> g_has_node h x = true -> g_has_node h' y = true ->
    lk_dynamic (fst (home x)) = true -> home x = home y -> x = y;
  pt_gone : forall h h' x, h ∈ hs -> h' ∈ hs -> g_has_node h x = true -> g_has_node h' x = false -> no_foreign_sibling h x }.

(** [bytes] is the message made from [h], with its mesh or without *)
Record Sent := mkSent { st_graph : Graph; st_mesh : bool; st_bytes : list N }.
Definition message_of (env : Env) (p : Program) (m : Sent) : Prop :=
  write_graph env p (st_graph m) (st_mesh m) = Ok (st_bytes m) /\ len (st_bytes m) < max_object.
(** the receiver reads the first message it gets and applies the others *)
Definition receive (env : Env) (q : Program) (bs : list (list N)) : result Graph :=
  match bs with [] => Throw | b :: r => let! g := zmq_read env q b in rfold (zmq_update env q) r g end.
(** the mesh it then has: the last one it got, unless the layers have changed since *)
Definition mesh_step (s : list LayerId * option Mesh) (m : Sent) : list LayerId * option Mesh :=
  let '(ids, mesh) := s in
  let old := if decide (ids = g_layer_ids (st_graph m)) then mesh else None in
  (g_layer_ids (st_graph m), if st_mesh m then match g_mesh (st_graph m) with Some x => Some x | None => old end else old).
Definition mesh_after (ms : list Sent) : option Mesh := snd (fold_left mesh_step ms ([], None)).

(** calls that create nodes in static layers only, an id always in the same layer *)
Definition keeps_home (home : N -> LayerId) (o : gop) : Prop :=
  match o with
  | GEmplace l x _ => home x = l
  | GInsertNode l x t _ => home x = l /\ t = None
  | GAddOrUpdateNode l x _ t => home x = l /\ t = None
  | GEmplaceDyn _ _ _ _ _ | GEmplacePrev _ _ _ _ => False
  | _ => True
  end.
(** a graph a sender has after some such calls *)
Definition published (home : N -> LayerId) (h : Graph) : Prop :=
  exists ids g0 os outs, g_new ids = Ok g0 /\ UNKNOWN_LAYER ∉ ids /\ allowed_run g0 os /\ Forall (keeps_home home) os /\ g_run g0 os = Some (outs, h).
