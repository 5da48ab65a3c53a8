(** Model of EdgeContainer.  Sources: include/spark_dsg/edge_container.h:55-141,
    src/edge_container.cpp.
    Simplifications: iteration order of std::map is not represented (reports are the
    elements of a map, each exactly once, in unspecified order); edge attributes are
    values and never null (a null attribute pointer passed to [insert] is [None]). *)
From Coq Require Import NArith Bool List.
From stdpp Require Import base list gmap fin_maps.
From Verif.Model Require Import Types Attrs.
Local Open Scope N_scope.

(** SceneGraphEdge, edge_container.h:55-81 *)
Record Edge := mkEdge { e_src : N; e_tgt : N; e_info : EdgeAttrs }.

(** edge_container.h:135-137 *)
Record EC := mkEC {
  ec_edges : gmap EdgeKey Edge;
  ec_status : gmap EdgeKey EdgeStatus;
  ec_stale : gmap EdgeKey bool }.

Definition ec_empty : EC := mkEC ∅ ∅ ∅.

(** edge_container.cpp:46-56.  [edges.emplace] keeps an existing entry; the status is
    set to NEW in any case. *)
Definition ec_insert (c : EC) (s t : N) (info : option EdgeAttrs) : EC :=
  let attrs := match info with None => ea_default | Some a => a end in
  let k := edge_key s t in
  mkEC (match ec_edges c !! k with
        | Some _ => ec_edges c
        | None => <[k := mkEdge s t attrs]> (ec_edges c) end)
       (<[k := ENew]> (ec_status c))
       (ec_stale c).

(** edge_container.cpp:58-62; [edge_status.at] throws when the key has no status. *)
Definition ec_remove (c : EC) (s t : N) : result EC :=
  let k := edge_key s t in
  match ec_status c !! k with
  | None => Throw
  | Some _ => Ok (mkEC (delete k (ec_edges c)) (<[k := EDeleted]> (ec_status c)) (ec_stale c))
  end.

(** edge_container.cpp:80-82 *)
Definition ec_contains (c : EC) (s t : N) : bool := bool_decide (is_Some (ec_edges c !! edge_key s t)).
(** edge_container.cpp:84 *)
Definition ec_size (c : EC) : nat := size (ec_edges c).
(** edge_container.cpp:86-89: stale flags are not cleared *)
Definition ec_reset (c : EC) : EC := mkEC ∅ ∅ (ec_stale c).
(** edge_container.cpp:91-94 *)
Definition ec_get_status (c : EC) (s t : N) : EdgeStatus :=
  match ec_status c !! edge_key s t with None => ENonexistent | Some st => st end.

(** edge_container.cpp:96-104, 145-153.  [find] is const but marks the edge as not stale
    through a mutable member: the effect is [ec_touch]. *)
Definition ec_find (c : EC) (s t : N) : option Edge := ec_edges c !! edge_key s t.
Definition ec_touch (c : EC) (s t : N) : EC :=
  match ec_edges c !! edge_key s t with
  | None => c
  | Some _ => mkEC (ec_edges c) (ec_status c) (<[edge_key s t := false]> (ec_stale c))
  end.

(** Assignment [find(s,t)->info = attrs]. *)
Definition ec_set_info (c : EC) (s t : N) (a : EdgeAttrs) : EC :=
  mkEC (alter (fun e => mkEdge (e_src e) (e_tgt e) a) (edge_key s t) (ec_edges c))
       (ec_status c) (ec_stale c).

(** edge_container.cpp:64-78: the MERGED status is overwritten by DELETED in [remove]. *)
Definition ec_rewire (c : EC) (s t ns nt : N) : result EC :=
  match ec_find c s t with
  | None => Ok c
  | Some prev =>
    let c1 := ec_touch c s t in
    let k := edge_key s t in
    match ec_status c1 !! k with
    | None => Throw
    | Some _ =>
      let c2 := mkEC (ec_edges c1) (<[k := EMerged]> (ec_status c1)) (ec_stale c1) in
      let! c3 := ec_remove c2 s t in
      Ok (ec_insert c3 ns nt (Some (e_info prev)))
    end
  end.

(** Keys of a status map with a status satisfying [p]. *)
Definition keys_with {K} `{Countable K} {S} (p : S -> bool) (m : gmap K S) : list K :=
  map fst (map_to_list (filter (fun kv => p (snd kv) = true) m)).

Definition e_is_new (s : EdgeStatus) : bool := match s with ENew => true | _ => false end.
Definition e_is_deleted (s : EdgeStatus) : bool := match s with EDeleted => true | _ => false end.

(** edge_container.cpp:106-118 *)
Definition ec_get_new (c : EC) (clear : bool) : list EdgeKey * EC :=
  (keys_with e_is_new (ec_status c),
   if clear then mkEC (ec_edges c) ((fun s => if e_is_new s then EVisible else s) <$> ec_status c)
                      (ec_stale c)
   else c).

(** edge_container.cpp:120-136 *)
Definition ec_get_removed (c : EC) (clear : bool) : list EdgeKey * EC :=
  (keys_with e_is_deleted (ec_status c),
   if clear then mkEC (ec_edges c) (filter (fun kv => e_is_deleted (snd kv) = false) (ec_status c))
                      (ec_stale c)
   else c).

(** edge_container.cpp:138-143 *)
Definition ec_set_stale (c : EC) : EC :=
  mkEC (ec_edges c) (ec_status c) ((fun _ => true) <$> ec_edges c).
