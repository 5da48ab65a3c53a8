(** Specification of a stand-alone static layer (IsolatedSceneGraphLayer): a finite map of
    nodes, the edge log of Spec/EdgeLog.v, and three sets of node ids: added and not yet
    reported, deleted, merged away. *)
From Coq Require Import NArith ZArith Bool List.
From stdpp Require Import base list gmap fin_maps.
From Verif.Model Require Import Types Mesh Attrs Node EdgeContainer SLayer.
From Verif.Spec Require Import EdgeLog.
Local Open Scope N_scope.

Record LLog := mkLL {
  ll_nodes : gmap N (option Z * NodeAttrs);   (* timestamp and attributes *)
  ll_log : ELog;
  ll_new : gset N; ll_del : gset N; ll_mrg : gset N }.
Definition ll_init : LLog := mkLL ∅ el_init ∅ ∅ ∅.

(** The calls.  [LInsertNode]: insertNode with a node freshly built from an id, a layer id,
    an optional time and attributes, or with a null pointer. *)
Inductive lop :=
| LEmplace (id : N) (a : NodeAttrs)
| LInsertNode (x : option (N * LayerId * option Z * NodeAttrs))
| LInsertEdge (s t : N) (i : option EdgeAttrs)
| LRemoveEdge (s t : N)
| LRewire (s t ns nt : N)
| LRemoveNode (n : N)
| LMerge (from to : N)
| LSetAttrs (n : N) (a : NodeAttrs)            (* findNode(n) then assign the attributes *)
| LHasNode (n : N) | LCheckNode (n : N) | LFindNode (n : N) | LPosition (n : N)
| LHasEdge (s t : N) | LFindEdge (s t : N)
| LNumNodes | LNumEdges
| LNewNodes (clear : bool) | LRemovedNodes (clear : bool)
| LNewEdges (clear : bool) | LRemovedEdges (clear : bool)
| LReset.

(** What findNode shows: layer, time, attributes, siblings. *)
Definition NodeView : Type := LayerId * option Z * NodeAttrs * gset N.

Inductive lout :=
| LOBool (b : bool) | LOStatus (s : NodeStatus) | LONode (x : option NodeView) | LOPos (p : Vec3)
| LOEdge (e : option Edge) | LOSize (n : nat) | LONodes (ns : gset N) | LOEdges (ks : gset EdgeKey)
| LOUnit | LOThrow.

(** Keys of the edges at [n], and the neighbours of [n]. *)
Definition at_node (n : N) (m : gmap EdgeKey Edge) : gset EdgeKey :=
  dom (filter (fun kv => fst (fst kv) = n \/ snd (fst kv) = n) m).
Definition opposite (n : N) (k : EdgeKey) : N := if decide (fst k = n) then snd k else fst k.
Definition nbrs (n : N) (m : gmap EdgeKey Edge) : gset N := set_map (opposite n) (at_node n m).

(** Remove every edge at [n]. *)
Definition el_drop (n : N) (c : ELog) : ELog :=
  mkEL (filter (fun kv => kv.1 ∉ at_node n (el_edges c)) (el_edges c))
       (el_fresh c ∖ at_node n (el_edges c)) (el_gone c ∪ at_node n (el_edges c)).

(** Redirect every edge at [from] to [to], except those that would become self edges or
    duplicates: neighbours of [from] not yet adjacent to [to]. *)
Definition movers (from to : N) (m : gmap EdgeKey Edge) : gset N :=
  nbrs from m ∖ ({[to]} ∪ nbrs to m).
Definition el_redirect (from to : N) (c : ELog) : ELog :=
  let m := el_edges c in
  let I : gset EdgeKey := set_map (edge_key to) (movers from to m) in
  mkEL (list_to_map (omap (fun t => (fun e => (edge_key to t, mkEdge to t (e_info e))) <$> m !! edge_key from t)
                          (elements (movers from to m)))
        ∪ filter (fun kv => kv.1 ∉ at_node from m) m)
       ((el_fresh c ∖ at_node from m) ∪ I)
       ((el_gone c ∪ at_node from m) ∖ I).

Definition ll_has (c : LLog) (n : N) : bool := bool_decide (n ∈ dom (ll_nodes c)).
Definition ll_edge (c : LLog) (s t : N) : option Edge := el_edges (ll_log c) !! edge_key s t.
Definition ll_with_log (c : LLog) (e : ELog) : LLog := mkLL (ll_nodes c) e (ll_new c) (ll_del c) (ll_mrg c).
Definition ll_add (c : LLog) (n : N) (x : option Z * NodeAttrs) : LLog :=
  mkLL (<[n := x]> (ll_nodes c)) (ll_log c) ({[n]} ∪ ll_new c) (ll_del c ∖ {[n]}) (ll_mrg c ∖ {[n]}).

Definition ll_status (c : LLog) (n : N) : NodeStatus :=
  if decide (n ∈ ll_new c) then NNew
  else if decide (n ∈ dom (ll_nodes c)) then NVisible
  else if decide (n ∈ ll_del c) then NDeleted
  else if decide (n ∈ ll_mrg c) then NMerged else NNonexistent.

Definition ll_view (lid : LayerId) (c : LLog) (n : N) : option NodeView :=
  (fun x : option Z * NodeAttrs => (lid, fst x, snd x, nbrs n (el_edges (ll_log c)))) <$> ll_nodes c !! n.

(** One call on a layer with id [lid]. *)
Definition ll_step (lid : LayerId) (c : LLog) (o : lop) : lout * LLog :=
  match o with
  | LEmplace n a =>
      if ll_has c n
      (* the C++ code marks an existing node as new again *)
      then (LOBool false, mkLL (ll_nodes c) (ll_log c) ({[n]} ∪ ll_new c) (ll_del c) (ll_mrg c))
      else (LOBool true, ll_add c n (None, a))
  | LInsertNode None => (LOBool false, c)
  | LInsertNode (Some (n, l, t, a)) =>
      if bool_decide (l = lid) && negb (ll_has c n) then (LOBool true, ll_add c n (t, a)) else (LOBool false, c)
  | LInsertEdge s t i =>
      if ll_has c s && ll_has c t && negb (bool_decide (s = t)) && negb (bool_decide (is_Some (ll_edge c s t)))
      then (LOBool true, ll_with_log c (el_insert (ll_log c) s t (default ea_default i)))
      else (LOBool false, c)
  | LRemoveEdge s t =>
      if bool_decide (is_Some (ll_edge c s t))
      then (LOBool true, ll_with_log c (el_remove (ll_log c) (edge_key s t))) else (LOBool false, c)
  | LRewire s t ns nt =>
      match ll_edge c s t with
      | None => (LOBool false, c)
      | Some e =>
          if ll_has c ns && ll_has c nt && negb (bool_decide (s = ns /\ t = nt)) then
            (LOBool true,
             if bool_decide (ns = nt) || bool_decide (is_Some (ll_edge c ns nt))
             then ll_with_log c (el_remove (ll_log c) (edge_key s t))
             else ll_with_log c (el_insert (el_remove (ll_log c) (edge_key s t)) ns nt (e_info e)))
          else (LOBool false, c)
      end
  | LRemoveNode n =>
      if ll_has c n then
        (LOBool true, mkLL (delete n (ll_nodes c)) (el_drop n (ll_log c))
                        (ll_new c ∖ {[n]}) ({[n]} ∪ ll_del c) (ll_mrg c))
      else (LOBool false, c)
  | LMerge f t =>
      if ll_has c f && ll_has c t && negb (bool_decide (f = t)) then
        (LOBool true, mkLL (delete f (ll_nodes c)) (el_redirect f t (ll_log c))
                        (ll_new c ∖ {[f]}) (ll_del c) ({[f]} ∪ ll_mrg c))
      else (LOBool false, c)
  | LSetAttrs n a =>
      (LOBool (ll_has c n),
       mkLL (alter (fun x => (fst x, a)) n (ll_nodes c)) (ll_log c) (ll_new c) (ll_del c) (ll_mrg c))
  | LHasNode n => (LOBool (ll_has c n), c)
  | LCheckNode n => (LOStatus (ll_status c n), c)
  | LFindNode n => (LONode (ll_view lid c n), c)
  | LPosition n => (match ll_nodes c !! n with None => LOThrow | Some x => LOPos (attrs_position (snd x)) end, c)
  | LHasEdge s t => (LOBool (bool_decide (is_Some (ll_edge c s t))), c)
  | LFindEdge s t => (LOEdge (ll_edge c s t), c)
  | LNumNodes => (LOSize (size (ll_nodes c)), c)
  | LNumEdges => (LOSize (size (el_edges (ll_log c))), c)
  | LNewNodes clear => (LONodes (ll_new c),
      if clear then mkLL (ll_nodes c) (ll_log c) ∅ (ll_del c) (ll_mrg c) else c)
  | LRemovedNodes clear => (LONodes (ll_del c ∪ ll_mrg c),
      (* merged nodes are reported again and again: the C++ code only forgets deleted ones *)
      if clear then mkLL (ll_nodes c) (ll_log c) (ll_new c) ∅ (ll_mrg c) else c)
  | LNewEdges clear => (LOEdges (el_fresh (ll_log c)),
      if clear then ll_with_log c (mkEL (el_edges (ll_log c)) ∅ (el_gone (ll_log c))) else c)
  | LRemovedEdges clear => (LOEdges (el_gone (ll_log c)),
      if clear then ll_with_log c (mkEL (el_edges (ll_log c)) (el_fresh (ll_log c)) ∅) else c)
  | LReset => (LOUnit, ll_init)   (* everything is forgotten, reports included *)
  end.

Fixpoint ll_run (lid : LayerId) (c : LLog) (os : list lop) : list lout * LLog :=
  match os with
  | [] => ([], c)
  | o :: r => let '(x, c') := ll_step lid c o in let '(xs, c'') := ll_run lid c' r in (x :: xs, c'')
  end.

(** The modelled layer driven by the same calls; reports are lists. *)
Inductive lmout :=
| LMBool (b : bool) | LMStatus (s : NodeStatus) | LMNode (x : option NodeView) | LMPos (p : Vec3)
| LMEdge (e : option Edge) | LMSize (n : nat) | LMNodes (ns : list N) | LMEdges (ks : list EdgeKey)
| LMUnit | LMThrow | LMUB.

Definition node_view (n : Node) : NodeView := (n_layer n, n_time n, n_attrs n, n_sib n).

Definition sl_step (c : SLayer) (o : lop) : lmout * SLayer :=
  let of_result (r : result (bool * SLayer)) :=
    match r with Ok (b, c') => (LMBool b, c') | Throw => (LMThrow, c) | UB => (LMUB, c) end in
  match o with
  | LEmplace n a => let '(b, c') := sl_emplace_node c n a in (LMBool b, c')
  | LInsertNode x =>
      let '(b, c') := sl_insert_node c ((fun y : N * LayerId * option Z * NodeAttrs =>
                        let '(n, l, t, a) := y in node_new n l t a) <$> x) in (LMBool b, c')
  | LInsertEdge s t i => of_result (sl_insert_edge c s t i)
  | LRemoveEdge s t => of_result (sl_remove_edge c s t)
  | LRewire s t ns nt => of_result (sl_rewire_edge c s t ns nt)
  | LRemoveNode n => of_result (sl_remove_node c n)
  | LMerge f t => of_result (sl_merge_nodes c f t)
  | LSetAttrs n a =>
      match sl_find_node c n with
      | None => (LMBool false, c)
      | Some nd => (LMBool true, sl_with_nodes c (<[n := set_attrs a nd]> (sl_nodes c)))
      end
  | LHasNode n => (LMBool (sl_has_node c n), c)
  | LCheckNode n => (LMStatus (sl_check_node c n), c)
  | LFindNode n => (LMNode (node_view <$> sl_find_node c n), c)
  | LPosition n => match sl_get_position c n with Ok p => (LMPos p, c) | Throw => (LMThrow, c) | UB => (LMUB, c) end
  | LHasEdge s t => (LMBool (sl_has_edge c s t), c)
  | LFindEdge s t => let '(e, c') := sl_find_edge c s t in (LMEdge e, c')
  | LNumNodes => (LMSize (sl_num_nodes c), c)
  | LNumEdges => (LMSize (sl_num_edges c), c)
  | LNewNodes clear => let '(l, c') := sl_get_new_nodes c clear in (LMNodes l, c')
  | LRemovedNodes clear => let '(l, c') := sl_get_removed_nodes c clear in (LMNodes l, c')
  | LNewEdges clear => let '(l, c') := sl_get_new_edges c clear in (LMEdges l, c')
  | LRemovedEdges clear => let '(l, c') := sl_get_removed_edges c clear in (LMEdges l, c')
  | LReset => (LMUnit, sl_reset c)
  end.
Fixpoint sl_run (c : SLayer) (os : list lop) : list lmout * SLayer :=
  match os with
  | [] => ([], c)
  | o :: r => let '(x, c') := sl_step c o in let '(xs, c'') := sl_run c' r in (x :: xs, c'')
  end.

(** Same answer; a report lists each element of the set exactly once. *)
Definition lout_agree (m : lmout) (s : lout) : Prop :=
  match m, s with
  | LMBool b, LOBool b' => b = b'
  | LMStatus b, LOStatus b' => b = b'
  | LMNode b, LONode b' => b = b'
  | LMPos b, LOPos b' => b = b'
  | LMEdge b, LOEdge b' => b = b'
  | LMSize b, LOSize b' => b = b'
  | LMNodes l, LONodes s => NoDup l /\ forall k, k ∈ l <-> k ∈ s
  | LMEdges l, LOEdges s => NoDup l /\ forall k, k ∈ l <-> k ∈ s
  | LMThrow, LOThrow | LMUnit, LOUnit => True
  | _, _ => False
  end.

(** Layers a program can build. *)
Definition layer_reachable (lid : LayerId) (l : SLayer) : Prop :=
  exists os, l = snd (sl_run (sl_new lid) os).
