(** What an arbitrary JSON document of a graph lists. *)
From Coq Require Import NArith ZArith Bool List String.
From stdpp Require Import base list gmap.
From Verif.Model Require Import Types Mesh Attrs Node EdgeContainer Graph Binary Versioning AttrCodec Registry GraphCodec Json Rotation JsonCodec GraphJson.
From Verif.Spec Require Import GraphObs.
Local Open Scope N_scope.
Local Open Scope list_scope.

Definition member_is {A} (o : list (list N * json)) (name : string) (value : json -> result A) (x : A) : Prop :=
  exists j, obj_get o (str name) = Some j /\ value j = Ok x.
Definition number64 : json -> result N := get_unsigned 64.
(** id, partition, time and attributes: a node with a "timestamp" belongs to the dynamic layer
    of its id, one without to the static layer *)
Definition NodeEntry : Type := N * (LayerKey * option Z * NodeAttrs).
Definition node_entry (env : Env) (f : Factory Kind) (j : json) (e : NodeEntry) : Prop :=
  exists o l a, j = JObject o /\ member_is o "id" number64 (fst e) /\ member_is o "layer" number64 l /\
    member_is o "attributes" (attrs_from_json env f) (Some a) /\
    ((obj_get o (str "timestamp") = None /\ snd e = (key_static l, None, a)) \/
     exists t, member_is o "timestamp" number64 t /\ snd e = (key_dynamic l (prefix_from_id (fst e)), Some (wrap_signed 64 (Z.of_N t)), a)).
(** an edge of a class the program does not have gets default attributes *)
Definition edge_entry (f : Factory unit) (j : json) (e : N * N * EdgeAttrs) : Prop :=
  exists o i, j = JObject o /\ member_is o "source" number64 (fst (fst e)) /\ member_is o "target" number64 (snd (fst e)) /\
    member_is o "info" (edge_attrs_from_json f) i /\ snd e = default ea_default i.
Definition doc_version (o : list (list N * json)) (v : Version) : Prop :=
  (obj_get o (str "SPARK_DSG_header") = None /\ v = mkV 1 0 0) \/
  exists h, member_is o "SPARK_DSG_header" (jc_from jc_header) h /\ v = h_version h.
Definition doc_mesh (o : list (list N * json)) (m : option Mesh) : Prop :=
  (obj_get o (str "mesh") = None /\ m = None) \/
  exists m', member_is o "mesh" (fun j => let! t := dump j in mesh_from_text t) m' /\ m = Some m'.
Record listed (fsub : N -> N -> N) (p : Program) (o : list (list N * json)) (ids : list N) (ns : list NodeEntry) (es : list (N * N * EdgeAttrs)) (m : option Mesh) : Prop := mkListed {
  ls_ids : member_is o "layer_ids" (jc_from jc_u64s) ids;
  ls_nodes : exists v j, doc_version o v /\ obj_get o (str "nodes") = Some j /\ Forall2 (node_entry (mkEnv v fsub) (reg_current (pg_nodes p))) (j_items j) ns;
  ls_edges : exists j, obj_get o (str "edges") = Some j /\ Forall2 (edge_entry (reg_current (pg_edges p))) (j_items j) es;
  ls_mesh : doc_mesh o m }.

(** Outside of what emplacePrevDynamicNode supports (C08): two nodes of one dynamic layer with
    one time, an id whose prefix has more than its first character, the reserved layer id. *)
Definition stamps_ok (ids : list N) (ns : list NodeEntry) : Prop :=
  UNKNOWN_LAYER ∉ ids /\
  (forall x k t a, (x, (k, t, a)) ∈ ns -> lk_dynamic k = true -> dyn_args (lk_layer k) (lk_prefix k)) /\
  (forall x y k t a b, (x, (k, t, a)) ∈ ns -> (y, (k, t, b)) ∈ ns -> lk_dynamic k = true -> x = y).
(** what makes a document consistent *)
Definition nodes_ok (ids : list N) (ns : list NodeEntry) : Prop :=
  NoDup (map fst ns) /\ forall x k t a, (x, (k, t, a)) ∈ ns -> lk_dynamic k = false -> lk_layer k ∈ ids.
Definition edges_ok (ns : list NodeEntry) (es : list (N * N * EdgeAttrs)) : Prop :=
  (forall i j u v a u' v' b, es !! i = Some (u, v, a) -> es !! j = Some (u', v', b) -> same_pair u v u' v' -> i = j) /\
  (forall u v a, (u, v, a) ∈ es -> u <> v /\ u ∈ map fst ns /\ v ∈ map fst ns).
(** the graph that has just that *)
Definition is_listed (ids : list N) (ns : list NodeEntry) (es : list (N * N * EdgeAttrs)) (m : option Mesh) (g : Graph) : Prop :=
  g_layer_ids g = ids /\ (forall x d, node_data g x = Some d <-> (x, d) ∈ ns) /\
  (forall u v a, (u, v, a) ∈ es -> edge_at g u v = Some (mkEdge u v a)) /\
  (forall u v e, edge_at g u v = Some e -> (e_src e, e_tgt e, e_info e) ∈ es /\ same_pair u v (e_src e) (e_tgt e)) /\
  g_mesh g = m.
