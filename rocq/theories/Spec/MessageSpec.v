(** What the bytes of a binary graph list, and what a graph that was given these bytes has.
    The reader below walks over the format without a graph. *)
From Coq Require Import NArith ZArith Bool List.
From stdpp Require Import base list gmap.
From Verif.Model Require Import Types Mesh Attrs Node EdgeContainer Graph Binary Versioning AttrCodec Registry GraphCodec.
From Verif.Spec Require Import GraphObs.
Local Open Scope N_scope.

(** A node entry: layer, id, time stamp, attributes (none: their class is not known here). *)
Record NodeRec := mkNodeRec { nr_layer : N; nr_id : N; nr_time : option Z; nr_attrs : option NodeAttrs }.
Record EdgeRec := mkEdgeRec { er_src : N; er_tgt : N; er_attrs : option EdgeAttrs }.
Record Message := mkMessage { mg_ids : list N; mg_nodes : list NodeRec; mg_edges : list EdgeRec; mg_mesh : option Mesh }.

Definition node_record (env : Env) (f : Factory Kind) : Reader NodeRec :=
  let* _ := check_array_length 4 in
  let* layer := cd_read c_u64 0 in let* id := cd_read c_u64 0 in let* time := cd_read c_stamp None in
  let* attrs := read_attrs env f in ret (mkNodeRec layer id time attrs).
Definition edge_record (f : Factory unit) : Reader EdgeRec :=
  let* _ := check_array_length 3 in
  let* s := cd_read c_u64 0 in let* t := cd_read c_u64 0 in
  let* attrs := read_edge_attrs f in ret (mkEdgeRec s t attrs).
(** an array without a length, up to its end mark *)
Definition records {R} (one : Reader R) : Reader (list R) := read_dynamic_array (fun l => let* r := one in ret (l ++ [r])) [].
Definition body (env : Env) (p : Program) (ids : list N) : Reader Message :=
  let* _ := (if version_ltb (ev_version env) (mkV 1 0 2) then cd_read c_u64 0 else ret 0) in
  let* nf := load_factory env (pg_nodes p) in
  let* ef := load_factory env (pg_edges p) in
  let* ns1 := records (node_record env nf) in
  let* ns2 := records (node_record env nf) in
  let* es := records (edge_record ef) in
  let* has := check_if_true in
  if (has : bool) then let* m := cd_read c_mesh (mesh_new true false false false) in ret (mkMessage ids (ns1 ++ ns2) es (Some m))
  else ret (mkMessage ids (ns1 ++ ns2) es None).
Definition message (env : Env) (p : Program) : Reader Message := let* ids := cd_read c_u64s [] in body env p ids.

(** ** The graph afterwards *)
Definition place (r : NodeRec) : LayerKey :=
  match nr_time r with Some _ => key_dynamic (nr_layer r) (prefix_from_id (nr_id r)) | None => key_static (nr_layer r) end.
(** the entries that say something about node [x]: attributes of a known class, a layer the graph has *)
Definition about (ids : list N) (x : N) (ns : list NodeRec) : list (LayerKey * option Z * NodeAttrs) :=
  omap (fun r => if decide (nr_id r = x /\ nr_layer r ∈ ids) then (fun a => (place r, nr_time r, a)) <$> nr_attrs r else None) ns.
(** a new node is where its first entry says, a known one stays; the attributes are the last ones given *)
Definition node_result (old : option (LayerKey * option Z * NodeAttrs)) (news : list (LayerKey * option Z * NodeAttrs))
  : option (LayerKey * option Z * NodeAttrs) :=
  match last news with
  | None => old
  | Some (_, _, a) => (fun d => (fst (fst d), snd (fst d), a)) <$> match old with Some d => Some d | None => head news end
  end.
Definition nodes_after (g : Graph) (ids : list N) (ns : list NodeRec) (g' : Graph) : Prop :=
  forall x, (x ∈ map nr_id ns -> node_data g' x = node_result (node_data g x) (about ids x ns)) /\
            (x ∉ map nr_id ns -> node_data g' x = None).
Definition links (u v : N) (r : EdgeRec) : Prop := same_pair u v (er_src r) (er_tgt r).
(** [r] is the first / the last entry of [u - v] *)
Definition first_about (u v : N) (es : list EdgeRec) (r : EdgeRec) : Prop :=
  exists a b, es = a ++ r :: b /\ links u v r /\ Forall (fun x => ~ links u v x) a.
Definition last_about (u v : N) (es : list EdgeRec) (r : EdgeRec) : Prop :=
  exists a b, es = a ++ r :: b /\ links u v r /\ Forall (fun x => ~ links u v x) b.
Definition can_link (g : Graph) (u v : N) : Prop := u <> v /\ g_has_node g u = true /\ g_has_node g v = true.
(** exactly the listed edges between nodes of the graph, with the attributes given last *)
Definition edges_after (es : list EdgeRec) (g' : Graph) : Prop :=
  forall u v, (adjacent g' u v <-> can_link g' u v /\ exists r, r ∈ es /\ links u v r) /\
    forall r, can_link g' u v -> last_about u v es r -> exists e, edge_at g' u v = Some e /\ e_info e = default ea_default (er_attrs r).
(** in the direction given first *)
Definition directions (es : list EdgeRec) (g' : Graph) : Prop :=
  forall u v r e, first_about u v es r -> edge_at g' u v = Some e -> e_src e = er_src r /\ e_tgt e = er_tgt r.

(** ** When *)
(** dynamic nodes as emplacePrevDynamicNode supports them (C08): no two nodes with one layer and time, in the
    message or in the graph, and no prefix with a sub-index *)
Definition accepted (ids : list N) (r : NodeRec) : Prop := nr_layer r ∈ ids /\ is_Some (nr_attrs r).
Definition listed_times (ids : list N) (ns : list NodeRec) : Prop :=
  forall r t, r ∈ ns -> accepted ids r -> nr_time r = Some t ->
    dyn_args (nr_layer r) (prefix_from_id (nr_id r)) /\
    (forall s, s ∈ ns -> accepted ids s -> place s = place r -> nr_time s = Some t -> nr_id s = nr_id r).
Definition times_ok (g : Graph) (ids : list N) (ns : list NodeRec) : Prop :=
  listed_times ids ns /\
  forall r t y a, r ∈ ns -> accepted ids r -> nr_time r = Some t -> node_data g y = Some (place r, Some t, a) -> y = nr_id r.
(** a node that goes has no edge to another layer with the same LayerId (C18) *)
Definition gone_ok (g : Graph) (ns : list NodeRec) : Prop :=
  forall x, g_has_node g x = true -> x ∉ map nr_id ns -> no_foreign_sibling g x.
