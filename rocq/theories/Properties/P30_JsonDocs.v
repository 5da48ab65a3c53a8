(** C60 what loads from a JSON document is what it lists; more on what JSON readers accept (C55). *)
From Coq Require Import NArith ZArith Bool List Lia String.
From stdpp Require Import base list gmap.
From Verif.Model Require Import Types Mesh Attrs Node EdgeContainer SLayer DLayer Graph Binary Versioning AttrCodec Registry GraphCodec Json Rotation JsonCodec GraphJson.
From Verif.Spec Require Import BinarySpec AttrSpec RegistrySpec ProgramSpec AbstractGraph GraphHistory GraphObs JsonSpec JsonDocSpec.
From Verif.Proof Require Import JsonNum JsonP JsonAttrP OldJsonP JsonDocP.
From Verif.Properties Require Import P12_Files P13_Registry P14_GraphFiles P23_Legacy P24_Json P29_OldJson ExGraph.
Local Open Scope N_scope.

(** C60: for every document, if reading it returns a graph, then every entry could be read, and
    the graph has exactly the listed nodes and edges: no id and no pair of nodes is listed twice,
    every static node has a listed layer and every edge has two different listed nodes. *)
Theorem C60_loaded_is_listed : forall fsub p o g, read_graph_json fsub p (JObject o) = Ok g ->
  exists ids ns es m, listed fsub p o ids ns es m /\
    (stamps_ok ids ns -> reachable g /\ nodes_ok ids ns /\ edges_ok ns es /\ is_listed ids ns es m g).
Proof.
  intros fsub p o g H. destruct (doc_listed fsub p o g H) as (ids & ns & es & m & HL). exists ids, ns, es, m. split; [exact HL|]. intros HS.
  assert (Hne : ids <> []).
  { intros ->. destruct HL as [(jl & El & Ei) (v & jn & Hv & En & _) _ _]. unfold read_graph_json in H. apply doc_version_read in Hv as (h & Eh & _). rewrite Eh in H. cbn [rbind j_at] in H. rewrite El in H. cbn [at_ rbind] in H.
    rewrite Ei in H. discriminate. }
  destruct (doc_read fsub p o ids ns es m HL Hne HS) as [(H1 & H2 & g' & R & Hr & HI)|[_ R]]; [|congruence]. assert (g' = g) as -> by congruence. auto.
Qed.
Print Assumptions C60_loaded_is_listed.
(** Conversely such a document is accepted, and any other throws. *)
Theorem C60_consistent_loads : forall fsub p o ids ns es m, listed fsub p o ids ns es m -> ids <> [] -> stamps_ok ids ns ->
  nodes_ok ids ns -> edges_ok ns es -> exists g, read_graph_json fsub p (JObject o) = Ok g /\ reachable g /\ is_listed ids ns es m g.
Proof.
  intros fsub p o ids ns es m HL Hne HS H1 H2. destruct (doc_read fsub p o ids ns es m HL Hne HS) as [(_ & _ & G)|[N _]]; [exact G|]. exfalso. apply N. auto.
Qed.
Print Assumptions C60_consistent_loads.
Theorem C60_inconsistent_throws : forall fsub p o ids ns es m, listed fsub p o ids ns es m -> stamps_ok ids ns ->
  ids = [] \/ ~ nodes_ok ids ns \/ ~ edges_ok ns es -> read_graph_json fsub p (JObject o) = Throw.
Proof.
  intros fsub p o ids ns es m HL HS HB. destruct (decide (ids = [])) as [->|Hne].
  - destruct HL as [(jl & El & Ei) (v & jn & Hv & _) _ _]. unfold read_graph_json. apply doc_version_read in Hv as (h & -> & _). cbn [rbind j_at]. rewrite El. cbn [at_ rbind]. rewrite Ei. reflexivity.
  - destruct (doc_read fsub p o ids ns es m HL Hne HS) as [(H1 & H2 & _)|[_ R]]; [|exact R]. exfalso. destruct HB as [->|[H|H]]; contradiction.
Qed.
Print Assumptions C60_inconsistent_throws.
(** a document that is not an object, or lacks the layers, the nodes or the edges, is not read *)
Theorem C60_missing_section : forall fsub p j g, read_graph_json fsub p j = Ok g ->
  exists o, j = JObject o /\ forall name, name ∈ ["layer_ids"; "nodes"; "edges"]%string -> is_Some (obj_get o (str name)).
Proof.
  intros fsub p j g H. destruct j as [| | | | | |o]; try (unfold read_graph_json in H; cbn in H; discriminate). exists o. split; [reflexivity|].
  destruct (doc_listed fsub p o g H) as (ids & ns & es & m & [(jl & El & _) (v & jn & _ & En & _) (je & Ee & _) _]).
  intros name Hn. repeat (apply elem_of_cons in Hn as [->|Hn]; [eauto|]). inversion Hn.
Qed.
Print Assumptions C60_missing_section.
(** what a document lists is determined by the document *)
Lemma forall2_unique {A B} (R : A -> B -> Prop) l xs ys : (forall a x y, R a x -> R a y -> x = y) -> Forall2 R l xs -> Forall2 R l ys -> xs = ys.
Proof. intros H F. revert ys. induction F as [|a x l xs Hx _ IH]; intros ys G; inversion G; subst; [reflexivity|]. f_equal; [eapply H; eassumption|apply IH; assumption]. Qed.
Lemma member_unique {A} o name (v : json -> result A) x y : member_is o name v x -> member_is o name v y -> x = y.
Proof. rewrite !member_at. congruence. Qed.
Theorem C60_listed_unique : forall fsub p o ids ns es m ids' ns' es' m',
  listed fsub p o ids ns es m -> listed fsub p o ids' ns' es' m' -> ids = ids' /\ ns = ns' /\ es = es' /\ m = m'.
Proof.
  intros fsub p o ids ns es m ids' ns' es' m' [I (v & jn & V & N & FN) (je & E & FE) M] [I' (v' & jn' & V' & N' & FN') (je' & E' & FE') M'].
  split; [eapply member_unique; eassumption|].
  assert (v' = v) as -> by (destruct V as [[V1 V2]|(h & V1 & V2)]; destruct V' as [[V1' V2']|(h' & V1' & V2')]; [congruence|destruct V1' as (? & ? & _); congruence|destruct V1 as (? & ? & _); congruence|rewrite V2, V2'; f_equal; eapply member_unique; eassumption]).
  assert (jn' = jn) as -> by congruence. assert (je' = je) as -> by congruence. split; [|split].
  - eapply forall2_unique; [|exact FN|exact FN']. intros j [x d] [x' d'] (q & l & a & -> & A1 & A2 & A3 & A4) (q' & l' & a' & Eq & B1 & B2 & B3 & B4). injection Eq as <-. cbn [fst snd] in *.
    assert (x' = x) as -> by (eapply member_unique; eassumption). assert (l' = l) as -> by (eapply member_unique; eassumption). assert (Ea : Some a' = Some a) by (eapply member_unique; eassumption). injection Ea as ->.
    destruct A4 as [[A4 ->]|(t & A4 & ->)]; destruct B4 as [[B4 ->]|(t' & B4 & ->)]; [reflexivity|destruct B4 as (? & ? & _); congruence|destruct A4 as (? & ? & _); congruence|].
    assert (t' = t) as -> by (eapply member_unique; eassumption). reflexivity.
  - eapply forall2_unique; [|exact FE|exact FE']. intros j [[x y] d] [[x' y'] d'] (q & i & -> & A1 & A2 & A3 & A4) (q' & i' & Eq & B1 & B2 & B3 & B4). injection Eq as <-. cbn [fst snd] in *.
    assert (x' = x) as -> by (eapply member_unique; eassumption). assert (y' = y) as -> by (eapply member_unique; eassumption). assert (i' = i) as -> by (eapply member_unique; eassumption). congruence.
  - destruct M as [[M ->]|(x & M & ->)]; destruct M' as [[M' ->]|(x' & M' & ->)]; [reflexivity|destruct M' as (? & ? & _); congruence|destruct M as (? & ? & _); congruence|]. f_equal. eapply member_unique; eassumption.
Qed.
Print Assumptions C60_listed_unique.

(* ------------------------------------------------------------------ *)
(** ** C55: what else readers accept *)
(** colours may be arrays of three (opaque) or four numbers, or objects without alpha (opaque) *)
Definition byte_json (v : N) : json := JInt (Z.of_N v).
Theorem C55_color_forms : forall r g b a, fits 8 r -> fits 8 g -> fits 8 b -> fits 8 a ->
  jc_from jc_color (JArray [byte_json r; byte_json g; byte_json b]) = Ok (mkColor r g b 255) /\
  jc_from jc_color (JArray [byte_json r; byte_json g; byte_json b; byte_json a]) = Ok (mkColor r g b a) /\
  (forall o, obj_get o (str "r") = Some (byte_json r) -> obj_get o (str "g") = Some (byte_json g) -> obj_get o (str "b") = Some (byte_json b) ->
     (obj_get o (str "a") = Some (byte_json a) -> jc_from jc_color (JObject o) = Ok (mkColor r g b a)) /\
     (obj_get o (str "a") = None -> jc_from jc_color (JObject o) = Ok (mkColor r g b 255))).
Proof.
  intros r g b a Hr Hg Hb Ha. unfold byte_json. unfold jc_color. cbn [jc_from]. unfold jc_u8, jc_unsigned. cbn [jc_from j_nth lookup list_lookup at_ rbind].
  split; [rewrite (unsigned8 r), (unsigned8 g), (unsigned8 b) by assumption; reflexivity|]. split; [rewrite (unsigned8 r), (unsigned8 g), (unsigned8 b) by assumption; cbn [rbind j_size List.length]; change (3 <? N.of_nat 4) with true; cbn [rbind]; rewrite (unsigned8 a) by assumption; reflexivity|].
  intros o Gr Gg Gb. cbn [j_at j_contains]. rewrite Gr, Gg, Gb. cbn [at_ rbind]. rewrite (unsigned8 r), (unsigned8 g), (unsigned8 b) by assumption. cbn [rbind]. split; intros Ga; rewrite Ga; [|reflexivity].
  cbn [at_ rbind]. rewrite (unsigned8 a) by assumption. reflexivity.
Qed.
Print Assumptions C55_color_forms.
(** a vector or matrix of fixed size with another number of coefficients throws *)
Theorem C55_wrong_size_throws : forall rows cols c nan l, rows * cols < 2 ^ 31 -> N.of_nat (List.length l) <> rows * cols ->
  jc_from (jc_matrix (Some rows) (Some cols) c nan) (JArray l) = Throw.
Proof.
  intros rows cols c nan l Hs Hl. cbn [jc_matrix jc_from rbind]. unfold shape_check. cbn [j_size]. rewrite <- N2Z.inj_mul.
  replace ((Z.of_N (rows * cols) <? - 2 ^ 31) || (2 ^ 31 <=? Z.of_N (rows * cols)))%Z with false by (symmetry; apply orb_false_iff; split; [apply Z.ltb_ge|apply Z.leb_gt]; lia).
  replace (Z.of_N (N.of_nat (List.length l)) =? Z.of_N (rows * cols))%Z with false by (symmetry; apply Z.eqb_neq; intros E; apply N2Z.inj in E; contradiction). reflexivity.
Qed.
Print Assumptions C55_wrong_size_throws.
Theorem C55_wrong_vector_throws : forall l, List.length l <> 3%nat -> jc_from jc_vec3f (JArray l) = Throw /\ jc_from jc_vec3d (JArray l) = Throw.
Proof.
  intros l Hl. unfold jc_vec3f, jc_vec3d, jc_vec3. cbn [jc_from]. rewrite !C55_wrong_size_throws by lia. split; reflexivity.
Qed.
Print Assumptions C55_wrong_vector_throws.
(** an edge whose attributes are of a class the program does not have is added with default
    attributes *)
Theorem C55_unknown_edge_class : forall f o name, obj_get o (str "type") = Some (JString name) -> create_by_name f name = None ->
  edge_attrs_from_json f (JObject o) = Ok None.
Proof. intros f o name G C. unfold edge_attrs_from_json. cbn [j_at]. rewrite G. cbn [at_ rbind get_string]. rewrite C. reflexivity. Qed.
Print Assumptions C55_unknown_edge_class.

(* ------------------------------------------------------------------ *)
(** ** The conditions are met *)
Definition doc_place : NodeAttrs := Attrs.ANode old_ex_base.
Definition doc_agent : NodeAttrs := base_at 0 0 0.
Definition doc_chair_read : NodeAttrs := Eval vm_compute in through_json (chair silla (mkVec3 inf64 0 double_one) chair_box).
Definition doc_ns : list NodeEntry :=
  [(10, (key_static PLACES, None, doc_place)); (40, (key_static OBJECTS, None, doc_chair_read)); (agent 0, (key_dynamic 2 pfx_a, Some 5%Z, doc_agent))].
Definition doc_es : list (N * N * EdgeAttrs) := [(40, 10, mkEA true double_one)].
Definition doc_ids : list N := g_layer_ids doc_graph.
Ltac is_member := unfold member_is; eexists; split; [vm_compute; reflexivity|vm_compute; reflexivity].
Example C60_ex : listed sub0 lib doc_today doc_ids doc_ns doc_es (Some ex_mesh) /\ doc_ids <> [] /\ stamps_ok doc_ids doc_ns /\ nodes_ok doc_ids doc_ns /\ edges_ok doc_ns doc_es.
Proof.
  split.
  { constructor.
    - is_member.
    - exists (mkV 1 0 4). eexists. split; [right; eexists; split; [is_member|vm_compute; reflexivity]|]. split; [vm_compute; reflexivity|].
      cbn [j_items]. unfold doc_ns. constructor; [|constructor; [|constructor; [|constructor]]].
      + eexists. eexists. eexists. split; [reflexivity|]. split; [is_member|]. split; [is_member|]. split; [is_member|]. left. split; [vm_compute; reflexivity|vm_compute; reflexivity].
      + eexists. eexists. eexists. split; [reflexivity|]. split; [is_member|]. split; [is_member|]. split; [is_member|]. left. split; [vm_compute; reflexivity|vm_compute; reflexivity].
      + eexists. eexists. eexists. split; [reflexivity|]. split; [is_member|]. split; [is_member|]. split; [is_member|]. right. eexists. split; [is_member|]. vm_compute. reflexivity.
    - eexists. split; [vm_compute; reflexivity|]. constructor; [|constructor]. eexists. eexists. split; [reflexivity|]. split; [is_member|]. split; [is_member|]. split; [is_member|]. reflexivity.
    - right. eexists. split; [is_member|]. vm_compute. reflexivity. }
  split; [vm_compute; discriminate|].
  assert (Hin : forall x k t a, (x, (k, t, a)) ∈ doc_ns -> (x, (k, t)) ∈ [(10, (key_static PLACES, None)); (40, (key_static OBJECTS, None)); (agent 0, (key_dynamic 2 pfx_a, Some 5%Z))]).
  { intros x k t a Hx. apply (elem_of_list_fmap_1 (fun e : NodeEntry => (fst e, fst (snd e)))) in Hx. exact Hx. }
  split.
  { split; [apply (bool_decide_unpack _); vm_compute; exact I|]. split.
    - intros x k t a Hx Hd. apply Hin in Hx. repeat (apply elem_of_cons in Hx as [[= -> -> ->]|Hx]; [first [discriminate Hd|vm_compute; repeat split; discriminate]|]). inversion Hx.
    - intros x y k t a b Hx Hy Hd. apply Hin in Hx. apply Hin in Hy. repeat (apply elem_of_cons in Hx as [[= -> -> ->]|Hx]; [first [discriminate Hd|idtac]|]); [|inversion Hx].
      repeat (apply elem_of_cons in Hy as [Hy|Hy]; [first [injection Hy as ->; reflexivity|discriminate Hy]|]). inversion Hy. }
  split.
  { split; [apply (bool_decide_unpack _); vm_compute; exact I|]. intros x k t a Hx Hd. apply Hin in Hx. repeat (apply elem_of_cons in Hx as [[= -> -> ->]|Hx]; [first [discriminate Hd|apply (bool_decide_unpack _); vm_compute; exact I]|]). inversion Hx. }
  split.
  - intros [|i] [|j] u v a u' v' b H H' _; try reflexivity; try (destruct i; discriminate); try (destruct j; discriminate).
  - intros u v a Hx. apply elem_of_list_singleton in Hx. injection Hx as -> -> ->. split; [discriminate|]. split; apply (bool_decide_unpack _); vm_compute; exact I.
Qed.
(** Inconsistent documents: a node listed twice, a node of a layer that is not listed, an edge
    listed twice, an edge with a node that is not listed. *)
Definition with_member (name : string) (j : json) : json := JObject (obj_set doc_today (str name) j).
Definition doc_nodes : list json := items (obj_get doc_today (str "nodes")).
Definition doc_edges : list json := items (obj_get doc_today (str "edges")).
Definition throws (r : result Graph) : bool := match r with Throw => true | _ => false end.
Example C60_ex_throws :
  throws (read_graph_json sub0 lib (with_member "nodes" (JArray (doc_nodes ++ doc_nodes)))) = true /\
  throws (read_graph_json sub0 lib (with_member "layer_ids" (JArray [JInt 2]))) = true /\
  throws (read_graph_json sub0 lib (with_member "edges" (JArray (doc_edges ++ doc_edges)))) = true /\
  throws (read_graph_json sub0 lib (with_member "nodes" (JArray (drop 1 doc_nodes)))) = true /\
  throws (read_graph_json sub0 lib (JObject doc_today)) = false.
Proof. repeat split; vm_compute; reflexivity. Qed.

(* ------------------------------------------------------------------ *)
(** ** More of what readers accept *)
(** Where a list is expected, everything but an array throws, null among it. *)
Theorem C55_list_expected : forall A (c : JCodec A) j, (forall l, j <> JArray l) -> jc_from (jc_list c) j = Throw.
Proof. intros A c j H. destruct j; try reflexivity. destruct (H l). reflexivity. Qed.
Print Assumptions C55_list_expected.
Lemma box_name_types t : let z := type_from (JString t) in
  (z = 1%Z <-> t = str "AABB") /\ (z = 2%Z <-> t = str "OBB") /\ (z = 3%Z <-> t = str "RAABB") /\
  (z = 0%Z <-> t <> str "AABB" /\ t <> str "OBB" /\ t <> str "RAABB").
Proof.
  cbv zeta. unfold type_from, box_types. cbn [find fst snd].
  assert (D : NoDup [str "INVALID"; str "AABB"; str "RAABB"; str "OBB"]) by (apply (bool_decide_unpack _); vm_compute; exact I).
  revert D. generalize (str "INVALID") (str "AABB") (str "RAABB") (str "OBB"). intros a b c d D.
  rewrite !stdpp.list.NoDup_cons in D. rewrite !elem_of_cons in D. destruct D as (D1 & D2 & D3 & _).
  destruct (decide (a = t)) as [->|Na]; [rewrite (bool_decide_true (t = t)) by reflexivity; cbn [fst]; intuition congruence|]. rewrite (bool_decide_false (a = t)) by exact Na.
  destruct (decide (b = t)) as [->|Nb]; [rewrite (bool_decide_true (t = t)) by reflexivity; cbn [fst]; intuition congruence|]. rewrite (bool_decide_false (b = t)) by exact Nb.
  destruct (decide (c = t)) as [->|Nc]; [rewrite (bool_decide_true (t = t)) by reflexivity; cbn [fst]; intuition congruence|]. rewrite (bool_decide_false (c = t)) by exact Nc.
  destruct (decide (d = t)) as [->|Nd]; [rewrite (bool_decide_true (t = t)) by reflexivity; cbn [fst]; intuition congruence|]. rewrite (bool_decide_false (d = t)) by exact Nd.
  intuition congruence.
Qed.
(** The names of the types of bounding boxes; every other name, or a type that is no string, reads
    as an invalid box, whatever the other members are. *)
Theorem C55_box_names : forall env,
  (forall b, exists o, jc_to (jc_bbox env) b = JObject o /\
     obj_get o (str "type") = Some (JString (match bb_type b with 1 => str "AABB" | 2 => str "OBB" | 3 => str "RAABB" | _ => str "INVALID" end%Z))) /\
  (forall o t b, obj_get o (str "type") = Some (JString t) -> jc_from (jc_bbox env) (JObject o) = Ok b ->
     (bb_type b = 1%Z <-> t = str "AABB") /\ (bb_type b = 2%Z <-> t = str "OBB") /\ (bb_type b = 3%Z <-> t = str "RAABB") /\
     (bb_type b = 0%Z <-> t <> str "AABB" /\ t <> str "OBB" /\ t <> str "RAABB")) /\
  (forall o j, obj_get o (str "type") = Some j -> (forall t, j = JString t -> t <> str "AABB" /\ t <> str "OBB" /\ t <> str "RAABB") ->
     jc_from (jc_bbox env) (JObject o) = Ok (mkBBox 0 (bb_dim bbox_default) (bb_center bbox_default) (bb_rot bbox_default))).
Proof.
  intros env. split; [|split].
  - intros b. cbn [jc_to jc_bbox]. rewrite j_object_nodup by (apply (bool_decide_unpack _); vm_compute; exact I).
    eexists. split; [reflexivity|]. cbn [obj_get]. rewrite bool_decide_true by reflexivity. unfold type_to, box_types. cbn [find fst snd].
    destruct (bb_type b) as [|[[|[]|]|[|[]|]|]|]; reflexivity.
  - intros o t b Ht H.
    assert (E : bb_type b = type_from (JString t)).
    { cbn [jc_from jc_bbox j_at] in H. rewrite Ht in H. cbn [at_ rbind] in H. cbv zeta in H. revert H. generalize (type_from (JString t)). intros z H.
      destruct (Z.eqb_spec z 0) as [Ez|_]; [injection H as H; rewrite <- H, Ez; reflexivity|].
      repeat match type of H with rbind ?r _ = _ => destruct r; [cbn [rbind] in H|discriminate H..] end. injection H as <-. reflexivity. }
    rewrite E. apply box_name_types.
  - intros o j Hj H. cbn [jc_from jc_bbox j_at]. rewrite Hj. cbn [at_ rbind]. unfold type_from, box_types. cbn [find fst snd].
    destruct j; try reflexivity.
    match goal with |- context [bool_decide (_ = ?s)] => destruct (H s eq_refl) as (N1 & N2 & N3);
      rewrite (bool_decide_false (str "AABB" = s)), (bool_decide_false (str "RAABB" = s)), (bool_decide_false (str "OBB" = s)) by congruence;
      destruct (bool_decide (str "INVALID" = s)); reflexivity end.
Qed.
Print Assumptions C55_box_names.
