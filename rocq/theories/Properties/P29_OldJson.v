(** C59 JSON documents of older versions. *)
From Coq Require Import NArith ZArith Bool List Lia String.
From stdpp Require Import base list gmap.
From Verif.Model Require Import Types Mesh Attrs Node EdgeContainer SLayer DLayer Graph Binary Versioning AttrCodec Registry GraphCodec Json Rotation JsonCodec GraphJson.
From Verif.Spec Require Import BinarySpec AttrSpec RegistrySpec ProgramSpec AbstractGraph GraphHistory GraphObs GraphFileSpec LegacySpec JsonSpec OldJsonSpec.
From Verif.Proof Require Import GraphRep GraphObsP TransferP JsonNum JsonP JsonAttrP GraphJsonP OldJsonP OldJsonP2.
From Verif.Properties Require Import P12_Files P13_Registry P14_GraphFiles P23_Legacy P24_Json ExGraph.
Local Open Scope N_scope.

(** C59: from an object in the form version [v] wrote for attributes [a] the current program
    reads what [old_json_attrs] says.  [fsub] is the subtraction of 32 bit floats. *)
Theorem C59_old_attributes : forall fsub v lo hi ks p a,
  older v 1 0 4 -> vec_ok 32 lo -> vec_ok 32 hi -> program_of ks p -> kind_of a ∈ ks -> json_ok a ->
  exists today, dump (attrs_to_json (mkEnv (h_version header_current) fsub) a) = Ok (JObject today) /\
    forall o, old_object v lo hi a today o ->
      attrs_from_json (mkEnv v fsub) (reg_current (pg_nodes p)) (JObject o) = Ok (Some (old_json_attrs v (corner_width fsub lo hi) a)).
Proof.
  intros fsub v lo hi ks p a Hv Hlo Hhi Hp Hk Ha. set (now := mkEnv (h_version header_current) fsub).
  destruct (attrs_text now ks p a eq_refl Hp Ha) as (t & D & _).
  assert (exists today, t = JObject today) as [today ->].
  { unfold attrs_to_json in D. rewrite dump_object in D. destruct (map_result _ _) as [o| |]; try discriminate. cbn in D. injection D as <-. eauto. }
  exists today. split; [exact D|]. intros o Ho.
  destruct (old_object_read (mkEnv v fsub) now Hv eq_refl lo hi a today o Ha Hlo Hhi D Ho) as [R T].
  unfold attrs_from_json. cbn [j_at]. rewrite T. cbn [at_ rbind get_string]. rewrite (by_name_known ks p _ Hp), bool_decide_true by exact Hk. rewrite R. reflexivity.
Qed.
Print Assumptions C59_old_attributes.

(** Meshes: up to 1.0.1 vertices with colours, then the layout of today. *)
Theorem C59_old_mesh : forall v m o, old_json_mesh v m -> mesh_document v m o -> mesh_from_text (JObject o) = Ok (mesh_meant v m).
Proof. exact old_mesh_read. Qed.
Print Assumptions C59_old_mesh.

(** Whole graphs. *)
Theorem C59_old_graph : forall fsub v corners ks p h im,
  older v 1 0 4 -> (forall x, vec_ok 32 (fst (corners x)) /\ vec_ok 32 (snd (corners x))) ->
  program_of ks p -> reachable h -> json_saveable h -> (forall x k t a, node_data h x = Some (k, t, a) -> kind_of a ∈ ks) ->
  exists today, write_graph_json (mkEnv (h_version header_current) fsub) h im = Ok (JObject today) /\
    forall m o, old_document v corners h m today o ->
      exists g', read_graph_json fsub p (JObject o) = Ok g' /\ reachable g' /\ loaded_from_old_json fsub v corners h g' /\ g_mesh g' = mesh_meant v <$> m.
Proof.
  intros fsub v corners ks p h im Hv Hc Hp Hh HS HK.
  destruct (old_document_read fsub v corners Hv Hc ks p h im Hp Hh HS HK) as (today & W & R). exists today. split; [exact W|].
  intros m o Ho. destruct (R m o Ho) as (g' & R' & Hr & Hi & HN & HE & HM). exists g'. split; [exact R'|]. split; [exact Hr|]. split; [|exact HM].
  split; [exact Hi|]. split; [apply same_layers; assumption|]. split; [|exact HE].
  intros x. rewrite HN. destruct (node_data h x) as [[[k t] a]|]; [|reflexivity]. cbn. unfold old_cv. destruct (corners x) as [lo hi]. reflexivity.
Qed.
Print Assumptions C59_old_graph.

(* ------------------------------------------------------------------ *)
(** ** The conditions are met *)
(** making a document of today one of version 1.0.0, 1.0.1 or 1.0.2 *)
Definition without (o : list (list N * json)) (names : list string) : list (list N * json) :=
  filter (fun kv => ~ (fst kv ∈ map str names)) o.
Definition members (j : option json) : list (list N * json) := match j with Some (JObject o) => o | _ => [] end.
Definition items (j : option json) : list json := match j with Some (JArray l) => l | _ => [] end.
Definition text_or_null (r : result json) : json := match r with Ok j => j | _ => JNull end.
Definition old_box (b : list (list N * json)) : json :=
  JObject (without b ["dimensions"]%string ++ [(str "min", text_or_null (dump (jc_to jc_vec3f corner0))); (str "max", text_or_null (dump (jc_to jc_vec3f corner1)))]).
Definition old_members (a : NodeAttrs) (o : list (list N * json)) : list (list N * json) :=
  match sem_of a with
  | Some s => without o ["is_predicted"; "color"; "bounding_box"]%string ++
      [(str "color", color_array (s_color s)); (str "bounding_box", old_box (members (obj_get o (str "bounding_box"))))]
  | None => without o ["is_predicted"]%string
  end.
Definition old_node_json (h : Graph) (j : json) : json :=
  match j with
  | JObject o => match obj_get o (str "id") with
      | Some (JInt z) => match node_data h (Z.to_N z) with
          | Some (_, _, a) => JObject (without o ["attributes"]%string ++ [(str "attributes", JObject (old_members a (members (obj_get o (str "attributes")))))])
          | None => j end
      | _ => j end
  | _ => j
  end.
Definition old_json (header : list (list N * json)) (h : Graph) (mesh : list (list N * json)) (today : list (list N * json)) : list (list N * json) :=
  header ++ [(str "nodes", JArray (map (old_node_json h) (items (obj_get today (str "nodes"))))); (str "mesh", JObject mesh)] ++
  without today ["SPARK_DSG_header"; "nodes"; "mesh"]%string.
Definition doc_graph : Graph := build [GEmplace OBJECTS 40 (chair silla (mkVec3 inf64 0 double_one) chair_box); GEmplace PLACES 10 (Attrs.ANode old_ex_base);
  GInsertEdge 40 10 (Some (mkEA true double_one)); GEmplaceDyn 2 pfx_a 5 (base_at 0 0 0) true; GSetMesh (Some ex_mesh)].
Lemma doc_reachable : reachable doc_graph. Proof. apply run_b_start. vm_compute. reflexivity. Qed.
Lemma doc_saveable : json_saveable doc_graph.
Proof.
  assert (E : g_mesh doc_graph = Some ex_mesh) by (vm_compute; reflexivity).
  apply json_saveable_b_ok; [exact doc_reachable|rewrite E; intros m [= <-]; exact ex_mesh_json|vm_compute; reflexivity].
Qed.
Definition doc_today : list (list N * json) := match text_of doc_graph with Ok (JObject o) => o | _ => [] end.
(** without a header, and so of version 1.0.0; the mesh has vertices *)
Definition doc_vertices : list (list N * json) :=
  [(str "vertices", JArray (map (fun pc : Vec3 * Color => JObject [(str "x", number32 (v_x (fst pc))); (str "y", number32 (v_y (fst pc))); (str "z", number32 (v_z (fst pc)));
     (str "r", byte_number (c_r (snd pc))); (str "g", byte_number (c_g (snd pc))); (str "b", byte_number (c_b (snd pc)))]) (zip (m_points ex_mesh) (m_colors ex_mesh))));
   (str "faces", JArray (map face_array (m_faces ex_mesh)))].
Definition doc_100 : list (list N * json) := old_json [] doc_graph doc_vertices doc_today.
(** of version 1.0.2; the mesh is as today *)
Definition header_102 : json := text_or_null (dump (jc_to jc_header (mkHeader (str "main") (mkV 1 0 2)))).
Definition doc_102 : list (list N * json) :=
  old_json [(header_name, header_102)] doc_graph (obj_set (members (obj_get doc_today (str "mesh"))) (str "header") header_102) doc_today.
Ltac same_members := intros ?x ?Hx; apply elem_of_list_In in Hx; vm_compute in Hx;
  repeat (destruct Hx as [<-|Hx]); try contradiction; vm_compute; reflexivity.
Ltac same_old := let x := fresh "x" in let Hx := fresh "Hx" in let Hn := fresh "Hn" in intros x Hx Hn; apply elem_of_list_In in Hx; vm_compute in Hx;
  repeat (destruct Hx as [<-|Hx]); try contradiction; first [exfalso; apply Hn; apply (bool_decide_unpack _); vm_compute; exact I|vm_compute; reflexivity].
Ltac old_sem := let s := fresh "s" in let Hs := fresh "Hs" in let Ho := fresh "Ho" in intros s Hs Ho; first [discriminate Hs|injection Hs as <-;
  split; [vm_compute; reflexivity|]; eexists; eexists; split; [vm_compute; reflexivity|]; split; [vm_compute; reflexivity|];
  split; [vm_compute; reflexivity|]; split; [vm_compute; reflexivity|]; split; [vm_compute; reflexivity|]; split; eexists; split; vm_compute; reflexivity].
Ltac is_old_node id := exists id; eexists; eexists; eexists; eexists; eexists; eexists; eexists;
  split; [vm_compute; reflexivity|]; split; [reflexivity|]; split; [reflexivity|]; split; [vm_compute; reflexivity|];
  split; [same_members|]; split; [vm_compute; reflexivity|]; split; [vm_compute; reflexivity|];
  split; [vm_compute; reflexivity|]; split; [same_old|old_sem].
Lemma ex_mesh_old v : old_json_mesh v ex_mesh.
Proof.
  split; [exact ex_mesh_json|]. intros _. repeat constructor; apply finite_iff; vm_compute; reflexivity.
Qed.
Definition is_old_doc (v : Version) (o : list (list N * json)) : Prop := old_document v old_ex_corners doc_graph (Some ex_mesh) doc_today o.
Lemma doc_100_old : is_old_doc (mkV 1 0 0) doc_100.
Proof.
  split; [vm_compute; reflexivity|]. split; [right; split; [vm_compute; reflexivity|reflexivity]|]. split; [vm_compute; reflexivity|]. split; [vm_compute; reflexivity|]. split.
  - eexists. eexists. split; [vm_compute; reflexivity|]. split; [vm_compute; reflexivity|].
    constructor; [is_old_node 10|]. constructor; [is_old_node 40|]. constructor; [is_old_node (agent 0)|]. constructor.
  - exists doc_vertices. split; [vm_compute; reflexivity|]. split; [apply ex_mesh_old|]. split; [right; split; [vm_compute; reflexivity|reflexivity]|].
    rewrite decide_True by (unfold older; cbn; lia). eexists. split; [vm_compute; reflexivity|]. split; [reflexivity|]. split; [|vm_compute; reflexivity].
    repeat constructor; eexists; split; try reflexivity; repeat split; vm_compute; reflexivity.
Qed.
Lemma doc_102_old : is_old_doc (mkV 1 0 2) doc_102.
Proof.
  assert (HV : forall o f, obj_get o f = Some header_102 -> of_version f (mkV 1 0 2) o).
  { intros o f G. left. exists (str "main"), header_102. split; [exact G|]. split; [apply accepted_is_utf8; vm_compute; reflexivity|]. repeat split; vm_compute; reflexivity. }
  split; [vm_compute; reflexivity|]. split; [apply HV; vm_compute; reflexivity|]. split; [vm_compute; reflexivity|]. split; [vm_compute; reflexivity|]. split.
  - eexists. eexists. split; [vm_compute; reflexivity|]. split; [vm_compute; reflexivity|].
    constructor; [is_old_node 10|]. constructor; [is_old_node 40|]. constructor; [is_old_node (agent 0)|]. constructor.
  - eexists. split; [vm_compute; reflexivity|]. split; [apply ex_mesh_old|]. split; [apply HV; vm_compute; reflexivity|].
    rewrite decide_False by (unfold older; cbn; lia). eexists. split; [vm_compute; reflexivity|]. same_members.
Qed.
(** Both are read by the theorem, and this is what comes out: a chair that is opaque, has the
    dimensions of its corners and is not predicted. *)
Definition fsub_ex (a b : N) : N := (a - b) mod 2 ^ 32.
Definition doc_chair (o : list (list N * json)) : option NodeAttrs :=
  match read_graph_json fsub_ex lib (JObject o) with Ok g => match node_data g 40 with Some (_, _, a) => Some a | None => None end | _ => None end.
Definition chair_read : NodeAttrs :=
  AObj (mkObj (mkSem (mkBase (mkVec3 quiet_nan64 0 double_one) 9 true false) silla (mkColor 1 2 3 255)
    (mkBBox 3 corner1 (mkVec3 0 0 float_one) (bb_rot chair_box)) 5 (mkMatrix 1 2 [double_one; quiet_nan64])) [7; 8] true quat_identity).
Example C59_ex : reachable doc_graph /\ json_saveable doc_graph /\ is_old_doc (mkV 1 0 0) doc_100 /\ is_old_doc (mkV 1 0 2) doc_102 /\
  doc_chair doc_100 = Some chair_read /\ doc_chair doc_102 = Some chair_read.
Proof.
  split; [exact doc_reachable|]. split; [exact doc_saveable|]. split; [exact doc_100_old|]. split; [exact doc_102_old|]. split; vm_compute; reflexivity.
Qed.
Example C59_ex_mesh : (match read_graph_json fsub_ex lib (JObject doc_100) with Ok g => g_mesh g | _ => None end) =
    Some (mkMesh true false false false (m_points ex_mesh) [mkColor 0 0 0 255; mkColor 1 2 3 255] [] [] [] [mkFace 0 1 0]) /\
  (match read_graph_json fsub_ex lib (JObject doc_102) with Ok g => g_mesh g | _ => None end) = Some ex_mesh.
Proof. split; vm_compute; reflexivity. Qed.
