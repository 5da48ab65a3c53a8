(** Meshes and graphs in JSON documents of older versions. *)
From Coq Require Import NArith ZArith Bool List Lia String.
From stdpp Require Import base list gmap fin_maps.
From Verif.Model Require Import Types Mesh Attrs Node EdgeContainer SLayer DLayer Graph Binary Versioning AttrCodec Registry GraphCodec Json Rotation JsonCodec GraphJson.
From Verif.Spec Require Import BinarySpec AttrSpec RegistrySpec ProgramSpec AbstractGraph GraphHistory GraphObs LegacySpec JsonSpec OldJsonSpec.
From Verif.Proof Require Import LegacyP JsonNum JsonP GraphRep GraphObsP TransferP JsonAttrP GraphJsonP OldJsonP.
Local Open Scope N_scope.

Lemma older_102 v : version_leb v (mkV 1 0 1) = bool_decide (older v 1 0 2).
Proof.
  unfold version_leb, version_ltb. destruct v as [x y z]. cbn [v_major v_minor v_patch].
  destruct (bool_decide (older {| v_major := x; v_minor := y; v_patch := z |} 1 0 2)) eqn:E.
  - apply bool_decide_eq_true in E. unfold older in E. cbn [v_major v_minor v_patch] in E.
    destruct (N.ltb_spec 1 x); [lia|]. destruct (N.eqb_spec 1 x); [|reflexivity]. destruct (N.ltb_spec 0 y); [lia|]. destruct (N.eqb_spec 0 y); [|reflexivity].
    apply negb_true_iff, N.ltb_ge. lia.
  - apply bool_decide_eq_false in E. unfold older in E. cbn [v_major v_minor v_patch] in E.
    destruct (N.ltb_spec 1 x); [reflexivity|]. destruct (N.eqb_spec 1 x); [|lia]. destruct (N.ltb_spec 0 y); [reflexivity|]. destruct (N.eqb_spec 0 y); [|lia].
    apply negb_false_iff, N.ltb_lt. lia.
Qed.
Lemma header_read field v o : of_version field v o ->
  exists hd, (if j_contains (JObject o) field then let! x := j_at (JObject o) field in jc_from jc_header x else Ok header_legacy) = Ok hd /\ h_version hd = v.
Proof.
  intros [(name & j & G & U & H1 & H2 & H3 & D)|[G ->]].
  - exists (mkHeader name v). split; [|reflexivity]. cbn [j_contains j_at]. rewrite G. cbn [at_ rbind]. destruct (carries_header (mkHeader name v) U H1 H2 H3) as (j' & D' & R'). congruence.
  - exists header_legacy. split; [|reflexivity]. cbn [j_contains]. rewrite G. reflexivity.
Qed.
Lemma float_read v : fits 32 v -> is_finite 8 23 v -> get_float (number32 v) = Ok v.
Proof. intros H1 H2. cbn [get_float number32]. rewrite float_double_float; [reflexivity|exact H1|apply finite_iff, H2]. Qed.
Lemma vertex_read p c j : vec_ok 32 p -> vec_finite 8 23 p -> color_ok c -> old_vertex p c j -> legacy_vertex j = Ok (p, opaque c).
Proof.
  intros (P1 & P2 & P3) (F1 & F2 & F3) (C1 & C2 & C3 & _) (o & -> & G1 & G2 & G3 & G4 & G5 & G6). unfold legacy_vertex. cbn [j_at]. rewrite G1, G2, G3, G4, G5, G6. cbn [at_ rbind].
  rewrite (float_read _ P1 F1). cbn [rbind]. rewrite (float_read _ P2 F2). cbn [rbind]. rewrite (float_read _ P3 F3). cbn [rbind].
  unfold byte_number. rewrite (unsigned8 _ C1). cbn [rbind]. rewrite (unsigned8 _ C2). cbn [rbind]. rewrite (unsigned8 _ C3). cbn [rbind]. destruct p. reflexivity.
Qed.
Lemma face_read f : face_ok f -> legacy_face (face_array f) = Ok f.
Proof.
  intros (H1 & H2 & H3). unfold legacy_face, face_array. cbn [map_result j_nth lookup list_lookup at_ rbind get_unsigned]. rewrite !unsigned_back by assumption. destruct f. reflexivity.
Qed.
Lemma mesh_members_read o o' : (forall x, x ∈ mesh_members -> obj_get o (str x) = obj_get o' (str x)) -> jc_from jc_mesh (JObject o) = jc_from jc_mesh (JObject o').
Proof.
  intros H. assert (G : forall x, In x mesh_members -> obj_get o (str x) = obj_get o' (str x)) by (intros x Hx; apply H, elem_of_list_In, Hx).
  cbn [jc_mesh jc_from]. rewrite !read_member_get. cbn [j_at].
  rewrite (G "has_colors"%string), (G "has_timestamps"%string), (G "has_labels"%string), (G "has_first_seen_stamps"%string), (G "points"%string), (G "colors"%string), (G "stamps"%string),
    (G "first_seen_stamps"%string), (G "labels"%string), (G "faces"%string) by (vm_compute; tauto). reflexivity.
Qed.
Theorem old_mesh_read v m o : old_json_mesh v m -> mesh_document v m o -> mesh_from_text (JObject o) = Ok (mesh_meant v m).
Proof.
  intros (Hj & Hf) (Hv & HD). unfold mesh_from_text. destruct (header_read _ _ _ Hv) as (hd & -> & Eh). cbn [rbind]. rewrite Eh, older_102. unfold mesh_meant. destruct (decide (older v 1 0 2)) as [Ho|Ho].
  - rewrite bool_decide_true by exact Ho. destruct HD as (vs & Gv & Hlen & HV & Gf). destruct Hj as (J1 & J2 & _ & _ & _ & J6). specialize (Hf Ho).
    unfold mesh_from_legacy. cbn [j_contains j_at]. rewrite Gv, Gf. cbn [at_ rbind j_items].
    rewrite (map_result_ok legacy_vertex vs (zip (m_points m) (map opaque (m_colors m)))).
    + cbn [rbind]. rewrite (map_result_ok legacy_face _ (m_faces m)).
      * cbn [rbind]. unfold from_vertices. f_equal. change (map fst (zip ?a ?b)) with ((zip a b).*1). change (map snd (zip (m_points m) (map opaque (m_colors m)))) with ((zip (m_points m) (map opaque (m_colors m))).*2).
        rewrite fst_zip by (rewrite map_length; lia). rewrite snd_zip by (rewrite map_length; lia). reflexivity.
      * clear -J6. induction J6 as [|f l H _ IH]; cbn [map]; constructor; [apply face_read, H|exact IH].
    + clear -J1 J2 Hf Hlen HV. revert vs Hlen HV. generalize dependent (m_colors m). induction (m_points m) as [|p ps IH]; intros cs J2 vs Hlen HV; destruct cs as [|c cs]; try discriminate; cbn [zip zip_with map] in *.
      * inversion HV; subst. constructor.
      * inversion HV as [|? j ? vs' V1 V2]; subst. inversion J1; subst. inversion J2; subst. inversion Hf; subst. constructor; [apply vertex_read; assumption|]. apply IH; try assumption. cbn in Hlen. lia.
  - rewrite bool_decide_false by exact Ho. destruct HD as (today & D & E). rewrite (mesh_members_read o today) by exact E. destruct (mesh_carried_full m Hj) as (t & D' & R & _). unfold mesh_to_text in D. congruence.
Qed.

(* ------------------------------------------------------------------ *)
(** ** Graphs *)
Lemma text_member o k x : is_text (JObject o) -> obj_get o k = Some x -> is_text x.
Proof.
  unfold is_text. intros H G. rewrite dump_object in H. destruct (map_result dump_member o) as [o'| |] eqn:E; try discriminate. cbn in H. injection H as ->.
  apply map_result_inv in E. assert (Hin : In (k, x) o).
  { clear -G. induction o as [|[k' y] o IH]; [discriminate|]. cbn [obj_get] in G. destruct (bool_decide_reflect (k' = k)) as [->|]; [injection G as ->; left; reflexivity|right; apply IH, G]. }
  clear G. assert (F : Forall (fun a => dump_member a = Ok a) o).
  { apply Forall2_same_length_lookup in E as [_ E]. apply Forall_lookup. intros i a Ha. exact (E i a a Ha Ha). }
  rewrite List.Forall_forall in F. specialize (F _ Hin). unfold dump_member in F. cbn [fst snd] in F. destruct (utf8 k); [|discriminate]. destruct (dump x); cbn in F; congruence.
Qed.
Lemma header_name_ok : header_name = header_field. Proof. reflexivity. Qed.
Lemma texts_related {A B} (to : A -> json) (R : json -> json -> Prop) (from : B -> json -> result B) (step : B -> A -> result B) l ts os :
  (forall a t j, a ∈ l -> dump (to a) = Ok t -> R t j -> forall c, from c j = step c a) ->
  map_result dump (map to l) = Ok ts -> Forall2 R ts os -> forall c, rfold from os c = rfold step l c.
Proof.
  revert ts os. induction l as [|a l IH]; intros ts os H D F c; cbn [map map_result] in D.
  - injection D as <-. inversion F; subst. reflexivity.
  - destruct (dump (to a)) as [t| |] eqn:E; try discriminate. cbn [rbind] in D. destruct (map_result dump (map to l)) as [r| |] eqn:Er; try discriminate. cbn [rbind] in D. injection D as <-.
    inversion F as [|? j ? os' F1 F2]; subst. cbn [rfold]. rewrite (H a t j (elem_of_list_here _ _) E F1). destruct (step c a); cbn [rbind]; [|reflexivity..].
    apply (IH r); [|reflexivity|exact F2]. intros b t' j' Hb. apply H. right. exact Hb.
Qed.

Section OldGraph.
  Context (fsub : N -> N -> N) (v : Version) (corners : N -> Vec3 * Vec3) (Ho : older v 1 0 4)
    (Hc : forall x, vec_ok 32 (fst (corners x)) /\ vec_ok 32 (snd (corners x))).
  Definition old_cv (x : N) (a : NodeAttrs) : NodeAttrs := old_json_attrs v (corner_width fsub (fst (corners x)) (snd (corners x))) a.
  Notation renv := (mkEnv (h_version header_current) fsub).

  Lemma node_text_old ks p h n t j : program_of ks p -> (forall x k t a, node_data h x = Some (k, t, a) -> kind_of a ∈ ks) ->
    fits 64 (n_id n) -> fits 64 (n_layer n) -> (forall t, n_time n = Some t -> fits_signed 64 t) -> json_ok (n_attrs n) ->
    (exists k, node_data h (n_id n) = Some (k, n_time n, n_attrs n)) ->
    dump (node_to_json renv n) = Ok t -> old_node v corners h t j ->
    forall c, node_from_json (mkEnv v fsub) (reg_current (pg_nodes p)) c j = jnstep old_cv c n.
  Proof using Ho Hc.
    intros Hp HK H1 H2 H3 H4 (k & Hd) D (x & k' & t' & a & nt & no & ta & ao & Hx & -> & -> & Gi & Same & Ga & Gao & HO) c.
    destruct (attrs_text renv ks p (n_attrs n) eq_refl Hp H4) as (ja & Da & _).
    set (o := [(str "id", JInt (Z.of_N (n_id n))); (str "layer", JInt (Z.of_N (n_layer n))); (str "attributes", ja)] ++
      match n_time n with Some t => [(str "timestamp", JInt t)] | None => [] end).
    assert (D2 : dump (node_to_json renv n) = Ok (JObject o)).
    { unfold node_to_json. assert (E : forall t, obj_set [(str "id", JInt (Z.of_N (n_id n))); (str "layer", JInt (Z.of_N (n_layer n))); (str "attributes", attrs_to_json renv (n_attrs n))] (str "timestamp") (JInt t) =
        [(str "id", JInt (Z.of_N (n_id n))); (str "layer", JInt (Z.of_N (n_layer n))); (str "attributes", attrs_to_json renv (n_attrs n))] ++ [(str "timestamp", JInt t)]) by reflexivity.
      unfold o. destruct (n_time n) as [t|]; [rewrite E|]; apply dumps_object; unfold dumps; cbn [app];
        repeat (apply List.Forall2_cons; [cbn [fst snd]; split; [reflexivity|split; [reflexivity|first [exact Da|reflexivity]]]|]); apply List.Forall2_nil. }
    rewrite D2 in D. injection D as <-.
    assert (Ei : obj_get o (str "id") = Some (JInt (Z.of_N (n_id n)))) by reflexivity. assert (El : obj_get o (str "layer") = Some (JInt (Z.of_N (n_layer n)))) by reflexivity.
    assert (Ea : obj_get o (str "attributes") = Some ja) by reflexivity.
    assert (Et : obj_get o (str "timestamp") = match n_time n with Some t => Some (JInt t) | None => None end) by (unfold o; destruct (n_time n); reflexivity).
    rewrite Ei in Gi. injection Gi as Gi. apply N2Z.inj in Gi. subst x. rewrite Hd in Hx. injection Hx as <- <- <-. rewrite Ea in Ga. injection Ga as ->.
    destruct (Hc (n_id n)) as [Hlo Hhi].
    destruct (old_object_read (mkEnv v fsub) renv Ho eq_refl (fst (corners (n_id n))) (snd (corners (n_id n))) (n_attrs n) ta ao H4 Hlo Hhi Da HO) as [RO TO].
    assert (S1 := Same "id"%string ltac:(apply (bool_decide_unpack _); vm_compute; exact I)). assert (S2 := Same "layer"%string ltac:(apply (bool_decide_unpack _); vm_compute; exact I)).
    assert (S3 := Same "timestamp"%string ltac:(apply (bool_decide_unpack _); vm_compute; exact I)). rewrite Ei in S1. rewrite El in S2. rewrite Et in S3.
    assert (RA : attrs_from_json (mkEnv v fsub) (reg_current (pg_nodes p)) (JObject ao) = Ok (Some (old_cv (n_id n) (n_attrs n)))).
    { unfold attrs_from_json. cbn [j_at]. rewrite TO. cbn [at_ rbind get_string]. rewrite (by_name_known ks p _ Hp), bool_decide_true by (eapply HK, Hd). rewrite RO. reflexivity. }
    unfold node_from_json. cbn [j_at j_contains]. rewrite S1, S2, S3, Gao. cbn [at_ rbind get_unsigned]. rewrite !unsigned_back by assumption. rewrite RA. cbn [rbind]. unfold jnstep, added.
    destruct (n_time n) as [t|]; [|reflexivity]. cbn [at_ rbind get_unsigned]. rewrite stamp_back by auto. reflexivity.
  Qed.

  Theorem old_document_read ks p h im : program_of ks p -> reachable h -> json_saveable h ->
    (forall x k t a, node_data h x = Some (k, t, a) -> kind_of a ∈ ks) ->
    exists today, write_graph_json renv h im = Ok (JObject today) /\ forall m o, old_document v corners h m today o ->
      exists g', read_graph_json fsub p (JObject o) = Ok g' /\ reachable g' /\ g_layer_ids g' = g_layer_ids h /\
        (forall x, node_data g' x = cv_data old_cv x <$> node_data h x) /\ same_edges h g' /\ g_mesh g' = mesh_meant v <$> m.
  Proof using Ho Hc.
    intros Hp Hh HS HK. destruct (reachable_RepL h Hh) as [ah HL]. pose proof (proj1 HL) as HR.
    assert (NF : forall n, n ∈ jnodes h -> fits 64 (n_id n) /\ fits 64 (n_layer n) /\ (forall t, n_time n = Some t -> fits_signed 64 t) /\ json_ok (n_attrs n) /\ exists k, node_data h (n_id n) = Some (k, n_time n, n_attrs n)).
    { intros n Hn. destruct (jnode_source h ah HL HS n Hn) as (an & _ & _ & _ & Hly & _ & Hd & _). destruct (js_node h HS _ _ _ _ Hd) as (F1 & F2 & F3 & F4). rewrite Hly in F2. eauto 10. }
    destruct (texts (node_to_json renv) (node_from_json renv (reg_current (pg_nodes p))) (jnstep (fun _ => through_json)) (jnodes h)) as (tn & Dn & _).
    { intros n Hn. destruct (NF n Hn) as (F1 & F2 & F3 & F4 & k & Hd). exact (node_text renv ks p eq_refl Hp n F1 F2 F3 F4 (HK _ _ _ _ Hd)). }
    destruct (edges_text ks p h ah Hp HL HS) as (te & De & Re).
    destruct (graph_written fsub h ah im tn te HL HS Dn De) as (jh & jl & tail & Rh & Rl & W & _). cbn zeta in W.
    set (today := [(header_field, jh); (str "directed", JBool false); (str "multigraph", JBool false); (str "nodes", JArray tn); (str "edges", JArray te); (str "layer_ids", jl)] ++ tail) in *.
    exists today. split; [exact W|]. intros m o (HT & HV & Gl & Ge & (ts & os & Gn & Gno & F) & HM).
    assert (El : obj_get today (str "layer_ids") = Some jl) by reflexivity. assert (Ee : obj_get today (str "edges") = Some (JArray te)) by reflexivity.
    assert (En : obj_get today (str "nodes") = Some (JArray tn)) by reflexivity. rewrite El in Gl. rewrite Ee in Ge. rewrite En in Gn. injection Gn as <-.
    destruct (header_read _ _ _ HV) as (hd & RH & Eh).
    assert (Rn : forall c, rfold (node_from_json (mkEnv (h_version hd) fsub) (reg_current (pg_nodes p))) os c = rfold (jnstep old_cv) (jnodes h) c).
    { rewrite Eh. eapply texts_related; [|exact Dn|exact F]. intros n t j Hn D R c. destruct (NF n Hn) as (F1 & F2 & F3 & F4 & F5). eapply node_text_old; eassumption. }
    destruct (graph_read fsub p h old_cv hd os te o jl Hh HS Rn Re RH Gl Rl Gno Ge) as (c2 & RD & G).
    destruct m as [m|].
    - destruct HM as (mo & Gm & Jm & Dm). destruct (G (Some (mesh_meant v m))) as (G1 & G2 & G3 & G4 & G5). eexists. split; [|split; [exact G1|split; [exact G2|split; [exact G3|split; [exact G4|exact G5]]]]].
      rewrite RD. cbn [j_contains j_at]. rewrite Gm. cbn [at_ rbind]. rewrite (text_member _ _ _ HT Gm : dump _ = _). cbn [rbind]. rewrite (old_mesh_read v m mo Jm Dm). reflexivity.
    - destruct (G None) as (G1 & G2 & G3 & G4 & G5). exists c2. split; [|split; [exact G1|split; [exact G2|split; [exact G3|split; [exact G4|exact G5]]]]].
      rewrite RD. cbn [j_contains]. rewrite HM. reflexivity.
  Qed.
End OldGraph.
