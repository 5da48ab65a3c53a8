(** C39 attributes, C40 headers, C45 meshes, C47 file names. *)
From Coq Require Import NArith ZArith Bool List Lia String.
From stdpp Require Import base list gmap.
From Verif.Model Require Import Types Mesh Attrs Binary Versioning AttrCodec.
From Verif.Spec Require Import BinarySpec AttrSpec FileSpec.
From Verif.Proof Require Import BinaryP BinarySafe SaveLoad AttrP AttrSafe FileP.
Local Open Scope N_scope.

(** the version of files written by this program *)
Definition current (env : Env) : Prop := ev_version env = h_version header_current.
Lemma current_new env : current env -> version_ltb (ev_version env) (mkV 1 0 4) = false.
Proof. intros ->. reflexivity. Qed.

(** C39: the attributes of every class are written; reading them back with that class yields
    what [kept] says a file keeps, and stops right behind them. *)
Theorem C39_node_attributes_round_trip : forall env a, current env -> attrs_ok a ->
  exists bs, write_attr_fields env a = Ok bs /\ Forall is_byte bs /\
    reads_back (read_attr_fields env (kind_of a)) bs (kept a).
Proof. intros env a He Ha. apply save_attrs; [apply current_new, He|exact Ha]. Qed.
Print Assumptions C39_node_attributes_round_trip.
(** What is read is equal (operator==, in both directions) to what was written, unless the
    attributes hold a NaN (outside the position) or are a Khronos object using the members it
    inherits from ObjectNodeAttributes. *)
Theorem C39_loaded_attributes_equal : forall a, numbers a -> no_object_members a ->
  attrs_eqb (kept a) a = true /\ attrs_eqb a (kept a) = true.
Proof. exact kept_equal. Qed.
Print Assumptions C39_loaded_attributes_equal.
Theorem C39_edge_attributes_round_trip : forall e, edge_attrs_ok e ->
  (exists bs, write_fields edge_fields e = Ok bs /\ Forall is_byte bs /\
     forall old, reads_back (read_fields edge_fields old) bs e) /\
  (number64 (ea_weight e) -> edge_attrs_eqb e e = true).
Proof.
  intros e He. destruct sl_edge_fields as [W R]. split.
  - destruct (W e He) as [bs Hbs]. exists bs. split; [exact Hbs|]. split; [apply (R e ea_default bs He I Hbs)|].
    intros old. apply (R e old bs He I Hbs).
  - intros Hn. unfold edge_attrs_eqb. rewrite beq_refl. apply (n64 _ Hn).
Qed.
Print Assumptions C39_edge_attributes_round_trip.

Definition ex_env : Env := mkEnv (mkV 1 0 4) (fun a b => a - b).
Definition ex_place : NodeAttrs := APlace (mkPlace
  (mkSem (mkBase (mkVec3 double_one (2 ^ 63) 7) 1234567 true true) (str "place 1") (mkColor 1 2 3 4)
     (mkBBox 1 (mkVec3 float_one float_one float_one) (mkVec3 0 0 0) (bb_rot bbox_default)) 12 (mkMatrix 1 2 [double_one; 0]))
  double_one 3 [mkNVI [1; -2; 3]%Z [0; 0; double_one] 99 (Some 4); nvi_default] [10; 11] [200] [] true false true
  (mkVec3 0 0 0) quat_identity 5).
Example C39_ex : current ex_env /\ attrs_ok ex_place /\ numbers ex_place /\ no_object_members ex_place /\ kept ex_place = ex_place /\
  exists bs, write_attr_fields ex_env ex_place = Ok bs /\
    read_attr_fields ex_env KPlace ([1; 2] ++ bs ++ [3]) 2 = Val ex_place (2 + len bs).
Proof.
  split; [reflexivity|]. split.
  { assert (Hf : forall bits v, (v <? 2 ^ bits) = true -> fits bits v) by (intros; apply N.ltb_lt; assumption).
    assert (Hb : forall v, (v <? 256) = true -> is_byte v) by (intros; apply N.ltb_lt; assumption).
    assert (Hs : forall bits v, ((- 2 ^ (bits - 1) <=? v) && (v <? 2 ^ (bits - 1)))%Z = true -> fits_signed bits v).
    { intros bits v H. apply andb_true_iff in H as [? ?]. split; [apply Z.leb_le|apply Z.ltb_lt]; assumption. }
    repeat first [ apply Hf; vm_compute; reflexivity | apply Hb; vm_compute; reflexivity | apply Hs; vm_compute; reflexivity
           | split | constructor | apply N.ltb_lt; vm_compute; reflexivity
           | match goal with |- forall r, _ = Some r -> _ => intros ? [= <-] end
           | reflexivity | discriminate ]. }
  split.
  { assert (Hn : forall v, f64_nan v = false -> number64 v).
    { intros v H K. apply f_nan_spec in K. unfold f64_nan in H. congruence. }
    assert (Hm : forall v, f32_nan v = false -> number32 v).
    { intros v H K. apply f_nan_spec in K. unfold f32_nan in H. congruence. }
    repeat first [ apply Hn; vm_compute; reflexivity | apply Hm; vm_compute; reflexivity | split | constructor ]. }
  split; [intros k H; discriminate|]. split; [reflexivity|].
  eexists. split; [vm_compute; reflexivity|]. vm_compute. reflexivity.
Qed.
(** The two exceptions are real. *)
Theorem C39_khronos_object_members_lost_refuted : exists k bs,
  write_attr_fields ex_env (AKhronos k) = Ok bs /\
  read_attr_fields ex_env KKhronos bs 0 = Val (kept (AKhronos k)) (len bs) /\
  attrs_eqb (AKhronos k) (kept (AKhronos k)) = false.
Proof.
  exists (mkKhronos (mkObj sem_default [5; 6] true quat_identity) [] [] (mesh_new true false false false) [] [] [] ∅).
  eexists. split; [vm_compute; reflexivity|]. split; vm_compute; reflexivity.
Qed.
Print Assumptions C39_khronos_object_members_lost_refuted.
Theorem C39_nan_not_equal_to_itself_refuted : exists w bs,
  write_fields edge_fields (mkEA true w) = Ok bs /\ read_fields edge_fields ea_default bs 0 = Val (mkEA true w) (len bs) /\
  edge_attrs_eqb (mkEA true w) (mkEA true w) = false.
Proof. exists (2047 * 2 ^ 52 + 1). eexists. split; [vm_compute; reflexivity|]. split; vm_compute; reflexivity. Qed.
Print Assumptions C39_nan_not_equal_to_itself_refuted.

(* ------------------------------------------------------------------ *)
(** C40: a header is written and parsed back, with the exact offset of the data behind it. *)
Theorem C40_header_round_trip : forall h, text_ok (h_project h) ->
  fits 8 (v_major (h_version h)) -> fits 8 (v_minor (h_version h)) -> fits 8 (v_patch (h_version h)) ->
  exists bs, header_bytes h = Ok bs /\ forall data, len (bs ++ data) < max_object ->
    header_parse (bs ++ data) = Val (Some h) (len bs).
Proof.
  intros h H1 H2 H3 H4. destruct (header_round h) as (bs & Hb & _ & Hr); [repeat split; assumption || apply H1|]. eauto.
Qed.
Print Assumptions C40_header_round_trip.
(** Data not starting with the identifier record (tag, length 9, "SPARK_DSG") is never taken for
    data with a header. *)
Theorem C40_headerless : forall buf, Forall is_byte buf -> len buf < max_object ->
  take 14 buf <> [221; 9; 0; 0; 0] ++ str "SPARK_DSG" ->
  (exists off, header_parse buf = Val None off) \/ header_parse buf = Fail Exception.
Proof. intros buf Hb Hl Hn. apply headerless; [exact Hb|exact Hl|exact Hn]. Qed.
Print Assumptions C40_headerless.
(** Version comparison is the lexicographic order, a strict total order, and <= is its
    reflexive closure. *)
Theorem C40_version_order : forall a b c,
  (version_ltb a b = true <-> older a b) /\
  ~ older a a /\ (older a b -> older b c -> older a c) /\ (older a b \/ a = b \/ older b a) /\
  (version_eqb a b = true <-> a = b) /\ (version_leb a b = true <-> older a b \/ a = b).
Proof.
  intros a b c. assert (Ht : older a b \/ a = b \/ older b a).
  { destruct a as [a1 a2 a3], b as [b1 b2 b3]. unfold older. cbn [v_major v_minor v_patch].
    destruct (N.lt_trichotomy a1 b1) as [|[->|]], (N.lt_trichotomy a2 b2) as [|[->|]], (N.lt_trichotomy a3 b3) as [|[->|]]; auto; lia. }
  assert (Hi : forall x, ~ older x x) by (intros x; unfold older; lia).
  assert (Htr : forall x y z, older x y -> older y z -> older x z) by (intros x y z; unfold older; lia).
  split; [apply version_ltb_spec|]. split; [apply Hi|]. split; [apply Htr|]. split; [exact Ht|]. split.
  - unfold version_eqb. rewrite !andb_true_iff, !N.eqb_eq. destruct a as [a1 a2 a3], b as [b1 b2 b3]. cbn [v_major v_minor v_patch]. split; [intros [[-> ->] ->]; reflexivity|intros [= -> -> ->]; auto].
  - unfold version_leb. rewrite negb_true_iff, <- not_true_iff_false, version_ltb_spec. split.
    + intros H. destruct Ht as [|[|]]; auto. contradiction.
    + intros [H| ->] H'; [apply (Hi a); exact (Htr _ _ _ H H')|exact (Hi _ H')].
Qed.
Print Assumptions C40_version_order.
(** Loading: files older than 1.0.2, files without header, and files of another project are
    rejected; anything else passes the check. *)
Theorem C40_compatibility_gate : forall h,
  check_compatibility h header_current = Ok tt <-> ~ older (h_version h) (mkV 1 0 2) /\ h_project h = str "main".
Proof.
  intros h. unfold check_compatibility, check_project. rewrite <- version_ltb_spec.
  destruct (version_ltb _ _); [split; [discriminate|intros [H _]; contradiction]|].
  destruct (bool_decide_reflect (h_project h = h_project header_current)) as [E|E].
  - split; [intros _; split; [discriminate|exact E]|reflexivity].
  - cbn [assoc PROJECT_COMPATIBILITY]. split; [discriminate|]. intros [_ H]. contradiction.
Qed.
Print Assumptions C40_compatibility_gate.
Theorem C40_load_gate : forall buf h off, Forall is_byte buf -> len buf < max_object -> load_prologue buf = Ok (h, off) ->
  take 14 buf = [221; 9; 0; 0; 0] ++ str "SPARK_DSG" /\ 14 <= off <= len buf /\
  header_parse buf = Val (Some h) off /\ ~ older (h_version h) (mkV 1 0 2) /\ h_project h = str "main".
Proof.
  intros buf h off Hb Hl H. unfold load_prologue in H. destruct (header_parse buf) as [[h'|] p|f] eqn:E; [| |destruct f; discriminate].
  - change (default header_legacy (Some h')) with h' in H. destruct (check_compatibility h' header_current) as [[]| |] eqn:Ec; try discriminate.
    cbn in H. injection H as -> ->. destruct (header_only_id _ _ _ Hb Hl E) as [H1 H2].
    apply C40_compatibility_gate in Ec. split; [exact H1|]. split; [exact H2|]. split; [reflexivity|exact Ec].
  - cbn in H. discriminate.
Qed.
Print Assumptions C40_load_gate.
Example C40_ex : exists bs, header_bytes header_current = Ok bs /\
  load_prologue (bs ++ [1; 2; 3]) = Ok (header_current, len bs) /\
  header_bytes (mkHeader (str "main") (mkV 1 0 1)) <> Throw /\
  (exists old, header_bytes (mkHeader (str "main") (mkV 1 0 1)) = Ok old /\ load_prologue old = Throw) /\
  (exists other, header_bytes (mkHeader (str "fork") (mkV 1 0 4)) = Ok other /\ load_prologue other = Throw) /\
  load_prologue [221; 2; 0; 0; 0; 0; 0] = Throw.
Proof.
  eexists. split; [vm_compute; reflexivity|]. split; [vm_compute; reflexivity|]. split; [discriminate|].
  split; [eexists; split; [vm_compute; reflexivity|vm_compute; reflexivity]|].
  split; [eexists; split; [vm_compute; reflexivity|vm_compute; reflexivity]|]. vm_compute. reflexivity.
Qed.

(* ------------------------------------------------------------------ *)
(** C45: every mesh that fits the format is written; reading yields the identical mesh --
    configuration, vertices, colours, stamps, labels, first-seen stamps, faces -- whatever the
    destination held, and it is equal (operator==) if no vertex coordinate is a NaN. *)
Theorem C45_mesh_round_trip : forall m, mesh_fits m ->
  exists bs, cd_write c_mesh m = Ok bs /\ Forall is_byte bs /\
    (forall old, reads_back (cd_read c_mesh old) bs m) /\
    (Forall (vec_numbers number32) (m_points m) -> mesh_eqb m m = true).
Proof.
  intros m Hm. destruct sl_mesh as [W R]. destruct (W m Hm) as [bs Hbs]. exists bs. split; [exact Hbs|].
  split; [apply (R m m bs Hm I Hbs)|]. split; [intros old; apply (R m old bs Hm I Hbs)|]. apply mesh_refl.
Qed.
Print Assumptions C45_mesh_round_trip.
Definition ex_mesh : Mesh := mkMesh true true false false
  [mkVec3 1 2 3; mkVec3 float_one 0 0] [color_default; mkColor 1 2 3 4] [77; 2 ^ 63] [] [] [mkFace 0 1 0].
Example C45_ex : mesh_fits ex_mesh /\ exists bs, cd_write c_mesh ex_mesh = Ok bs /\ cd_read c_mesh (mesh_new false false true true) bs 0 = Val ex_mesh (len bs).
Proof.
  split.
  { assert (Hf : forall bits v, (v <? 2 ^ bits) = true -> fits bits v) by (intros; apply N.ltb_lt; assumption).
    repeat first [ apply Hf; vm_compute; reflexivity | split | constructor | reflexivity ]. }
  eexists. split; [vm_compute; reflexivity|]. vm_compute. reflexivity.
Qed.

(* ------------------------------------------------------------------ *)
(** C47: the type of a file is decided by the extension of its file name alone. *)
Theorem C47_file_type : forall path dir file, splits path dir file ->
  (forall ext, has_ext file ext ->
     verify_file path = if bool_decide (ext = str "json") || bool_decide (ext = str "bson") then Ok (FT_JSON, path)
                        else if bool_decide (ext = str "sparkdsg") then Ok (FT_BINARY, path) else Throw) /\
  (no_ext file -> verify_file path = Ok (FT_BINARY, path ++ str ".sparkdsg")) /\
  ((exists ext, has_ext file ext) \/ no_ext file).
Proof.
  intros path dir file Hs. split; [|split].
  - intros ext He. unfold verify_file, identify_file. rewrite (extension_some _ _ _ _ Hs He).
    change JSON_EXT with (DOT :: str "json"). change BSON_EXT with (DOT :: str "bson"). change BINARY_EXT with (DOT :: str "sparkdsg").
    assert (Hc : forall e, bool_decide (DOT :: ext = DOT :: e) = bool_decide (ext = e)).
    { intros e. apply bool_decide_ext. split; congruence. }
    rewrite !Hc. destruct (bool_decide (ext = str "json") || _); [reflexivity|]. destruct (bool_decide (ext = _)); reflexivity.
  - intros Hn. unfold verify_file, identify_file. rewrite (extension_none _ _ _ Hs Hn). reflexivity.
  - apply ext_or_none.
Qed.
Print Assumptions C47_file_type.
(** Every path splits, in one way; and resolving a resolved path gives it again, provided there
    is a file name at all. *)
Theorem C47_resolving_twice : forall path,
  (exists dir file, splits path dir file) /\
  forall dir file t p, splits path dir file -> file <> [] -> verify_file path = Ok (t, p) -> verify_file p = Ok (t, p).
Proof.
  intros path. split; [apply splits_exists|]. intros dir file t p Hs Hne H.
  destruct (C47_file_type path dir file Hs) as (H1 & H2 & [[ext He]|Hn]).
  - pose proof (H1 ext He) as E. rewrite E in H.
    destruct (bool_decide (ext = str "json") || _) eqn:E1; [|destruct (bool_decide (ext = str "sparkdsg")); [|discriminate]];
      injection H as <- <-; exact E.
  - rewrite (H2 Hn) in H. injection H as <- <-.
    assert (Hs' : splits (path ++ str ".sparkdsg") dir (file ++ str ".sparkdsg")).
    { destruct Hs as (-> & Hf & Hd). split; [rewrite app_assoc; reflexivity|]. split; [|exact Hd]. rewrite elem_of_app. intros [K|K]; [contradiction|].
      assert (K' : bool_decide (47 ∈ str ".sparkdsg") = false) by (vm_compute; reflexivity). apply bool_decide_eq_false in K'. contradiction. }
    assert (He : has_ext (file ++ str ".sparkdsg") (str "sparkdsg")).
    { exists file. split; [reflexivity|]. split; [exact Hne|]. split.
      - assert (K' : bool_decide (46 ∈ str "sparkdsg") = false) by (vm_compute; reflexivity). apply bool_decide_eq_false in K'. exact K'.
      - intros K. apply (f_equal List.length) in K. rewrite app_length in K. cbn in K. lia. }
    rewrite (proj1 (C47_file_type _ _ _ Hs') _ He). reflexivity.
Qed.
Print Assumptions C47_resolving_twice.
Example C47_ex : splits (str "/a.b/graph") (str "/a.b/") (str "graph") /\
  verify_file (str "/a.b/graph") = Ok (FT_BINARY, str "/a.b/graph.sparkdsg") /\
  verify_file (str "x.json") = Ok (FT_JSON, str "x.json") /\ verify_file (str "x.txt") = Throw /\
  verify_file (str ".json") = Ok (FT_BINARY, str ".json.sparkdsg").
Proof.
  split; [split; [reflexivity|split; [apply (bool_decide_eq_false (47 ∈ str "graph")); vm_compute; reflexivity|right; exists (str "/a.b"); reflexivity]]|].
  split; [vm_compute; reflexivity|]. split; [vm_compute; reflexivity|]. split; vm_compute; reflexivity.
Qed.
(** Without a file name resolving is not idempotent. *)
Theorem C47_directory_refuted : verify_file (str "dir/") = Ok (FT_BINARY, str "dir/.sparkdsg") /\
  verify_file (str "dir/.sparkdsg") = Ok (FT_BINARY, str "dir/.sparkdsg.sparkdsg").
Proof. split; vm_compute; reflexivity. Qed.
Print Assumptions C47_directory_refuted.
