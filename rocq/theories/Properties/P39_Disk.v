(** C70 what was saved under a name is what loads from it. *)
From Coq Require Import NArith ZArith Bool List Lia String.
From stdpp Require Import base list gmap.
From Verif.Model Require Import Types Mesh Attrs Node EdgeContainer SLayer DLayer Graph Binary Versioning AttrCodec Registry GraphCodec Json Rotation JsonCodec GraphJson Disk.
From Verif.Spec Require Import BinarySpec AttrSpec RegistrySpec ProgramSpec AbstractGraph GraphHistory GraphObs GraphFileSpec JsonSpec FileSpec CutSpec DiskSpec.
From Verif.Proof Require Import BinaryP BinarySafe AttrSafe FileP PrefixP DiskP.
From Verif.Properties Require Import P12_Files P13_Registry P14_GraphFiles P24_Json P37_Cut ExGraph.
Local Open Scope N_scope.

Definition now (fsub : N -> N -> N) : Env := mkEnv (h_version header_current) fsub.
(** the disk after a save in the middle of a history *)
Lemma file_after env os d before o after f : untouched f after -> disk_run env os d (before ++ o :: after) !! f = disk_step env os (disk_run env os d before) o !! f.
Proof.
  intros H. rewrite run_app. change (disk_run env os (disk_run env os d before) (o :: after)) with (disk_run env os (disk_step env os (disk_run env os d before) o) after).
  apply run_untouched, H.
Qed.
Lemma load_named fsub p d f (js : bool) : verify_file f = Ok (if js then FT_JSON else FT_BINARY, f) ->
  load_graph fsub p d f = match d !! f with
                          | None => Throw
                          | Some c => if js then match c with Text j => read_graph_json fsub p j | _ => Throw end
                                      else match c with Bytes b => outcome_result (load_binary fsub p b) | Folder => outcome_result (load_binary fsub p []) | _ => Throw end
                          end.
Proof.
  intros V. unfold load_graph. rewrite V. cbn [rbind]. destruct (d !! f) as [c|] eqn:E; [|reflexivity].
  destruct js; unfold file_json, file_get; rewrite E; destruct c; try reflexivity. 
Qed.

(** Binary files: whatever happened before, whatever happens to other files later, and whichever
    program saves and loads. *)
Theorem C70_binary_file : forall fsub ks ks' p q h (im : bool) path f os d before after,
  program_of ks p -> program_of ks' q -> all_classes ks -> all_classes ks' -> (length ks <= 256)%nat ->
  reachable h -> saveable h -> names path false f -> can_write os (disk_run (now fsub) os d before) f -> untouched f after ->
  exists bs g', save_binary (now fsub) p h im = Ok bs /\ reachable g' /\ loaded_from h g' /\ (g_mesh g' = if im then g_mesh h else None) /\
    (save_graph (now fsub) p os (disk_run (now fsub) os d before) h path im NotKilled).1 = Ok tt /\
    (len bs < max_object -> load_graph fsub q (disk_run (now fsub) os d (before ++ DSave p h path im NotKilled :: after)) f = Ok g').
Proof.
  intros fsub ks ks' p q h im path f os d before after Hp Hq Hks Hks' Hlen Hh HS Hn Hw Hu.
  destruct (C41_file_round_trip fsub ks ks' p q h im Hp Hq Hks Hks' Hlen Hh HS) as (bs & g' & W & _ & L & Hr & HL & HM).
  destruct (names_verify path false f Hn) as [V1 V2]. exists bs, g'. split; [exact W|]. split; [exact Hr|]. split; [exact HL|]. split; [exact HM|].
  assert (E : save_graph (now fsub) p os (disk_run (now fsub) os d before) h path im NotKilled = (Ok tt, file_put os (disk_run (now fsub) os d before) f (Bytes bs))).
  { unfold save_graph. rewrite V1. change (now fsub) with (mkEnv (h_version header_current) fsub) at 1. rewrite W. reflexivity. }
  split; [rewrite E; reflexivity|]. intros Hl. rewrite (load_named fsub q _ f false V2), file_after by exact Hu. cbn [disk_step]. rewrite E. cbn [snd].
  rewrite put_same by exact Hw. destruct (L Hl) as [n ->]. reflexivity.
Qed.
Print Assumptions C70_binary_file.
Theorem C70_json_file : forall fsub ks p q h (im : bool) path f os d before after,
  program_of ks q -> reachable h -> json_saveable h -> (forall x k t a, node_data h x = Some (k, t, a) -> kind_of a ∈ ks) ->
  names path true f -> can_write os (disk_run (now fsub) os d before) f -> untouched f after ->
  exists g', reachable g' /\ loaded_from_json h g' /\ (g_mesh g' = if im then mesh_through <$> g_mesh h else None) /\
    (save_graph (now fsub) p os (disk_run (now fsub) os d before) h path im NotKilled).1 = Ok tt /\
    load_graph fsub q (disk_run (now fsub) os d (before ++ DSave p h path im NotKilled :: after)) f = Ok g'.
Proof.
  intros fsub ks p q h im path f os d before after Hq Hh HS HK Hn Hw Hu.
  destruct (C54_graph_json_round_trip fsub ks q h im Hq Hh HS HK) as (t & g' & W & R & Hr & HL & HM).
  destruct (names_verify path true f Hn) as [V1 V2]. exists g'. split; [exact Hr|]. split; [exact HL|]. split; [exact HM|].
  set (d0 := disk_run (now fsub) os d before) in *.
  assert (E : save_graph (now fsub) p os d0 h path im NotKilled = (Ok tt, file_put os (file_put os d0 f Torn) f (Text t))).
  { unfold save_graph. rewrite V1. unfold put_json. change (now fsub) with (mkEnv (h_version header_current) fsub) at 1. rewrite W. reflexivity. }
  split; [rewrite E; reflexivity|]. rewrite (load_named fsub q _ f true V2), file_after by exact Hu. cbn [disk_step]. fold d0. rewrite E. cbn [snd].
  rewrite put_same by (apply put_can; [discriminate|exact Hw]). exact R.
Qed.
Print Assumptions C70_json_file.

(** A process that dies while it saves a binary file leaves a file that is refused or loads as the
    graph that was being saved, perhaps without its mesh -- never as anything else. *)
Theorem C70_killed_binary : forall fsub ks ks' p q h (im : bool) path f os d before after n,
  program_of ks p -> program_of ks' q -> all_classes ks -> all_classes ks' -> (length ks <= 256)%nat ->
  reachable h -> saveable h -> names path false f -> can_write os (disk_run (now fsub) os d before) f -> untouched f after ->
  (forall bs, save_binary (now fsub) p h im = Ok bs -> len bs < max_object) ->
  let r := load_graph fsub q (disk_run (now fsub) os d (before ++ DSave p h path im (AfterBytes n) :: after)) f in
  r = Throw \/ exists g', r = Ok g' /\ reachable g' /\ loaded_from h g' /\ (g_mesh g' = None \/ im = true /\ g_mesh g' = g_mesh h).
Proof.
  intros fsub ks ks' p q h im path f os d before after n Hp Hq Hks Hks' Hlen Hh HS Hn Hw Hu Hl r.
  destruct (C68_file fsub ks ks' p q h im Hp Hq Hks Hks' Hlen Hh HS) as (main & part & W & _ & HC).
  destruct (C41_file_round_trip fsub ks ks' p q h im Hp Hq Hks Hks' Hlen Hh HS) as (bs & g' & W' & _ & L & Hr & HL & HM).
  assert (bs = main ++ part) as -> by congruence. specialize (Hl _ W').
  destruct (names_verify path false f Hn) as [V1 V2].
  assert (E : r = outcome_result (load_binary fsub q (take n (main ++ part)))).
  { unfold r. rewrite (load_named fsub q _ f false V2), file_after by exact Hu. cbn [disk_step]. unfold save_graph. rewrite V1.
    change (now fsub) with (mkEnv (h_version header_current) fsub) at 1. rewrite W. cbn [snd put_binary]. rewrite put_same by exact Hw. reflexivity. }
  destruct (decide (n < length (main ++ part))%nat) as [Hc|Hc].
  - specialize (HC (take n (main ++ part)) Hl). destruct HC as [H1 H2].
    { split; [exists (drop n (main ++ part)); rewrite take_drop; reflexivity|]. unfold len. rewrite take_length. lia. }
    destruct (decide (take n (main ++ part) = main)) as [Hm|Hm].
    + destruct (H2 Hm) as (g0 & k & E0 & Hr0 & HL0 & HM0). right. exists g0. rewrite E, E0. split; [reflexivity|]. split; [exact Hr0|]. split; [exact HL0|]. left. exact HM0.
    + left. rewrite E, (H1 Hm). reflexivity.
  - rewrite take_ge in E by lia. right. exists g'. destruct (L Hl) as [k Ek]. rewrite E, Ek. split; [reflexivity|]. split; [exact Hr|]. split; [exact HL|].
    destruct im; [right; auto|left; exact HM].
Qed.
Print Assumptions C70_killed_binary.
(** A JSON file that is not complete is refused; and a file that was not opened yet is as it was. *)
Theorem C70_killed_json : forall fsub p q h im path f os d before after n,
  names path true f -> can_write os (disk_run (now fsub) os d before) f -> untouched f after ->
  load_graph fsub q (disk_run (now fsub) os d (before ++ DSave p h path im (AfterBytes n) :: after)) f = Throw.
Proof.
  intros fsub p q h im path f os d before after n Hn Hw Hu. destruct (names_verify path true f Hn) as [V1 V2].
  rewrite (load_named fsub q _ f true V2), file_after by exact Hu. cbn [disk_step]. unfold save_graph. rewrite V1. cbn [snd put_json]. rewrite put_same by exact Hw. reflexivity.
Qed.
Print Assumptions C70_killed_json.
Theorem C70_killed_early : forall fsub p q h im path js f os d before after,
  names path js f -> untouched f after ->
  load_graph fsub q (disk_run (now fsub) os d (before ++ DSave p h path im BeforeOpen :: after)) f = load_graph fsub q (disk_run (now fsub) os d before) f.
Proof.
  intros fsub p q h im path js f os d before after Hn Hu. destruct (names_verify path js f Hn) as [V1 V2].
  rewrite !(load_named fsub q _ f js V2), file_after by exact Hu. cbn [disk_step].
  replace ((save_graph (now fsub) p os (disk_run (now fsub) os d before) h path im BeforeOpen).2) with (disk_run (now fsub) os d before); [reflexivity|].
  unfold save_graph. rewrite V1. destruct js; [reflexivity|]. destruct (save_binary (now fsub) p h im); reflexivity.
Qed.
Print Assumptions C70_killed_early.
(** A binary save that throws leaves every file as it was; so does a name with an extension that
    is not one of the three. *)
Theorem C70_failed_binary : forall fsub p h im path f os d,
  (names path false f \/ exists dir file ext, splits path dir file /\ has_ext file ext /\ ext ∉ [str "json"; str "bson"; str "sparkdsg"]) ->
  (save_graph (now fsub) p os d h path im NotKilled).1 <> Ok tt -> (save_graph (now fsub) p os d h path im NotKilled).2 = d.
Proof.
  intros fsub p h im path f os d H. unfold save_graph. destruct H as [H|(dir & file & ext & Hs & He & Hx)].
  - destruct (names_verify path false f H) as [-> _]. destruct (save_binary (now fsub) p h im); [|reflexivity..]. intros K. elim K. reflexivity.
  - destruct (C47_file_type path dir file Hs) as (H1 & _ & _). rewrite (H1 ext He).
    destruct (bool_decide (ext = str "json")) eqn:E1; [apply bool_decide_eq_true in E1; subst; elim Hx; left|].
    destruct (bool_decide (ext = str "bson")) eqn:E2; [apply bool_decide_eq_true in E2; subst; elim Hx; right; left|].
    destruct (bool_decide (ext = str "sparkdsg")) eqn:E3; [apply bool_decide_eq_true in E3; subst; elim Hx; right; right; left|]. reflexivity.
Qed.
Print Assumptions C70_failed_binary.

(** Meshes *)
Lemma load_mesh_named d f (js : bool) : verify_file f = Ok (if js then FT_JSON else FT_BINARY, f) ->
  load_mesh d f = match d !! f with
                  | None => Throw
                  | Some c => if js then match c with Text j => mesh_from_text j | _ => Throw end
                              else match c with Bytes b => outcome_result (load_mesh_binary b) | Folder => outcome_result (load_mesh_binary []) | _ => Throw end
                  end.
Proof.
  intros V. unfold load_mesh. rewrite V. cbn [rbind]. destruct (d !! f) as [c|] eqn:E; [|reflexivity].
  destruct js; unfold file_json, file_get; rewrite E; destruct c; try reflexivity.
Qed.
Theorem C70_mesh_binary_file : forall env m path f os d before after,
  mesh_fits m -> names path false f -> can_write os (disk_run env os d before) f -> untouched f after ->
  exists bs, seq_writes [header_bytes header_current; cd_write c_mesh m] = Ok bs /\
    (save_mesh os (disk_run env os d before) m path NotKilled).1 = Ok tt /\
    (len bs < max_object -> load_mesh (disk_run env os d (before ++ DSaveMesh m path NotKilled :: after)) f = Ok m).
Proof.
  intros env m path f os d before after Hm Hn Hw Hu. destruct (C45_mesh_round_trip m Hm) as (mb & Wm & _ & Rm & _).
  destruct (header_round header_current) as (hb & Hhb & _ & Rh).
  { split; [split; [reflexivity|repeat constructor]|]. repeat split. }
  destruct (names_verify path false f Hn) as [V1 V2].
  assert (W : seq_writes [header_bytes header_current; cd_write c_mesh m] = Ok (hb ++ mb ++ [])).
  { cbn [seq_writes]. rewrite Hhb, Wm. reflexivity. }
  rewrite app_nil_r in W. exists (hb ++ mb). split; [exact W|].
  assert (E : save_mesh os (disk_run env os d before) m path NotKilled = (Ok tt, file_put os (disk_run env os d before) f (Bytes (hb ++ mb)))).
  { unfold save_mesh. rewrite V1, W. reflexivity. }
  split; [rewrite E; reflexivity|]. intros Hl. rewrite (load_mesh_named _ f false V2), file_after by exact Hu. cbn [disk_step]. rewrite E. cbn [snd].
  rewrite put_same by exact Hw. unfold load_mesh_binary. rewrite (Rh mb Hl).
  assert (Hc : check_compatibility header_current header_current = Ok tt) by (vm_compute; reflexivity). rewrite Hc.
  unfold len. rewrite Nat2N.id, drop_app. specialize (Rm (mesh_new true false false false) [] []). cbn [app] in Rm. rewrite app_nil_r in Rm. change (len []) with 0 in Rm.
  rewrite Rm; [reflexivity|]. unfold len in *. rewrite app_length in Hl. lia.
Qed.
Print Assumptions C70_mesh_binary_file.
Theorem C70_mesh_json_file : forall env m path f os d before after,
  json_mesh m -> names path true f -> can_write os (disk_run env os d before) f -> untouched f after ->
  (save_mesh os (disk_run env os d before) m path NotKilled).1 = Ok tt /\
  load_mesh (disk_run env os d (before ++ DSaveMesh m path NotKilled :: after)) f = Ok (mesh_through m).
Proof.
  intros env m path f os d before after Hm Hn Hw Hu. destruct (C54_mesh_json_round_trip m Hm) as (t & W & R).
  destruct (names_verify path true f Hn) as [V1 V2]. set (d0 := disk_run env os d before) in *.
  assert (E : save_mesh os d0 m path NotKilled = (Ok tt, file_put os (file_put os d0 f Torn) f (Text t))).
  { unfold save_mesh. rewrite V1. unfold put_json. rewrite W. reflexivity. }
  split; [rewrite E; reflexivity|]. rewrite (load_mesh_named _ f true V2), file_after by exact Hu. cbn [disk_step]. fold d0. rewrite E. cbn [snd].
  rewrite put_same by (apply put_can; [discriminate|exact Hw]). exact R.
Qed.
Print Assumptions C70_mesh_json_file.

(** A mesh file without a header, of another project or older than 1.0.2 is refused. *)
Theorem C70_mesh_gate : forall d path f b m, names path false f -> d !! f = Some (Bytes b) -> Forall is_byte b -> len b < max_object ->
  load_mesh d f = Ok m ->
  take 14 b = [221; 9; 0; 0; 0] ++ str "SPARK_DSG" /\
  exists h off, header_parse b = Val (Some h) off /\ ~ older (h_version h) (mkV 1 0 2) /\ h_project h = str "main".
Proof.
  intros d path f b m Hn Hd Hb Hl H. destruct (names_verify path false f Hn) as [_ V]. rewrite (load_mesh_named _ f false V), Hd in H.
  unfold load_mesh_binary in H. destruct (header_parse b) as [[h|] off|e] eqn:E; [|cbn in H; discriminate|destruct e; discriminate].
  destruct (check_compatibility h header_current) as [[]| |] eqn:Ec; [|cbn in H; discriminate..].
  destruct (header_only_id _ _ _ Hb Hl E) as [H1 _]. apply C40_compatibility_gate in Ec. split; [exact H1|]. exists h, off. split; [reflexivity|exact Ec].
Qed.
Print Assumptions C70_mesh_gate.
(** A process that dies while it saves a mesh leaves a file that is refused or loads as that mesh. *)
Theorem C70_killed_mesh : forall env m path (js : bool) f os d before after n,
  mesh_fits m -> names path js f -> can_write os (disk_run env os d before) f -> untouched f after ->
  (forall bs, seq_writes [header_bytes header_current; cd_write c_mesh m] = Ok bs -> len bs < max_object) ->
  let r := load_mesh (disk_run env os d (before ++ DSaveMesh m path (AfterBytes n) :: after)) f in
  r = Throw \/ js = false /\ r = Ok m.
Proof.
  intros env m path js f os d before after n Hm Hn Hw Hu Hl r. destruct (names_verify path js f Hn) as [V1 V2]. destruct js.
  { left. unfold r. rewrite (load_mesh_named _ f true V2), file_after by exact Hu. cbn [disk_step]. unfold save_mesh. rewrite V1. cbn [snd put_json].
    rewrite put_same by exact Hw. reflexivity. }
  destruct (C45_mesh_round_trip m Hm) as (mb & Wm & Bm & Rm & _).
  destruct (header_round header_current) as (hb & Hhb & Bh & Rh).
  { split; [split; [reflexivity|repeat constructor]|]. repeat split. }
  assert (W : seq_writes [header_bytes header_current; cd_write c_mesh m] = Ok (hb ++ mb ++ [])).
  { cbn [seq_writes]. rewrite Hhb, Wm. reflexivity. }
  rewrite app_nil_r in W. specialize (Hl _ W).
  assert (E : r = outcome_result (load_mesh_binary (take n (hb ++ mb)))).
  { unfold r. rewrite (load_mesh_named _ f false V2), file_after by exact Hu. cbn [disk_step]. unfold save_mesh. rewrite V1, W. cbn [snd put_binary].
    rewrite put_same by exact Hw. reflexivity. }
  rewrite E. clear r E. set (P := take n (hb ++ mb)).
  assert (EP : hb ++ mb = P ++ drop n (hb ++ mb)) by (unfold P; rewrite take_drop; reflexivity).
  assert (HBP : Forall is_byte P).
  { assert (K : Forall is_byte (hb ++ mb)) by (apply Forall_app_2; [exact Bh|exact Bm]). rewrite EP in K. apply Forall_app in K. tauto. }
  assert (HlP : len P < max_object) by (rewrite EP in Hl; unfold len in *; rewrite app_length in Hl; lia).
  assert (Hc : check_compatibility header_current header_current = Ok tt) by (vm_compute; reflexivity).
  assert (Hall : header_reader (P ++ drop n (hb ++ mb)) 0 = Val (Some header_current) (len hb)).
  { rewrite <- EP, <- header_reads. apply Rh, Hl. }
  unfold load_mesh_binary. rewrite header_reads.
  destruct (cut_or_same _ _ _ P _ 0 _ _ mono_header inside_header_reader HBP HlP ltac:(lia) Hall) as [Eh|[Eh Hhb']]; rewrite Eh; [left; reflexivity|].
  rewrite Hc. unfold len. rewrite Nat2N.id.
  assert (HPP : P = hb ++ drop (length hb) P /\ mb = drop (length hb) P ++ drop n (hb ++ mb)).
  { assert (Ht : take (length hb) P = hb).
    { assert (K : take (length hb) (hb ++ mb) = take (length hb) (P ++ drop n (hb ++ mb))) by (rewrite <- EP; reflexivity).
      rewrite take_app in K. rewrite take_app_le in K by (unfold len in Hhb'; lia). symmetry. exact K. }
    assert (K : P = hb ++ drop (length hb) P) by (rewrite <- Ht at 1; rewrite take_drop; reflexivity).
    split; [exact K|]. apply (app_inv_head hb). rewrite app_assoc, <- K. exact EP. }
  destruct HPP as [HP1 HP2]. set (P' := drop (length hb) P) in *.
  assert (HBP' : Forall is_byte P') by (unfold P'; apply Forall_drop, HBP).
  assert (HlP' : len P' < max_object) by (unfold len in *; rewrite HP1, app_length in HlP; lia).
  assert (Hall' : cd_read c_mesh (mesh_new true false false false) (P' ++ drop n (hb ++ mb)) 0 = Val m (len mb)).
  { rewrite <- HP2. specialize (Rm (mesh_new true false false false) [] []). cbn [app] in Rm. rewrite app_nil_r in Rm. change (len []) with 0 in Rm.
    rewrite Rm; [reflexivity|]. unfold len in *. rewrite app_length in Hl. lia. }
  destruct (cut_or_same _ _ _ P' _ 0 _ _ (cm_mesh _) (ci_mesh tame (or_introl eq_refl) _) HBP' HlP' ltac:(lia) Hall') as [Em|[Em _]]; rewrite Em; [left; reflexivity|].
  right. split; reflexivity.
Qed.
Print Assumptions C70_killed_mesh.
(** If something else has the name without the extension, that name stands for the file with it. *)
Theorem C70_bare_name : forall fsub q d path f, names path false f -> d !! path <> None -> d !! f <> None ->
  load_graph fsub q d path = load_graph fsub q d f /\ load_mesh d path = load_mesh d f.
Proof.
  intros fsub q d path f Hn Hp Hf. destruct (names_verify path false f Hn) as [V1 V2]. unfold load_graph, load_mesh. rewrite V1, V2.
  destruct (d !! path) as [c|]; [|elim Hp; reflexivity]. destruct (d !! f) as [c'|]; [|elim Hf; reflexivity]. split; reflexivity.
Qed.
Print Assumptions C70_bare_name.

(* ------------------------------------------------------------------ *)
(** Deviations.  A graph saved under a name without an extension cannot be loaded under that name,
    unless something else has it. *)
Theorem C70_same_name_refuted : forall fsub p q h im path dir file os d,
  splits path dir file -> no_ext file -> d !! path = None ->
  load_graph fsub q (disk_run (now fsub) os d [DSave p h path im NotKilled]) path = Throw.
Proof.
  intros fsub p q h im path dir file os d Hs Hn Hd. unfold load_graph. cbn [disk_run fold_left disk_step].
  assert (Hne : path ++ str ".sparkdsg" <> path).
  { intros E. apply (f_equal List.length) in E. rewrite app_length in E. cbn in E. lia. }
  destruct (C47_file_type path dir file Hs) as (_ & H2 & _). unfold save_graph. rewrite (H2 Hn).
  destruct (save_binary (now fsub) p h im); cbn [snd]; [|rewrite Hd; reflexivity..]. unfold put_binary. rewrite put_other by exact Hne. rewrite Hd. reflexivity.
Qed.
Print Assumptions C70_same_name_refuted.
(** If the file cannot be written, save returns as if it had been. *)
Theorem C70_unwritable_refuted : forall fsub ks p h im path f os d,
  program_of ks p -> all_classes ks -> (length ks <= 256)%nat -> reachable h -> saveable h -> names path false f -> os f = false ->
  save_graph (now fsub) p os d h path im NotKilled = (Ok tt, d).
Proof.
  intros fsub ks p h im path f os d Hp Hks Hlen Hh HS Hn Ho.
  destruct (C41_file_round_trip fsub ks ks p p h im Hp Hp Hks Hks Hlen Hh HS) as (bs & g' & W & _).
  destruct (names_verify path false f Hn) as [V1 _]. unfold save_graph. rewrite V1. change (now fsub) with (mkEnv (h_version header_current) fsub). rewrite W.
  unfold put_binary, file_put. rewrite Ho. destruct (d !! f) as [[]|]; reflexivity.
Qed.
Print Assumptions C70_unwritable_refuted.
(** A JSON save that throws has already destroyed the old file. *)
Definition bad_name : Graph := build [GEmplace OBJECTS 40 (ASem (mkSem base_default [255] (mkColor 0 0 0 255) bbox_default 0 (mkMatrix 0 0 [])))].
Theorem C70_failed_json_refuted : exists old, reachable old /\ reachable bad_name /\
  let env := now (ev_fsub ex_env) in let os := fun _ => true in
  let d := disk_run env os ∅ [DSave lib old (str "g.json") true NotKilled] in
  (exists g, load_graph (ev_fsub ex_env) lib d (str "g.json") = Ok g) /\
  (save_graph env lib os d bad_name (str "g.json") true NotKilled).1 = Throw /\
  load_graph (ev_fsub ex_env) lib (save_graph env lib os d bad_name (str "g.json") true NotKilled).2 (str "g.json") = Throw.
Proof.
  exists (build []). split; [apply run_b_start; vm_compute; reflexivity|]. split; [apply run_b_start; vm_compute; reflexivity|].
  cbv zeta. split; [eexists; vm_compute; reflexivity|]. split; vm_compute; reflexivity.
Qed.
Print Assumptions C70_failed_json_refuted.

(** The hypotheses are met: a graph with a mesh saved as "a.b/graph" over an old file, then others. *)
Definition here : list N := str "a.b/graph".
Definition there : list N := str "a.b/graph.sparkdsg".
Definition others : list DiskOp := [DOther here (Some Folder); DSave lib ex_receiver (str "x.json") true NotKilled; DSaveMesh ex_mesh (str "a.b/graph.b") NotKilled; DLoad lib here].
Lemma here_splits : splits here (str "a.b/") (str "graph").
Proof.
  split; [reflexivity|]. split; [apply (bool_decide_eq_false (47 ∈ str "graph")); vm_compute; reflexivity|]. right. exists (str "a.b"). reflexivity.
Qed.
Lemma here_no_ext : no_ext (str "graph").
Proof.
  intros ext (stem & E & _). assert (K : bool_decide (46 ∈ str "graph") = false) by (vm_compute; reflexivity). apply bool_decide_eq_false in K. apply K. rewrite E.
  apply elem_of_app. right. left.
Qed.
Lemma here_names : names here false there.
Proof. exists (str "a.b/"), (str "graph"). split; [exact here_splits|]. split; [discriminate|]. right. split; [exact here_no_ext|]. split; reflexivity. Qed.
Lemma others_untouched : untouched there others.
Proof.
  constructor; [intros K; discriminate K|]. constructor; [|constructor; [|constructor; [intros K; exact K|constructor]]]; intros (dir & file & _ & [[_ E]|[_ E]]); vm_compute in E; discriminate E.
Qed.
Example C70_ex_bare : disk_run (now (ev_fsub ex_env)) (fun _ => true) ∅ (DSave lib ex_sender here true NotKilled :: others) !! here <> None /\
  (match load_graph (ev_fsub ex_env) lib (disk_run (now (ev_fsub ex_env)) (fun _ => true) ∅ (DSave lib ex_sender here true NotKilled :: others)) here with
   | Ok g => Some (g_num_nodes g true) | _ => None end) = Some (g_num_nodes ex_sender true).
Proof. split; [vm_compute; discriminate|vm_compute; reflexivity]. Qed.
Example C70_ex : names here false there /\ untouched there others /\
  can_write (fun _ => true) (disk_run (now (ev_fsub ex_env)) (fun _ => true) ∅ [DOther there (Some (Bytes [1; 2]))]) there /\
  (match load_graph (ev_fsub ex_env) lib (disk_run (now (ev_fsub ex_env)) (fun _ => true) ∅ ([DOther there (Some (Bytes [1; 2]))] ++ DSave lib ex_sender here true NotKilled :: others)) there with
   | Ok g => Some (g_num_nodes g true, match g_mesh g with Some m => length (m_points m) | None => O end) | _ => None end) =
  Some (g_num_nodes ex_sender true, length (m_points ex_mesh)).
Proof.
  split; [exact here_names|]. split; [exact others_untouched|]. split; [split; [reflexivity|]|vm_compute; reflexivity].
  vm_compute. discriminate.
Qed.
