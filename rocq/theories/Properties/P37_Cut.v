(** C68 cut files and messages. *)
From Coq Require Import NArith ZArith Bool List Lia String.
From stdpp Require Import base list gmap.
From Verif.Model Require Import Types Mesh Attrs Node EdgeContainer SLayer DLayer Graph Binary Versioning AttrCodec Registry GraphCodec.
From Verif.Spec Require Import BinarySpec AttrSpec RegistrySpec ProgramSpec AbstractGraph GraphHistory GraphObs GraphFileSpec CutSpec.
From Verif.Proof Require Import BinaryP BinarySafe AttrSafe GraphSim GraphRep GraphObsP CloneP FileP GraphCodecP GraphCodecSafe TransferP MessageP PrefixP.
From Verif.Properties Require Import P12_Files P13_Registry P14_GraphFiles ExGraph.
Local Open Scope N_scope.

(** Every value of a serialisable type, mesh, header and set of attributes: cut bytes throw. *)
Theorem C68_values :
  (forall b A (c : Codec A) old, serialisable b A c -> refuses_cuts (cd_read c old)) /\
  (forall old, refuses_cuts (cd_read c_mesh old)) /\ (forall old, refuses_cuts (cd_read c_header old)) /\
  (forall env f, refuses_cuts (read_attrs env f)) /\ (forall f, refuses_cuts (read_edge_attrs f)).
Proof.
  assert (HE : tame Exception) by (left; reflexivity). assert (HU : tame Undefined) by (right; reflexivity).
  split; [|split; [|split; [|split]]].
  - intros b A c old H. eapply refuses; [apply (cm_ser b A c H)|]. apply (ser_inside tame HE b (fun _ => HU) A c H).
  - intros old. eapply refuses; [apply cm_mesh|apply ci_mesh, HE].
  - intros old. eapply refuses; [apply cm_header|apply inside_header, HE].
  - intros env f. eapply refuses; [apply mono_read_attrs|apply ins_read_attrs].
  - intros f. eapply refuses; [apply mono_read_edge_attrs|apply ins_read_edge_attrs].
Qed.
Print Assumptions C68_values.
(** Any bytes a graph loads from: a cut of them throws, except where only the mesh is missing. *)
Theorem C68_any_bytes : forall env p, refuses_cuts_but_mesh (read_graph env p) (fun m => m = None).
Proof. exact read_cuts. Qed.
Print Assumptions C68_any_bytes.
(** Any bytes a graph is updated from. *)
Theorem C68_any_update : forall env p g, refuses_cuts_but_mesh (update_from_buffer env p g) (fun m => m = g_mesh g \/ m = None).
Proof. exact update_buffer_cuts. Qed.
Print Assumptions C68_any_update.

(** the last part of a file: a flag and the mesh *)
Definition mesh_part (h : Graph) (include_mesh : bool) (part : list N) : Prop :=
  match (if include_mesh then g_mesh h else None) with
  | None => part = [T_FALSE]
  | Some m => exists bs, cd_write c_mesh m = Ok bs /\ part = T_TRUE :: bs
  end.
Lemma mesh_part_ok h im tail : mesh_bytes h im = Ok tail -> mesh_part h im tail.
Proof.
  unfold mesh_bytes, mesh_part. destruct (g_mesh h) as [m|], im; try (intros [= <-]; reflexivity).
  cbn [seq_writes]. destruct (cd_write c_mesh m) as [bs| |]; [|discriminate..]. intros [= <-]. exists bs. split; [reflexivity|]. rewrite app_nil_r. reflexivity.
Qed.
Lemma beginning {A} (a b P S : list A) : a ++ b = P ++ S -> len P = len a -> P = a.
Proof. intros E L. symmetry. apply (app_inj_1 a P b S); [unfold len in L; lia|exact E]. Qed.
(** A file that was saved: loading a beginning of it throws wherever it was cut, except just before
    the mesh; there all layers, nodes and edges load, and no mesh. *)
Theorem C68_file : forall fsub ks ks' p q h im,
  program_of ks p -> program_of ks' q -> all_classes ks -> all_classes ks' -> (length ks <= 256)%nat ->
  reachable h -> saveable h ->
  exists main part, save_binary (mkEnv (h_version header_current) fsub) p h im = Ok (main ++ part) /\ mesh_part h im part /\
    forall P, len (main ++ part) < max_object -> cut_before (len (main ++ part)) (main ++ part) P ->
      (P <> main -> load_binary fsub q P = Fail Exception) /\
      (P = main -> exists g' n, load_binary fsub q P = Val g' n /\ reachable g' /\ loaded_from h g' /\ g_mesh g' = None).
Proof.
  intros fsub ks ks' p q h im Hp Hq Hks Hks' Hlen Hh HS. set (env := mkEnv (h_version header_current) fsub).
  destruct (reachable_RepL h Hh) as [ah HL].
  destruct (file_before env eq_refl ks ks' p q Hp Hq Hks Hks' Hlen h im (saveable_fits h ah HL HS)) as (b0 & b1 & tail & W & T & B & R0 & R1 & R2).
  destruct (fresh_graph h Hh) as (g & Hg & Hr & HR & Hi & Hm).
  destruct (into_empty h false Hh HS g Hr HR Hi Hm) as (g' & T' & Hr' & HL' & HM'). specialize (R1 g g' T'). specialize (R2 g').
  destruct (header_round header_current) as (hb & Hhb & Bh & Rh).
  { split; [split; [reflexivity|repeat constructor]|]. repeat split. }
  exists (hb ++ b0 ++ b1), tail. split.
  { replace ((hb ++ b0 ++ b1) ++ tail) with (hb ++ ((b0 ++ b1 ++ tail) ++ [])) by (rewrite app_nil_r, <- !app_assoc; reflexivity).
    unfold save_binary. apply seq_cons; [exact Hhb|]; apply seq_cons; [exact W|reflexivity]. }
  split; [apply mesh_part_ok, T|]. intros P Hl [[S E] Hn].
  set (g2 := match g_mesh h with Some m => if im then g_set_mesh g' (Some m) else g' | None => g' end) in *.
  assert (Hlen3 : len (b0 ++ b1 ++ tail) < max_object) by (unfold len in *; rewrite !app_length in *; lia).
  assert (HB : Forall is_byte ((hb ++ b0 ++ b1) ++ tail)).
  { rewrite <- !app_assoc. apply Forall_app_2; [exact Bh|exact B]. }
  assert (HBP : Forall is_byte P) by (rewrite E in HB; apply Forall_app in HB; tauto).
  assert (HlP : len P < max_object) by lia.
  assert (HlE : len ((hb ++ b0 ++ b1) ++ tail) = len hb + len (b0 ++ b1 ++ tail)) by (unfold len; rewrite !app_length; lia).
  assert (Hc : check_compatibility (default header_legacy (Some header_current)) header_current = Ok tt) by (vm_compute; reflexivity).
  (* the header *)
  assert (Hall : header_reader (P ++ S) 0 = Val (Some header_current) (len hb)).
  { rewrite <- E, <- header_reads. rewrite <- !app_assoc. apply Rh. unfold len in *. rewrite !app_length in *. lia. }
  destruct (cut_or_same _ _ _ P S 0 _ _ mono_header inside_header_reader HBP HlP ltac:(lia) Hall) as [Eh|[Eh Hhb']].
  { assert (X : load_binary fsub q P = Fail Exception) by (unfold load_binary, load_prologue; rewrite header_reads, Eh; reflexivity).
    split; [intros _; exact X|]. intros ->. exfalso.
    assert (K : header_parse (hb ++ (b0 ++ b1)) = Val (Some header_current) (len hb)) by (apply Rh; exact HlP).
    rewrite header_reads, Eh in K. discriminate. }
  assert (HX : load_binary fsub q P = read_graph env q (drop (length hb) P) 0).
  { unfold load_binary, load_prologue. rewrite header_reads, Eh, Hc. cbn [rbind]. change (default header_legacy (Some header_current)) with header_current.
    fold env. unfold len. rewrite Nat2N.id. reflexivity. }
  assert (HPP : exists P', P = hb ++ P' /\ b0 ++ b1 ++ tail = P' ++ S).
  { exists (drop (length hb) P). assert (Ht : take (length hb) P = hb).
    { assert (K : take (length hb) ((hb ++ b0 ++ b1) ++ tail) = take (length hb) (P ++ S)) by (rewrite E; reflexivity).
      rewrite <- !app_assoc, take_app in K. rewrite take_app_le in K by (unfold len in Hhb'; lia). symmetry. exact K. }
    assert (EP : P = hb ++ drop (length hb) P) by (rewrite <- Ht at 1; symmetry; apply take_drop). split; [exact EP|].
    apply (app_inv_head hb). transitivity (P ++ S); [rewrite <- E, <- !app_assoc; reflexivity|]. rewrite EP at 1. rewrite <- app_assoc. reflexivity. }
  destruct HPP as (P' & -> & E'). rewrite HX, drop_app. clear Eh Hall HX.
  assert (HlP' : len P' < max_object) by (unfold len in *; rewrite !app_length in *; lia).
  assert (Hn' : len P' < len (b0 ++ b1 ++ tail)) by (unfold len in *; rewrite !app_length in *; lia).
  (* on the whole bytes *)
  assert (F0 : cd_read c_u64s [] (b0 ++ b1 ++ tail) 0 = Val (g_layer_ids h) (len b0)).
  { pose proof (R0 [] (b1 ++ tail)) as K. apply K. exact Hlen3. }
  assert (F1 : before_flag env q g (b0 ++ b1 ++ tail) (len b0) = Val g' (len b0 + len b1)) by (apply R1; exact Hlen3).
  assert (F2 : from_flag g' (b0 ++ b1 ++ tail) (len b0 + len b1) = Val g2 (len (b0 ++ b1 ++ tail))).
  { pose proof (R2 (b0 ++ b1) []) as K. rewrite app_nil_r in K. rewrite <- !app_assoc in K. specialize (K Hlen3).
    replace (len (b0 ++ b1)) with (len b0 + len b1) in K by (unfold len; rewrite app_length; lia).
    rewrite K. f_equal. unfold len. rewrite !app_length. lia. }
  assert (Bb : Forall is_byte P') by (apply Forall_app in HBP; tauto).
  assert (Hmain : hb ++ P' = hb ++ b0 ++ b1 <-> P' = b0 ++ b1) by (split; [apply app_inv_head|intros ->; reflexivity]).
  assert (Hg0 : read_graph env q (b0 ++ b1) 0 = Val g' (len b0 + len b1)).
  { unfold read_graph, bind. assert (L2 : len (b0 ++ b1) < max_object) by (unfold len in *; rewrite !app_length in *; lia).
    pose proof (R0 [] b1 L2) as K0. cbn [app] in K0. rewrite N.add_0_l in K0. change (len (@nil N)) with 0 in K0. rewrite K0. rewrite Hg. cbn [lift ret].
    rewrite update_split. unfold bind. pose proof (R1 b0 []) as K1. rewrite app_nil_r in K1. rewrite (K1 L2). unfold from_flag, bind.
    replace (len b0 + len b1) with (len (b0 ++ b1)) by (unfold len; rewrite app_length; lia). rewrite flag_end by exact L2. reflexivity. }
  split; intros HP; rewrite Hmain in HP.
  - assert (Hne : len P' <> len b0 + len b1).
    { intros Hk. apply HP. rewrite app_assoc in E'. apply (beginning _ tail _ S E'). unfold len in *. rewrite app_length. lia. }
    rewrite E' in F0, F1, F2, Hlen3. unfold read_graph, bind.
    destruct (cut_or_same _ _ _ P' S 0 _ _ (cm_u64s _) (ci_u64s tame (or_introl eq_refl) []) Bb HlP' ltac:(lia) F0) as [X|[X Hq']]; rewrite X; [reflexivity|].
    rewrite Hg. cbn [lift ret].
    destruct (cut_update env q g P' S (len b0) g2 _ g' _ Bb Hlen3 ltac:(lia) F1 F2 ltac:(rewrite <- E'; exact Hn')) as [X'|[X' _]]; [exact X'|contradiction].
  - subst P'. exists g', (len b0 + len b1). split; [exact Hg0|]. split; [exact Hr'|]. split; [exact HL'|exact HM'].
Qed.
Print Assumptions C68_file.

(** The sample graph with a mesh: a part of its file loads, and the mesh is lost. *)
Definition file_of (h : Graph) : result (list N) := save_binary (mkEnv (h_version header_current) (ev_fsub ex_env)) lib h true.
Theorem C68_lost_mesh_refuted : exists file P, file_of ex_sender = Ok file /\ cut_before (len file) file P /\ g_mesh ex_sender <> None /\
  exists g n, load_binary (ev_fsub ex_env) lib P = Val g n /\ g_mesh g = None.
Proof.
  destruct C41_ex as (Hr & HS & _ & _).
  destruct (C68_file (ev_fsub ex_env) lib_order lib_order lib lib ex_sender true) as (main & part & W & M & HC); [..|exact Hr|exact HS|].
  { apply program_with_of, lib_order_ok. } { apply program_with_of, lib_order_ok. } { apply lib_order_ok. } { apply lib_order_ok. } { vm_compute. lia. }
  assert (Hm := ex_sender_mesh). unfold mesh_part in M. rewrite Hm in M. destruct M as (bs & _ & ->).
  assert (HP : cut_before (len (main ++ T_TRUE :: bs)) (main ++ T_TRUE :: bs) main).
  { split; [eauto|]. unfold len. rewrite app_length. cbn [length]. lia. }
  exists (main ++ T_TRUE :: bs), main. split; [exact W|]. split; [exact HP|]. split; [rewrite Hm; discriminate|].
  assert (Hl : len (main ++ T_TRUE :: bs) < max_object).
  { assert (L : match file_of ex_sender with Ok f => len f <? max_object | _ => false end = true) by (vm_compute; reflexivity).
    unfold file_of in L. rewrite W in L. apply N.ltb_lt, L. }
  destruct (HC main Hl HP) as [_ H]. destruct (H eq_refl) as (g & n & E & _ & _ & X). eauto.
Qed.
Print Assumptions C68_lost_mesh_refuted.

(** Concretely: the first 100 bytes of that file and all bytes but the last one throw. *)
Definition thrown (o : outcome Graph) : bool := match o with Fail Exception => true | _ => false end.
Example C68_case : match file_of ex_sender with
  | Ok f => thrown (load_binary (ev_fsub ex_env) lib (take 100 f)) && thrown (load_binary (ev_fsub ex_env) lib (removelast f)) &&
            thrown (update_from_buffer ex_env lib ex_receiver (take 300 (drop 30 f)) 0) &&
            negb (thrown (load_binary (ev_fsub ex_env) lib f)) && (400 <? len f)
  | _ => false end = true.
Proof. vm_compute. reflexivity. Qed.
