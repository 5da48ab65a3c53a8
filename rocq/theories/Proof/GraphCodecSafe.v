(** The graph reader stays inside its buffer. *)
From Coq Require Import NArith ZArith Bool List Lia.
From stdpp Require Import base list gmap.
From Verif.Model Require Import Types Mesh Attrs Node EdgeContainer Graph Binary Versioning AttrCodec Registry GraphCodec.
From Verif.Spec Require Import BinarySpec.
From Verif.Proof Require Import BinaryP BinarySafe AttrSafe.
Local Open Scope N_scope.

Section Safe.
  Notation ins := (inside tame).
  Let HE : tame Exception := or_introl eq_refl.
  Let HU : tame Undefined := or_intror eq_refl.

  Lemma ins_lift {A} (r : result A) n : ins n 0 (lift r) (fun _ => True).
  Proof using. destruct r; cbn; [apply ins_ret; exact I|apply ins_fail, HE|apply ins_fail, HU]. Qed.
  Lemma ci_u64 : codec_inside tame c_u64. Proof using. apply (ser_inside tame HE false); [discriminate|repeat constructor]. Qed.
  Lemma ci_u8 : codec_inside tame c_u8. Proof using. apply (ser_inside tame HE false); [discriminate|repeat constructor]. Qed.
  Lemma ci_stamp : codec_inside tame c_stamp. Proof using. apply (ser_inside tame HE false); [discriminate|repeat constructor]. Qed.
  Lemma ci_names : codec_inside tame c_names. Proof using. apply (ser_inside tame HE false); [discriminate|repeat constructor]. Qed.

  Lemma ins_read_attrs env f : ins 0 1 (read_attrs env f) (fun _ => True).
  Proof using.
    unfold read_attrs. rewrite <- (N.add_0_r 1). eapply ins_bind; [apply ci_u8|]. intros t _.
    destruct (create_by_id f t) as [k|]; [|apply ins_ret; exact I].
    rewrite <- (N.add_0_r 0). eapply ins_bind; [apply ins_attr_fields; [exact HE|exact HU]|]. intros. apply ins_ret. exact I.
  Qed.
  Lemma ins_read_edge_attrs f : ins 0 1 (read_edge_attrs f) (fun _ => True).
  Proof using.
    unfold read_edge_attrs. rewrite <- (N.add_0_r 1). eapply ins_bind; [apply ci_u8|]. intros t _.
    destruct (create_by_id f t) as [k|]; [|apply ins_ret; exact I].
    rewrite <- (N.add_0_r 0). eapply ins_bind; [apply ins_fields, good_edge, HE|]. intros. apply ins_ret. exact I.
  Qed.
  Lemma ins_parse_node env f g : ins 0 1 (parse_node env f g) (fun _ => True).
  Proof using.
    unfold parse_node. eapply (ins_weaken _ 0 (5 + (1 + (1 + (1 + (1 + 0)))))); [reflexivity|lia|let z := fresh in let Hz := fresh in intros z Hz; exact Hz|].
    eapply ins_bind; [apply ins_check_length, HE|]. intros _ _.
    eapply ins_bind; [apply ci_u64|]. intros ? _. eapply ins_bind; [apply ci_u64|]. intros ? _.
    eapply ins_bind; [apply ci_stamp|]. intros ? _. eapply ins_bind; [apply ins_read_attrs|]. intros [?|] _; [|apply ins_ret; exact I].
    rewrite <- (N.add_0_r 0). eapply ins_bind; [apply ins_lift|]. intros [? ?] _. apply ins_ret. exact I.
  Qed.
  Lemma ins_node_round env f st : ins 0 1 (node_round env f st) (fun _ => True).
  Proof using.
    unfold node_round. rewrite <- (N.add_0_r 1). eapply ins_bind; [apply ins_parse_node|]. intros [? ?] _. apply ins_ret. exact I.
  Qed.
  Lemma ins_parse_edge f g : ins 0 1 (parse_edge f g) (fun _ => True).
  Proof using.
    unfold parse_edge. eapply (ins_weaken _ 0 (5 + (1 + (1 + (1 + 0))))); [reflexivity|lia|let z := fresh in let Hz := fresh in intros z Hz; exact Hz|].
    eapply ins_bind; [apply ins_check_length, HE|]. intros _ _.
    eapply ins_bind; [apply ci_u64|]. intros ? _. eapply ins_bind; [apply ci_u64|]. intros ? _.
    eapply ins_bind; [apply ins_read_edge_attrs|]. intros [?|] _; rewrite <- (N.add_0_r 0).
    - eapply ins_bind; [apply ins_lift|]. intros [? ?] _. apply ins_ret. exact I.
    - eapply ins_bind; [apply ins_lift|]. intros [|] _; [apply ins_fail, HU|].
      rewrite <- (N.add_0_r 0). eapply ins_bind; [apply ins_lift|]. intros [? ?] _. apply ins_ret. exact I.
  Qed.
  Lemma ins_loop {S} (step : S -> Reader S) : (forall s, ins 0 1 (step s) (fun _ => True)) ->
    forall fuel s buf pos, Forall is_byte buf -> len buf < max_object -> pos <= len buf -> len buf < pos + N.of_nat fuel ->
    match read_loop step fuel s buf pos with Val _ p => pos <= p <= len buf | Fail f => tame f end.
  Proof using.
    intros Hs. induction fuel as [|fuel IH]; intros s buf pos Hb Hl Hp Hf; [lia|].
    cbn [read_loop]. unfold bind at 1. pose proof (ins_array_end tame HE buf pos Hb Hl ltac:(lia)) as Ha.
    destruct (is_dynamic_array_end buf pos) as [e p|f]; [|exact Ha]. destruct Ha as [Ha _].
    destruct e; [cbn; lia|]. unfold bind. pose proof (Hs s buf p Hb Hl ltac:(lia)) as H1.
    destruct (step s buf p) as [s' p'|f]; [|exact H1]. destruct H1 as [H1 _].
    pose proof (IH s' buf p' Hb Hl ltac:(lia) ltac:(lia)) as H2. destruct (read_loop step fuel s' buf p'); [lia|exact H2].
  Qed.
  Lemma ins_array {S} (step : S -> Reader S) s : (forall s, ins 0 1 (step s) (fun _ => True)) ->
    ins 0 1 (read_dynamic_array step s) (fun _ => True).
  Proof using.
    intros Hs buf pos Hb Hl Hp. unfold read_dynamic_array, bind.
    pose proof (ins_dynamic_array tame HE buf pos Hb Hl Hp) as Ha.
    destruct (check_dynamic_array buf pos) as [e p|f]; [|exact Ha]. destruct Ha as [Ha _].
    pose proof (ins_loop step Hs (Datatypes.S (length buf)) s buf p Hb Hl ltac:(lia) ltac:(unfold len; lia)) as H2.
    destruct (read_loop _ _ _ _ _); [|exact H2]. split; [lia|exact I].
  Qed.
  Lemma ins_factory {T} env (r : Registry T) : ins 0 0 (load_factory env r) (fun _ => True).
  Proof using.
    unfold load_factory. destruct (version_ltb _ _); [apply ins_ret; exact I|].
    eapply (ins_weaken _ 0 (1 + 0)); [reflexivity|lia|let z := fresh in let Hz := fresh in intros z Hz; exact Hz|].
    eapply ins_bind; [apply ci_names|]. intros ? _. apply ins_ret. exact I.
  Qed.
  Lemma ins_update_graph env p g : ins 0 0 (update_graph env p g) (fun _ => True).
  Proof using.
    unfold update_graph. eapply (ins_weaken _ 0 (0 + (0 + (0 + (1 + (1 + (0 + (1 + (0 + (0 + 0)))))))))); [reflexivity|lia|let z := fresh in let Hz := fresh in intros z Hz; exact Hz|].
    eapply ins_bind with (Q1 := fun _ => True).
    { destruct (version_ltb _ _); [|apply ins_ret; exact I].
      eapply (ins_weaken _ 0 1); [reflexivity|lia|let z := fresh in let Hz := fresh in intros z Hz; exact Hz|]. apply ci_u64. }
    intros _ _. eapply ins_bind; [apply ins_factory|]. intros nf _. eapply ins_bind; [apply ins_factory|]. intros ef _.
    eapply ins_bind; [apply ins_array; intros; apply ins_node_round|]. intros st1 _.
    eapply ins_bind; [apply ins_array; intros; apply ins_node_round|]. intros st2 _.
    eapply ins_bind; [apply ins_lift|]. intros g3 _.
    eapply ins_bind; [apply ins_array; intros; apply ins_parse_edge|]. intros g4 _.
    eapply ins_bind; [apply ins_lift|]. intros g5 _.
    eapply ins_bind; [apply ins_if_true|]. intros [|] _; [|apply ins_ret; exact I].
    eapply (ins_weaken _ 0 (1 + 0)); [reflexivity|lia|let z := fresh in let Hz := fresh in intros z Hz; exact Hz|].
    eapply ins_bind; [apply ci_mesh, HE|]. intros ? _. apply ins_ret. exact I.
  Qed.
  Lemma ins_read_graph env p : ins 0 1 (read_graph env p) (fun _ => True).
  Proof using.
    unfold read_graph. eapply (ins_weaken _ 0 (1 + (0 + 0))); [reflexivity|lia|let z := fresh in let Hz := fresh in intros z Hz; exact Hz|].
    eapply ins_bind; [apply ci_u64s, HE|]. intros ids _. eapply ins_bind; [apply ins_lift|]. intros g _. apply ins_update_graph.
  Qed.
  Lemma ins_update_buffer env p g : ins 0 1 (update_from_buffer env p g) (fun _ => True).
  Proof using.
    unfold update_from_buffer. rewrite <- (N.add_0_r 1). eapply ins_bind; [apply ci_u64s, HE|]. intros ids _. apply ins_update_graph.
  Qed.
End Safe.
