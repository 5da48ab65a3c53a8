(** C46 attribute type names, and the part of C37 about whole graphs. *)
From Coq Require Import NArith ZArith Bool List Lia String.
From stdpp Require Import base list gmap.
From Verif.Model Require Import Types Mesh Attrs Graph Binary Versioning AttrCodec Registry GraphCodec.
From Verif.Spec Require Import BinarySpec AttrSpec RegistrySpec ProgramSpec.
From Verif.Proof Require Import BinaryP BinarySafe RegistryP GraphCodecP GraphCodecSafe.
From Verif.Properties Require Import P12_Files.
Local Open Scope N_scope.

(** C46: the writing program registered [w], the reading program registered [r], in any orders.
    The type id the writer gives its i-th type resolves, through the list of names in the file,
    to the type the reader knows under the same name, or to no type at all. *)
Theorem C46_types_resolved_by_name : forall T1 T2 (w : list (Name * T1)) (r : list (Name * T2)) wi W ri R,
  registers w wi W -> registers r ri R -> (length w <= 256)%nat ->
  forall i n c info, w !! i = Some (n, c) -> wi !! i = Some info ->
    ri_name info = n /\
    known_as r n (create_by_id (reg_from_names R (rg_names W)) (ri_type info)) /\
    known_as r n (create_by_name (reg_from_names R (rg_names W)) n).
Proof.
  intros T1 T2 w r wi W ri R HW HR Hl i n c info Hw Hi.
  destruct (resolve_id w r wi ri W R HW HR Hl i n c info Hw Hi) as (H1 & _ & _ & H4 & H5). done.
Qed.
Print Assumptions C46_types_resolved_by_name.
(** Ids the writer gave to no type resolve to nothing. *)
Theorem C46_unassigned_ids_unknown : forall T1 T2 (w : list (Name * T1)) (r : list (Name * T2)) wi W ri R,
  registers w wi W -> registers r ri R -> (length w <= 256)%nat ->
  forall id, id < 256 -> (forall info, info ∈ wi -> ri_type info <> id) ->
    create_by_id (reg_from_names R (rg_names W)) id = None.
Proof. intros T1 T2 w r wi W ri R HW HR Hl id Hid Hn. eapply (resolve_other w r wi ri); eassumption. Qed.
Print Assumptions C46_unassigned_ids_unknown.
(** Two different types never get the same id, and registering succeeds exactly when the names
    are distinct. *)
Theorem C46_ids_distinct : forall T (w : list (Name * T)),
  (NoDup w.*1 <-> exists wi W, registers w wi W) /\
  forall wi W, registers w wi W -> (length w <= 256)%nat -> NoDup (map ri_type wi) /\ length wi = length w.
Proof.
  intros T w. split.
  - split; [|intros (wi & W & H); apply registers_spec in H; tauto].
    intros Hd. apply (register_all_ok w reg_empty Hd). intros. apply lookup_empty.
  - intros wi W H Hl. apply registers_spec in H as (_ & -> & _ & _). rewrite imap_length. split; [|reflexivity].
    apply NoDup_alt. intros i j x Hi Hj. change (map ri_type) with (fmap (M:=list) ri_type) in Hi, Hj. rewrite list_lookup_fmap, list_lookup_imap in Hi, Hj.
    destruct (w !! i) as [y|] eqn:Ei; [|discriminate]. destruct (w !! j) as [z|] eqn:Ej; [|discriminate].
    cbn in Hi, Hj. apply lookup_lt_Some in Ei, Ej.
    rewrite !N.mod_small in Hi, Hj by (unfold two8; change (2 ^ 8) with 256; lia).
    assert (N.of_nat i = N.of_nat j) by congruence. lia.
Qed.
Print Assumptions C46_ids_distinct.

(** The same in terms of bytes: attributes of any class, written by a program that initialised
    its classes in one order, are read as attributes of the same class by a program that
    initialised its own in another; a program without the class makes no attributes of them
    (and does not skip their fields, see below). *)
Theorem C46_attributes_keep_their_type : forall env ks ks' p q a,
  current env -> program_of ks p -> program_of ks' q -> all_classes ks -> (length ks <= 256)%nat -> attrs_ok a ->
  exists bs, write_attrs env p a = Ok bs /\
    (kind_of a ∈ ks' -> reads_back (read_attrs env (reg_from_names (pg_nodes q) (rg_names (pg_nodes p)))) bs (Some (kept a))) /\
    (kind_of a ∉ ks' -> exists b1 b2, bs = b1 ++ b2 /\ write_attr_fields env a = Ok b2 /\
       reads_back (read_attrs env (reg_from_names (pg_nodes q) (rg_names (pg_nodes p)))) b1 None).
Proof.
  intros env ks ks' p q a He Hp Hq Hks Hl Ha.
  destruct (attrs_record env (current_new env He) ks ks' p q Hp Hq Hks Hl a Ha) as (bs & H1 & _ & H3 & H4).
  exists bs. done.
Qed.
Print Assumptions C46_attributes_keep_their_type.

(** The library's own order of initialisation, and another one. *)
Definition lib_order : list Kind := [KNode; KSem; KObj; KRoom; KPlace; KPlace2d; KAgent; KKhronos].
Definition other_order : list Kind := [KKhronos; KPlace; KNode; KAgent; KPlace2d; KSem; KRoom; KObj].
Definition program_with (ks : list Kind) : Program :=
  match register_all reg_empty (class_list ks), register_all reg_empty [(edge_name, tt)] with
  | Ok (infos, r), Ok (einfos, e) =>
    mkProgram r (fun k => match list_find (fun i => ri_name i = kind_name k) infos with Some (_, i) => ri_type i | None => 0 end)
      e (match einfos with i :: _ => ri_type i | [] => 0 end)
  | _, _ => mkProgram reg_empty (fun _ => 0) reg_empty 0
  end.
Lemma program_with_of ks : NoDup ks -> program_of ks (program_with ks).
Proof.
  intros Hd. assert (Hn : NoDup (class_list ks).*1).
  { rewrite class_names. change (map kind_name) with (fmap (M:=list) kind_name). apply (NoDup_fmap_2_strong kind_name); [|exact Hd].
    intros; by apply kind_name_inj. }
  destruct (register_all_ok (class_list ks) reg_empty Hn ltac:(intros; apply lookup_empty)) as (infos & r & E).
  assert (E2 : register_all reg_empty [(edge_name, tt)] = Ok ([mkInfo edge_name 0], mkReg [edge_name] {[ edge_name := tt ]})) by reflexivity.
  unfold program_with. rewrite E, E2. split.
  - exists infos. split; [exact E|].
    intros i k info Hk Hi. cbn [pg_type].
    destruct (registers_spec _ _ _ E) as (_ & Hinf & _ & _).
    assert (Hname : forall j x, infos !! j = Some x -> exists k', ks !! j = Some k' /\ ri_name x = kind_name k').
    { intros j x Hx. rewrite Hinf, list_lookup_imap, class_lookup in Hx. destruct (ks !! j) as [k'|]; [|discriminate].
      cbn in Hx. injection Hx as <-. by exists k'. }
    destruct (list_find (fun i => ri_name i = kind_name k) infos) as [[j x]|] eqn:F.
    + apply list_find_Some in F as (F1 & F2 & _). destruct (Hname j x F1) as (k' & K1 & K2). rewrite K2 in F2. apply kind_name_inj in F2. rewrite F2 in K1.
      assert (j = i) by (eapply (NoDup_lookup ks); eassumption). subst j. cbn beta iota. congruence.
    + exfalso. apply list_find_None in F. destruct (Hname i info Hi) as (k' & K1 & K2).
      assert (k' = k) by congruence. subst. rewrite List.Forall_forall in F. apply (F info); [|exact K2].
      apply elem_of_list_In. eapply elem_of_list_lookup_2, Hi.
  - exists (mkInfo edge_name 0). split; [exact E2|reflexivity].
Qed.
Lemma lib_order_ok : NoDup lib_order /\ all_classes lib_order.
Proof. split; [apply (bool_decide_unpack _); vm_compute; exact I|]. intros []; apply (bool_decide_unpack _); vm_compute; exact I. Qed.
Lemma other_order_ok : NoDup other_order /\ all_classes other_order.
Proof. split; [apply (bool_decide_unpack _); vm_compute; exact I|]. intros []; apply (bool_decide_unpack _); vm_compute; exact I. Qed.
Example C46_ex : program_of lib_order (program_with lib_order) /\ program_of other_order (program_with other_order) /\
  pg_type (program_with lib_order) KPlace = 4 /\ pg_type (program_with other_order) KPlace = 1 /\
  create_by_id (reg_from_names (pg_nodes (program_with other_order)) (rg_names (pg_nodes (program_with lib_order)))) 4 = Some KPlace /\
  create_by_id (reg_from_names (pg_nodes (program_with [KNode; KSem])) (rg_names (pg_nodes (program_with lib_order)))) 4 = None /\
  create_by_id (reg_from_names (pg_nodes (program_with other_order)) (rg_names (pg_nodes (program_with lib_order)))) 8 = None.
Proof.
  split; [apply program_with_of, lib_order_ok|]. split; [apply program_with_of, other_order_ok|]. repeat split; vm_compute; reflexivity.
Qed.

(** With more than 256 registered types the ids wrap around: the 257th type shares the id of
    the first and takes its place. *)
Definition many : list (Name * nat) := map (fun i => ([N.of_nat i], i)) (seq 0 257).
Theorem C46_more_than_256_types_refuted : exists wi W, registers many wi W /\
  (exists i1 i2, wi !! 0%nat = Some i1 /\ wi !! 256%nat = Some i2 /\ ri_type i1 = ri_type i2 /\
    create_by_id (reg_from_names W (rg_names W)) (ri_type i1) = Some 256%nat) /\ many !! 0%nat = Some ([0], 0%nat).
Proof.
  assert (Hd : NoDup many.*1) by (apply (bool_decide_unpack _); vm_compute; exact I).
  destruct (register_all_ok many reg_empty Hd ltac:(intros; apply lookup_empty)) as (wi & W & E).
  exists wi, W. split; [exact E|]. split; [|reflexivity].
  assert (K : (match register_all reg_empty many with Ok (wi, W) =>
    match wi !! 0%nat, wi !! 256%nat with Some i1, Some i2 =>
      bool_decide (ri_type i1 = ri_type i2 /\ create_by_id (reg_from_names W (rg_names W)) (ri_type i1) = Some 256%nat) | _, _ => false end
    | _ => false end) = true) by (vm_compute; reflexivity).
  rewrite E in K. destruct (wi !! 0%nat) as [i1|]; [|discriminate]. destruct (wi !! 256%nat) as [i2|]; [|discriminate].
  apply bool_decide_eq_true in K as [K1 K2]. exists i1, i2. split; [reflexivity|]. split; [reflexivity|]. split; [exact K1|exact K2].
Qed.
Print Assumptions C46_more_than_256_types_refuted.

(** Fields of an unknown type are not skipped: a reader that lacks a class cannot read a graph
    using it. *)
Definition unknown_type_file : list N :=
  match g_new [2] with
  | Ok g => match g_add_or_update_node g 2 7 (ANode (mkBase (mkVec3 0 0 0) 0 false false)) None with
            | Ok (_, g') => match write_graph ex_env (program_with lib_order) g' true with Ok bs => bs | _ => [] end
            | _ => [] end
  | _ => [] end.
Theorem C46_unknown_types_are_not_skipped_refuted :
  (exists g, read_graph ex_env (program_with other_order) unknown_type_file 0 = Val g (len unknown_type_file)) /\
  read_graph ex_env (program_with [KSem]) unknown_type_file 0 = Fail Exception.
Proof.
  split; [|vm_compute; reflexivity].
  assert (K : (match read_graph ex_env (program_with other_order) unknown_type_file 0 with Val _ n => n =? len unknown_type_file | _ => false end) = true)
    by (vm_compute; reflexivity).
  destruct (read_graph ex_env (program_with other_order) unknown_type_file 0) as [g n|]; [|discriminate]. apply N.eqb_eq in K as ->. by exists g.
Qed.
Print Assumptions C46_unknown_types_are_not_skipped_refuted.

(** C37 for whole graphs: on any bytes, by any program, both for a new graph and for updating
    an existing one. *)
Theorem C37_graph_reader_stays_inside : forall env p,
  stays_inside (read_graph env p) /\ forall g, stays_inside (update_from_buffer env p g).
Proof.
  intros env p. split; [|intros g]; eapply inside_stays; [apply ins_read_graph|apply ins_update_buffer].
Qed.
Print Assumptions C37_graph_reader_stays_inside.
