(** Records of a graph file read back. *)
From Coq Require Import NArith ZArith Bool List Lia String.
From stdpp Require Import base list gmap.
From Verif.Model Require Import Types Mesh Attrs Node EdgeContainer SLayer DLayer Graph Binary Versioning AttrCodec Registry GraphCodec.
From Verif.Spec Require Import BinarySpec AttrSpec RegistrySpec ProgramSpec.
From Verif.Proof Require Import BinaryP SaveLoad AttrP RegistryP.
Local Open Scope N_scope.

Lemma kind_name_inj k1 k2 : kind_name k1 = kind_name k2 -> k1 = k2.
Proof. destruct k1, k2; vm_compute; congruence. Qed.
Lemma class_names ks : (class_list ks).*1 = map kind_name ks.
Proof. unfold class_list. induction ks as [|k ks IH]; [reflexivity|]. cbn. by rewrite IH. Qed.
Lemma class_lookup ks (i : nat) : class_list ks !! i = (fun k => (kind_name k, k)) <$> (ks !! i).
Proof. apply list_lookup_fmap. Qed.
Lemma class_known ks k o : known_as (class_list ks) (kind_name k) o -> o = if bool_decide (k ∈ ks) then Some k else None.
Proof.
  intros H. unfold known_as in H. destruct o as [c|].
  - unfold class_list in H. apply elem_of_list_fmap in H as (k' & E & Hk). injection E as E1 E2. apply kind_name_inj in E1. subst.
    by rewrite bool_decide_true.
  - rewrite bool_decide_false; [done|]. intros Hk. apply (H k). apply elem_of_list_fmap. by exists k.
Qed.

Section Resolve.
  Context {T1 T2 : Type} (w : list (Name * T1)) (r : list (Name * T2)) (wi ri : list RegistrationInfo)
    (W : Registry T1) (R : Registry T2).
  Hypothesis (HW : registers w wi W) (HR : registers r ri R) (Hlen : (length w <= 256)%nat).
  Lemma resolve_id i n c info : w !! i = Some (n, c) -> wi !! i = Some info ->
    ri_name info = n /\ ri_type info = N.of_nat i /\ ri_type info < 256 /\
    known_as r n (create_by_id (reg_from_names R (rg_names W)) (ri_type info)) /\
    known_as r n (create_by_name (reg_from_names R (rg_names W)) n).
  Proof using HW HR Hlen.
    intros Hw Hi. destruct (registers_spec _ _ _ HW) as (W1 & W2 & W3 & W4). destruct (registers_spec _ _ _ HR) as (R1 & R2 & R3 & R4).
    rewrite W2, list_lookup_imap, Hw in Hi. cbn in Hi. injection Hi as <-. cbn [ri_name ri_type].
    assert (Hil : (i < length w)%nat) by (by eapply lookup_lt_Some).
    rewrite N.mod_small by (unfold two8; change (2 ^ 8) with 256; lia).
    unfold reg_from_names. rewrite W1, R4.
    destruct (factory_lookup (list_to_map r) w.*1 W3) as (A & _ & _); [by rewrite fmap_length|].
    destruct (A i n) as [A1 A2]; [by rewrite list_lookup_fmap, Hw|].
    rewrite A1, A2. split; [done|]. split; [done|]. split; [lia|]. split; by apply known_lookup.
  Qed.
  Lemma resolve_other j : (forall info, info ∈ wi -> ri_type info <> j) -> j < 256 ->
    create_by_id (reg_from_names R (rg_names W)) j = None.
  Proof using HW HR Hlen.
    intros Hj Hl. destruct (registers_spec _ _ _ HW) as (W1 & W2 & W3 & W4). destruct (registers_spec _ _ _ HR) as (R1 & R2 & R3 & R4).
    destruct (decide (j < N.of_nat (length w))) as [Hin|Hin].
    - exfalso. assert (Hk : exists x, w !! N.to_nat j = Some x) by (apply lookup_lt_is_Some_2; lia). destruct Hk as [x Hx].
      apply (Hj (mkInfo x.1 j)); [|done]. rewrite W2. apply elem_of_list_lookup. exists (N.to_nat j).
      rewrite list_lookup_imap, Hx. cbn. rewrite N2Nat.id, N.mod_small; [done|]. unfold two8. change (2 ^ 8) with 256. lia.
    - unfold reg_from_names. rewrite W1, R4.
      destruct (factory_lookup (list_to_map r) w.*1 W3) as (_ & B & _); [by rewrite fmap_length|].
      apply B; [rewrite fmap_length; lia|done].
  Qed.
End Resolve.

(* ---------------------------------------------------------------- *)
(** ** Sequences of writes *)
Lemma seq_cons (r : result (list N)) (rs : list (result (list N))) b1 b2 : r = Ok b1 -> seq_writes rs = Ok b2 ->
  seq_writes (r :: rs) = Ok (b1 ++ b2).
Proof. intros -> H. cbn [seq_writes rbind]. rewrite H. reflexivity. Qed.
Lemma u8_small v : fits 8 v -> exists bs, cd_write c_u8 v = Ok bs /\ Forall is_byte bs /\ forall old, reads_back (cd_read c_u8 old) bs v.
Proof.
  intros H. destruct sl_u8 as [W R]. destruct (W v H) as [bs E]. exists bs. split; [exact E|].
  split; [apply (R v 0 bs H I E)|]. intros old. apply (R v old bs H I E).
Qed.
Lemma app_nil_eq {A} (l : list A) : l ++ [] = l. Proof. apply app_nil_r. Qed.

Definition node_fits (n : Node) : Prop :=
  fits 64 (n_layer n) /\ fits 64 (n_id n) /\ (forall t, n_time n = Some t -> fits_signed 64 t) /\ attrs_ok (n_attrs n).
Definition edge_fits (e : Edge) : Prop := fits 64 (e_src e) /\ fits 64 (e_tgt e) /\ edge_attrs_ok (e_info e).

Lemma not_nil_i64 : not_nil c_i64.
Proof. intros a bs [= <-]. eexists _, _. split; [reflexivity|]. discriminate. Qed.
Lemma sl_stamp : saves_and_loads c_stamp (fun o => forall t, o = Some t -> fits_signed 64 t) (fun o => o = None).
Proof. apply (sl_option 0%Z c_i64 _ _ (sl_int T_INT64 8 eq_refl ltac:(lia)) I not_nil_i64). Qed.

Section Records.
  Context (env : Env) (Hv : version_ltb (ev_version env) (mkV 1 0 4) = false).
  Context (ks ks' : list Kind) (p q : Program).
  Hypothesis (Hp : program_of ks p) (Hq : program_of ks' q) (Hks : all_classes ks) (Hlen : (length ks <= 256)%nat).
  Let nf := reg_from_names (pg_nodes q) (rg_names (pg_nodes p)).
  Let ef := reg_from_names (pg_edges q) (rg_names (pg_edges p)).

  Lemma type_resolved k : pg_type p k < 256 /\ create_by_id nf (pg_type p k) = if bool_decide (k ∈ ks') then Some k else None.
  Proof using Hp Hq Hks Hlen.
    destruct Hp as [(wi & W & WT) _]. destruct Hq as [(ri & R & _) _].
    destruct (elem_of_list_lookup_1 ks k (Hks k)) as [i Hi].
    destruct (registers_spec _ _ _ W) as (_ & W2 & _ & _).
    assert (Hc : class_list ks !! i = Some (kind_name k, k)) by (rewrite class_lookup, Hi; reflexivity).
    assert (Hinfo : exists info, wi !! i = Some info) by (rewrite W2, list_lookup_imap, Hc; eexists; reflexivity).
    destruct Hinfo as [info Hinfo].
    assert (Hl : (length (class_list ks) <= 256)%nat) by (unfold class_list; rewrite map_length; exact Hlen).
    destruct (resolve_id _ _ _ _ _ _ W R Hl i _ _ info Hc Hinfo) as (_ & _ & H3 & H4 & _).
    rewrite (WT i k info Hi Hinfo). split; [exact H3|]. apply class_known, H4.
  Qed.
  Lemma edge_resolved : pg_edge_type p < 256 /\ create_by_id ef (pg_edge_type p) = Some tt.
  Proof using Hp Hq Hlen.
    destruct Hp as [_ (wi & W & ->)]. destruct Hq as [_ (ri & R & _)].
    destruct (resolve_id _ _ _ _ _ _ W R ltac:(cbn; lia) 0%nat _ _ wi eq_refl eq_refl) as (_ & _ & H3 & H4 & _).
    split; [exact H3|]. fold ef in H4. unfold known_as in H4. destruct (create_by_id ef (ri_type wi)) as [[]|]; [reflexivity|].
    exfalso. apply (H4 tt). left.
  Qed.

  Lemma attrs_record a : attrs_ok a -> exists bs, write_attrs env p a = Ok bs /\ Forall is_byte bs /\
    (kind_of a ∈ ks' -> reads_back (read_attrs env nf) bs (Some (kept a))) /\
    (kind_of a ∉ ks' -> exists b1 b2, bs = b1 ++ b2 /\ write_attr_fields env a = Ok b2 /\ reads_back (read_attrs env nf) b1 None).
  Proof using Hv Hp Hq Hks Hlen.
    intros Ha. destruct (type_resolved (kind_of a)) as [T1 T2].
    destruct (u8_small _ T1) as (b1 & W1 & B1 & R1). destruct (save_attrs env Hv a Ha) as (b2 & W2 & B2 & R2).
    exists (b1 ++ (b2 ++ [])). unfold write_attrs. split; [apply seq_cons; [exact W1|]; apply seq_cons; [exact W2|reflexivity]|].
    split; [repeat apply Forall_app_2; try assumption; constructor|]. unfold read_attrs. split; intros Hin.
    - eapply reads_bind; [apply R1|]. cbv beta. rewrite T2, bool_decide_true by exact Hin.
      eapply reads_bind; [exact R2|]. apply reads_ret.
    - exists b1, (b2 ++ []). split; [reflexivity|]. rewrite app_nil_r. split; [exact W2|].
      rewrite <- (app_nil_r b1). eapply reads_bind; [apply R1|]. cbv beta. rewrite T2, bool_decide_false by exact Hin. apply reads_ret.
  Qed.

  Lemma node_record n : all_classes ks' -> node_fits n -> exists bs, write_node env p n = Ok bs /\ Forall is_byte bs /\
    (exists r, bs = T_ARR32 :: r) /\
    forall g b g', g_add_or_update_node g (n_layer n) (n_id n) (kept (n_attrs n)) (n_time n) = Ok (b, g') ->
      reads_back (parse_node env nf g) bs (n_id n, g').
  Proof using Hv Hp Hq Hks Hlen.
    intros Hks' (H1 & H2 & H3 & H4). destruct (attrs_record _ H4) as (ba & Wa & Ba & Ra & _).
    specialize (Ra (Hks' _)).
    destruct sl_u64 as [WU RU]. destruct sl_stamp as [WS RS].
    destruct (WU _ H1) as [b1 E1]. destruct (WU _ H2) as [b2 E2]. destruct (WS _ H3) as [b3 E3].
    assert (E0 : fixed_array 4 = Ok (T_ARR32 :: word_bytes 4 4)) by reflexivity.
    exists ((T_ARR32 :: word_bytes 4 4) ++ (b1 ++ (b2 ++ (b3 ++ (ba ++ []))))).
    destruct (RU _ 0 _ H1 I E1) as [B1 R1]. destruct (RU _ 0 _ H2 I E2) as [B2 R2]. destruct (RS _ None _ H3 eq_refl E3) as [B3 R3].
    split; [unfold write_node; repeat (apply seq_cons; [assumption|]); reflexivity|].
    split; [repeat apply Forall_app_2; try assumption; [apply (fixed_array_bytes 4), E0|constructor]|].
    split; [eexists; reflexivity|].
    intros g b g' Hg. unfold parse_node.
    eapply reads_bind; [eapply reads_check_length, E0|]. eapply reads_bind; [apply R1|]. eapply reads_bind; [apply R2|].
    eapply reads_bind; [apply R3|]. eapply reads_bind; [apply Ra|]. cbv beta iota. rewrite Hg. cbn [lift].
    apply (reads_bind (ret (b, g')) _ [] []  (b, g')); apply reads_ret.
  Qed.

  Lemma edge_record e : edge_fits e -> exists bs, write_edge p e = Ok bs /\ Forall is_byte bs /\
    (exists r, bs = T_ARR32 :: r) /\
    forall g b g', g_add_or_update_edge g (e_src e) (e_tgt e) (e_info e) = Ok (b, g') ->
      reads_back (parse_edge ef g) bs g'.
  Proof using Hp Hq Hlen.
    intros (H1 & H2 & H3). destruct sl_u64 as [WU RU]. destruct sl_edge_fields as [WE RE].
    destruct edge_resolved as [T1 T2]. destruct (u8_small _ T1) as (b0 & W0 & B0 & R0).
    destruct (WU _ H1) as [b1 E1]. destruct (WU _ H2) as [b2 E2]. destruct (WE _ H3) as [b3 E3].
    assert (E0 : fixed_array 3 = Ok (T_ARR32 :: word_bytes 4 3)) by reflexivity.
    exists ((T_ARR32 :: word_bytes 4 3) ++ (b1 ++ (b2 ++ ((b0 ++ (b3 ++ [])) ++ [])))).
    destruct (RU _ 0 _ H1 I E1) as [B1 R1]. destruct (RU _ 0 _ H2 I E2) as [B2 R2]. destruct (RE _ ea_default _ H3 I E3) as [B3 R3].
    split.
    { unfold write_edge, write_edge_attrs. do 3 (apply seq_cons; [assumption|]). apply seq_cons; [|reflexivity].
      apply seq_cons; [exact W0|]. apply seq_cons; [exact E3|reflexivity]. }
    split; [repeat apply Forall_app_2; try assumption; first [apply (fixed_array_bytes 3), E0|constructor]|].
    split; [eexists; reflexivity|].
    intros g b g' Hg. unfold parse_edge.
    eapply reads_bind; [eapply reads_check_length, E0|]. eapply reads_bind; [apply R1|]. eapply reads_bind; [apply R2|].
    eapply (reads_bind _ _ _ _ (Some (e_info e))).
    - unfold read_edge_attrs. eapply reads_bind; [apply R0|]. cbv beta. rewrite T2.
      eapply reads_bind; [apply R3|]. apply reads_ret.
    - cbv beta iota. rewrite Hg. cbn [lift]. apply (reads_bind (ret (b, g')) _ [] [] (b, g')); apply reads_ret.
  Qed.
End Records.

(* ---------------------------------------------------------------- *)
(** ** Arrays of records *)
Section Loop.
  Context {X S : Type} (wr : X -> result (list N)) (step : S -> Reader S) (st : S -> X -> result S).
  Definition record_ok (x : X) : Prop := exists bs, wr x = Ok bs /\ Forall is_byte bs /\ (exists r, bs = T_ARR32 :: r) /\
    forall s s', st s x = Ok s' -> reads_back (step s) bs s'.
  Lemma loop_reads (xs : list X) : Forall record_ok xs -> exists body, seq_writes (map wr xs ++ [Ok [T_ARRYY]]) = Ok body /\
    Forall is_byte body /\ (length xs < length body)%nat /\
    forall s s', rfold st xs s = Ok s' -> forall fuel, (length xs < fuel)%nat -> reads_back (read_loop step fuel s) body s'.
  Proof using.
    induction xs as [|x xs IH]; intros HF.
    - exists [T_ARRYY]. split; [reflexivity|]. split; [repeat constructor|]. split; [cbn; lia|].
      intros s s' [= <-] [|fuel] Hf; [cbn in Hf; lia|]. cbn [read_loop].
      change [T_ARRYY] with ([T_ARRYY] ++ []). eapply (reads_bind _ _ _ _ true); [|apply reads_ret].
      unfold is_dynamic_array_end. apply reads_curr. cbn. apply reads_advance, reads_ret.
    - inversion HF as [|? ? Hx HF']; subst. destruct (IH HF') as (body & W & B & L & R). clear IH HF.
      destruct Hx as (bs & Wx & Bx & (r & Ebs) & Rx).
      exists (bs ++ body). split; [cbn [map app]; apply seq_cons; assumption|]. split; [by apply Forall_app_2|].
      split; [rewrite app_length, Ebs; cbn; lia|].
      intros s s' Hs [|fuel] Hf; [cbn in Hf; lia|]. cbn [rfold] in Hs.
      destruct (st s x) as [s1| |] eqn:E1; [|discriminate..]. cbn [rbind] in Hs.
      cbn [read_loop]. unfold is_dynamic_array_end. eapply reads_ext; [intros; apply bind_assoc|].
      pose proof (Rx _ _ E1) as Rx1. rewrite Ebs in *. cbn [app]. apply reads_curr. cbn -[read_loop app].
      change (T_ARR32 :: r ++ body) with ((T_ARR32 :: r) ++ body).
      eapply reads_ext with (r' := bind (step s) (read_loop step fuel)); [intros; reflexivity|]. eapply reads_bind; [exact Rx1|]. apply (R s1 s' Hs). cbn in Hf. lia.
  Qed.
  Lemma array_reads (xs : list X) : Forall record_ok xs -> exists bs, dynamic_array (map wr xs) = Ok bs /\
    Forall is_byte bs /\ forall s s', rfold st xs s = Ok s' -> reads_back (read_dynamic_array step s) bs s'.
  Proof using.
    intros HF. destruct (loop_reads xs HF) as (body & W & B & L & R). exists ([T_ARRXX] ++ body).
    split; [unfold dynamic_array; apply seq_cons; [reflexivity|exact W]|].
    split; [constructor; [reflexivity|exact B]|].
    intros s s' Hs before after Hl. unfold read_dynamic_array.
    assert (Hb : reads_back (bind check_dynamic_array (fun _ => read_loop step (Datatypes.S (length (before ++ ([T_ARRXX] ++ body) ++ after))) s))
                   ([T_ARRXX] ++ body) s').
    { eapply reads_bind.
      - unfold check_dynamic_array. apply reads_curr. cbn. eapply reads_ext with (r' := bind (advance 1) (fun _ => ret tt)).
        + intros. unfold bind, advance, ret. reflexivity.
        + apply reads_advance, reads_ret.
      - apply (R s s' Hs). rewrite !app_length. lia. }
    apply Hb, Hl.
  Qed.
End Loop.

(* ---------------------------------------------------------------- *)
(** ** The effect of a file on a graph, without the bytes *)
(** [cv]: what the reader makes of the attributes of a node *)
Definition nstep (cv : N -> NodeAttrs -> NodeAttrs) (st : Graph * gset N) (n : Node) : result (Graph * gset N) :=
  let! (_, g') := g_add_or_update_node (fst st) (n_layer n) (n_id n) (cv (n_id n) (n_attrs n)) (n_time n) in Ok (g', snd st ∖ {[n_id n]}).
Definition estep (g : Graph) (e : Edge) : result Graph :=
  let! (_, g') := g_add_or_update_edge g (e_src e) (e_tgt e) (e_info e) in Ok g'.
Definition rstep (g : Graph) (x : N) : result Graph := let! (_, g') := g_remove_node g x in Ok g'.
Definition present {A} (l : list (option A)) : list A := omap id l.
Definition transfer (cv : N -> NodeAttrs -> NodeAttrs) (h g : Graph) (include_mesh : bool) : result Graph :=
  let! st1 := rfold (nstep cv) (static_nodes h) (g, dom (g_lookup g)) in
  let! st2 := rfold (nstep cv) (present (dynamic_slots h)) st1 in
  let! g3 := rfold rstep (elements (snd st2)) (fst st2) in
  let! g4 := rfold estep (all_edges h) (g_mark_stale g3) in
  let! g5 := g_remove_all_stale g4 in
  Ok (match g_mesh h with Some m => if include_mesh then g_set_mesh g5 (Some m) else g5 | None => g5 end).

Record graph_fits (h : Graph) : Prop := mkFits {
  gf_ids : list_ok (fits 64) (g_layer_ids h);
  gf_static : Forall node_fits (static_nodes h);
  gf_slots : Forall (fun o => is_Some o) (dynamic_slots h);
  gf_dynamic : Forall node_fits (present (dynamic_slots h));
  gf_edges : Forall edge_fits (all_edges h);
  gf_mesh : forall m, g_mesh h = Some m -> mesh_fits m }.

Lemma map_present {A B} (f : A -> B) (F : option A -> B) l : (forall a, F (Some a) = f a) -> Forall (fun o => is_Some o) l ->
  map F l = map f (present l).
Proof.
  intros HF Hl. induction Hl as [|o l [a ->] Hl IH]; [reflexivity|]. cbn. rewrite HF. f_equal. exact IH.
Qed.
Lemma names_ok ks p : program_of ks p -> (length ks <= 256)%nat ->
  list_ok text_ok (rg_names (pg_nodes p)) /\ list_ok text_ok (rg_names (pg_edges p)).
Proof.
  intros [(i & R & _) (e & RE & _)] Hl. apply registers_spec in R as (-> & _). apply registers_spec in RE as (-> & _).
  rewrite class_names. split; split.
  - unfold short, len. rewrite map_length. lia.
  - apply Forall_fmap, Forall_forall. intros k _. split; [destruct k; vm_compute; reflexivity|].
    destruct k; repeat constructor.
  - reflexivity.
  - repeat constructor.
Qed.
Lemma sl_names : saves_and_loads c_names (list_ok text_ok) any.
Proof. exact (sl_vec_any [] c_string _ sl_string). Qed.

Definition as_kept (_ : N) (a : NodeAttrs) : NodeAttrs := kept a.
Lemma reads_if_true (b : bool) : reads_back check_if_true [if b then T_TRUE else T_FALSE] b.
Proof.
  assert (Hb : reads_back (let* t := curr_type in let* _ := check_type t in ret (t =? T_TRUE)) [if b then T_TRUE else T_FALSE] b).
  { apply reads_curr, reads_type. destruct b; apply reads_ret. }
  intros bf af Hl. unfold check_if_true. rewrite (Hb bf af Hl). reflexivity.
Qed.
(** the bytes of a file behind the layer ids: [prologue], then the records *)
Definition mesh_bytes (h : Graph) (im : bool) : result (list N) :=
  match g_mesh h with
  | Some m => if im then seq_writes [cd_write c_bool true; cd_write c_mesh m] else cd_write c_bool false
  | None => cd_write c_bool false
  end.
(** the graph reader up to, and from, the mesh flag *)
Definition before_flag (env : Env) (p : Program) (g : Graph) : Reader Graph :=
  let* _ := (if version_ltb (ev_version env) (mkV 1 0 2) then cd_read c_u64 0 else ret 0) in
  let* node_factory := load_factory env (pg_nodes p) in
  let* edge_factory := load_factory env (pg_edges p) in
  let* st1 := read_dynamic_array (node_round env node_factory) (g, dom (g_lookup g)) in
  let* st2 := read_dynamic_array (node_round env node_factory) st1 in
  let* g3 := lift (rfold (fun g x => let! (_, g') := g_remove_node g x in Ok g') (elements (snd st2)) (fst st2)) in
  let* g4 := read_dynamic_array (parse_edge edge_factory) (g_mark_stale g3) in
  lift (g_remove_all_stale g4).
Definition from_flag (g5 : Graph) : Reader Graph :=
  let* m := check_if_true in
  if (m : bool) then let* mesh := cd_read c_mesh (mesh_new true false false false) in ret (g_set_mesh g5 (Some mesh)) else ret g5.
Lemma bind_in {A B C} (m : Reader A) (f : A -> Reader B) (h : B -> Reader C) (k : A -> Reader C) buf pos :
  (forall a q, k a buf q = bind (f a) h buf q) -> bind m k buf pos = bind (bind m f) h buf pos.
Proof. intros H. unfold bind. destruct (m buf pos); [apply H|reflexivity]. Qed.
Lemma update_split env p g buf pos : update_graph env p g buf pos = bind (before_flag env p g) from_flag buf pos.
Proof.
  unfold update_graph, before_flag.
  do 7 (apply bind_in; intros ? ?). reflexivity.
Qed.
Lemma seq_writes_app rs1 : forall rs2 b1 b2, seq_writes rs1 = Ok b1 -> seq_writes rs2 = Ok b2 -> seq_writes (rs1 ++ rs2) = Ok (b1 ++ b2).
Proof.
  induction rs1 as [|r rs1 IH]; intros rs2 b1 b2 H1 H2; [injection H1 as <-; exact H2|]. cbn [seq_writes app] in *.
  destruct r as [b| |]; [|discriminate..]. cbn [rbind] in *. destruct (seq_writes rs1) as [bs| |] eqn:E; [|discriminate..]. cbn [rbind] in H1. injection H1 as <-.
  rewrite (IH rs2 bs b2 eq_refl H2). cbn. rewrite app_assoc. reflexivity.
Qed.

Section Body.
  Context (env : Env) (q : Program) (nf : Factory Kind) (ef : Factory unit) (cv : N -> NodeAttrs -> NodeAttrs)
    (wn : Node -> result (list N)) (we : Edge -> result (list N)).
  Hypothesis (Hnode : forall n, node_fits n -> exists bs, wn n = Ok bs /\ Forall is_byte bs /\ (exists r, bs = T_ARR32 :: r) /\
    forall g b g', g_add_or_update_node g (n_layer n) (n_id n) (cv (n_id n) (n_attrs n)) (n_time n) = Ok (b, g') ->
      reads_back (parse_node env nf g) bs (n_id n, g')).
  Hypothesis (Hedge : forall e, edge_fits e -> exists bs, we e = Ok bs /\ Forall is_byte bs /\ (exists r, bs = T_ARR32 :: r) /\
    forall g b g', g_add_or_update_edge g (e_src e) (e_tgt e) (e_info e) = Ok (b, g') -> reads_back (parse_edge ef g) bs g').
  Context (b0' b1 b2 : list N).
  Hypothesis (Hb0 : exists v, reads_back (if version_ltb (ev_version env) (mkV 1 0 2) then cd_read c_u64 0 else ret 0) b0' v)
    (Hb1 : reads_back (load_factory env (pg_nodes q)) b1 nf) (Hb2 : reads_back (load_factory env (pg_edges q)) b2 ef)
    (Hbb : Forall is_byte (b0' ++ b1 ++ b2)).

  Lemma body_before h im : graph_fits h -> exists b0 body tail,
    cd_write c_u64s (g_layer_ids h) = Ok b0 /\
    seq_writes [dynamic_array (map wn (static_nodes h)); dynamic_array (map (fun o => let! n := deref o in wn n) (dynamic_slots h));
                dynamic_array (map we (all_edges h))] = Ok body /\ mesh_bytes h im = Ok tail /\
    Forall is_byte (b0 ++ b0' ++ b1 ++ b2 ++ body ++ tail) /\ reads_back (cd_read c_u64s []) b0 (g_layer_ids h) /\
    (forall g g5, transfer cv h g false = Ok g5 -> reads_back (before_flag env q g) (b0' ++ b1 ++ b2 ++ body) g5) /\
    forall g5, reads_back (from_flag g5) tail (match g_mesh h with Some m => if im then g_set_mesh g5 (Some m) else g5 | None => g5 end).
  Proof using Hnode Hedge Hb0 Hb1 Hb2 Hbb.
    intros [Fi Fs Fl Fd Fe Fm]. destruct (sl_vec_any 0 c_u64 _ sl_u64) as [WI RI].
    destruct (WI _ Fi) as [b0 E0]. destruct (RI _ [] _ Fi I E0) as [B0 R0].
    assert (Hrec : forall n, node_fits n -> record_ok wn (node_round env nf) (nstep cv) n).
    { intros n Hn. destruct (Hnode n Hn) as (bs & W & B & T & R).
      exists bs. split; [exact W|]. split; [exact B|]. split; [exact T|]. intros s s' Hs. unfold nstep in Hs.
      destruct (g_add_or_update_node _ _ _ _ _) as [[bb g']| |] eqn:Eg; [|discriminate..]. cbn [rbind] in Hs. injection Hs as <-.
      unfold node_round. rewrite <- (app_nil_r bs). eapply reads_bind; [apply (R _ _ _ Eg)|]. apply reads_ret. }
    assert (Hrece : forall e, edge_fits e -> record_ok we (parse_edge ef) estep e).
    { intros e He. destruct (Hedge e He) as (bs & W & B & T & R).
      exists bs. split; [exact W|]. split; [exact B|]. split; [exact T|]. intros s s' Hs. unfold estep in Hs.
      destruct (g_add_or_update_edge _ _ _ _) as [[bb g']| |] eqn:Eg; [|discriminate..]. cbn [rbind] in Hs. injection Hs as <-.
      apply (R _ _ _ Eg). }
    destruct (array_reads _ _ _ (static_nodes h) (Forall_impl _ _ _ Fs Hrec)) as (b3 & E3 & B3 & R3).
    destruct (array_reads _ _ _ (present (dynamic_slots h)) (Forall_impl _ _ _ Fd Hrec)) as (b4 & E4 & B4 & R4).
    destruct (array_reads _ _ _ (all_edges h) (Forall_impl _ _ _ Fe Hrece)) as (b5 & E5 & B5 & R5).
    assert (Hmesh : exists b6, mesh_bytes h im = Ok b6 /\ Forall is_byte b6 /\
      forall g5, reads_back (let* m := check_if_true in
        if (m : bool) then let* mesh := cd_read c_mesh (mesh_new true false false false) in ret (g_set_mesh g5 (Some mesh)) else ret g5) b6
        (match g_mesh h with Some m => if im then g_set_mesh g5 (Some m) else g5 | None => g5 end)).
    { unfold mesh_bytes. assert (Hfalse : exists b6, cd_write c_bool false = Ok b6 /\ Forall is_byte b6 /\
        forall g5, reads_back (let* m := check_if_true in
        if (m : bool) then let* mesh := cd_read c_mesh (mesh_new true false false false) in ret (g_set_mesh g5 (Some mesh)) else ret g5) b6 g5).
      { exists [T_FALSE]. split; [reflexivity|]. split; [repeat constructor|]. intros g5.
        change [T_FALSE] with ([T_FALSE] ++ []). eapply (reads_bind _ _ _ _ false); [apply (reads_if_true false)|apply reads_ret]. }
      destruct (g_mesh h) as [m|]; [|exact Hfalse]. destruct im; [|exact Hfalse].
      destruct sl_mesh as [WM RM]. destruct (WM m (Fm m eq_refl)) as [bm Em].
      destruct (RM m (mesh_new true false false false) bm (Fm m eq_refl) I Em) as [BM RMm].
      exists ([T_TRUE] ++ (bm ++ [])). split; [apply seq_cons; [reflexivity|]; apply seq_cons; [exact Em|reflexivity]|].
      split; [constructor; [reflexivity|]; apply Forall_app_2; [exact BM|constructor]|].
      intros g5. eapply (reads_bind _ _ _ _ true); [apply (reads_if_true true)|]. cbv beta iota. eapply reads_bind; [exact RMm|apply reads_ret]. }
    destruct Hmesh as (b6 & E6 & B6 & R6).
    exists b0, (b3 ++ (b4 ++ (b5 ++ []))), b6. split; [exact E0|]. split.
    { apply seq_cons; [exact E3|]. apply seq_cons.
      { rewrite (map_present wn (fun o => let! n := deref o in wn n)); [exact E4|reflexivity|exact Fl]. }
      apply seq_cons; [exact E5|reflexivity]. }
    split; [exact E6|]. apply Forall_app in Hbb as [HB1 HB2]. apply Forall_app in HB2 as [HB2 HB3].
    split; [repeat apply Forall_app_2; try assumption; constructor|]. split; [exact R0|].
    split; [|exact R6]. intros g g' Ht. unfold transfer in Ht.
    destruct (rfold (nstep cv) (static_nodes h) _) as [st1| |] eqn:T1; [|discriminate..]. cbn [rbind] in Ht.
    destruct (rfold (nstep cv) (present _) st1) as [st2| |] eqn:T2; [|discriminate..]. cbn [rbind] in Ht.
    destruct (rfold rstep _ _) as [g3| |] eqn:T3; [|discriminate..]. cbn [rbind] in Ht.
    destruct (rfold estep _ _) as [g4| |] eqn:T4; [|discriminate..]. cbn [rbind] in Ht.
    destruct (g_remove_all_stale g4) as [g5| |] eqn:T5; [|discriminate..]. cbn [rbind] in Ht.
    assert (E5' : g' = g5) by (destruct (g_mesh h); injection Ht as <-; reflexivity). subst g'.
    unfold before_flag.
    destruct Hb0 as [v0 Hb0x].
    eapply (reads_bind _ _ b0' _ v0); [exact Hb0x|].
    eapply (reads_bind _ _ b1 _ nf); [exact Hb1|].
    eapply (reads_bind _ _ b2 _ ef); [exact Hb2|].
    eapply reads_bind; [apply R3, T1|]. eapply reads_bind; [apply R4, T2|].
    eapply (reads_bind _ _ [] _ g3). { unfold rstep in T3. rewrite T3. apply reads_ret. }
    eapply reads_bind; [apply R5, T4|]. rewrite T5. apply reads_ret.
  Qed.
  Lemma body_effect h im : graph_fits h -> exists b0 body,
    cd_write c_u64s (g_layer_ids h) = Ok b0 /\
    seq_writes [dynamic_array (map wn (static_nodes h)); dynamic_array (map (fun o => let! n := deref o in wn n) (dynamic_slots h));
                dynamic_array (map we (all_edges h)); mesh_bytes h im] = Ok body /\
    Forall is_byte (b0 ++ b0' ++ b1 ++ b2 ++ body) /\ reads_back (cd_read c_u64s []) b0 (g_layer_ids h) /\
    forall g g', transfer cv h g im = Ok g' -> reads_back (update_graph env q g) (b0' ++ b1 ++ b2 ++ body) g'.
  Proof using Hnode Hedge Hb0 Hb1 Hb2 Hbb.
    intros Hf. destruct (body_before h im Hf) as (b0 & body & tail & E0 & Eb & Et & HB & R0 & R1 & R2).
    exists b0, (body ++ (tail ++ [])). split; [exact E0|]. split; [apply (seq_writes_app [_; _; _] [_]); [exact Eb|]; apply seq_cons; [exact Et|reflexivity]|].
    rewrite app_nil_r. split; [exact HB|]. split; [exact R0|]. intros g g' Ht.
    assert (T : exists g5, transfer cv h g false = Ok g5 /\ g' = match g_mesh h with Some m => if im then g_set_mesh g5 (Some m) else g5 | None => g5 end).
    { unfold transfer in *. repeat match goal with |- context [let! _ := ?r in _] => destruct r; cbn [rbind] in *; [|discriminate..] end.
      injection Ht as <-. destruct (g_mesh h); eexists; split; reflexivity. }
    destruct T as (g5 & T & ->). intros bf af Hl. rewrite update_split.
    pose proof (reads_bind (before_flag env q g) from_flag (b0' ++ b1 ++ b2 ++ body) tail g5 _ (R1 g g5 T) (R2 g5)) as H.
    replace (b0' ++ b1 ++ b2 ++ body ++ tail) with ((b0' ++ b1 ++ b2 ++ body) ++ tail) in * by (rewrite !app_assoc; reflexivity).
    apply H, Hl.
  Qed.
End Body.

(** the lists of names in files since 1.0.2 *)
Lemma names_prologue env ks p q : version_ltb (ev_version env) (mkV 1 0 2) = false -> program_of ks p -> (length ks <= 256)%nat ->
  exists b1 b2, cd_write c_names (rg_names (pg_nodes p)) = Ok b1 /\ cd_write c_names (rg_names (pg_edges p)) = Ok b2 /\ Forall is_byte (b1 ++ b2) /\
    reads_back (load_factory env (pg_nodes q)) b1 (reg_from_names (pg_nodes q) (rg_names (pg_nodes p))) /\
    reads_back (load_factory env (pg_edges q)) b2 (reg_from_names (pg_edges q) (rg_names (pg_edges p))).
Proof.
  intros Hv Hp Hlen. destruct (names_ok ks p Hp Hlen) as [Nn Ne]. destruct sl_names as [WN RN].
  destruct (WN _ Nn) as [b1 E1]. destruct (RN _ [] _ Nn I E1) as [B1 R1].
  destruct (WN _ Ne) as [b2 E2]. destruct (RN _ [] _ Ne I E2) as [B2 R2].
  exists b1, b2. split; [exact E1|]. split; [exact E2|]. split; [by apply Forall_app_2|]. unfold load_factory. rewrite Hv. split.
  - rewrite <- (app_nil_r b1). eapply reads_bind; [exact R1|apply reads_ret].
  - rewrite <- (app_nil_r b2). eapply reads_bind; [exact R2|apply reads_ret].
Qed.
Section File.
  Context (env : Env) (Hv : ev_version env = mkV 1 0 4).
  Context (ks ks' : list Kind) (p q : Program).
  Hypothesis (Hp : program_of ks p) (Hq : program_of ks' q) (Hks : all_classes ks) (Hks' : all_classes ks')
    (Hlen : (length ks <= 256)%nat).

  Lemma file_before h im : graph_fits h -> exists b0 b1 tail, write_graph env p h im = Ok (b0 ++ b1 ++ tail) /\ mesh_bytes h im = Ok tail /\
    Forall is_byte (b0 ++ b1 ++ tail) /\ reads_back (cd_read c_u64s []) b0 (g_layer_ids h) /\
    (forall g g5, transfer as_kept h g false = Ok g5 -> reads_back (before_flag env q g) b1 g5) /\
    forall g5, reads_back (from_flag g5) tail (match g_mesh h with Some m => if im then g_set_mesh g5 (Some m) else g5 | None => g5 end).
  Proof using Hv Hp Hq Hks Hks' Hlen.
    intros Hf.
    assert (Hv4 : version_ltb (ev_version env) (mkV 1 0 4) = false) by (rewrite Hv; reflexivity).
    assert (Hv2 : version_ltb (ev_version env) (mkV 1 0 2) = false) by (rewrite Hv; reflexivity).
    destruct (names_prologue env ks p q Hv2 Hp Hlen) as (b1 & b2 & E1 & E2 & B12 & R1 & R2).
    destruct (body_before env q _ _ as_kept (write_node env p) (write_edge p)
      (fun n Hn => node_record env Hv4 ks ks' p q Hp Hq Hks Hlen n Hks' Hn) (edge_record ks ks' p q Hp Hq Hlen) [] b1 b2) with (h := h) (im := im)
      as (b0 & body & tail & E0 & Eb & Et & HB & R0 & R & RT); [rewrite Hv2; exists 0; apply reads_ret|exact R1|exact R2|exact B12|exact Hf|].
    exists b0, (b1 ++ b2 ++ body), (tail ++ []). split.
    { unfold write_graph. rewrite <- !app_assoc. apply seq_cons; [exact E0|]. apply seq_cons; [exact E1|]. apply seq_cons; [exact E2|].
      apply (seq_writes_app [_; _; _] [_]); [exact Eb|]. apply seq_cons; [exact Et|reflexivity]. }
    rewrite app_nil_r. split; [exact Et|]. split; [rewrite <- !app_assoc; exact HB|]. split; [exact R0|]. split; [exact R|exact RT].
  Qed.
  Lemma file_effect h im : graph_fits h -> exists b0 b1, write_graph env p h im = Ok (b0 ++ b1) /\
    Forall is_byte (b0 ++ b1) /\ reads_back (cd_read c_u64s []) b0 (g_layer_ids h) /\
    forall g g', transfer as_kept h g im = Ok g' -> reads_back (update_graph env q g) b1 g'.
  Proof using Hv Hp Hq Hks Hks' Hlen.
    intros Hf.
    assert (Hv4 : version_ltb (ev_version env) (mkV 1 0 4) = false) by (rewrite Hv; reflexivity).
    assert (Hv2 : version_ltb (ev_version env) (mkV 1 0 2) = false) by (rewrite Hv; reflexivity).
    destruct (names_prologue env ks p q Hv2 Hp Hlen) as (b1 & b2 & E1 & E2 & B12 & R1 & R2).
    destruct (body_effect env q _ _ as_kept (write_node env p) (write_edge p)
      (fun n Hn => node_record env Hv4 ks ks' p q Hp Hq Hks Hlen n Hks' Hn) (edge_record ks ks' p q Hp Hq Hlen) [] b1 b2) with (h := h) (im := im)
      as (b0 & body & E0 & Eb & HB & R0 & R); [rewrite Hv2; exists 0; apply reads_ret|exact R1|exact R2|exact B12|exact Hf|].
    exists b0, (b1 ++ b2 ++ body). split; [|split; [exact HB|split; [exact R0|exact R]]].
    unfold write_graph. apply seq_cons; [exact E0|]. apply seq_cons; [exact E1|]. apply seq_cons; [exact E2|]. exact Eb.
  Qed.
End File.
