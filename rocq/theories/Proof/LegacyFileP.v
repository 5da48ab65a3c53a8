(** Whole files of older versions. *)
From Coq Require Import NArith ZArith Bool List Lia.
From stdpp Require Import base list gmap.
From Verif.Model Require Import Types Mesh Attrs Node EdgeContainer SLayer DLayer Graph Binary Versioning AttrCodec Registry GraphCodec.
From Verif.Spec Require Import BinarySpec AttrSpec RegistrySpec ProgramSpec GraphObs GraphFileSpec LegacySpec.
From Verif.Proof Require Import BinaryP SaveLoad AttrP RegistryP GraphCodecP GraphObsP TransferP LegacyP.
Local Open Scope N_scope.

Section OldFile.
  Context (old now : Env) (corners : N -> Vec3 * Vec3).
  Let v := ev_version old.
  Hypothesis (Ho : older v 1 0 4) (Hn : version_ltb (ev_version now) (mkV 1 0 4) = false)
    (Hsub : forall x y, fits 32 (ev_fsub old x y)) (Hc : forall x, vec_ok 32 (fst (corners x)) /\ vec_ok 32 (snd (corners x))).
  Definition as_old (x : N) (a : NodeAttrs) : NodeAttrs :=
    from_old_attrs (ev_version old) (vsub_with (ev_fsub old) (snd (corners x)) (fst (corners x))) a.

  Lemma old_attrs x a : attrs_ok a -> exists bs, old_attr_bytes now v (fst (corners x)) (snd (corners x)) a = Ok bs /\ Forall is_byte bs /\
    reads_back (read_attr_fields old (kind_of a)) bs (as_old x a).
  Proof using Ho Hn Hsub Hc.
    intros Ha. destruct (Hc x) as [H1 H2]. unfold old_attr_bytes, old_part_bytes, new_part_bytes, as_old, from_old_attrs. destruct (sem_of a) as [s|] eqn:Es.
    - destruct (old_semantic old now Ho Hn Hsub _ _ H1 H2 a s Ha Es) as (ob & nb & rest & E1 & E2 & E3 & B & R).
      exists (ob ++ rest). subst v. rewrite E1, E2, E3. cbn [rbind]. rewrite drop_app. auto.
    - destruct (old_plain old now a Ho Hn Ha Es) as (ob & nb & rest & E1 & E2 & E3 & B & R).
      exists (ob ++ rest). rewrite E1, E2, E3. cbn [rbind]. rewrite drop_app. auto.
  Qed.

  Context (ks ks' : list Kind) (p q : Program).
  Hypothesis (Hp : program_of ks p) (Hq : program_of ks' q) (Hks : all_classes ks) (Hks' : all_classes ks') (Hlen : (length ks <= 256)%nat).

  Lemma old_node_record n : node_fits n -> exists bs, old_node_bytes now v corners p n = Ok bs /\ Forall is_byte bs /\
    (exists r, bs = T_ARR32 :: r) /\
    forall g b g', g_add_or_update_node g (n_layer n) (n_id n) (as_old (n_id n) (n_attrs n)) (n_time n) = Ok (b, g') ->
      reads_back (parse_node old (reg_from_names (pg_nodes q) (rg_names (pg_nodes p))) g) bs (n_id n, g').
  Proof using Ho Hn Hsub Hc Hp Hq Hks Hks' Hlen.
    intros (H1 & H2 & H3 & H4). destruct (old_attrs (n_id n) _ H4) as (ba & Wa & Ba & Ra).
    destruct (type_resolved ks ks' p q Hp Hq Hks Hlen (kind_of (n_attrs n))) as [T1 T2]. rewrite bool_decide_true in T2 by apply Hks'.
    destruct (u8_small _ T1) as (bt & Wt & Bt & Rt).
    destruct sl_u64 as [WU RU]. destruct sl_stamp as [WS RS].
    destruct (WU _ H1) as [b1 E1]. destruct (WU _ H2) as [b2 E2]. destruct (WS _ H3) as [b3 E3].
    assert (E0 : fixed_array 4 = Ok (T_ARR32 :: word_bytes 4 4)) by reflexivity.
    exists ((T_ARR32 :: word_bytes 4 4) ++ (b1 ++ (b2 ++ (b3 ++ (bt ++ (ba ++ [])))))).
    destruct (RU _ 0 _ H1 I E1) as [B1 R1]. destruct (RU _ 0 _ H2 I E2) as [B2 R2]. destruct (RS _ None _ H3 eq_refl E3) as [B3 R3].
    split; [unfold old_node_bytes; repeat (apply seq_cons; [assumption|]); reflexivity|].
    split; [repeat apply Forall_app_2; try assumption; [apply (fixed_array_bytes 4), E0|constructor]|].
    split; [eexists; reflexivity|].
    intros g b g' Hg. unfold parse_node.
    eapply reads_bind; [eapply reads_check_length, E0|]. eapply reads_bind; [apply R1|]. eapply reads_bind; [apply R2|].
    eapply reads_bind; [apply R3|].
    rewrite <- (app_nil_r (bt ++ ba ++ [])). eapply (reads_bind _ _ _ _ (Some (as_old (n_id n) (n_attrs n)))).
    - unfold read_attrs. eapply reads_bind; [apply Rt|]. cbv beta. rewrite T2. eapply reads_bind; [exact Ra|apply reads_ret].
    - cbv beta iota. rewrite Hg. cbn [lift]. apply (reads_bind (ret (b, g')) _ [] [] (b, g')); apply reads_ret.
  Qed.

  (** since 1.0.2, or the same program *)
  Lemma old_file_effect ml h im : (older v 1 0 2 -> p = q) -> fits 64 ml -> graph_fits h ->
    exists b0 b1, old_graph_bytes now v corners ml p h im = Ok (b0 ++ b1) /\
    Forall is_byte (b0 ++ b1) /\ reads_back (cd_read c_u64s []) b0 (g_layer_ids h) /\
    forall g g', transfer as_old h g im = Ok g' -> reads_back (update_graph old q g) b1 g'.
  Proof using Ho Hn Hsub Hc Hp Hq Hks Hks' Hlen.
    intros Hsame Hml Hf.
    assert (Hpro : exists b0' b1 b2, seq_writes (if decide (older v 1 0 2) then [cd_write c_u64 ml]
       else [cd_write c_names (rg_names (pg_nodes p)); cd_write c_names (rg_names (pg_edges p))]) = Ok (b0' ++ b1 ++ b2) /\ Forall is_byte (b0' ++ b1 ++ b2) /\
       (exists x, reads_back (if version_ltb (ev_version old) (mkV 1 0 2) then cd_read c_u64 0 else ret 0) b0' x) /\
       reads_back (load_factory old (pg_nodes q)) b1 (reg_from_names (pg_nodes q) (rg_names (pg_nodes p))) /\
       reads_back (load_factory old (pg_edges q)) b2 (reg_from_names (pg_edges q) (rg_names (pg_edges p)))).
    { destruct (decide (older v 1 0 2)) as [Hv|Hv].
      - rewrite <- (Hsame Hv) in *. apply older_spec in Hv. unfold load_factory. fold v. rewrite Hv.
        destruct sl_u64 as [WU RU]. destruct (WU _ Hml) as [b E]. destruct (RU _ 0 _ Hml I E) as [B R].
        exists b, [], []. split; [apply seq_cons; [exact E|reflexivity]|]. split; [by rewrite app_nil_r|]. split; [eauto|]. split; apply reads_ret.
      - assert (Hv' : version_ltb (ev_version old) (mkV 1 0 2) = false).
        { destruct (version_ltb (ev_version old) (mkV 1 0 2)) eqn:E; [|reflexivity]. exfalso. apply Hv, older_spec, E. }
        destruct (names_prologue old ks p q Hv' Hp Hlen) as (b1 & b2 & E1 & E2 & B12 & R1 & R2).
        exists [], b1, b2. rewrite Hv'. split; [|split; [exact B12|split; [exists 0; apply reads_ret|auto]]].
        rewrite <- (app_nil_r b2). cbn [app]. apply seq_cons; [exact E1|]. apply seq_cons; [exact E2|reflexivity]. }
    destruct Hpro as (b0' & b1 & b2 & EP & BP & R0' & R1 & R2).
    destruct (body_effect old q _ _ as_old (old_node_bytes now v corners p) (write_edge p) old_node_record (edge_record ks ks' p q Hp Hq Hlen)
      b0' b1 b2 R0' R1 R2 BP h im Hf) as (b0 & body & E0 & Eb & HB & R0 & R).
    exists b0, (b0' ++ b1 ++ b2 ++ body). split; [|split; [exact HB|split; [exact R0|exact R]]].
    unfold old_graph_bytes. cbn [app]. apply seq_cons; [exact E0|]. rewrite !app_assoc, <- (app_assoc b0').
    apply seq_writes_app; [exact EP|exact Eb].
  Qed.
End OldFile.
