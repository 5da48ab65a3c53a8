(** Graphs survive being written as JSON text and read back. *)
From Coq Require Import NArith ZArith Bool List Lia String.
From stdpp Require Import base list gmap fin_maps tactics.
From Verif.Model Require Import Types Mesh Attrs Node EdgeContainer SLayer DLayer Graph Binary Versioning AttrCodec Registry GraphCodec Json Rotation JsonCodec GraphJson.
From Verif.Spec Require Import BinarySpec AttrSpec RegistrySpec ProgramSpec AbstractGraph GraphHistory GraphObs JsonSpec.
From Verif.Proof Require Import Arith Keys SLayerP DLayerP GraphRep GraphSim GraphObsP StaleP StaleP2 CloneP GraphMesh GraphCodecP TransferP JsonNum JsonP JsonAttrP.
Local Open Scope N_scope.
#[local] Arguments edge_key : simpl never.

(* ------------------------------------------------------------------ *)
(** ** Nodes and edges are enumerated once *)
Lemma NoDup_concat {A B C K} (kx : A -> K) (f : B -> C) (g : A -> list B) xs :
  NoDup (map kx xs) -> (forall x, x ∈ xs -> NoDup (map f (g x))) ->
  (forall x y a b, x ∈ xs -> y ∈ xs -> a ∈ g x -> b ∈ g y -> f a = f b -> kx x = kx y) -> NoDup (map f (concat (map g xs))).
Proof.
  induction xs as [|x xs IH]; intros ND H1 H2; [constructor|]. cbn [map concat]. rewrite map_app. cbn [map] in ND. apply stdpp.list.NoDup_cons in ND as [Hx ND].
  apply NoDup_app. split; [apply H1; left|]. split.
  - intros c Hc1 Hc2. apply elem_of_list_fmap in Hc1 as (a & -> & Ha). apply elem_of_list_fmap in Hc2 as (b & E & Hb).
    apply elem_of_list_In, in_concat in Hb as (l & Hl & Hb). apply in_map_iff in Hl as (y & <- & Hy). apply elem_of_list_In in Hb, Hy.
    apply Hx. rewrite (H2 x y a b); [|left|right; exact Hy|exact Ha|exact Hb|exact E]. apply elem_of_list_fmap. exists y. split; [reflexivity|exact Hy].
  - apply IH; [exact ND|intros y Hy; apply H1; right; exact Hy|]. intros y z a b Hy Hz. apply H2; right; assumption.
Qed.
Lemma NoDup_values {K A C} `{Countable K} (f : A -> C) (kf : C -> K) (m : gmap K A) : (forall k a, m !! k = Some a -> kf (f a) = k) -> NoDup (map f (map snd (map_to_list m))).
Proof.
  intros Hk. apply (NoDup_fmap_1 kf). assert (E : map kf (map f (map snd (map_to_list m))) = map fst (map_to_list m)).
  { rewrite !map_map. apply map_ext_in. intros [k a] Hin. apply elem_of_list_In, elem_of_map_to_list in Hin. cbn. apply Hk, Hin. }
  change (NoDup (map kf (map f (map snd (map_to_list m))))). rewrite E. apply NoDup_fst_map_to_list.
Qed.
Lemma keys_nodup {K A} `{Countable K} (m : gmap K A) : NoDup (map fst (map_to_list m)).
Proof. apply NoDup_fst_map_to_list. Qed.

Section Enum.
  Context (h : Graph) (ah : AGraph) (HR : Rep h ah).
  Lemma static_ids_nodup : NoDup (map n_id (static_nodes h)).
  Proof using HR.
    unfold static_nodes. apply (NoDup_concat fst).
    - apply keys_nodup.
    - intros [l s] Hl. apply elem_of_map_to_list in Hl. cbn [snd]. apply (NoDup_values n_id (fun x => x)). intros x n Hx.
      apply (part_node h ah (key_static l) s x n HR); [auto|exact Hl|exact Hx].
    - intros [l s] [l' s'] a b Hl Hl' Ha Hb E. apply elem_of_map_to_list in Hl, Hl'. cbn [fst snd] in *.
      apply elem_of_list_fmap in Ha as ([x a'] & -> & Ha). apply elem_of_list_fmap in Hb as ([y b'] & -> & Hb). cbn [snd] in *. apply elem_of_map_to_list in Ha, Hb.
      destruct (part_node h ah (key_static l) s x a' HR) as (Ia & _ & La); [auto|exact Hl|exact Ha|].
      destruct (part_node h ah (key_static l') s' y b' HR) as (Ib & _ & Lb); [auto|exact Hl'|exact Hb|].
      assert (x = y) as -> by congruence. rewrite La in Lb. injection Lb. auto.
  Qed.
  Lemma dlayer_keys : NoDup (map (fun d => (dl_id d, dl_prefix d)) (g_all_dlayers h)).
  Proof using HR.
    assert (HD : forall l m p d, g_dlayers h !! l = Some m -> m !! p = Some d -> dl_id d = l /\ dl_prefix d = p).
    { intros l m p d Hl Hp. destruct (rp_dinv _ _ HR l p d) as (_ & H1 & H2 & _); [unfold g_dlayer; rewrite Hl; exact Hp|]. auto. }
    unfold g_all_dlayers. apply (NoDup_concat fst).
    - apply keys_nodup.
    - intros [l m] Hl. apply elem_of_map_to_list in Hl. cbn [snd]. apply (NoDup_values (fun d => (dl_id d, dl_prefix d)) snd). intros p d Hp. apply (HD l m p d Hl Hp).
    - intros [l m] [l' m'] a b Hl Hl' Ha Hb E. apply elem_of_map_to_list in Hl, Hl'. cbn [fst snd] in *.
      apply elem_of_list_fmap in Ha as ([x a'] & -> & Ha). apply elem_of_list_fmap in Hb as ([y b'] & -> & Hb). cbn [snd] in *. apply elem_of_map_to_list in Ha, Hb.
      destruct (HD l m x a' Hl Ha) as [E1 E2], (HD l' m' y b' Hl' Hb) as [E3 E4]. congruence.
  Qed.
  Lemma dlayer_of d : d ∈ g_all_dlayers h -> g_dlayer h (dl_id d) (dl_prefix d) = Some d /\ dl_core d.
  Proof using HR.
    intros Hd. apply all_dlayers_in in Hd as (l & p & Hd). destruct (rp_dinv _ _ HR l p d Hd) as (Hc & H1 & H2 & _). rewrite H1, H2. auto.
  Qed.
  Definition dynamic_nodes : list Node := concat (map (fun d => present (dl_nodes d)) (g_all_dlayers h)).
  Lemma dynamic_nodes_in n : n ∈ dynamic_nodes <-> n ∈ present (dynamic_slots h).
  Proof using.
    rewrite present_in. unfold dynamic_nodes, dynamic_slots. rewrite !elem_of_list_In, !in_concat. split.
    - intros (y & Hy & Hn). apply in_map_iff in Hy as (d & <- & Hd). apply elem_of_list_In, present_in in Hn. exists (dl_nodes d). split; [apply in_map, Hd|apply elem_of_list_In, Hn].
    - intros (y & Hy & Hn). apply in_map_iff in Hy as (d & <- & Hd). exists (present (dl_nodes d)). split; [apply in_map_iff; exists d; auto|]. apply elem_of_list_In, present_in, elem_of_list_In, Hn.
  Qed.
  Lemma dynamic_ids_nodup : NoDup (map n_id dynamic_nodes).
  Proof using HR.
    unfold dynamic_nodes. apply (NoDup_concat (fun d => (dl_id d, dl_prefix d))).
    - apply dlayer_keys.
    - intros d Hd. destruct (dlayer_of d Hd) as [_ Hc].
      assert (G : forall suf pre, dl_nodes d = pre ++ suf -> NoDup (map n_id (present suf)) /\ forall x, x ∈ map n_id (present suf) -> exists i, (length pre <= i)%nat /\ N.of_nat i < two32 /\ x = prefix_make_id (dl_prefix d) (N.of_nat i)).
      { induction suf as [|o suf IH]; intros pre E; [split; [constructor|intros x Hx; inversion Hx]|].
        destruct (IH (pre ++ [o])) as [I1 I2]. { rewrite <- app_assoc. exact E. } rewrite app_length in I2. cbn [length] in I2.
        destruct o as [n|].
        - change (present (Some n :: suf)) with (n :: present suf). cbn [map].
          assert (Hs : dl_nodes d !! length pre = Some (Some n)) by (rewrite E, lookup_app_r, Nat.sub_diag by lia; reflexivity).
          destruct (dlc_node _ Hc _ _ Hs) as (Hi & _). pose proof (dl_index_lt _ _ _ Hc Hs) as Hlt. split.
          + apply stdpp.list.NoDup_cons. split; [|exact I1]. rewrite Hi. intros Hin. apply I2 in Hin as (i & H1 & H2 & H3). apply make_id_inj in H3; [lia|apply Hc|assumption..].
          + intros x Hx. apply elem_of_cons in Hx as [->|Hx]; [exists (length pre); auto|]. apply I2 in Hx as (i & H1 & H2 & H3). exists i. split; [lia|auto].
        - split; [exact I1|]. intros x Hx. apply I2 in Hx as (i & H1 & H2 & H3). exists i. split; [lia|auto]. }
      apply (G (dl_nodes d) []). reflexivity.
    - intros d d' a b Hd Hd' Ha Hb E. destruct (dlayer_of d Hd) as [Gd Hc], (dlayer_of d' Hd') as [Gd' Hc'].
      apply present_in in Ha, Hb.
      assert (K : forall d a, dl_core d -> Some a ∈ dl_nodes d -> g_dlayer h (dl_id d) (dl_prefix d) = Some d -> g_lookup h !! n_id a = Some (key_dynamic (dl_id d) (dl_prefix d))).
      { clear - HR. intros d a Hc Ha Gd. apply elem_of_list_lookup in Ha as [i Hi].
        apply (part_node h ah (key_dynamic (dl_id d) (dl_prefix d)) (dl_view d) (n_id a) a HR); [intros ?; discriminate|unfold g_part; cbn; rewrite Gd; reflexivity|].
        cbn. apply (dl_nmap_Some d _ _ Hc). destruct (dlc_node _ Hc _ _ Hi) as (Hid & _). eauto. }
      pose proof (K d a Hc Ha Gd) as K1. pose proof (K d' b Hc' Hb Gd') as K2. rewrite E, K2 in K1. injection K1 as -> ->. reflexivity.
  Qed.
  Lemma node_ids_nodup : NoDup (map n_id (static_nodes h ++ dynamic_nodes)).
  Proof using HR.
    rewrite map_app. apply NoDup_app. split; [apply static_ids_nodup|]. split; [|apply dynamic_ids_nodup].
    intros x H1 H2. apply elem_of_list_fmap in H1 as (a & -> & Ha). apply elem_of_list_fmap in H2 as (b & E & Hb). apply dynamic_nodes_in in Hb.
    destruct (static_node_of h ah HR a Ha) as [_ L1]. destruct (dynamic_node_of h ah HR b Hb) as [_ L2]. rewrite E in L1. rewrite L1 in L2. discriminate.
  Qed.

  (** the indices of removed nodes are skipped *)
  Lemma dlayer_nodes_ok d : dl_core d -> dlayer_nodes d = Ok (present (dl_nodes d)).
  Proof using.
    intros Hc. unfold dlayer_nodes.
    assert (G : forall suf pre, dl_nodes d = pre ++ suf ->
      map_result (fun i => at_ (dl_find_node d (prefix_make_id (dl_prefix d) i))) (filter (fun i => dl_has_index d i = true) (map N.of_nat (seq (length pre) (length suf)))) = Ok (present suf)).
    { induction suf as [|o suf IH]; intros pre E; [reflexivity|]. cbn [length seq map].
      assert (Hs : dl_nodes d !! length pre = Some o) by (rewrite E, lookup_app_r, Nat.sub_diag by lia; reflexivity).
      specialize (IH (pre ++ [o])). rewrite app_length in IH. cbn [length] in IH. rewrite Nat.add_1_r in IH. specialize (IH ltac:(rewrite <- app_assoc; exact E)).
      rewrite filter_cons. pose proof (dlc_status _ Hc (N.of_nat (length pre))) as St. rewrite Nat2N.id, Hs in St. destruct o as [n|].
      - rewrite decide_True by (apply St; eauto). cbn [map_result]. unfold dl_find_node at 1. rewrite make_id_index; [|apply Hc|exact (dl_index_lt _ _ _ Hc Hs)].
        rewrite dl_slot_lookup, Nat2N.id, Hs. cbn [at_ rbind]. rewrite IH. reflexivity.
      - rewrite decide_False; [exact IH|]. intros H. apply St in H as [? H]. discriminate. }
    apply (G (dl_nodes d) []). reflexivity.
  Qed.
  Lemma all_dlayer_nodes : exists dss, map_result dlayer_nodes (g_all_dlayers h) = Ok dss /\ concat dss = dynamic_nodes.
  Proof using HR.
    exists (map (fun d => present (dl_nodes d)) (g_all_dlayers h)). split; [|reflexivity]. apply map_result_ok.
    assert (HF : Forall dl_core (g_all_dlayers h)) by (apply List.Forall_forall; intros d Hd; apply elem_of_list_In in Hd; apply (dlayer_of d Hd)).
    induction HF as [|d ds Hd _ IH]; [constructor|]. constructor; [apply dlayer_nodes_ok, Hd|exact IH].
  Qed.

  (** edges *)
  Lemma ec_list_in (c : EC) e : e ∈ ec_list c <-> exists k, ec_edges c !! k = Some e.
  Proof using.
    unfold ec_list. rewrite elem_of_list_fmap. split.
    - intros ([k e'] & -> & H). apply elem_of_map_to_list in H. exists k. exact H.
    - intros [k H]. exists (k, e). split; [reflexivity|]. apply elem_of_map_to_list, H.
  Qed.
  Lemma ec_list_nodup c ec : g_cont h c = Some ec -> NoDup (map ekey (ec_list ec)).
  Proof using HR. intros Hc. unfold ec_list. apply (NoDup_values ekey (fun x => x)). intros k e Hk. destruct (cont_edge h ah c ec k e HR Hc Hk) as (-> & _). reflexivity. Qed.
  Lemma ec_list_cont c ec e : g_cont h c = Some ec -> e ∈ ec_list ec -> cont h (e_src e) (e_tgt e) = Some c.
  Proof using HR. intros Hc He. apply ec_list_in in He as [k Hk]. apply (cont_edge h ah c ec k e HR Hc Hk). Qed.
  Lemma json_edges_in e : e ∈ json_edges h <-> e ∈ all_edges h.
  Proof using. unfold json_edges, all_edges, ec_list. rewrite !elem_of_app. tauto. Qed.
  Lemma json_edges_nodup : NoDup (map ekey (json_edges h)).
  Proof using HR.
    unfold json_edges. rewrite !map_app.
    assert (HD : forall l s, (l, s) ∈ map_to_list (g_layers h) -> g_cont h (CSt l) = Some (sl_edges s)).
    { intros l s H. apply elem_of_map_to_list in H. cbn. rewrite H. reflexivity. }
    assert (HY : forall d, d ∈ g_all_dlayers h -> g_cont h (CDy (dl_id d) (dl_prefix d)) = Some (dl_edges d)).
    { intros d H. cbn. rewrite (proj1 (dlayer_of d H)). reflexivity. }
    assert (S1 : forall k, k ∈ map ekey (concat (map (fun x : LayerId * SLayer => ec_list (sl_edges (snd x))) (map_to_list (g_layers h)))) -> exists e l, k = ekey e /\ cont h (e_src e) (e_tgt e) = Some (CSt l)).
    { intros k Hk. apply elem_of_list_fmap in Hk as (e & -> & He). apply elem_of_list_In, in_concat in He as (y & Hy & He). apply in_map_iff in Hy as ([l s] & <- & Hl). apply elem_of_list_In in He, Hl.
      exists e, l. split; [reflexivity|]. eapply ec_list_cont; [apply HD, Hl|exact He]. }
    assert (S2 : forall k, k ∈ map ekey (concat (map (fun d => ec_list (dl_edges d)) (g_all_dlayers h))) -> exists e l p, k = ekey e /\ cont h (e_src e) (e_tgt e) = Some (CDy l p)).
    { intros k Hk. apply elem_of_list_fmap in Hk as (e & -> & He). apply elem_of_list_In, in_concat in He as (y & Hy & He). apply in_map_iff in Hy as (d & <- & Hd). apply elem_of_list_In in He, Hd.
      exists e, (dl_id d), (dl_prefix d). split; [reflexivity|]. eapply ec_list_cont; [apply HY, Hd|exact He]. }
    assert (S3 : forall c ec k, g_cont h c = Some ec -> k ∈ map ekey (ec_list ec) -> exists e, k = ekey e /\ cont h (e_src e) (e_tgt e) = Some c).
    { intros c ec k Hc Hk. apply elem_of_list_fmap in Hk as (e & -> & He). exists e. split; [reflexivity|]. eapply ec_list_cont; eassumption. }
    apply NoDup_app. split; [|split; [|apply NoDup_app; split; [|split; [|apply NoDup_app; split; [|split]]]]].
    - apply (NoDup_concat fst).
      + apply keys_nodup.
      + intros [l s] Hl. apply (ec_list_nodup (CSt l)), HD, Hl.
      + intros [l s] [l' s'] a b Hl Hl' Ha Hb E. cbn [fst snd] in *. pose proof (ec_list_cont _ _ _ (HD _ _ Hl) Ha) as C1. pose proof (ec_list_cont _ _ _ (HD _ _ Hl') Hb) as C2.
        rewrite (cont_key h _ _ _ _ E), C2 in C1. congruence.
    - intros k H1 H2. apply S1 in H1 as (e & l & -> & C1). rewrite !elem_of_app in H2. destruct H2 as [H2|[H2|H2]].
      + apply (S3 CIn) in H2 as (e' & E & C2); [|reflexivity]. rewrite (cont_key h _ _ _ _ E) in C1. congruence.
      + apply (S3 CDin) in H2 as (e' & E & C2); [|reflexivity]. rewrite (cont_key h _ _ _ _ E) in C1. congruence.
      + apply S2 in H2 as (e' & l' & p' & E & C2). rewrite (cont_key h _ _ _ _ E) in C1. congruence.
    - apply (ec_list_nodup CIn). reflexivity.
    - intros k H1 H2. apply (S3 CIn) in H1 as (e & -> & C1); [|reflexivity]. rewrite elem_of_app in H2. destruct H2 as [H2|H2].
      + apply (S3 CDin) in H2 as (e' & E & C2); [|reflexivity]. rewrite (cont_key h _ _ _ _ E) in C1. congruence.
      + apply S2 in H2 as (e' & l' & p' & E & C2). rewrite (cont_key h _ _ _ _ E) in C1. congruence.
    - apply (ec_list_nodup CDin). reflexivity.
    - intros k H1 H2. apply (S3 CDin) in H1 as (e & -> & C1); [|reflexivity]. apply S2 in H2 as (e' & l' & p' & E & C2). rewrite (cont_key h _ _ _ _ E) in C1. congruence.
    - apply (NoDup_concat (fun d => (dl_id d, dl_prefix d))).
      + apply dlayer_keys.
      + intros d Hd. apply (ec_list_nodup (CDy (dl_id d) (dl_prefix d))), HY, Hd.
      + intros d d' a b Hd Hd' Ha Hb E. pose proof (ec_list_cont _ _ _ (HY _ Hd) Ha) as C1. pose proof (ec_list_cont _ _ _ (HY _ Hd') Hb) as C2.
        rewrite (cont_key h _ _ _ _ E), C2 in C1. congruence.
  Qed.
End Enum.

(* ------------------------------------------------------------------ *)
(** ** The text of a node and of an edge *)
Definition added (r : result (bool * Graph)) : result Graph := let! (b, g) := r in if (b : bool) then Ok g else Throw.
(** [cv]: what becomes of the attributes of a node *)
Definition jnstep (cv : N -> NodeAttrs -> NodeAttrs) (c : Graph) (n : Node) : result Graph :=
  added (match n_time n with Some t => g_emplace_prev c (n_layer n) (n_id n) t (cv (n_id n) (n_attrs n)) | None => Ok (g_emplace_node c (n_layer n) (n_id n) (cv (n_id n) (n_attrs n))) end).
Definition jestep (c : Graph) (e : Edge) : result Graph := added (g_insert_edge c (e_src e) (e_tgt e) (Some (e_info e))).

Lemma stamp_back t : fits_signed 64 t -> wrap_signed 64 (Z.of_N (Z.to_N (t mod 2 ^ Z.of_N 64))) = t.
Proof.
  intros H. rewrite Z2N.id by (apply Z.mod_pos_bound; lia). unfold wrap_signed, fits_signed in *. change (Z.of_N 64) with 64%Z. cbn [Z.sub Z.add Z.opp Z.pos_sub] in *.
  rewrite Z.add_mod_idemp_l by lia. rewrite Z.mod_small; lia.
Qed.
Lemma unsigned_back v : fits 64 v -> Z.to_N (Z.of_N v mod 2 ^ Z.of_N 64) = v.
Proof. intros H. unfold fits in H. rewrite Z.mod_small; [apply N2Z.id|]. lia. Qed.

Section Text.
  Context (env : Env) (ks : list Kind) (p : Program) (He : modern env) (Hp : program_of ks p).
  Notation fn := (reg_current (pg_nodes p)).
  Notation fe := (reg_current (pg_edges p)).

  Lemma node_text n : fits 64 (n_id n) -> fits 64 (n_layer n) -> (forall t, n_time n = Some t -> fits_signed 64 t) -> json_ok (n_attrs n) -> kind_of (n_attrs n) ∈ ks ->
    exists t, dump (node_to_json env n) = Ok t /\ forall c, node_from_json env fn c t = jnstep (fun _ => through_json) c n.
  Proof using He Hp.
    intros H1 H2 H3 H4 H5. destruct (attrs_text env ks p (n_attrs n) He Hp H4) as (ta & Da & Ra). rewrite bool_decide_true in Ra by exact H5.
    set (o := [(str "id", JInt (Z.of_N (n_id n))); (str "layer", JInt (Z.of_N (n_layer n))); (str "attributes", ta)] ++
      match n_time n with Some t => [(str "timestamp", JInt t)] | None => [] end).
    exists (JObject o). split.
    - unfold node_to_json. assert (E : forall t, obj_set [(str "id", JInt (Z.of_N (n_id n))); (str "layer", JInt (Z.of_N (n_layer n))); (str "attributes", attrs_to_json env (n_attrs n))] (str "timestamp") (JInt t) =
        [(str "id", JInt (Z.of_N (n_id n))); (str "layer", JInt (Z.of_N (n_layer n))); (str "attributes", attrs_to_json env (n_attrs n))] ++ [(str "timestamp", JInt t)]) by reflexivity.
      unfold o. destruct (n_time n) as [t|]; [rewrite E|]; apply dumps_object; unfold dumps; cbn [app];
        repeat (apply List.Forall2_cons; [cbn [fst snd]; split; [reflexivity|split; [reflexivity|first [exact Da|reflexivity]]]|]); apply List.Forall2_nil.
    - intros c. unfold node_from_json.
      replace (j_at (JObject o) (str "id")) with (Ok (JInt (Z.of_N (n_id n)))) by reflexivity.
      replace (j_at (JObject o) (str "layer")) with (Ok (JInt (Z.of_N (n_layer n)))) by reflexivity.
      replace (j_at (JObject o) (str "attributes")) with (Ok ta) by reflexivity.
      cbn [rbind get_unsigned]. rewrite !unsigned_back by assumption. rewrite Ra. cbn [rbind]. unfold jnstep, added, o. destruct (n_time n) as [t|].
      + replace (j_contains _ _) with true by reflexivity. replace (j_at _ (str "timestamp")) with (Ok (JInt t)) by reflexivity. cbn [rbind get_unsigned]. rewrite stamp_back by auto. reflexivity.
      + replace (j_contains _ _) with false by reflexivity. reflexivity.
  Qed.
  Lemma edge_texts e : fits 64 (e_src e) -> fits 64 (e_tgt e) -> json_edge (e_info e) ->
    exists t, dump (edge_to_json e) = Ok t /\ forall c, edge_from_json fe c t = jestep c e.
  Proof using Hp.
    intros H1 H2 H3. destruct (edge_text ks p (e_info e) Hp H3) as (ta & Da & Ra).
    exists (JObject [(str "source", JInt (Z.of_N (e_src e))); (str "target", JInt (Z.of_N (e_tgt e))); (str "info", ta)]). split.
    - apply dumps_object; unfold dumps.
      repeat (apply List.Forall2_cons; [cbn [fst snd]; split; [reflexivity|split; [reflexivity|first [exact Da|reflexivity]]]|]); apply List.Forall2_nil.
    - intros c. unfold edge_from_json.
      match goal with |- context [j_at ?o (str "source")] => replace (j_at o (str "source")) with (Ok (JInt (Z.of_N (e_src e)))) by reflexivity; replace (j_at o (str "target")) with (Ok (JInt (Z.of_N (e_tgt e)))) by reflexivity;
        replace (j_at o (str "info")) with (Ok ta) by reflexivity end.
      cbn [rbind get_unsigned]. rewrite !unsigned_back by assumption. rewrite Ra. reflexivity.
  Qed.
End Text.
Lemma texts {A B} (to : A -> json) (from : B -> json -> result B) (step : B -> A -> result B) l :
  (forall a, a ∈ l -> exists t, dump (to a) = Ok t /\ forall c, from c t = step c a) ->
  exists ts, map_result dump (map to l) = Ok ts /\ forall c, rfold from ts c = rfold step l c.
Proof.
  induction l as [|a l IH]; intros H; [exists []; split; reflexivity|].
  destruct (H a (elem_of_list_here _ _)) as (t & D & R). destruct (IH (fun b Hb => H b (elem_of_list_further _ _ _ Hb))) as (ts & Ds & Rs).
  exists (t :: ts). split; [cbn [map map_result]; rewrite D; cbn [rbind]; rewrite Ds; reflexivity|].
  intros c. cbn [rfold]. rewrite R. destruct (step c a); cbn [rbind]; [apply Rs|reflexivity..].
Qed.

(* ------------------------------------------------------------------ *)
(** ** Reading: nodes, then edges *)
Definition jan (cv : N -> NodeAttrs -> NodeAttrs) (x : N) (n : ANode) : ANode := mkAN (an_key n) (an_time n) (cv x (an_attrs n)).
Definition jpart cv (ah : AGraph) (done : list N) (b : AGraph) : Prop :=
  (forall x, ag_nodes b !! x = if decide (x ∈ done) then jan cv x <$> ag_nodes ah !! x else None) /\ ag_edges b = ∅ /\ ag_layers b = ag_layers ah.
Lemma create_dyn_same b l p : ag_nodes (snd (a_create_dyn b l p)) = ag_nodes b /\ ag_edges (snd (a_create_dyn b l p)) = ag_edges b /\ ag_layers (snd (a_create_dyn b l p)) = ag_layers b.
Proof. unfold a_create_dyn. destruct (ag_dyn b !! (l, p)); auto. Qed.

Section Read.
  Context (h : Graph) (ah : AGraph) (HL : RepL h ah) (HS : json_saveable h) (cv : N -> NodeAttrs -> NodeAttrs).
  Notation HR := (proj1 HL).

  Definition jnodes : list Node := static_nodes h ++ dynamic_nodes h.
  Lemma jnode_source n : n ∈ jnodes -> exists an, ag_nodes ah !! n_id n = Some an /\ an_time an = n_time n /\ an_attrs an = n_attrs n /\ lk_layer (an_key an) = n_layer n /\ g_lookup h !! n_id n = Some (an_key an) /\
    node_data h (n_id n) = Some (an_key an, n_time n, n_attrs n) /\
    match n_time n with
    | Some t => an_key an = key_dynamic (n_layer n) (prefix_from_id (n_id n)) /\ n_id n < two64 /\ dyn_ok (n_layer n) (prefix_from_id (n_id n))
    | None => an_key an = key_static (n_layer n) /\ n_layer n ∈ ag_layers ah
    end.
  Proof using HL HS.
    intros Hn. assert (G : node_of h ah n /\ exists k, g_lookup h !! n_id n = Some k).
    { apply elem_of_app in Hn as [Hn|Hn]; [destruct (static_node_of h ah HR n Hn) as [? ?]|apply dynamic_nodes_in in Hn; destruct (dynamic_node_of h ah HR n Hn) as [? ?]]; eauto. }
    destruct G as ((an & Han & Ht & Ha & Hly) & k & Hk). exists an. split; [exact Han|]. split; [exact Ht|]. split; [exact Ha|]. split; [exact Hly|].
    assert (Hk' : g_lookup h !! n_id n = Some (an_key an)) by (rewrite (rp_lookup _ _ HR); unfold a_key; rewrite Han; reflexivity). split; [exact Hk'|].
    assert (Hd : node_data h (n_id n) = Some (an_key an, n_time n, n_attrs n)) by (rewrite (obs_data h ah HR), Han; cbn; unfold an_data; rewrite Ht, Ha; reflexivity). split; [exact Hd|].
    destruct (node_facts h ah _ _ HR Hk') as (n' & an' & _ & Hi' & Hl' & Han' & _ & Ht' & _ & Hst & Hdy). assert (an' = an) as -> by congruence.
    destruct (lk_dynamic (an_key an)) eqn:Ed.
    - destruct (Hdy eq_refl) as (K1 & K2 & K3 & t & K4). rewrite <- Ht, Ht', K4. rewrite <- Hly. auto.
    - rewrite (js_static h HS _ _ _ _ Hd Ed). destruct (Hst eq_refl) as (K1 & K2). rewrite <- Hly. auto.
  Qed.

  Lemma node_phase_json l : (forall n, n ∈ l -> n ∈ jnodes) -> forall done c b, NoDup (done ++ map n_id l) -> CInv c b -> jpart cv ah done b -> g_layer_ids c = g_layer_ids h ->
    exists c' b', rfold (jnstep cv) l c = Ok c' /\ CInv c' b' /\ jpart cv ah (done ++ map n_id l) b' /\ g_layer_ids c' = g_layer_ids h.
  Proof using HL HS.
    induction l as [|n r IH]; intros Hl done c b Hnd HC HP Hids.
    - exists c, b. cbn. rewrite app_nil_r. auto.
    - cbn [rfold]. destruct (jnode_source n (Hl n (elem_of_list_here _ _))) as (an & Han & Ht & Ha & Hly & Hk & Hd & Hcase).
      assert (Hxd : n_id n ∉ done).
      { intros H. apply NoDup_app in Hnd as (_ & Hnd & _). apply (Hnd _ H). left. }
      destruct HP as (HP1 & HP2 & HP3).
      assert (Hnew : ag_nodes b !! n_id n = None) by (rewrite HP1, decide_False by assumption; reflexivity).
      assert (Hnk : ~ a_known b (n_id n)) by (intros [? H]; congruence).
      assert (Hgo : exists c1 b1, jnstep cv c n = Ok c1 /\ CInv c1 b1 /\ g_layer_ids c1 = g_layer_ids c /\
        ag_nodes b1 = <[n_id n := jan cv (n_id n) an]> (ag_nodes b) /\ ag_edges b1 = ag_edges b /\ ag_layers b1 = ag_layers b).
      { unfold jnstep. destruct (n_time n) as [t|] eqn:Et.
        - destruct Hcase as (Hkk & Hlt & Hdo).
          assert (Hal : allowed c (GEmplacePrev (n_layer n) (n_id n) t (cv (n_id n) (n_attrs n)))).
          { cbn. right. split; [exact Hlt|]. split; [exact Hdo|].
            intros y at0 Hy. destruct HC as [[HRc _] _]. rewrite (obs_data c b HRc), HP1 in Hy.
            destruct (decide (y ∈ done)) as [Hyd|]; [|discriminate]. destruct (ag_nodes ah !! y) as [ny|] eqn:Ey; [|discriminate].
            cbn in Hy. unfold an_data, jan in Hy. cbn in Hy. injection Hy as Hy1 Hy2 _. rewrite <- Hkk in Hy1.
            assert (y = n_id n); [|congruence].
            eapply (time_unique h ah y (n_id n) (an_key an) ny an t HR); eauto. rewrite Hkk. reflexivity. }
          pose proof (CInv_step c b _ HC Hal) as Hs. cbn [g_step a_step] in Hs.
          destruct (g_emplace_prev c (n_layer n) (n_id n) t (cv (n_id n) (n_attrs n))) as [[r0 c1]| |]; [|cbn in Hs; discriminate|contradiction].
          destruct Hs as (Hr & HC1 & Hi1). cbn [ab fst] in Hr. injection Hr as Hr. exists c1, (snd (ab (a_emplace_prev b (n_layer n) (n_id n) t (cv (n_id n) (n_attrs n))))).
          revert Hr. split.
          { unfold a_emplace_prev in Hr. rewrite decide_False in Hr by assumption. destruct (default _ _) as [nx sl] in Hr. cbn in Hr. subst r0. reflexivity. }
          split; [exact HC1|]. split; [exact Hi1|]. clear HC1 Hr. cbn [ab snd]. unfold a_emplace_prev. 
          rewrite decide_False by assumption. destruct (default _ _) as [nx sl]. cbn.
          destruct (create_dyn_same b (n_layer n) (prefix_from_id (n_id n))) as (-> & -> & ->). split; [|auto]. f_equal.
          unfold jan. rewrite Ht, Ha, Hkk. reflexivity.
        - destruct Hcase as (Hkk & Hin).
          pose proof (CInv_step c b (GEmplace (n_layer n) (n_id n) (cv (n_id n) (n_attrs n))) HC I) as Hs. cbn [g_step a_step] in Hs.
          destruct (g_emplace_node c (n_layer n) (n_id n) (cv (n_id n) (n_attrs n))) as [r0 c1]. destruct Hs as (Hr & HC1 & Hi1). cbn [ab fst] in Hr. injection Hr as Hr.
          exists c1, (snd (ab (a_emplace b (n_layer n) (n_id n) None (cv (n_id n) (n_attrs n))))).
          revert Hr. split.
          { unfold a_emplace in Hr. rewrite decide_False in Hr by assumption. rewrite decide_True in Hr by (rewrite HP3; exact Hin). cbn in Hr. subst r0. reflexivity. }
          split; [exact HC1|]. split; [exact Hi1|]. clear HC1 Hr. cbn [ab snd]. unfold a_emplace.
          rewrite decide_False by assumption. rewrite decide_True by (rewrite HP3; exact Hin). cbn. split; [|auto]. f_equal.
          unfold jan. rewrite Ht, Ha, Hkk. reflexivity. }
      destruct Hgo as (c1 & b1 & -> & HC1 & Hi1 & Hn1 & He1 & Hl1). cbn [rbind].
      destruct (IH (fun y Hy => Hl y (elem_of_list_further _ _ _ Hy)) (done ++ [n_id n]) c1 b1) as (c' & b' & H1 & H2 & H3 & H4).
      + rewrite <- app_assoc. exact Hnd.
      + exact HC1.
      + split; [|split; congruence]. intros y. rewrite Hn1. destruct (decide (y = n_id n)) as [->|Hne].
        * rewrite lookup_insert, decide_True by (apply elem_of_app; right; left). rewrite Han. reflexivity.
        * rewrite lookup_insert_ne by congruence. rewrite HP1. destruct (decide (y ∈ done)) as [Hdn|Hdn].
          { rewrite decide_True by (apply elem_of_app; auto). reflexivity. }
          rewrite decide_False; [reflexivity|]. rewrite elem_of_app, elem_of_list_singleton. tauto.
      + congruence.
      + exists c', b'. split; [exact H1|]. split; [exact H2|]. split; [|exact H4]. rewrite <- app_assoc in H3. exact H3.
  Qed.

  Definition epart (done : list EdgeKey) (b : AGraph) : Prop :=
    (forall x, ag_nodes b !! x = jan cv x <$> ag_nodes ah !! x) /\ ag_layers b = ag_layers ah /\ forall k, ag_edges b !! k = if decide (k ∈ done) then ag_edges ah !! k else None.
  Lemma edge_phase_json l : (forall e, e ∈ l -> e ∈ all_edges h) -> forall done c b, NoDup (done ++ map ekey l) -> CInv c b -> epart done b -> g_layer_ids c = g_layer_ids h ->
    exists c' b', rfold jestep l c = Ok c' /\ CInv c' b' /\ epart (done ++ map ekey l) b' /\ g_layer_ids c' = g_layer_ids h.
  Proof using HL.
    induction l as [|e r IH]; intros Hl done c b Hnd HC HP Hids.
    - exists c, b. cbn. rewrite app_nil_r. auto.
    - cbn [rfold]. assert (Hk : ag_edges ah !! ekey e = Some e) by (apply (all_edges_in h ah HR), Hl; left).
      destruct (rp_norm _ _ HR _ _ Hk) as [Hn Hne].
      assert (Hlk : a_linked ah (e_src e) (e_tgt e)) by (unfold a_linked; eauto).
      destruct (Rep_linked_known _ _ _ _ HR Hlk) as (_ & ku & kv & Hu & Hv).
      assert (Hkd : ekey e ∉ done).
      { intros H. apply NoDup_app in Hnd as (_ & Hnd & _). apply (Hnd _ H). left. }
      destruct HP as (H1 & H2 & H3).
      assert (Hkn : forall x kx, g_lookup h !! x = Some kx -> a_known b x).
      { intros x kx Hx. unfold a_known. rewrite H1. rewrite (rp_lookup _ _ HR) in Hx. unfold a_key in Hx. destruct (ag_nodes ah !! x); [cbn; eauto|discriminate]. }
      assert (Hdec : e_src e <> e_tgt e /\ a_known b (e_src e) /\ a_known b (e_tgt e) /\ ~ a_linked b (e_src e) (e_tgt e)).
      { split; [exact Hne|]. split; [eapply Hkn, Hu|]. split; [eapply Hkn, Hv|]. unfold a_linked. fold (ekey e). rewrite H3, decide_False by exact Hkd. intros [? ?]; discriminate. }
      pose proof (CInv_step c b (GInsertEdge (e_src e) (e_tgt e) (Some (e_info e))) HC I) as Hs. cbn [g_step a_step] in Hs. unfold jestep at 1.
      destruct (g_insert_edge c (e_src e) (e_tgt e) (Some (e_info e))) as [[r0 c1]| |]; [|cbn in Hs; discriminate|contradiction].
      unfold a_insert_edge in Hs. rewrite decide_True in Hs by exact Hdec. cbn [ab fst snd] in Hs. destruct Hs as (Hr & HC1 & Hi1). injection Hr as <-. cbn [added rbind].
      destruct (IH (fun y Hy => Hl y (elem_of_list_further _ _ _ Hy)) (done ++ [ekey e]) c1 (a_add_edge b (e_src e) (e_tgt e) (e_info e))) as (c' & b' & G1 & G2 & G3 & G4).
      + rewrite <- app_assoc. exact Hnd.
      + exact HC1.
      + unfold epart, a_add_edge, a_with_edges. cbn [ag_nodes ag_layers ag_edges default from_option]. split; [exact H1|]. split; [exact H2|].
        assert (Hb : mkEdge (e_src e) (e_tgt e) (e_info e) = e) by (destruct e; reflexivity).
        intros k. cbn. rewrite ?Hb. fold (ekey e). destruct (decide (k = ekey e)) as [->|Hne'].
        * rewrite lookup_insert, decide_True by (apply elem_of_app; right; left). congruence.
        * rewrite lookup_insert_ne by congruence. rewrite H3. destruct (decide (k ∈ done)) as [Hdn|Hdn].
          { rewrite decide_True by (apply elem_of_app; auto). reflexivity. }
          rewrite decide_False; [reflexivity|]. rewrite elem_of_app, elem_of_list_singleton. tauto.
      + congruence.
      + exists c', b'. split; [exact G1|]. split; [exact G2|]. split; [|exact G4]. rewrite <- app_assoc in G3. exact G3.
  Qed.
End Read.

(* ------------------------------------------------------------------ *)
(** ** Whole graphs *)
Lemma fresh h : reachable h -> exists g, g_new (g_layer_ids h) = Ok g /\ CInv g (a_init (g_layer_ids h)) /\ g_layer_ids g = g_layer_ids h /\ g_mesh g = None.
Proof.
  intros Hh. pose proof (reachable_ids h Hh) as Hne. destruct (reachable_RepL h Hh) as [ah HL]. pose proof (RepL_ids_known h ah HL) as Hu.
  assert (Hn : exists g, g_new (g_layer_ids h) = Ok g) by (unfold g_new; destruct (g_layer_ids h); [contradiction|eauto]).
  destruct Hn as [g Hg]. exists g. split; [exact Hg|]. split; [split; [apply new_RepL; assumption|eapply reach_new; eassumption]|].
  unfold g_new in Hg. destruct (g_layer_ids h); [contradiction|]. injection Hg as <-. auto.
Qed.
Lemma rfold_mesh {A} (f : Graph -> A -> result Graph) l : (forall g a g', f g a = Ok g' -> g_mesh g' = g_mesh g) -> forall g g', rfold f l g = Ok g' -> g_mesh g' = g_mesh g.
Proof.
  intros Hf. induction l as [|a l IH]; intros g g' H; cbn [rfold] in H; [injection H as <-; reflexivity|].
  destruct (f g a) as [g1| |] eqn:E; cbn [rbind] in H; try discriminate. rewrite (IH _ _ H). apply (Hf _ _ _ E).
Qed.
Lemma added_inv r g' : added r = Ok g' -> r = Ok (true, g').
Proof. destruct r as [[[|] g]| |]; cbn; congruence. Qed.
Lemma mesh_of g o g' : (forall m, o <> GSetMesh m) -> o <> GClear -> g_step g o = Ok (true, g') -> g_mesh g' = g_mesh g.
Proof. intros H1 H2 H. pose proof (step_mesh g o H1 H2) as K. unfold keepm in K. rewrite H in K. exact K. Qed.
Lemma jnstep_mesh cv c n c' : jnstep cv c n = Ok c' -> g_mesh c' = g_mesh c.
Proof.
  unfold jnstep. intros H. apply added_inv in H. destruct (n_time n) as [t|].
  - exact (mesh_of c (GEmplacePrev (n_layer n) (n_id n) t (cv (n_id n) (n_attrs n))) c' ltac:(discriminate) ltac:(discriminate) H).
  - exact (mesh_of c (GEmplace (n_layer n) (n_id n) (cv (n_id n) (n_attrs n))) c' ltac:(discriminate) ltac:(discriminate) H).
Qed.
Lemma jestep_mesh c e c' : jestep c e = Ok c' -> g_mesh c' = g_mesh c.
Proof. unfold jestep. intros H. apply added_inv in H. exact (mesh_of c (GInsertEdge (e_src e) (e_tgt e) (Some (e_info e))) c' ltac:(discriminate) ltac:(discriminate) H). Qed.

(** a document whose nodes and edges are those of [h], with other attributes *)
Lemma graph_read fsub p h cv hd tn te o jl : reachable h -> json_saveable h ->
  (forall c, rfold (node_from_json (mkEnv (h_version hd) fsub) (reg_current (pg_nodes p))) tn c = rfold (jnstep cv) (jnodes h) c) ->
  (forall c, rfold (edge_from_json (reg_current (pg_edges p))) te c = rfold jestep (json_edges h) c) ->
  (if j_contains (JObject o) header_field then let! x := j_at (JObject o) header_field in jc_from jc_header x else Ok header_legacy) = Ok hd ->
  obj_get o (str "layer_ids") = Some jl -> jc_from jc_u64s jl = Ok (g_layer_ids h) ->
  obj_get o (str "nodes") = Some (JArray tn) -> obj_get o (str "edges") = Some (JArray te) ->
  exists c2, read_graph_json fsub p (JObject o) =
      (if j_contains (JObject o) (str "mesh") then (let! jm := j_at (JObject o) (str "mesh") in let! t := dump jm in let! m := mesh_from_text t in Ok (g_set_mesh c2 (Some m))) else Ok c2) /\
    forall m, let g := match m with Some _ => g_set_mesh c2 m | None => c2 end in
      reachable g /\ g_layer_ids g = g_layer_ids h /\ (forall x, node_data g x = cv_data cv x <$> node_data h x) /\ same_edges h g /\ g_mesh g = m.
Proof.
  intros Hh HS Rn Re RH Gl Rl Gn Ge. destruct (reachable_RepL h Hh) as [ah HL]. pose proof (proj1 HL) as HR.
  destruct (fresh h Hh) as (c0 & Hc0 & HC0 & Hi0 & Hm0).
  destruct (node_phase_json h ah HL HS cv (jnodes h) (fun _ H => H) [] c0 (a_init (g_layer_ids h))) as (c1 & b1 & E1 & HC1 & HP1 & Hi1).
  { apply (node_ids_nodup h ah HR). } { exact HC0. }
  { split; [|split; [reflexivity|symmetry; apply (proj2 HL)]]. intros x. rewrite decide_False by (intros H; inversion H). apply lookup_empty. }
  { exact Hi0. }
  destruct HP1 as (N1 & Ed1 & L1).
  destruct (edge_phase_json h ah HL cv (json_edges h) (fun e => proj1 (json_edges_in h e)) [] c1 b1) as (c2 & b2 & E2 & HC2 & (N2 & L2 & Ed2) & Hi2).
  { apply (json_edges_nodup h ah HR). } { exact HC1. }
  { split; [|split; [exact L1|]].
    - intros x. rewrite N1. destruct (decide _) as [|Hx]; [reflexivity|]. destruct (ag_nodes ah !! x) as [an|] eqn:Ex; [|reflexivity]. exfalso. apply Hx. cbn [app].
      assert (Hk : g_lookup h !! x = Some (an_key an)) by (rewrite (rp_lookup _ _ HR); unfold a_key; rewrite Ex; reflexivity).
      destruct (enumerated h ah HR x _ Hk) as (n & <- & Hn). apply elem_of_list_fmap. exists n. split; [reflexivity|]. apply elem_of_app. rewrite dynamic_nodes_in. exact Hn.
    - intros k. rewrite Ed1, decide_False by (intros H; inversion H). apply lookup_empty. }
  { exact Hi1. }
  assert (Eedges : ag_edges b2 = ag_edges ah).
  { apply map_eq. intros k. rewrite Ed2. destruct (decide _) as [|Hk]; [reflexivity|]. destruct (ag_edges ah !! k) as [e|] eqn:Ek; [|reflexivity]. exfalso. apply Hk. cbn [app].
    destruct (rp_norm _ _ HR _ _ Ek) as [Hn _]. apply elem_of_list_fmap. exists e. split; [exact Hn|]. apply json_edges_in, (all_edges_in h ah HR). rewrite <- Hn. exact Ek. }
  assert (Hm2 : g_mesh c2 = None).
  { rewrite (rfold_mesh _ _ jestep_mesh _ _ E2), (rfold_mesh _ _ (jnstep_mesh cv) _ _ E1). exact Hm0. }
  assert (Obs : forall g, RepL g b2 -> (forall x, node_data g x = cv_data cv x <$> node_data h x) /\ same_edges h g).
  { intros g [HG _]. split.
    - intros x. rewrite (obs_data g b2 HG), (obs_data h ah HR), N2. destruct (ag_nodes ah !! x); reflexivity.
    - unfold same_edges. intros u v. rewrite (obs_edge g b2 HG), (obs_edge h ah HR), Eedges. reflexivity. }
  exists c2. split.
  - unfold read_graph_json. rewrite RH. cbn [rbind]. 
    assert (Gl' : j_at (JObject o) (str "layer_ids") = Ok jl) by (cbn [j_at]; rewrite Gl; reflexivity).
    assert (Gn' : j_at (JObject o) (str "nodes") = Ok (JArray tn)) by (cbn [j_at]; rewrite Gn; reflexivity).
    assert (Ge' : j_at (JObject o) (str "edges") = Ok (JArray te)) by (cbn [j_at]; rewrite Ge; reflexivity).
    rewrite Gl', Gn', Ge'. cbn [rbind]. rewrite Rl. cbn [rbind]. rewrite Hc0. cbn [rbind j_items]. rewrite Rn, E1. cbn [rbind]. rewrite Re, E2. reflexivity.
  - intros m. destruct m as [m|]; cbn zeta.
    + pose proof (CInv_step c2 b2 (GSetMesh (Some m)) HC2 I) as Hs. cbn in Hs. destruct Hs as (_ & HC3 & Hi3).
      split; [apply HC3|]. split; [etransitivity; [exact Hi3|exact Hi2]|]. destruct (Obs _ (proj1 HC3)) as [O1 O2]. split; [exact O1|]. split; [exact O2|reflexivity].
    + split; [apply HC2|]. split; [exact Hi2|]. destruct (Obs c2 (proj1 HC2)) as [O1 O2]. auto.
Qed.
(** the texts of the edges of [h] *)
Lemma edges_text ks p h ah : program_of ks p -> RepL h ah -> json_saveable h ->
  exists te, map_result dump (map edge_to_json (json_edges h)) = Ok te /\ forall c, rfold (edge_from_json (reg_current (pg_edges p))) te c = rfold jestep (json_edges h) c.
Proof.
  intros Hp HL HS. pose proof (proj1 HL) as HR. apply texts.
  intros e He0. apply json_edges_in in He0. apply (all_edges_in h ah HR) in He0. destruct (rp_norm _ _ HR _ _ He0) as [Hn Hne].
  destruct (Rep_linked_known h ah (e_src e) (e_tgt e) HR) as (_ & ku & kv & Hu & Hv); [unfold a_linked; eauto|].
  assert (Hf : forall x k, g_lookup h !! x = Some k -> fits 64 x).
  { intros x k Hx. rewrite (rp_lookup _ _ HR) in Hx. unfold a_key in Hx. destruct (ag_nodes ah !! x) as [an|] eqn:E; [|discriminate].
    assert (Hd : node_data h x = Some (an_key an, an_time an, an_attrs an)) by (rewrite (obs_data h ah HR), E; reflexivity). apply (js_node h HS _ _ _ _ Hd). }
  apply (edge_texts ks p Hp); [eapply Hf, Hu|eapply Hf, Hv|]. apply (js_edge h HS (e_src e) (e_tgt e)). rewrite (obs_edge h ah HR). exact He0.
Qed.
(** what is written *)
Lemma graph_written fsub h ah im tn te : RepL h ah -> json_saveable h ->
  map_result dump (map (node_to_json (mkEnv (h_version header_current) fsub)) (jnodes h)) = Ok tn -> map_result dump (map edge_to_json (json_edges h)) = Ok te ->
  exists jh jl tail, jc_from jc_header jh = Ok header_current /\ jc_from jc_u64s jl = Ok (g_layer_ids h) /\
    let o := [(header_field, jh); (str "directed", JBool false); (str "multigraph", JBool false); (str "nodes", JArray tn); (str "edges", JArray te); (str "layer_ids", jl)] ++ tail in
    write_graph_json (mkEnv (h_version header_current) fsub) h im = Ok (JObject o) /\
    match g_mesh h with
    | Some m => if im then exists tm, mesh_to_text m = Ok tm /\ dump tm = Ok tm /\ mesh_from_text tm = Ok (mesh_through m) /\ tail = [(str "mesh", tm)] else tail = []
    | None => tail = []
    end.
Proof.
  intros HL HS Dn De. pose proof (proj1 HL) as HR. set (renv := mkEnv (h_version header_current) fsub) in *.
  destruct (header_current_carried) as (jh & Dh & Rh).
  destruct (u64s_carried (g_layer_ids h) (js_ids h HS)) as (jl & Dl & Rl).
  destruct (all_dlayer_nodes h ah HR) as (dss & Ds & Dc).
  set (o := [(header_field, jh); (str "directed", JBool false); (str "multigraph", JBool false); (str "nodes", JArray tn); (str "edges", JArray te); (str "layer_ids", jl)]).
  assert (DW : dumps [(header_field, jc_to jc_header header_current); (str "directed", JBool false); (str "multigraph", JBool false);
    (str "nodes", JArray (map (node_to_json renv) (static_nodes h ++ concat dss))); (str "edges", JArray (map edge_to_json (json_edges h))); (str "layer_ids", jc_to jc_u64s (g_layer_ids h))] o).
  { rewrite Dc. unfold dumps, o. repeat (apply List.Forall2_cons; [cbn [fst snd]; split; [reflexivity|split; [reflexivity|]]|]); [exact Dh|reflexivity|reflexivity| | |exact Dl|apply List.Forall2_nil].
    - rewrite dump_array. unfold jnodes in Dn. rewrite Dn. reflexivity.
    - rewrite dump_array, De. reflexivity. }
  exists jh, jl. unfold write_graph_json. fold renv. rewrite Ds. cbn [rbind].
  destruct (g_mesh h) as [m|] eqn:Em; [destruct im|].
  - destruct (mesh_text m (js_mesh h HS m Em)) as (tm & W & D & R). exists [(str "mesh", tm)]. split; [exact Rh|]. split; [exact Rl|]. cbn zeta. rewrite W. cbn [rbind]. split.
    + apply (dumps_object _ (o ++ [(str "mesh", tm)])), dumps_app; [exact DW|]. apply List.Forall2_cons; [cbn [fst snd]; split; [reflexivity|split; [reflexivity|exact D]]|apply List.Forall2_nil].
    + exists tm. auto.
  - exists []. split; [exact Rh|]. split; [exact Rl|]. cbn zeta. rewrite app_nil_r. split; [exact (dumps_object _ _ DW)|reflexivity].
  - exists []. split; [exact Rh|]. split; [exact Rl|]. cbn zeta. rewrite app_nil_r. split; [exact (dumps_object _ _ DW)|reflexivity].
Qed.
Theorem graph_json_ok fsub ks p h im : program_of ks p -> reachable h -> json_saveable h ->
  (forall x k t a, node_data h x = Some (k, t, a) -> kind_of a ∈ ks) ->
  exists t g', write_graph_json (mkEnv (h_version header_current) fsub) h im = Ok t /\ dump t = Ok t /\ read_graph_json fsub p t = Ok g' /\ reachable g' /\
    g_layer_ids g' = g_layer_ids h /\ (forall x, node_data g' x = through_data <$> node_data h x) /\ same_edges h g' /\
    g_mesh g' = if im then mesh_through <$> g_mesh h else None.
Proof.
  intros Hp Hh HS HK. destruct (reachable_RepL h Hh) as [ah HL]. pose proof (proj1 HL) as HR.
  set (renv := mkEnv (h_version header_current) fsub). assert (He' : modern renv) by reflexivity.
  destruct (texts (node_to_json renv) (node_from_json renv (reg_current (pg_nodes p))) (jnstep (fun _ => through_json)) (jnodes h)) as (tn & Dn & Rn).
  { intros n Hn. destruct (jnode_source h ah HL HS n Hn) as (an & _ & _ & _ & Hly & _ & Hd & _). destruct (js_node h HS _ _ _ _ Hd) as (F1 & F2 & F3 & F4).
    rewrite Hly in F2. exact (node_text renv ks p He' Hp n F1 F2 F3 F4 (HK _ _ _ _ Hd)). }
  destruct (edges_text ks p h ah Hp HL HS) as (te & De & Re).
  destruct (graph_written fsub h ah im tn te HL HS Dn De) as (jh & jl & tail & Rh & Rl & W & T). cbn zeta in W.
  set (o := [(header_field, jh); (str "directed", JBool false); (str "multigraph", JBool false); (str "nodes", JArray tn); (str "edges", JArray te); (str "layer_ids", jl)] ++ tail) in *.
  destruct (graph_read fsub p h (fun _ => through_json) header_current tn te o jl Hh HS Rn Re) as (c2 & RD & G).
  { replace (j_contains (JObject o) header_field) with true by reflexivity. replace (j_at (JObject o) header_field) with (Ok jh) by reflexivity. exact Rh. }
  { reflexivity. } { exact Rl. } { reflexivity. } { reflexivity. }
  assert (DD : dump (JObject o) = Ok (JObject o)).
  { unfold write_graph_json in W. destruct (map_result dlayer_nodes (g_all_dlayers h)) as [ds| |]; try discriminate. cbn [rbind] in W.
    destruct (g_mesh h) as [m|]; [destruct im|]; [destruct (mesh_to_text m); try discriminate; cbn [rbind] in W|..]; eapply dump_again; exact W. }
  assert (ND : forall x, cv_data (fun _ => through_json) x <$> node_data h x = through_data <$> node_data h x) by (intros x; destruct (node_data h x) as [[[? ?] ?]|]; reflexivity).
  assert (Hplain : tail = [] -> exists g', read_graph_json fsub p (JObject o) = Ok g' /\ reachable g' /\ g_layer_ids g' = g_layer_ids h /\ (forall x, node_data g' x = through_data <$> node_data h x) /\ same_edges h g' /\ g_mesh g' = None).
  { intros ->. exists c2. rewrite RD. split; [reflexivity|]. destruct (G None) as (G1 & G2 & G3 & G4 & G5). split; [exact G1|]. split; [exact G2|]. split; [intros x; rewrite G3; apply ND|]. split; [exact G4|exact G5]. }
  exists (JObject o). destruct (g_mesh h) as [m|] eqn:Em; [destruct im|].
  - destruct T as (tm & _ & D & R & ->). exists (g_set_mesh c2 (Some (mesh_through m))). split; [exact W|]. split; [exact DD|]. destruct (G (Some (mesh_through m))) as (G1 & G2 & G3 & G4 & G5).
    split. { rewrite RD. replace (j_contains (JObject o) (str "mesh")) with true by reflexivity. replace (j_at (JObject o) (str "mesh")) with (Ok tm) by reflexivity. cbn [rbind]. rewrite D. cbn [rbind]. rewrite R. reflexivity. }
    split; [exact G1|]. split; [exact G2|]. split; [intros x; rewrite G3; apply ND|]. split; [exact G4|exact G5].
  - destruct (Hplain T) as (g' & P). exists g'. split; [exact W|]. split; [exact DD|]. exact P.
  - destruct (Hplain T) as (g' & P1 & P2 & P3 & P4 & P5 & P6). exists g'. split; [exact W|]. split; [exact DD|]. split; [exact P1|]. split; [exact P2|]. split; [exact P3|]. split; [exact P4|]. split; [exact P5|]. rewrite P6. destruct im; reflexivity.
Qed.

(* ------------------------------------------------------------------ *)
(** ** A node whose class the reading program does not have *)
Lemma node_unknown env ks p n : modern env -> program_of ks p -> json_ok (n_attrs n) -> kind_of (n_attrs n) ∉ ks ->
  exists t, dump (node_to_json env n) = Ok t /\ forall c, node_from_json env (reg_current (pg_nodes p)) c t = Throw.
Proof.
  intros He Hp H4 H5. destruct (attrs_text env ks p (n_attrs n) He Hp H4) as (ta & Da & Ra). rewrite bool_decide_false in Ra by exact H5.
  set (o := [(str "id", JInt (Z.of_N (n_id n))); (str "layer", JInt (Z.of_N (n_layer n))); (str "attributes", ta)] ++
    match n_time n with Some t => [(str "timestamp", JInt t)] | None => [] end).
  exists (JObject o). split.
  - unfold node_to_json. assert (E : forall t, obj_set [(str "id", JInt (Z.of_N (n_id n))); (str "layer", JInt (Z.of_N (n_layer n))); (str "attributes", attrs_to_json env (n_attrs n))] (str "timestamp") (JInt t) =
      [(str "id", JInt (Z.of_N (n_id n))); (str "layer", JInt (Z.of_N (n_layer n))); (str "attributes", attrs_to_json env (n_attrs n))] ++ [(str "timestamp", JInt t)]) by reflexivity.
    unfold o. destruct (n_time n) as [t|]; [rewrite E|]; apply dumps_object; unfold dumps; cbn [app];
      repeat (apply List.Forall2_cons; [cbn [fst snd]; split; [reflexivity|split; [reflexivity|first [exact Da|reflexivity]]]|]); apply List.Forall2_nil.
  - intros c. unfold node_from_json.
    replace (j_at (JObject o) (str "id")) with (Ok (JInt (Z.of_N (n_id n)))) by reflexivity.
    replace (j_at (JObject o) (str "layer")) with (Ok (JInt (Z.of_N (n_layer n)))) by reflexivity.
    replace (j_at (JObject o) (str "attributes")) with (Ok ta) by reflexivity.
    cbn [rbind get_unsigned]. rewrite Ra. reflexivity.
Qed.
Lemma first_bad {A} (P : A -> Prop) (dec : forall a, Decision (P a)) l x : x ∈ l -> ~ P x -> exists l1 y l2, l = l1 ++ y :: l2 /\ (forall a, a ∈ l1 -> P a) /\ ~ P y.
Proof.
  revert x. induction l as [|a l IH]; intros x Hx Hn; [inversion Hx|]. destruct (decide (P a)) as [Ha|Ha].
  - apply elem_of_cons in Hx as [->|Hx]; [contradiction|]. destruct (IH x Hx Hn) as (l1 & y & l2 & -> & H1 & H2). exists (a :: l1), y, l2. split; [reflexivity|]. split; [|exact H2].
    intros b Hb. apply elem_of_cons in Hb as [->|Hb]; auto.
  - exists [], a, l. split; [reflexivity|]. split; [intros b Hb; inversion Hb|exact Ha].
Qed.
Lemma rfold_app {S A} (f : S -> A -> result S) l1 l2 s : rfold f (l1 ++ l2) s = (let! s' := rfold f l1 s in rfold f l2 s').
Proof. revert s. induction l1 as [|a l IH]; intros s; [reflexivity|]. cbn [app rfold]. destruct (f s a); cbn [rbind]; [apply IH|reflexivity..]. Qed.

Theorem graph_json_unknown fsub ks p h im x k t a : program_of ks p -> reachable h -> json_saveable h ->
  node_data h x = Some (k, t, a) -> kind_of a ∉ ks ->
  exists text, write_graph_json (mkEnv (h_version header_current) fsub) h im = Ok text /\ read_graph_json fsub p text = Throw.
Proof.
  intros Hp Hh HS Hx Hk. destruct (reachable_RepL h Hh) as [ah HL]. pose proof (proj1 HL) as HR.
  set (renv := mkEnv (h_version header_current) fsub). assert (He' : modern renv) by reflexivity.
  set (step := fun c n => if decide (kind_of (n_attrs n) ∈ ks) then jnstep (fun _ => through_json) c n else Throw).
  destruct (texts (node_to_json renv) (node_from_json renv (reg_current (pg_nodes p))) step (jnodes h)) as (tn & Dn & Rn).
  { intros n Hn. destruct (jnode_source h ah HL HS n Hn) as (an & _ & _ & _ & Hly & _ & Hd & _). destruct (js_node h HS _ _ _ _ Hd) as (F1 & F2 & F3 & F4).
    rewrite Hly in F2. unfold step. destruct (decide _) as [Hin|Hin].
    - exact (node_text renv ks p He' Hp n F1 F2 F3 F4 Hin).
    - exact (node_unknown renv ks p n He' Hp F4 Hin). }
  destruct (texts edge_to_json (edge_from_json (reg_current (pg_edges p))) jestep (json_edges h)) as (te & De & _).
  { intros e He0. apply json_edges_in in He0. apply (all_edges_in h ah HR) in He0. destruct (rp_norm _ _ HR _ _ He0) as [Hn Hne].
    destruct (Rep_linked_known h ah (e_src e) (e_tgt e) HR) as (_ & ku & kv & Hu & Hv); [unfold a_linked; eauto|].
    assert (Hf : forall x k, g_lookup h !! x = Some k -> fits 64 x).
    { intros y k' Hy. rewrite (rp_lookup _ _ HR) in Hy. unfold a_key in Hy. destruct (ag_nodes ah !! y) as [an|] eqn:E; [|discriminate].
      assert (Hd : node_data h y = Some (an_key an, an_time an, an_attrs an)) by (rewrite (obs_data h ah HR), E; reflexivity). apply (js_node h HS _ _ _ _ Hd). }
    apply (edge_texts ks p Hp); [eapply Hf, Hu|eapply Hf, Hv|]. apply (js_edge h HS (e_src e) (e_tgt e)). rewrite (obs_edge h ah HR). exact He0. }
  destruct (fresh h Hh) as (c0 & Hc0 & HC0 & Hi0 & Hm0).
  (* the unknown node is enumerated *)
  assert (Hbad : exists n, n ∈ jnodes h /\ ~ (kind_of (n_attrs n) ∈ ks)).
  { rewrite (obs_data h ah HR) in Hx. destruct (ag_nodes ah !! x) as [an|] eqn:Ex; [|discriminate]. cbn in Hx. unfold an_data in Hx. injection Hx as E1 E2 E3.
    assert (Hl : g_lookup h !! x = Some (an_key an)) by (rewrite (rp_lookup _ _ HR); unfold a_key; rewrite Ex; reflexivity).
    destruct (enumerated h ah HR x _ Hl) as (n & Hi & Hn). assert (Hn' : n ∈ jnodes h) by (apply elem_of_app; rewrite dynamic_nodes_in; exact Hn).
    exists n. split; [exact Hn'|]. destruct (jnode_source h ah HL HS n Hn') as (an' & Han & _ & Ha & _). rewrite Hi, Ex in Han. injection Han as <-. rewrite <- Ha, E3. exact Hk. }
  destruct Hbad as (n & Hn & Hbad). destruct (first_bad (fun n => kind_of (n_attrs n) ∈ ks) _ _ n Hn Hbad) as (l1 & y & l2 & El & G1 & G2).
  assert (Hfold : rfold step (jnodes h) c0 = Throw).
  { pose proof (node_ids_nodup h ah HR) as ND. fold (jnodes h) in ND.
    destruct (node_phase_json h ah HL HS (fun _ => through_json) l1) with (done := @nil N) (c := c0) (b := a_init (g_layer_ids h)) as (c1 & b1 & E1 & _).
    - intros m Hm. rewrite El. apply elem_of_app. left. exact Hm.
    - cbn [app]. rewrite El, map_app in ND. apply NoDup_app in ND as [ND _]. exact ND.
    - exact HC0.
    - split; [|split; [reflexivity|symmetry; apply (proj2 HL)]]. intros z. rewrite decide_False by (intros H; inversion H). apply lookup_empty.
    - exact Hi0.
    - rewrite El, rfold_app. assert (Es : forall c, rfold step l1 c = rfold (jnstep (fun _ => through_json)) l1 c).
      { clear -G1. revert G1. induction l1 as [|m l IH]; intros G1 c; [reflexivity|]. cbn [rfold]. unfold step at 1. rewrite decide_True by (apply G1; left).
        destruct (jnstep (fun _ => through_json) c m); cbn [rbind]; [apply IH; intros z Hz; apply G1; right; exact Hz|reflexivity..]. }
      rewrite Es, E1. cbn [rbind rfold]. unfold step at 1. rewrite decide_False by exact G2. reflexivity. }
  destruct (header_current_carried) as (jh & Dh & Rh).
  destruct (u64s_carried (g_layer_ids h) (js_ids h HS)) as (jl & Dl & Rl).
  destruct (all_dlayer_nodes h ah HR) as (dss & Ds & Dc).
  set (o := [(header_field, jh); (str "directed", JBool false); (str "multigraph", JBool false); (str "nodes", JArray tn); (str "edges", JArray te); (str "layer_ids", jl)]).
  assert (DW : dumps [(header_field, jc_to jc_header header_current); (str "directed", JBool false); (str "multigraph", JBool false);
    (str "nodes", JArray (map (node_to_json renv) (static_nodes h ++ concat dss))); (str "edges", JArray (map edge_to_json (json_edges h))); (str "layer_ids", jc_to jc_u64s (g_layer_ids h))] o).
  { rewrite Dc. unfold dumps, o. repeat (apply List.Forall2_cons; [cbn [fst snd]; split; [reflexivity|split; [reflexivity|]]|]); [exact Dh|reflexivity|reflexivity| | |exact Dl|apply List.Forall2_nil].
    - rewrite dump_array. unfold jnodes in Dn. rewrite Dn. reflexivity.
    - rewrite dump_array, De. reflexivity. }
  assert (RD : forall tail, read_graph_json fsub p (JObject (o ++ tail)) = Throw).
  { intros tail. unfold read_graph_json.
    replace (j_contains (JObject (o ++ tail)) header_field) with true by reflexivity. replace (j_at (JObject (o ++ tail)) header_field) with (Ok jh) by reflexivity.
    replace (j_at (JObject (o ++ tail)) (str "layer_ids")) with (Ok jl) by reflexivity. replace (j_at (JObject (o ++ tail)) (str "nodes")) with (Ok (JArray tn)) by reflexivity.
    cbn [rbind]. rewrite Rh. cbn [rbind]. rewrite Rl. cbn [rbind]. rewrite Hc0. cbn [rbind j_items].
    fold renv. rewrite Rn, Hfold. reflexivity. }
  unfold write_graph_json. fold renv. rewrite Ds. cbn [rbind].
  pose proof (RD []) as RD0. rewrite app_nil_r in RD0. pose proof (dumps_object _ _ DW) as DD.
  destruct (g_mesh h) as [m|] eqn:Em; [destruct im|]; [|exists (JObject o); split; [exact DD|exact RD0]..].
  destruct (mesh_text m (js_mesh h HS m Em)) as (tm & W & D & _). rewrite W. cbn [rbind]. exists (JObject (o ++ [(str "mesh", tm)])). split; [|apply RD].
  apply dumps_object, dumps_app; [exact DW|]. apply List.Forall2_cons; [cbn [fst snd]; split; [reflexivity|split; [reflexivity|exact D]]|apply List.Forall2_nil].
Qed.
