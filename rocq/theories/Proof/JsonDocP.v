(** Reading an arbitrary JSON document of a graph. *)
From Coq Require Import NArith ZArith Bool List Lia String.
From stdpp Require Import base list gmap fin_maps.
From Verif.Model Require Import Types Mesh Attrs Node EdgeContainer SLayer DLayer Graph Binary Versioning AttrCodec Registry GraphCodec Json Rotation JsonCodec GraphJson.
From Verif.Spec Require Import AbstractGraph GraphHistory GraphObs JsonDocSpec.
From Verif.Proof Require Import Keys GraphRep GraphSim GraphObsP CloneP GraphMesh GraphJsonP.
Local Open Scope N_scope.

Lemma member_at {A} o name (value : json -> result A) x : member_is o name value x <-> (let! j := j_at (JObject o) (str name) in value j) = Ok x.
Proof.
  unfold member_is. cbn [j_at]. destruct (obj_get o (str name)) as [j|]; cbn [at_ rbind].
  - split; [intros (j' & [= <-] & H); exact H|eauto].
  - split; [intros (j' & [=] & _)|discriminate].
Qed.
Lemma number_fits j x : number64 j = Ok x -> x < 2 ^ 64.
Proof.
  unfold number64, get_unsigned. destruct j; try discriminate.
  - intros [= <-]. pose proof (Z.mod_pos_bound z (2 ^ Z.of_N 64) ltac:(lia)). change (2 ^ Z.of_N 64)%Z with (Z.of_N (2 ^ 64)) in *. lia.
  - cbv zeta. destruct ((0 <=? double_trunc bits)%Z && (double_trunc bits <? 2 ^ Z.of_N 64)%Z) eqn:E; [|discriminate]. intros [= <-].
    apply andb_true_iff in E as [E1 E2]. apply Z.leb_le in E1. apply Z.ltb_lt in E2. change (2 ^ Z.of_N 64)%Z with (Z.of_N (2 ^ 64)) in *. lia.
Qed.

Definition nentry_step (c : Graph) (e : NodeEntry) : result Graph :=
  let '(x, (k, t, a)) := e in
  added (match t with Some t => g_emplace_prev c (lk_layer k) x t a | None => Ok (g_emplace_node c (lk_layer k) x a) end).
Lemma node_entry_step env f j e c : node_entry env f j e -> node_from_json env f c j = nentry_step c e.
Proof.
  intros (o & l & a & -> & (ji & G1 & R1) & (jl & G2 & R2) & (ja & G3 & R3) & H). unfold node_from_json. cbn [j_at j_contains]. rewrite G1, G2, G3. cbn [at_ rbind].
  unfold number64 in *. rewrite R1. cbn [rbind]. rewrite R2. cbn [rbind]. rewrite R3. cbn [rbind]. destruct e as [x d]. cbn [fst snd] in *.
  destruct H as [[-> ->]|(t & (jt & -> & R4) & ->)].
  - reflexivity.
  - cbn [at_ rbind]. rewrite R4. reflexivity.
Qed.
Lemma node_entry_inv env f j c c' : node_from_json env f c j = Ok c' -> exists e, node_entry env f j e.
Proof.
  unfold node_from_json. destruct j as [| | | | | |o]; try discriminate. cbn [j_at j_contains].
  destruct (obj_get o (str "id")) as [ji|] eqn:G1; [|discriminate]. cbn [at_ rbind]. destruct (get_unsigned 64 ji) as [x| |] eqn:R1; try discriminate. cbn [rbind].
  destruct (obj_get o (str "layer")) as [jl|] eqn:G2; [|discriminate]. cbn [at_ rbind]. destruct (get_unsigned 64 jl) as [l| |] eqn:R2; try discriminate. cbn [rbind].
  destruct (obj_get o (str "attributes")) as [ja|] eqn:G3; [|discriminate]. cbn [at_ rbind]. destruct (attrs_from_json env f ja) as [[a|]| |] eqn:R3; try discriminate. cbn [rbind].
  destruct (obj_get o (str "timestamp")) as [jt|] eqn:G4.
  - cbn [at_ rbind]. destruct (get_unsigned 64 jt) as [t| |] eqn:R4; try discriminate. intros _.
    exists (x, (key_dynamic l (prefix_from_id x), Some (wrap_signed 64 (Z.of_N t)), a)), o, l, a. split; [reflexivity|]. split; [exists ji; auto|]. split; [exists jl; auto|]. split; [exists ja; auto|].
    right. exists t. split; [exists jt; auto|reflexivity].
  - intros _. exists (x, (key_static l, None, a)), o, l, a. split; [reflexivity|]. split; [exists ji; auto|]. split; [exists jl; auto|]. split; [exists ja; auto|]. left. auto.
Qed.
Definition eentry_step (c : Graph) (e : N * N * EdgeAttrs) (i : option EdgeAttrs) : result Graph := added (g_insert_edge c (fst (fst e)) (snd (fst e)) i).
Lemma edge_entry_step f j e c : edge_entry f j e -> exists i, snd e = default ea_default i /\ edge_from_json f c j = eentry_step c e i.
Proof.
  intros (o & i & -> & (js & G1 & R1) & (jt & G2 & R2) & (ji & G3 & R3) & E). exists i. split; [exact E|]. unfold edge_from_json. cbn [j_at]. rewrite G1, G2, G3. cbn [at_ rbind].
  unfold number64 in *. rewrite R1. cbn [rbind]. rewrite R2. cbn [rbind]. rewrite R3. reflexivity.
Qed.
Lemma edge_entry_inv f j c c' : edge_from_json f c j = Ok c' -> exists e, edge_entry f j e.
Proof.
  unfold edge_from_json. destruct j as [| | | | | |o]; try discriminate. cbn [j_at].
  destruct (obj_get o (str "source")) as [ji|] eqn:G1; [|discriminate]. cbn [at_ rbind]. destruct (get_unsigned 64 ji) as [x| |] eqn:R1; try discriminate. cbn [rbind].
  destruct (obj_get o (str "target")) as [jl|] eqn:G2; [|discriminate]. cbn [at_ rbind]. destruct (get_unsigned 64 jl) as [l| |] eqn:R2; try discriminate. cbn [rbind].
  destruct (obj_get o (str "info")) as [ja|] eqn:G3; [|discriminate]. cbn [at_ rbind]. destruct (edge_attrs_from_json f ja) as [i| |] eqn:R3; try discriminate. cbn [rbind]. intros _.
  exists (x, l, default ea_default i), o, i. split; [reflexivity|]. split; [exists ji; auto|]. split; [exists jl; auto|]. split; [exists ja; auto|reflexivity].
Qed.
Lemma rfold_entries {A X} (step : Graph -> A -> result Graph) (entry : A -> X -> Prop) : (forall j c c', step c j = Ok c' -> exists e, entry j e) ->
  forall l c c', rfold step l c = Ok c' -> exists es, Forall2 entry l es.
Proof.
  intros H l. induction l as [|j l IH]; intros c c' E; [exists []; constructor|]. cbn [rfold] in E. destruct (step c j) as [c1| |] eqn:S; try discriminate. cbn [rbind] in E.
  destruct (H j c c1 S) as [e He]. destruct (IH _ _ E) as [es Hes]. exists (e :: es). constructor; assumption.
Qed.

(* ------------------------------------------------------------------ *)
(** ** Nodes *)
Definition has_nodes (done : list NodeEntry) (b : AGraph) : Prop := forall x d, an_data <$> ag_nodes b !! x = Some d <-> (x, d) ∈ done.
Definition stamps (ns : list NodeEntry) : Prop :=
  (forall x k t a, (x, (k, t, a)) ∈ ns -> lk_dynamic k = true -> dyn_args (lk_layer k) (lk_prefix k)) /\
  (forall x y k t a b, (x, (k, t, a)) ∈ ns -> (y, (k, t, b)) ∈ ns -> lk_dynamic k = true -> x = y).
Definition well_formed (e : NodeEntry) : Prop := let '(x, (k, t, a)) := e in
  x < 2 ^ 64 /\ match t with Some _ => k = key_dynamic (lk_layer k) (prefix_from_id x) | None => k = key_static (lk_layer k) end.
Lemma node_entry_wf env f j e : node_entry env f j e -> well_formed e.
Proof.
  intros (o & l & a & -> & (ji & _ & R1) & _ & _ & H). apply number_fits in R1. destruct e as [x d]. cbn [fst snd] in *.
  destruct H as [[_ ->]|(t & _ & ->)]; split; auto.
Qed.
Lemma has_known done b x : has_nodes done b -> a_known b x <-> x ∈ map fst done.
Proof.
  intros H. split.
  - intros [n Hn]. apply elem_of_list_In, in_map_iff. exists (x, an_data n). split; [reflexivity|]. apply elem_of_list_In, H. rewrite Hn. reflexivity.
  - intros Hx. apply elem_of_list_In, in_map_iff in Hx as ([y d] & <- & Hd). apply elem_of_list_In, H in Hd. cbn [fst]. destruct (ag_nodes b !! y) eqn:E; [eexists; exact E|discriminate].
Qed.
Lemma has_add done b x k t a : has_nodes done b -> x ∉ map fst done -> forall b', ag_nodes b' = <[x := mkAN k t a]> (ag_nodes b) -> has_nodes (done ++ [(x, (k, t, a))]) b'.
Proof.
  intros H Hx b' E y d. rewrite E, elem_of_app, elem_of_list_singleton. destruct (decide (y = x)) as [->|Hy].
  - rewrite lookup_insert. cbn. split; [intros [= <-]; auto|]. intros [Hd|[= ->]]; [|reflexivity]. exfalso. apply Hx. apply elem_of_list_In, in_map_iff. exists (x, d). split; [reflexivity|apply elem_of_list_In, Hd].
  - rewrite lookup_insert_ne by congruence. rewrite (H y d). split; [auto|]. intros [Hd|[= -> _]]; [exact Hd|contradiction].
Qed.
Lemma nodes_phase ids js env f ns : Forall2 (node_entry env f) js ns -> forall done c b,
  stamps (done ++ ns) -> nodes_ok ids done -> CInv c b -> has_nodes done b -> ag_edges b = ∅ -> ag_layers b = list_to_set ids ->
  (nodes_ok ids (done ++ ns) /\ exists c' b', rfold (node_from_json env f) js c = Ok c' /\ CInv c' b' /\ has_nodes (done ++ ns) b' /\ ag_edges b' = ∅ /\ ag_layers b' = list_to_set ids /\ g_layer_ids c' = g_layer_ids c) \/
  (~ nodes_ok ids (done ++ ns) /\ rfold (node_from_json env f) js c = Throw).
Proof.
  induction 1 as [|j e js ns He _ IH]; intros done c b HS Hok HC Hn Hed Hl.
  - rewrite app_nil_r. left. split; [exact Hok|]. exists c, b. auto 10.
  - cbn [rfold]. rewrite (node_entry_step _ _ _ _ c He). pose proof (node_entry_wf _ _ _ _ He) as Hw. destruct e as [x [[k t] a]]. cbn [well_formed] in Hw. destruct Hw as [Hx Hk].
    assert (Hin : (x, (k, t, a)) ∈ done ++ (x, (k, t, a)) :: ns) by (apply elem_of_app; right; left).
    destruct (decide (x ∈ map fst done)) as [Hdup|Hnew].
    { right. split.
      - intros [Hnd _]. rewrite map_app in Hnd. apply NoDup_app in Hnd as (_ & Hnd & _). apply (Hnd x Hdup). left.
      - assert (Hkn : a_known b x) by (apply (has_known done b x Hn), Hdup). assert (Hg : g_has_node c x = true) by (destruct HC as [[HRc _] _]; apply (obs_known c b HRc), Hkn).
        cbn [nentry_step]. destruct t as [t|].
        + unfold g_emplace_prev. rewrite Hg. reflexivity.
        + pose proof (CInv_step c b (GEmplace (lk_layer k) x a) HC I) as Hs. cbn [g_step a_step] in Hs. destruct (g_emplace_node c (lk_layer k) x a) as [r c1]. destruct Hs as (Hr & _).
          cbn [ab fst] in Hr. unfold a_emplace in Hr. rewrite decide_True in Hr by exact Hkn. cbn in Hr. injection Hr as <-. reflexivity. }
    assert (Hnk : ~ a_known b x) by (rewrite (has_known done b x Hn); exact Hnew).
    assert (Hgo : (~ (lk_dynamic k = true \/ lk_layer k ∈ ids) /\ nentry_step c (x, (k, t, a)) = Throw) \/ ((lk_dynamic k = true \/ lk_layer k ∈ ids) /\ exists c1 b1, nentry_step c (x, (k, t, a)) = Ok c1 /\ CInv c1 b1 /\ g_layer_ids c1 = g_layer_ids c /\
        ag_nodes b1 = <[x := mkAN k t a]> (ag_nodes b) /\ ag_edges b1 = ag_edges b /\ ag_layers b1 = ag_layers b)).
    { cbn [nentry_step]. destruct t as [t|].
      - right. assert (Hdk : lk_dynamic k = true) by (rewrite Hk; reflexivity). split; [left; exact Hdk|].
        assert (Hal : allowed c (GEmplacePrev (lk_layer k) x t a)).
        { cbn. right. split; [exact Hx|]. assert (Hp : lk_prefix k = prefix_from_id x) by (rewrite Hk; reflexivity). split; [rewrite <- Hp; eapply HS; [exact Hin|exact Hdk]|].
          intros y at0 Hy. destruct HC as [[HRc _] _]. rewrite (obs_data c b HRc) in Hy. apply Hn in Hy. rewrite <- Hk in Hy. destruct HS as [_ HS2].
          assert (y = x) by (eapply HS2; [apply elem_of_app; left; exact Hy|exact Hin|exact Hdk]). subst y. apply Hnew. apply elem_of_list_In, in_map_iff. eexists. split; [|apply elem_of_list_In, Hy]. reflexivity. }
        pose proof (CInv_step c b _ HC Hal) as Hs. cbn [g_step a_step] in Hs.
        destruct (g_emplace_prev c (lk_layer k) x t a) as [[r0 c1]| |]; [|cbn in Hs; discriminate|contradiction].
        destruct Hs as (Hr & HC1 & Hi1). cbn [ab fst] in Hr. injection Hr as Hr. exists c1, (snd (ab (a_emplace_prev b (lk_layer k) x t a))). revert Hr. split.
        { unfold a_emplace_prev in Hr. rewrite decide_False in Hr by assumption. destruct (default _ _) as [nx sl] in Hr. cbn in Hr. subst r0. reflexivity. }
        split; [exact HC1|]. split; [exact Hi1|]. clear HC1 Hr. cbn [ab snd]. unfold a_emplace_prev. rewrite decide_False by assumption. destruct (default _ _) as [nx sl]. cbn.
        destruct (create_dyn_same b (lk_layer k) (prefix_from_id x)) as (-> & -> & ->). split; [|auto]. f_equal. rewrite <- Hk. reflexivity.
      - pose proof (CInv_step c b (GEmplace (lk_layer k) x a) HC I) as Hs. cbn [g_step a_step] in Hs.
        destruct (g_emplace_node c (lk_layer k) x a) as [r0 c1]. destruct Hs as (Hr & HC1 & Hi1). cbn [ab fst] in Hr. injection Hr as Hr.
        destruct (decide (lk_layer k ∈ ids)) as [Hin'|Hout].
        + right. split; [auto|]. assert (Hla : lk_layer k ∈ ag_layers b) by (rewrite Hl; apply elem_of_list_to_set, Hin'). exists c1, (snd (ab (a_emplace b (lk_layer k) x None a))). revert Hr. split.
          { unfold a_emplace in Hr. rewrite decide_False in Hr by assumption. rewrite decide_True in Hr by exact Hla. cbn in Hr. subst r0. reflexivity. }
          split; [exact HC1|]. split; [exact Hi1|]. clear HC1 Hr. cbn [ab snd]. unfold a_emplace. rewrite decide_False by assumption. rewrite decide_True by exact Hla. cbn. split; [|auto]. f_equal. rewrite <- Hk. reflexivity.
        + left. assert (Hla : lk_layer k ∉ ag_layers b) by (rewrite Hl, elem_of_list_to_set; exact Hout). split; [intros [Hd|Hd]; [rewrite Hk in Hd; discriminate|contradiction]|].
          unfold a_emplace in Hr. rewrite decide_False in Hr by assumption. rewrite decide_False in Hr by exact Hla. cbn in Hr. subst r0. reflexivity. }
    destruct Hgo as [[Hbad ->]|(Hgood & c1 & b1 & -> & HC1 & Hi1 & Hn1 & He1 & Hl1)].
    { right. split; [|reflexivity]. intros [_ H]. specialize (H x k t a Hin). destruct (lk_dynamic k) eqn:Ed; [apply Hbad; auto|]. apply Hbad. right. apply H. reflexivity. }
    cbn [rbind]. assert (Happ : @app NodeEntry done ((x, (k, t, a)) :: ns) = (done ++ [(x, (k, t, a))]) ++ ns) by (rewrite <- app_assoc; reflexivity). clear Hin. revert HS.
    match goal with |- context [done ++ ?l] => change (done ++ l) with (@app NodeEntry done ((x, (k, t, a)) :: ns)) end. rewrite Happ. intros HS.
    destruct (IH (done ++ [(x, (k, t, a))]) c1 b1) as [(H1 & c' & b' & H2 & H3 & H4 & H5 & H6 & H7)|H1].
    + exact HS.
    + destruct Hok as [O1 O2]. split.
      * rewrite map_app. apply NoDup_app. split; [exact O1|]. split; [|apply NoDup_singleton]. intros y Hy Hy2. apply elem_of_list_singleton in Hy2. subst y. contradiction.
      * intros y k' t' a' Hy Hd. apply elem_of_app in Hy as [Hy|Hy]; [eapply O2; eassumption|]. apply elem_of_list_singleton in Hy. injection Hy as -> -> -> ->. destruct Hgood; [congruence|assumption].
    + exact HC1.
    + eapply has_add; [exact Hn|exact Hnew|exact Hn1].
    + congruence.
    + congruence.
    + left. split; [exact H1|]. exists c', b'. rewrite H7, Hi1. auto 10.
    + right. exact H1.
Qed.

(* ------------------------------------------------------------------ *)
(** ** Edges *)
Definition has_edges (done : list (N * N * EdgeAttrs)) (b : AGraph) : Prop :=
  (forall u v a, (u, v, a) ∈ done -> ag_edges b !! edge_key u v = Some (mkEdge u v a)) /\
  (forall k e, ag_edges b !! k = Some e -> (e_src e, e_tgt e, e_info e) ∈ done /\ k = edge_key (e_src e) (e_tgt e)).
Lemma lookup_snoc {A} (l : list A) x i y : (l ++ [x]) !! i = Some y -> l !! i = Some y \/ (i = List.length l /\ x = y).
Proof.
  intros H. apply lookup_app_Some in H as [H|[Hi H]]; [auto|]. apply list_lookup_singleton_Some in H as [H1 H2]. right. split; [lia|exact H2].
Qed.
Lemma pairs_app (done : list (N * N * EdgeAttrs)) u v a : (forall i j u v a u' v' b, done !! i = Some (u, v, a) -> done !! j = Some (u', v', b) -> same_pair u v u' v' -> i = j) ->
  (forall u' v' b, (u', v', b) ∈ done -> ~ same_pair u v u' v') ->
  forall i j w z c w' z' d, (done ++ [(u, v, a)]) !! i = Some (w, z, c) -> (done ++ [(u, v, a)]) !! j = Some (w', z', d) -> same_pair w z w' z' -> i = j.
Proof.
  intros H Hn i j w z c w' z' d Hi Hj HP. apply lookup_snoc in Hi as [Hi'|[Hi Hi']]; apply lookup_snoc in Hj as [Hj'|[Hj Hj']].
  - eapply H; eassumption.
  - injection Hj' as -> -> ->. exfalso. apply (Hn w z c); [eapply elem_of_list_lookup_2, Hi'|]. unfold same_pair in *. destruct HP as [[-> ->]|[-> ->]]; auto.
  - injection Hi' as -> -> ->. exfalso. apply (Hn w' z' d); [eapply elem_of_list_lookup_2, Hj'|exact HP].
  - congruence.
Qed.
#[local] Arguments edge_key : simpl never.
Lemma edges_phase ns js f es : Forall2 (edge_entry f) js es -> forall done c b,
  edges_ok ns done -> CInv c b -> has_nodes ns b -> has_edges done b ->
  (edges_ok ns (done ++ es) /\ exists c' b', rfold (edge_from_json f) js c = Ok c' /\ CInv c' b' /\ has_nodes ns b' /\ has_edges (done ++ es) b' /\ g_layer_ids c' = g_layer_ids c) \/
  (~ edges_ok ns (done ++ es) /\ rfold (edge_from_json f) js c = Throw).
Proof.
  induction 1 as [|j e js es He _ IH]; intros done c b Hok HC Hn Hed.
  - rewrite app_nil_r. left. split; [exact Hok|]. exists c, b. auto 10.
  - cbn [rfold]. destruct (edge_entry_step _ _ _ c He) as (i & Hi & ->). destruct e as [[u v] a]. unfold eentry_step. cbn [fst snd] in *.
    pose proof (CInv_step c b (GInsertEdge u v i) HC I) as Hs. cbn [g_step a_step] in Hs.
    destruct (g_insert_edge c u v i) as [[r c1]| |]; [|cbn in Hs; discriminate|contradiction].
    destruct Hs as (Hr & HC1 & Hi1). cbn [ab fst snd] in *. injection Hr as Hr. unfold a_insert_edge in *.
    assert (Hin : (u, v, a) ∈ done ++ (u, v, a) :: es) by (apply elem_of_app; right; left).
    destruct (decide (u <> v /\ a_known b u /\ a_known b v /\ ~ a_linked b u v)) as [(N1 & N2 & N3 & N4)|Hbad]; cbn [fst snd] in *; subst r; cbn [added rbind].
    + assert (Happ : done ++ (u, v, a) :: es = (done ++ [(u, v, a)]) ++ es) by (rewrite <- app_assoc; reflexivity). rewrite Happ in *.
      destruct (IH (done ++ [(u, v, a)]) c1 (a_add_edge b u v (default ea_default i))) as [(H1 & c' & b' & H2 & H3 & H4 & H5 & H6)|H1].
      * destruct Hok as [O1 O2]. split.
        -- apply pairs_app; [exact O1|]. intros u' v' b' Hd HP. apply N4. unfold a_linked. exists (mkEdge u' v' b'). rewrite (proj2 (edge_key_inj u v u' v') HP). apply Hed, Hd.
        -- intros u' v' b' Hd. apply elem_of_app in Hd as [Hd|Hd]; [eapply O2, Hd|]. apply elem_of_list_singleton in Hd. injection Hd as -> -> ->.
           split; [exact N1|]. split; apply (has_known ns b _ Hn); assumption.
      * exact HC1.
      * exact Hn.
      * rewrite <- Hi. destruct Hed as [E1 E2]. split.
        -- intros u' v' a' Hd. cbn [a_add_edge a_with_edges ag_edges]. apply elem_of_app in Hd as [Hd|Hd].
           ++ rewrite lookup_insert_ne; [apply E1, Hd|]. intros E. apply N4. unfold a_linked. rewrite E, (E1 _ _ _ Hd). eauto.
           ++ apply elem_of_list_singleton in Hd. injection Hd as -> -> ->. rewrite lookup_insert. reflexivity.
        -- intros k e'. cbn [a_add_edge a_with_edges ag_edges]. destruct (decide (edge_key u v = k)) as [<-|Hk].
           ++ rewrite lookup_insert. intros [= <-]. cbn [e_src e_tgt e_info]. split; [apply elem_of_app; right; left|reflexivity].
           ++ rewrite lookup_insert_ne by exact Hk. intros Ek. destruct (E2 _ _ Ek) as [F1 F2]. split; [apply elem_of_app; left; exact F1|exact F2].
      * left. split; [exact H1|]. exists c', b'. rewrite H6, Hi1. auto 10.
      * right. exact H1.
    + right. split; [|reflexivity]. intros [O1 O2]. apply Hbad. destruct (O2 u v a Hin) as (K1 & K2 & K3). split; [exact K1|].
      split; [apply (has_known ns b _ Hn), K2|]. split; [apply (has_known ns b _ Hn), K3|]. intros [e' Hl]. destruct Hed as [E1 E2]. destruct (E2 _ _ Hl) as [F1 F2].
      apply edge_key_inj in F2. apply elem_of_list_lookup in F1 as [n F1].
      assert (n = List.length done); [|apply lookup_lt_Some in F1; lia].
      eapply (O1 n (List.length done)); [|apply list_lookup_middle; reflexivity|].
      * rewrite lookup_app_l by (eapply lookup_lt_Some, F1). exact F1.
      * unfold same_pair in *. cbn in F2. destruct F2 as [[-> ->]|[-> ->]]; auto.
Qed.

(* ------------------------------------------------------------------ *)
(** ** Documents *)
Lemma node_from_mesh env f c j c' : node_from_json env f c j = Ok c' -> g_mesh c' = g_mesh c.
Proof.
  intros H. destruct (node_entry_inv _ _ _ _ _ H) as [[x [[k t] a]] He]. rewrite (node_entry_step _ _ _ _ c He) in H. cbn [nentry_step] in H. unfold added in H. destruct t as [t|].
  - destruct (g_emplace_prev c (lk_layer k) x t a) as [[[|] c1]| |] eqn:E; try discriminate. cbn in H. injection H as <-. eapply (mesh_of c (GEmplacePrev (lk_layer k) x t a)); [discriminate..|exact E].
  - destruct (g_emplace_node c (lk_layer k) x a) as [[|] c1] eqn:E; try discriminate. cbn in H. injection H as <-. eapply (mesh_of c (GEmplace (lk_layer k) x a)); [discriminate..|]. cbn. rewrite E. reflexivity.
Qed.
Lemma edge_from_mesh f c j c' : edge_from_json f c j = Ok c' -> g_mesh c' = g_mesh c.
Proof.
  intros H. destruct (edge_entry_inv _ _ _ _ H) as [[[u v] a] He]. destruct (edge_entry_step _ _ _ c He) as (i & _ & E). rewrite E in H. unfold eentry_step, added in H. cbn [fst snd] in H.
  destruct (g_insert_edge c u v i) as [[[|] c1]| |] eqn:E'; try discriminate. cbn in H. injection H as <-. eapply (mesh_of c (GInsertEdge u v i)); [discriminate..|exact E'].
Qed.
Lemma doc_version_read o v : doc_version o v <-> exists h, (if j_contains (JObject o) header_field then let! x := j_at (JObject o) header_field in jc_from jc_header x else Ok header_legacy) = Ok h /\ h_version h = v.
Proof.
  unfold doc_version, member_is. change (str "SPARK_DSG_header") with header_field. cbn [j_contains j_at]. destruct (obj_get o header_field) as [j|]; cbn [at_ rbind].
  - split; [intros [[[=] _]|(h & (j' & [= <-] & R) & ->)]; eauto|]. intros (h & R & <-). right. exists h. eauto.
  - split; [intros [[_ ->]|(h & (j' & [=] & _) & _)]; exists header_legacy; split; reflexivity|]. intros (h & [= <-] & <-). left. split; reflexivity.
Qed.
Lemma doc_mesh_read o m g : doc_mesh o m -> (if j_contains (JObject o) (str "mesh") then
    let! jm := j_at (JObject o) (str "mesh") in let! t := dump jm in let! m := mesh_from_text t in Ok (g_set_mesh g (Some m))
  else Ok g) = Ok (match m with Some m => g_set_mesh g (Some m) | None => g end).
Proof.
  intros [[E ->]|(m' & (j & E & R) & ->)]; cbn [j_contains j_at]; rewrite E; [reflexivity|]. cbn [at_ rbind]. destruct (dump j) as [t| |]; try discriminate. cbn [rbind] in *. rewrite R. reflexivity.
Qed.
Section Doc.
  Context (fsub : N -> N -> N) (p : Program) (o : list (list N * json)).
  Lemma doc_listed g : read_graph_json fsub p (JObject o) = Ok g -> exists ids ns es m, listed fsub p o ids ns es m.
  Proof.
    unfold read_graph_json. intros H.
    destruct (if j_contains (JObject o) header_field then _ else _) as [h| |] eqn:Eh; try discriminate. cbn [rbind] in H.
    assert (Hv : doc_version o (h_version h)) by (apply doc_version_read; exists h; split; [exact Eh|reflexivity]). clear Eh.
    cbn [j_at] in H. destruct (obj_get o (str "layer_ids")) as [jl|] eqn:El; [|discriminate]. cbn [at_ rbind] in H. destruct (jc_from jc_u64s jl) as [ids| |] eqn:Ei; try discriminate. cbn [rbind] in H.
    destruct (g_new ids) as [g0| |]; try discriminate. cbn [rbind] in H. destruct (obj_get o (str "nodes")) as [jn|] eqn:En; [|discriminate]. cbn [at_ rbind] in H.
    destruct (rfold _ (j_items jn) g0) as [g1| |] eqn:F1; try discriminate. cbn [rbind] in H. destruct (obj_get o (str "edges")) as [je|] eqn:Ee; [|discriminate]. cbn [at_ rbind] in H.
    destruct (rfold _ (j_items je) g1) as [g2| |] eqn:F2; try discriminate. cbn [rbind] in H.
    destruct (rfold_entries _ _ (node_entry_inv _ _) _ _ _ F1) as [ns Hns]. destruct (rfold_entries _ _ (edge_entry_inv _) _ _ _ F2) as [es Hes].
    assert (exists m, doc_mesh o m) as [m Hm].
    { cbn [j_contains] in H. destruct (obj_get o (str "mesh")) as [jm|] eqn:Em; [|exists None; left; auto]. cbn [at_ rbind] in H. destruct (dump jm) as [t| |] eqn:Ed; try discriminate. cbn [rbind] in H.
      destruct (mesh_from_text t) as [m| |] eqn:Et; try discriminate. exists (Some m). right. exists m. split; [|reflexivity]. exists jm. split; [exact Em|]. rewrite Ed. exact Et. }
    exists ids, ns, es, m. constructor; [exists jl; auto|exists (h_version h), jn; auto|exists je; auto|exact Hm].
  Qed.
  Lemma doc_read ids ns es m : listed fsub p o ids ns es m -> ids <> [] -> stamps_ok ids ns ->
    (nodes_ok ids ns /\ edges_ok ns es /\ exists g, read_graph_json fsub p (JObject o) = Ok g /\ reachable g /\ is_listed ids ns es m g) \/
    (~ (nodes_ok ids ns /\ edges_ok ns es) /\ read_graph_json fsub p (JObject o) = Throw).
  Proof.
    intros [(jl & El & Ei) (v & jn & Hv & En & Hns) (je & Ee & Hes) Hm] Hne (Hu & HS). unfold read_graph_json. apply doc_version_read in Hv as (h & -> & Ehv). cbn [rbind]. rewrite Ehv.
    cbn [j_at]. rewrite El. cbn [at_ rbind]. rewrite Ei. cbn [rbind].
    destruct (g_new ids) as [g0| |] eqn:G0; [|destruct ids; [contradiction|discriminate]..]. cbn [rbind].
    rewrite En. cbn [at_ rbind].
    assert (HC0 : CInv g0 (a_init ids)) by (split; [apply new_RepL; assumption|econstructor; eassumption]).
    assert (Hi0 : g_layer_ids g0 = ids) by (destruct ids; [contradiction|]; injection G0 as <-; reflexivity).
    assert (Hm0 : g_mesh g0 = None) by (destruct ids; [contradiction|]; injection G0 as <-; reflexivity).
    destruct (nodes_phase ids _ _ _ _ Hns [] g0 (a_init ids)) as [(H1 & c1 & b1 & F1 & HC1 & Hn1 & He1 & Hl1 & Hi1)|(H1 & F1)].
    - exact HS.
    - split; [constructor|]. intros x k t a Hx. inversion Hx.
    - exact HC0.
    - intros x d. cbn. rewrite lookup_empty. cbn. split; [discriminate|]. intros Hx. inversion Hx.
    - reflexivity.
    - reflexivity.
    - cbn [app] in *. rewrite F1. cbn [rbind]. rewrite Ee. cbn [at_ rbind].
      destruct (edges_phase ns _ _ _ Hes [] c1 b1) as [(H2 & c2 & b2 & F2 & HC2 & Hn2 & He2 & Hi2)|(H2 & F2)].
      + split; [intros i j u w a u' w' b H; discriminate|]. intros u w a Hx. inversion Hx.
      + exact HC1.
      + exact Hn1.
      + unfold has_edges. rewrite He1. split; [intros u w a Hx; inversion Hx|]. intros k e. rewrite lookup_empty. discriminate.
      + cbn [app] in *. rewrite F2. cbn [rbind]. pose proof (doc_mesh_read o m c2 Hm) as DM. cbn [j_at] in DM. rewrite DM. left. split; [exact H1|]. split; [exact H2|].
        assert (Hmesh : g_mesh c2 = None) by (rewrite (rfold_mesh _ _ (edge_from_mesh _) _ _ F2), (rfold_mesh _ _ (node_from_mesh _ _) _ _ F1); exact Hm0).
        set (g := match m with Some m => g_set_mesh c2 (Some m) | None => c2 end).
        assert (HCg : CInv g b2).
        { unfold g. destruct m as [m|]; [|exact HC2]. pose proof (CInv_step c2 b2 (GSetMesh (Some m)) HC2 I) as Hs. cbn in Hs. apply Hs. }
        destruct HCg as [[HRg HLg] Hrg]. exists g. split; [reflexivity|]. split; [exact Hrg|]. split; [unfold g; destruct m; cbn; congruence|]. split.
        { intros x d. rewrite (obs_data g b2 HRg). apply Hn2. }
        split; [intros u w a Hx; rewrite (obs_edge g b2 HRg); apply He2, Hx|]. split.
        { intros u w e Hx. rewrite (obs_edge g b2 HRg) in Hx. apply He2 in Hx as [X1 X2]. split; [exact X1|]. apply edge_key_inj in X2. exact X2. }
        unfold g. destruct m; [reflexivity|exact Hmesh].
      + rewrite F2. right. split; [intros [_ H]; apply H2, H|reflexivity].
    - cbn [app] in *. rewrite F1. right. split; [intros [H _]; apply H1, H|reflexivity].
  Qed.
End Doc.
