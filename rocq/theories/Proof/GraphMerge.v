(** Simulation of mergeNodes. *)
From Coq Require Import NArith ZArith Bool List Lia.
From stdpp Require Import base list gmap fin_maps tactics.
From Verif.Model Require Import Types Mesh Attrs Node EdgeContainer SLayer DLayer Graph.
From Verif.Spec Require Import AbstractGraph GraphHistory.
From Verif.Proof Require Import Arith Keys SLayerP SLayerMerge DLayerP DLayerOps GraphRep GraphEdges GraphAttrs GraphNodes GraphRemove.
Local Open Scope N_scope.

Lemma edges_merged_eq from to m : edges_merged from to m = merge_edges from to m.
Proof. reflexivity. Qed.

Lemma lookup_merge_eq from to m u v : em_wf m -> from <> to -> u <> from -> v <> from ->
  merge_edges from to m !! edge_key u v =
  match m !! edge_key u v with
  | Some e => Some e
  | None =>
    if decide (u = v) then None
    else if decide (u = to) then (fun e => mkEdge to v (e_info e)) <$> m !! edge_key from v
    else if decide (v = to) then (fun e => mkEdge to u (e_info e)) <$> m !! edge_key from u
    else None
  end.
Proof.
  intros Hm Hne Hu Hv.
  assert (Ht : ~ touches from (edge_key u v)) by (rewrite touches_edge_key; intros [?|?]; congruence).
  destruct (m !! edge_key u v) as [e|] eqn:E; [apply lookup_merge_edges_keep; assumption|].
  destruct (decide (u = v)) as [->|Huv].
  - apply lookup_merge_edges_none; try assumption. intros t Ht1 _ Heq. symmetry in Heq. apply edge_key_self in Heq as [? ?]. congruence.
  - destruct (decide (u = to)) as [->|Hut]; [apply lookup_merge_edges_new; auto|].
    destruct (decide (v = to)) as [->|Hvt].
    + rewrite edge_key_comm in *. apply lookup_merge_edges_new; auto.
    + rewrite lookup_merge_edges_other; [assumption|assumption|]. rewrite touches_edge_key. intros [?|?]; congruence.
Qed.

Lemma Rep_em_wf g a : Rep g a -> em_wf (ag_edges a).
Proof. intros HR. split; intros k e He; apply (rp_norm _ _ HR _ _ He). Qed.

(** One rewiring step. *)
Lemma rewire_ok g a from to t k kt : Rep g a -> g_lookup g !! from = Some k -> g_lookup g !! to = Some k ->
  from <> to -> g_lookup g !! t = Some kt -> kt <> k -> a_linked a from t ->
  exists g' E', g_rewire_interlayer g from to t = Ok g' /\ g_frame g g' /\ Rep g' (a_with_edges a E') /\
    merge_edges from to E' = merge_edges from to (ag_edges a) /\
    (forall v, is_Some (E' !! edge_key from v) <-> v <> t /\ is_Some (ag_edges a !! edge_key from v)).
Proof.
  intros HR Hf Ht Hne Htk Hkne Hl. unfold g_rewire_interlayer.
  destruct (N.eqb_spec from to); [contradiction|]. rewrite Hf. cbn [at_ rbind].
  rewrite (has_edge_keys_ok _ _ _ _ HR). cbn [rbind]. rewrite Ht, Htk.
  assert (Hfk : k <> kt) by congruence.
  assert (Htf : t <> from) by congruence. assert (Htt : t <> to) by congruence.
  pose proof (Rep_em_wf g a HR) as Hem.
  assert (Hdel : forall v, is_Some (delete (edge_key from t) (ag_edges a) !! edge_key from v) <->
                    v <> t /\ is_Some (ag_edges a !! edge_key from v)).
  { intros v. rewrite is_Some_delete, edge_key_eq_l. intuition congruence. }
  assert (Hdm : em_wf (delete (edge_key from t) (ag_edges a))).
  { split; intros k0 e; rewrite lookup_delete_Some; intros [_ He]; eapply Hem; eassumption. }
  case_bool_decide as Hlt.
  - destruct (remove_interlayer_keys_ok g a from t k kt HR Hf Htk Hfk Hl) as (g' & -> & HF & HR').
    exists g', (delete (edge_key from t) (ag_edges a)). split; [reflexivity|]. split; [assumption|].
    split; [exact HR'|]. split; [|exact Hdel].
    apply merge_edges_ext; try assumption.
    + intros k0 H1 H2. apply lookup_delete_ne. intros <-. apply H1, touches_edge_key. auto.
    + intros v Hv1 Hv2. rewrite lookup_delete_ne by (rewrite edge_key_inj; intuition congruence).
      destruct (ag_edges a !! edge_key to v) eqn:E; [reflexivity|].
      rewrite lookup_delete_ne; [reflexivity|]. rewrite edge_key_eq_l. intros <-. destruct Hlt; congruence.
  - destruct (g_remove_ancestry_loc g from t k kt (Rep_GLoc _ _ HR) Hf Htk ltac:(congruence)) as (g1 & -> & HM1 & HF1 & HL1 & HE1).
    cbn [rbind].
    set (c := g_ec g (pair_dyn k kt)).
    assert (Hin : is_Some (ec_edges c !! edge_key from t)).
    { unfold c. rewrite <- (Rep_pair_edge g a from t k kt HR Hf Htk Hfk). exact Hl. }
    destruct Hl as [e He]. assert (Hec : ec_edges c !! edge_key from t = Some e).
    { unfold c. rewrite <- (Rep_pair_edge g a from t k kt HR Hf Htk Hfk). exact He. }
    pose proof (rp_ec _ _ HR (pair_dyn k kt) : ec_wf c) as Hcwf.
    pose proof (ec_remove_ok (ec_touch c from t) from t (ec_wf_touch _ _ _ Hcwf)) as Hrm.
    rewrite ec_touch_edges, ec_touch_status in Hrm. specialize (Hrm Hin).
    set (c' := mkEC _ _ _) in Hrm.
    (* the intermediate graph with the old edge removed *)
    set (gm := g_with_pair_ec g1 k kt c').
    assert (HRm : Rep gm (a_del_edge a from t)).
    { eapply (Rep_del_inter g _ a from t k kt HR Hf Htk Hfk).
      - intros k0 Hk0. unfold gm. rewrite g_part_with_pair. apply HM1, Hk0.
      - eapply g_frame_trans; [exact HF1|apply g_frame_with_pair].
      - apply DInv_with_pair, HL1.
      - intros dyn. unfold gm. rewrite g_ec_with_pair, HE1.
        destruct (Bool.eqb dyn (pair_dyn k kt)) eqn:Eb; [|reflexivity]. apply eqb_prop in Eb. subst. reflexivity.
      - intros dyn. unfold gm. rewrite g_ec_with_pair, HE1. destruct (Bool.eqb _ _); [|apply HR].
        pose proof (ec_wf_remove (ec_touch c from t) (edge_key from t) (ec_wf_touch _ _ _ Hcwf) (edge_key_norm _ _)) as Hw.
        rewrite ec_touch_edges, ec_touch_status in Hw. exact Hw. }
    assert (Ht1 : g_lookup g1 !! to = Some k) by (rewrite (gf_lookup _ _ HF1); assumption).
    assert (Htk1 : g_lookup g1 !! t = Some kt) by (rewrite (gf_lookup _ _ HF1); assumption).
    destruct (g_add_ancestry_loc g1 to t k kt HL1 Ht1 Htk1 ltac:(congruence)) as (g2 & -> & HM2 & HF2 & HL2 & HE2).
    cbn [rbind]. rewrite g_pair_ec_eq, HE2, HE1. fold c. unfold ec_find. rewrite Hec.
    rewrite Hrm. cbn [rbind].
    eexists _, (<[edge_key to t := mkEdge to t (e_info e)]> (delete (edge_key from t) (ag_edges a))).
    split; [reflexivity|].
    assert (HF : g_frame g1 (g_with_pair_ec (g_with_pair_ec g2 k kt c') k kt
        (ec_insert (g_pair_ec (g_with_pair_ec g2 k kt c') k kt) to t (Some (e_info e))))).
    { eapply g_frame_trans; [exact HF2|]. eapply g_frame_trans; apply g_frame_with_pair. }
    split; [eapply g_frame_trans; eassumption|]. split; [|split].
    + change (a_with_edges a (<[edge_key to t:=mkEdge to t (e_info e)]> (delete (edge_key from t) (ag_edges a))))
        with (a_add_edge (a_del_edge a from t) to t (default ea_default (Some (e_info e)))).
      eapply (Rep_add_inter gm _ (a_del_edge a from t) to t k kt (Some (e_info e)) HRm).
      * unfold gm. rewrite g_lookup_with_pair. assumption.
      * unfold gm. rewrite g_lookup_with_pair. assumption.
      * assumption.
      * unfold a_linked; cbn. rewrite is_Some_delete. intros [_ Hx]. exact (Hlt Hx).
      * intros k0 Hk0. unfold gm. rewrite !g_part_with_pair. apply HM2, Hk0.
      * split; unfold gm.
        -- unfold g_with_pair_ec. destruct (lk_dynamic k || lk_dynamic kt); cbn; apply HF2.
        -- unfold g_with_pair_ec. destruct (lk_dynamic k || lk_dynamic kt); cbn; apply HF2.
        -- rewrite !g_lookup_with_pair. apply HF2.
        -- intros l. unfold g_with_pair_ec. destruct (lk_dynamic k || lk_dynamic kt); cbn; apply HF2.
        -- intros l p. unfold g_with_pair_ec. destruct (lk_dynamic k || lk_dynamic kt); cbn; apply HF2.
      * apply DInv_with_pair, DInv_with_pair, HL2.
      * intros dyn. unfold gm. rewrite !g_pair_ec_eq, !g_ec_with_pair, HE2, eqb_reflx.
        destruct (Bool.eqb dyn (pair_dyn k kt)); [reflexivity|apply HE2].
    + apply merge_edges_ext; try assumption.
      * split; intros k0 e0; rewrite lookup_insert_Some; (intros [[<- <-]|[_ H0]]; [cbn; congruence|eapply Hdm; eassumption]).
      * intros k0 H1 H2. rewrite lookup_insert_ne, lookup_delete_ne; [reflexivity| |].
        -- intros <-. apply H1, touches_edge_key. auto.
        -- intros <-. apply H2, touches_edge_key. auto.
      * intros v Hv1 Hv2. destruct (decide (v = t)) as [->|Hvt].
        -- rewrite lookup_insert. replace (ag_edges a !! edge_key to t) with (@None Edge).
           2:{ symmetry. apply eq_None_not_Some. exact Hlt. }
           rewrite He. reflexivity.
        -- assert (edge_key to t <> edge_key to v) by (rewrite edge_key_eq_l; congruence).
           rewrite lookup_insert_ne by assumption.
           rewrite lookup_delete_ne by (rewrite edge_key_inj; intuition congruence).
           destruct (ag_edges a !! edge_key to v); [reflexivity|].
           rewrite lookup_insert_ne by (rewrite edge_key_inj; intuition congruence).
           rewrite lookup_delete_ne by (rewrite edge_key_eq_l; congruence). reflexivity.
    + intros v. rewrite is_Some_insert, Hdel. split; [|tauto].
      intros [Heq|?]; [|assumption]. rewrite edge_key_inj in Heq. exfalso. intuition congruence.
Qed.

Lemma rewire_loop from to k ts : forall g a, Rep g a -> g_lookup g !! from = Some k -> g_lookup g !! to = Some k ->
  from <> to -> NoDup ts -> (forall t, t ∈ ts -> a_linked a from t /\ exists kt, g_lookup g !! t = Some kt /\ kt <> k) ->
  exists g' E', rfold (fun g t => g_rewire_interlayer g from to t) ts g = Ok g' /\ g_frame g g' /\
    Rep g' (a_with_edges a E') /\
    merge_edges from to E' = merge_edges from to (ag_edges a) /\
    (forall v, is_Some (E' !! edge_key from v) <-> v ∉ ts /\ is_Some (ag_edges a !! edge_key from v)).
Proof.
  induction ts as [|t r IH]; intros g a HR Hf Ht Hne Hnd Hts; cbn.
  - exists g, (ag_edges a). split; [reflexivity|]. split; [apply g_frame_refl|]. split; [destruct a; exact HR|].
    split; [reflexivity|]. intros v. split; [|tauto]. intros ?. split; [intros Hx; inversion Hx|assumption].
  - apply list.NoDup_cons in Hnd as [Hnin Hnd].
    destruct (Hts t) as (Hl & kt & Hkt & Hkne); [left|].
    destruct (rewire_ok g a from to t k kt HR Hf Ht Hne Hkt Hkne Hl) as (g1 & E1 & -> & HF1 & HR1 & HM1 & HE1).
    cbn [rbind].
    destruct (IH g1 _ HR1) as (g2 & E2 & -> & HF2 & HR2 & HM2 & HE2); try assumption.
    + rewrite (gf_lookup _ _ HF1). assumption.
    + rewrite (gf_lookup _ _ HF1). assumption.
    + intros v Hv. destruct (Hts v) as (Hlv & Hkv); [right; assumption|]. rewrite (gf_lookup _ _ HF1). split; [|assumption].
      unfold a_linked; cbn. apply HE1. split; [intros ->; contradiction|exact Hlv].
    + exists g2, E2. split; [reflexivity|]. split; [eapply g_frame_trans; eassumption|]. split; [exact HR2|].
      split; [cbn in HM2; congruence|]. intros v. rewrite HE2. cbn. rewrite HE1, not_elem_of_cons. tauto.
Qed.

(** The final step: merging inside the layer. *)
Lemma Rep_merge_node g a from to k L L' nf : Rep g a -> g_lookup g !! from = Some k -> g_lookup g !! to = Some k -> from <> to ->
  lk_dynamic k = false -> g_part g k = Some L -> sl_nodes L !! from = Some nf ->
  (forall v, a_linked a from v -> g_lookup g !! v = Some k) ->
  sl_merge_nodes L from to = Ok (true, L') ->
  Rep (g_with_lookup (g_set_layer g (lk_layer k) L') (delete from (g_lookup g)))
    (mkAG (ag_layers a) (ag_dyn a) (delete from (ag_nodes a)) (merge_edges from to (ag_edges a))).
Proof.
  intros HR Hf Ht Hne Hst HL Hn Hin Hmerge.
  pose proof (rp_canon _ _ HR _ _ Hf) as Hk. destruct (rp_part _ _ HR _ _ Hk HL) as (Hwf0 & Hid0 & Hun).
  assert (HtoL : is_Some (sl_nodes L !! to)) by (eapply Rep_in_part; eassumption).
  destruct (sl_merge_nodes_ok L from to nf Hwf0 Hne Hn HtoL) as (L0 & M1 & Hwf & Hid & _ & Hedges & Hfrom & Hdom & Hnodes).
  rewrite M1 in Hmerge. injection Hmerge as ->.
  assert (Hkey : k = key_static (lk_layer k)) by (destruct k; unfold canon in *; cbn in *; subst; rewrite Hk; reflexivity).
  assert (Hlay : g_layers g !! lk_layer k = Some L) by (unfold g_part in HL; rewrite Hst in HL; exact HL).
  set (g' := g_with_lookup (g_set_layer g (lk_layer k) L') (delete from (g_lookup g))).
  assert (HP : part_set k L' g g').
  { rewrite Hkey at 1. exact (g_part_set_layer g (lk_layer k) L'). }
  assert (HinL : forall v, g_lookup g !! v = Some k <-> is_Some (sl_nodes L !! v)).
  { intros v. rewrite (rp_home _ _ HR _ _ Hk), HL. split; [intros (? & [= <-] & ?); assumption|eauto]. }
  pose proof (Rep_em_wf g a HR) as Hem. pose proof (sl_em_wf L Hwf0) as HemL.
  (* edges inside the partition *)
  assert (Hintra : forall u v, u <> from -> v <> from -> g_lookup g !! u = Some k -> g_lookup g !! v = Some k ->
     merge_edges from to (ag_edges a) !! edge_key u v = ec_edges (sl_edges L') !! edge_key u v).
  { intros u v Hu Hv Hku Hkv. rewrite Hedges, !lookup_merge_eq by assumption.
    rewrite (Rep_part_edge g a k L u v HR Hk HL Hku Hkv), (Rep_part_edge g a k L from v HR Hk HL Hf Hkv),
      (Rep_part_edge g a k L from u HR Hk HL Hf Hku). reflexivity. }
  assert (Hcross : forall u v, u <> from -> v <> from -> ~ (g_lookup g !! u = Some k /\ g_lookup g !! v = Some k) ->
     merge_edges from to (ag_edges a) !! edge_key u v = ag_edges a !! edge_key u v).
  { intros u v Hu Hv Hnot. rewrite lookup_merge_eq by assumption.
    destruct (ag_edges a !! edge_key u v) eqn:E; [reflexivity|].
    destruct (decide (u = v)); [reflexivity|].
    assert (Hno : forall w, g_lookup g !! w <> Some k -> ag_edges a !! edge_key from w = None).
    { intros w Hw. apply eq_None_not_Some. intros Hl. apply Hw, Hin, Hl. }
    destruct (decide (u = to)) as [->|]; [rewrite Hno; [reflexivity|tauto]|].
    destruct (decide (v = to)) as [->|]; [rewrite Hno; [reflexivity|tauto]|]. reflexivity. }
  assert (Hgone : forall v, merge_edges from to (ag_edges a) !! edge_key from v = None).
  { intros v. apply lookup_merge_edges_touch; try assumption. apply touches_edge_key. auto. }
  assert (HE : forall dyn, g_ec g' dyn = g_ec g dyn) by (intros []; reflexivity).
  assert (Hlk : g_lookup g' = delete from (g_lookup g)) by reflexivity.
  split; cbn [ag_layers ag_dyn ag_nodes ag_edges].
  - intros l. cbn. rewrite <- (rp_layers _ _ HR). destruct (decide (lk_layer k = l)) as [<-|].
    + rewrite lookup_insert, Hlay. split; eauto.
    + rewrite lookup_insert_ne by assumption. reflexivity.
  - exact (rp_dyn _ _ HR).
  - exact (rp_dinv _ _ HR).
  - intros k0 L0 Hk0. rewrite (HP k0 Hk0). destruct (decide (k0 = k)) as [->|].
    + intros [= <-]. split; [assumption|]. rewrite Hid. auto.
    + apply HR. assumption.
  - intros y. unfold a_key; cbn. destruct (decide (from = y)) as [<-|Hy].
    + rewrite !lookup_delete. reflexivity.
    + rewrite !lookup_delete_ne by assumption. apply HR.
  - intros y k0. rewrite Hlk, lookup_delete_Some. intros [_ H]. eapply HR; eassumption.
  - intros y k0 Hk0. rewrite (HP k0 Hk0), Hlk. destruct (decide (y = from)) as [->|Hy].
    + rewrite lookup_delete. split; [discriminate|]. intros (L0 & HL0 & Hs). exfalso.
      destruct (decide (k0 = k)) as [->|Hk0ne].
      * injection HL0 as <-. rewrite Hfrom in Hs. destruct Hs; discriminate.
      * assert (g_lookup g !! from = Some k0) by (apply (rp_home _ _ HR _ _ Hk0); eauto). congruence.
    + rewrite lookup_delete_ne by congruence. rewrite (rp_home _ _ HR _ _ Hk0). destruct (decide (k0 = k)) as [->|].
      * rewrite HL. split; intros (L0 & [= <-] & Hs); eexists; (split; [reflexivity|]); apply (Hdom y Hy); exact Hs.
      * reflexivity.
  - intros y k0 L0 n0 Hk0. rewrite (HP k0 Hk0). destruct (decide (k0 = k)) as [->|Hkne].
    + intros [= <-] Hn0. assert (Hy : y <> from) by congruence.
      assert (Hs : is_Some (sl_nodes L !! y)) by (apply (Hdom y Hy); eauto). destruct Hs as [nd Hnd].
      destruct (Hnodes _ _ Hy Hnd) as (nd' & Hnd' & Hsame & Hnf & Hfor). assert (nd' = n0) as -> by congruence. clear Hnd'.
      destruct (rp_node _ _ HR _ _ _ _ Hk HL Hnd) as [(an & A1 & A2 & A3 & A4) Hlinks].
      assert (Hyk : g_lookup g !! y = Some k) by (apply HinL; eauto).
      destruct Hsame as (S1 & S2 & S3 & S4 & S5 & S6).
      split.
      * exists an. cbn. rewrite lookup_delete_ne by congruence. split; [assumption|]. split; [assumption|]. split; congruence.
      * intros r v. unfold a_linked; cbn [ag_edges]. rewrite Hlk.
        destruct (decide (v = from)) as [->|Hv].
        { rewrite edge_key_comm, Hgone, lookup_delete. split; [|intros [[? ?] _]; discriminate].
          intros Hx. exfalso. destruct r; cbn in Hx.
          - rewrite <- S6 in Hx. apply (Hlinks RChild from) in Hx as (_ & kv & Hkv & Hr). assert (kv = k) by congruence. subst. rewrite rel_refl in Hr; discriminate.
          - rewrite <- S5 in Hx. apply (Hlinks RParent from) in Hx as (_ & kv & Hkv & Hr). assert (kv = k) by congruence. subst. rewrite rel_refl in Hr; discriminate.
          - contradiction. }
        rewrite lookup_delete_ne by congruence.
        destruct (decide (g_lookup g !! v = Some k)) as [Hvk|Hvk].
        { rewrite (Hintra y v Hy Hv Hyk Hvk). rewrite Hvk. split.
          - intros Hx. destruct r; cbn in Hx.
            + rewrite <- S6 in Hx. apply (Hlinks RChild v) in Hx as (_ & kv & Hkv & Hr). assert (kv = k) by congruence. subst. rewrite rel_refl in Hr; discriminate.
            + rewrite <- S5 in Hx. apply (Hlinks RParent v) in Hx as (_ & kv & Hkv & Hr). assert (kv = k) by congruence. subst. rewrite rel_refl in Hr; discriminate.
            + split; [|exists k; split; [reflexivity|apply rel_refl]].
              apply (slw_adj _ Hwf _ _ _ Hn0); [apply (Hdom v Hv), HinL; assumption|exact Hx].
          - intros [Hx (kv & [= <-] & Hr)]. rewrite rel_refl in Hr. subst r. cbn.
            apply (slw_adj _ Hwf _ _ _ Hn0); [apply (Hdom v Hv), HinL; assumption|exact Hx]. }
        rewrite (Hcross y v Hy Hv) by tauto.
        rewrite <- (Hlinks r v). destruct r; cbn.
        -- rewrite <- S6. reflexivity.
        -- rewrite <- S5. reflexivity.
        -- apply Hfor. apply eq_None_not_Some. rewrite <- HinL. assumption.
    + intros HL0 Hn0. destruct (rp_node _ _ HR _ _ _ _ Hk0 HL0 Hn0) as [Habs Hlinks].
      assert (Hy : g_lookup g !! y = Some k0) by (apply (rp_home _ _ HR _ _ Hk0); eauto).
      assert (Hyf : y <> from) by congruence.
      split.
      * cbn. rewrite lookup_delete_ne by congruence. exact Habs.
      * intros r v. rewrite Hlinks. unfold a_linked; cbn [ag_edges]. rewrite Hlk.
        destruct (decide (v = from)) as [->|Hv].
        { rewrite lookup_delete. split; [|intros (_ & kv & ? & _); discriminate].
          intros [Hl _]. exfalso. assert (Hl' : a_linked a from y) by (apply a_linked_comm; exact Hl). apply Hin in Hl'. congruence. }
        rewrite lookup_delete_ne by congruence. rewrite (Hcross y v Hyf Hv); [reflexivity|]. intros [? _]. congruence.
  - intros k0 e He. destruct (decide (touches from k0)) as [Htc|Htc].
    { rewrite lookup_merge_edges_touch in He by assumption. discriminate. }
    destruct (ag_edges a !! k0) as [e0|] eqn:E0.
    { rewrite (lookup_merge_edges_keep from to (ag_edges a) k0 e0 Htc E0) in He. injection He as <-. apply (rp_norm _ _ HR _ _ E0). }
    assert (Hdec : (exists t, t <> to /\ t <> from /\ k0 = edge_key to t) \/ ~ (exists t, t <> to /\ t <> from /\ k0 = edge_key to t)).
    { destruct (decide (k0 = edge_key to (key_other to k0) /\ key_other to k0 <> to /\ key_other to k0 <> from)) as [(D1 & D2 & D3)|D].
      - left. eauto.
      - right. intros (t & T1 & T2 & ->). apply D. change (key_other to (edge_key to t)) with (other_end to (edge_key to t)).
        rewrite other_end_key. auto. }
    destruct Hdec as [(t & T1 & T2 & ->)|Hnt].
    + rewrite lookup_merge_edges_new in He by assumption. destruct (ag_edges a !! edge_key from t); [|discriminate].
      injection He as <-. cbn. split; [reflexivity|congruence].
    + rewrite lookup_merge_edges_none in He; try assumption; [discriminate|]. intros t T1 T2 ->. apply Hnt. eauto.
  - intros u v. unfold g_edge_at. rewrite Hlk.
    destruct (decide (u = from)) as [->|Hu]; [rewrite Hgone, lookup_delete; reflexivity|].
    destruct (decide (v = from)) as [->|Hv].
    { rewrite edge_key_comm, Hgone, lookup_delete. destruct (delete from (g_lookup g) !! u); reflexivity. }
    rewrite !lookup_delete_ne by congruence.
    destruct (decide (g_lookup g !! u = Some k /\ g_lookup g !! v = Some k)) as [[Hku Hkv]|Hnot].
    + rewrite (Hintra u v Hu Hv Hku Hkv), Hku, Hkv. rewrite decide_True by reflexivity.
      rewrite (HP k Hk), decide_True by reflexivity. reflexivity.
    + rewrite (Hcross u v Hu Hv Hnot), (rp_edge _ _ HR). unfold g_edge_at.
      destruct (g_lookup g !! u) as [ku|] eqn:Eu; [|reflexivity]. destruct (g_lookup g !! v) as [kv|] eqn:Ev; [|reflexivity].
      destruct (decide (ku = kv)) as [->|].
      * rewrite (HP kv (rp_canon _ _ HR _ _ Ev)). rewrite decide_False; [reflexivity|]. intros ->. apply Hnot. auto.
      * rewrite HE. reflexivity.
  - intros dyn. rewrite HE. apply HR.
  - intros dyn k0 e. rewrite HE. intros He. destruct (rp_inter _ _ HR _ _ _ He) as (ku & kv & Hu & Hv & Hkne & Hpd).
    pose proof (ecw_key _ (rp_ec _ _ HR dyn) _ _ He) as Hek.
    assert (Hl : a_linked a (e_src e) (e_tgt e)).
    { unfold a_linked. rewrite (Rep_pair_edge g a _ _ ku kv HR Hu Hv Hkne), Hpd, <- Hek. eauto. }
    assert (e_src e <> from) by (intros Heq; rewrite Heq in *; apply Hin in Hl; congruence).
    assert (e_tgt e <> from) by (intros Heq; rewrite Heq in *; apply a_linked_comm, Hin in Hl; congruence).
    exists ku, kv. rewrite Hlk. rewrite !lookup_delete_ne by congruence. auto.
Qed.

Lemma merge_nodes_sim g a from to : Rep g a -> clean a (GMergeNodes from to) ->
  sim a (g_merge_nodes g from to) (ab (a_merge_nodes a from to)).
Proof.
  intros HR [Hcross Hstat]. unfold g_merge_nodes, a_merge_nodes. rewrite <- !(rp_lookup _ _ HR) in *.
  destruct (g_lookup g !! from) as [fk|] eqn:Hf; [|cbn; auto].
  destruct (g_lookup g !! to) as [tk|] eqn:Ht; [|cbn; auto].
  pose proof (rp_canon _ _ HR _ _ Hf) as Hk. pose proof (rp_canon _ _ HR _ _ Ht) as Hk'.
  destruct (N.eqb_spec from to) as [->|Hne]; [rewrite decide_False by tauto; cbn; auto|].
  destruct (key_eqb fk tk) eqn:Ek; cbn [negb].
  2:{ apply key_eqb_false in Ek; try assumption. rewrite decide_False by tauto. cbn. auto. }
  apply key_eqb_true in Ek; try assumption. subst tk. rewrite decide_True by auto.
  assert (Hst : lk_dynamic fk = false) by (eapply Hstat; auto).
  destruct (Rep_home _ _ _ _ HR Hf) as (_ & _ & L & n & HL & Hn & Hwf & Hid & Hok).
  assert (Hlay : forall g0 L0, g_part g0 fk = Some L0 -> g_layers g0 !! lk_layer fk = Some L0).
  { intros g0 L0. unfold g_part. rewrite Hst. auto. }
  rewrite (Hlay _ _ HL). cbn [deref rbind]. rewrite Hn. cbn [at_ rbind].
  destruct (rewire_loop from to fk (elements (n_par n)) g a HR Hf Ht Hne (NoDup_elements _)) as (g1 & E1 & -> & HF1 & HR1 & HM1 & HE1).
  { intros t Hin. apply elem_of_elements in Hin. apply (no_links _ _ _ _ _ Hok RParent t) in Hin as (Hl & kt & Hkt & Hr).
    split; [assumption|]. exists kt. split; [assumption|]. intros ->. rewrite rel_refl in Hr. discriminate. }
  cbn [rbind].
  assert (Hf1 : g_lookup g1 !! from = Some fk) by (rewrite (gf_lookup _ _ HF1); assumption).
  assert (Ht1 : g_lookup g1 !! to = Some fk) by (rewrite (gf_lookup _ _ HF1); assumption).
  destruct (Rep_home _ _ _ _ HR1 Hf1) as (_ & _ & L1 & n1 & HL1 & Hn1 & Hwf1 & Hid1 & Hok1).
  rewrite (Hlay _ _ HL1). cbn [deref rbind]. rewrite Hn1. cbn [deref rbind].
  destruct (rewire_loop from to fk (elements (n_chd n1)) g1 _ HR1 Hf1 Ht1 Hne (NoDup_elements _)) as (g2 & E2 & -> & HF2 & HR2 & HM2 & HE2).
  { intros t Hin. apply elem_of_elements in Hin. apply (no_links _ _ _ _ _ Hok1 RChild t) in Hin as (Hl & kt & Hkt & Hr).
    split; [assumption|]. exists kt. split; [assumption|]. intros ->. rewrite rel_refl in Hr. discriminate. }
  cbn [rbind]. cbn [ag_edges a_with_edges] in *.
  change (a_with_edges (a_with_edges a E1) E2) with (a_with_edges a E2) in HR2.
  assert (Hlk2 : g_lookup g2 = g_lookup g) by (rewrite (gf_lookup _ _ HF2); apply HF1).
  assert (Hf2 : g_lookup g2 !! from = Some fk) by (rewrite Hlk2; assumption).
  assert (Ht2 : g_lookup g2 !! to = Some fk) by (rewrite Hlk2; assumption).
  destruct (Rep_home _ _ _ _ HR2 Hf2) as (_ & _ & L2 & n2 & HL2 & Hn2 & Hwf2 & Hid2 & Hok2).
  rewrite (Hlay _ _ HL2). cbn [deref rbind].
  assert (HtoL : is_Some (sl_nodes L2 !! to)) by (eapply Rep_in_part; eassumption).
  destruct (sl_merge_nodes_ok L2 from to n2 Hwf2 Hne Hn2 HtoL) as (L3 & M1 & _).
  rewrite M1. cbn [rbind sim ab fst snd]. split; [reflexivity|].
  rewrite edges_merged_eq, <- HM1, <- HM2.
  refine (Rep_merge_node g2 (a_with_edges a E2) from to fk L2 L3 n2 HR2 Hf2 Ht2 Hne Hst HL2 Hn2 _ M1).
  intros v Hl. unfold a_linked in Hl; cbn in Hl. apply HE2 in Hl as [Hc2 Hl]. apply HE1 in Hl as [Hc1 Hl].
  rewrite Hlk2.
  destruct (Rep_linked_known _ _ _ _ HR Hl) as (_ & kx & kv & _ & Hkv).
  destruct (rel fk kv) eqn:Er.
  - exfalso. apply Hc2, elem_of_elements, (no_links _ _ _ _ _ Hok1 RChild v). rewrite (gf_lookup _ _ HF1).
    split; [|eauto]. unfold a_linked; cbn. apply HE1. auto.
  - exfalso. apply Hc1, elem_of_elements, (no_links _ _ _ _ _ Hok RParent v). split; [exact Hl|eauto].
  - rewrite Hkv. f_equal. eapply Hcross; try eassumption; rewrite <- (rp_lookup _ _ HR); assumption.
Qed.
