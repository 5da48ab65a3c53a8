(** A mirror over histories and rounds of synchronisation. *)
From Coq Require Import NArith ZArith Bool List Lia.
From stdpp Require Import base list gmap fin_maps tactics.
From Verif.Model Require Import Types Mesh Attrs Node EdgeContainer SLayer DLayer Graph.
From Verif.Spec Require Import AbstractGraph GraphHistory GraphObs MirrorSpec.
From Verif.Proof Require Import Arith Keys SLayerP DLayerP GraphRep GraphEdges GraphSim GraphObsP QueryP StaleP StaleP2 MirrorP MirrorP2 MirrorP3.
Local Open Scope N_scope.
#[local] Arguments edge_key : simpl never.

Lemma run_Inv g0 os : forall g outs g1, reachable g -> allowed_run g os -> plain_run g os -> Inv g0 g -> g_run g os = Some (outs, g1) -> Inv g0 g1.
Proof.
  induction os as [|o r IH]; intros g outs g1 Hr Ha Hp HI; cbn; [intros [= _ <-]; exact HI|]. destruct Ha as [Ha1 Ha2], Hp as [Hp1 Hp2].
  destruct (g_step g o) as [[b g2]| |] eqn:Es; cbn in *; [| |discriminate].
  - destruct (g_run g2 r) as [[bs g3]|] eqn:E; [|discriminate]. intros [= _ <-].
    assert (Hr2 : reachable g2) by (econstructor; eassumption).
    eapply IH; [exact Hr2|exact Ha2|exact Hp2| |exact E].
    destruct (reachable_RepL g Hr) as [a [HR _]], (reachable_RepL g2 Hr2) as [a2 [HR2 _]].
    eapply Inv_step; [exact HR|exact HR2| |exact HI]. eapply step_SX; eassumption.
  - destruct (g_run g r) as [[bs g3]|] eqn:E; [|discriminate]. intros [= _ <-]. eapply IH; eassumption.
Qed.
Lemma known_iff g x : its_nodes g x <-> is_Some (layer_of g x).
Proof. unfold its_nodes, g_has_node. rewrite bool_decide_eq_true. reflexivity. Qed.
Lemma edges_iff g a k : Rep g a -> (its_edges g k <-> exists c, elive (es g c !! k)).
Proof. intros HR. split; [apply (edge_live g a k HR)|]. intros [c Hc]. apply (elive_cont g a c k HR Hc). Qed.

Lemma nodes_mirrored g0 g a : Rep g a -> Inv g0 g -> forall x, its_nodes g x <-> after_reports (its_nodes g0) (fst (g_get_new_nodes g false)) (fst (g_get_removed_nodes g false)) x.
Proof.
  intros HR HI x. unfold after_reports. rewrite (new_iff g a false x HR), (removed_iff g a false x HR), !known_iff. split.
  - intros [k Hk]. destruct (known_live g a x k HR Hk) as (c & j & -> & [Hl|Hl] & _); [left; eauto|right]. split; [exact (iv_old _ _ HI c j Hl)|].
    intros (c' & j' & E & Hg). apply rgone_ngone in Hg. exact (iv_kept _ _ HI c j c' j' Hl (eq_sym E) Hg).
  - intros [(c & j & -> & H)|[H0 Hn]]; [destruct (live_home g a c j HR (or_introl H)) as [E _]; eauto|].
    destruct (layer_of g x) as [k|] eqn:E; [eauto|]. exfalso. destruct (iv_gone _ _ HI x H0 E) as (c & j & -> & Hg).
    apply Hn. exists c, j. split; [reflexivity|]. apply (gone_reported g a c j HR Hg).
Qed.
Lemma edges_mirrored g0 g a : Rep g a -> Inv g0 g -> forall k, its_edges g k <-> after_reports (its_edges g0) (fst (g_get_new_edges g false)) (fst (g_get_removed_edges g false)) k.
Proof.
  intros HR HI k. unfold after_reports. rewrite new_edges_iff, removed_edges_iff. split.
  - intros H. destruct (edge_live g a k HR H) as (c & [Hl|Hl]); [left; eauto|right]. split; [exact (iv_eold _ _ HI c k Hl)|].
    intros (c' & E). exact (iv_ekept _ _ HI c k c' Hl E).
  - intros [(c & H)|[H0 Hn]]; [apply (elive_cont g a c k HR (or_introl H))|].
    destruct (classic_live g a k HR) as [[c Hc]|Hno]; [apply (elive_cont g a c k HR Hc)|]. exfalso. apply Hn, (iv_egone _ _ HI k H0 Hno).
Qed.

(** *** Clearing *)
Lemma visit_lay {R} (f : SLayer -> list R * SLayer) m l : snd (visit_static f m) !! l = (fun s => snd (f s)) <$> m !! l.
Proof. unfold visit_static. cbn. apply lookup_fmap. Qed.
Lemma visit_dyn {R} (f : DLayer -> list R * DLayer) m l p :
  (snd (visit_dynamic f m) !! l ≫= fun mm => mm !! p) = (fun s => snd (f s)) <$> (m !! l ≫= fun mm => mm !! p).
Proof. unfold visit_dynamic. cbn. rewrite lookup_fmap. destruct (m !! l); cbn; [apply lookup_fmap|reflexivity]. Qed.
Lemma gd_bind g l p : g_dlayer g l p = (g_dlayers g !! l ≫= fun mm => mm !! p).
Proof. unfold g_dlayer. destruct (g_dlayers g !! l); reflexivity. Qed.
Lemma clear_removed_nodes g : g_lookup (snd (g_get_removed_nodes g true)) = g_lookup g /\ (forall c, es (snd (g_get_removed_nodes g true)) c = es g c) /\
  forall c j, ns (snd (g_get_removed_nodes g true)) c !! j = Some NNew <-> ns g c !! j = Some NNew.
Proof.
  unfold g_get_removed_nodes. set (fs := fun l => sl_get_removed_nodes l true). set (fd := fun d => dl_get_removed_nodes d true).
  pose proof (visit_lay fs (g_layers g)) as HL. pose proof (visit_dyn fd (g_dlayers g)) as HD.
  destruct (visit_static fs _) as [r1 ls], (visit_dynamic fd _) as [r2 ds]. cbn [snd] in *. split; [reflexivity|]. split.
  - intros [l|l p| |]; unfold es; cbn [g_cont]; try reflexivity.
    + cbn. rewrite HL. destruct (g_layers g !! l); reflexivity.
    + rewrite !gd_bind. cbn. rewrite HD. destruct (g_dlayers g !! l ≫= _); reflexivity.
  - intros [l|l p| |] j; cbn [ns]; try reflexivity.
    + cbn. rewrite HL. destruct (g_layers g !! l) as [s|]; cbn; [|reflexivity]. rewrite map_filter_lookup.
      destruct (sl_status s !! j) as [[]|]; cbn; try reflexivity; rewrite ?option_guard_True by reflexivity; try reflexivity; rewrite option_guard_False by discriminate; split; discriminate.
    + rewrite !gd_bind. cbn. rewrite HD. destruct (g_dlayers g !! l ≫= _) as [s|]; cbn; [|reflexivity]. rewrite map_filter_lookup.
      destruct (dl_status s !! j) as [[]|]; cbn; try reflexivity; rewrite ?option_guard_True by reflexivity; try reflexivity; rewrite option_guard_False by discriminate; split; discriminate.
Qed.
Lemma clear_new_nodes g : g_lookup (snd (g_get_new_nodes g true)) = g_lookup g /\ (forall c, es (snd (g_get_new_nodes g true)) c = es g c).
Proof.
  unfold g_get_new_nodes. set (fs := fun l => sl_get_new_nodes l true). set (fd := fun d => dl_get_new_nodes d true).
  pose proof (visit_lay fs (g_layers g)) as HL. pose proof (visit_dyn fd (g_dlayers g)) as HD.
  destruct (visit_static fs _) as [r1 ls], (visit_dynamic fd _) as [r2 ds]. cbn [snd] in *. split; [reflexivity|].
  intros [l|l p| |]; unfold es; cbn [g_cont]; try reflexivity.
  - cbn. rewrite HL. destruct (g_layers g !! l); reflexivity.
  - rewrite !gd_bind. cbn. rewrite HD. destruct (g_dlayers g !! l ≫= _); reflexivity.
Qed.
Definition not_deleted (s : option EdgeStatus) : option EdgeStatus := match s with Some EDeleted => None | s => s end.
Definition seen (s : option EdgeStatus) : option EdgeStatus := match s with Some ENew => Some EVisible | s => s end.
Lemma ec_removed_status e k : ec_status (snd (ec_get_removed e true)) !! k = not_deleted (ec_status e !! k).
Proof.
  cbn. rewrite map_filter_lookup. destruct (ec_status e !! k) as [[]|]; cbn; try reflexivity; rewrite ?option_guard_True by reflexivity; try reflexivity; rewrite option_guard_False by discriminate; reflexivity.
Qed.
Lemma ec_new_status e k : ec_status (snd (ec_get_new e true)) !! k = seen (ec_status e !! k).
Proof. cbn. rewrite lookup_fmap. destruct (ec_status e !! k) as [[]|]; reflexivity. Qed.
Lemma clear_removed_edges g : g_lookup (snd (g_get_removed_edges g true)) = g_lookup g /\
  forall c k, es (snd (g_get_removed_edges g true)) c !! k = not_deleted (es g c !! k).
Proof.
  unfold g_get_removed_edges. set (fs := fun l => sl_get_removed_edges l true). set (fd := fun d => dl_get_removed_edges d true).
  pose proof (visit_lay fs (g_layers g)) as HL. pose proof (visit_dyn fd (g_dlayers g)) as HD.
  destruct (visit_static fs _) as [r1 ls], (visit_dynamic fd _) as [r2 ds]. cbn [snd] in *.
  pose proof (ec_removed_status (g_inter g)) as HI. pose proof (ec_removed_status (g_dinter g)) as HI'.
  destruct (ec_get_removed (g_inter g) true) as [r3 c3], (ec_get_removed (g_dinter g) true) as [r4 c4]. split; [reflexivity|].
  intros [l|l p| |] k; unfold es; cbn [g_cont].
  - cbn. rewrite HL. destruct (g_layers g !! l) as [s|]; cbn; [apply (ec_removed_status (sl_edges s))|rewrite lookup_empty; reflexivity].
  - rewrite !gd_bind. cbn. rewrite HD. destruct (g_dlayers g !! l ≫= _) as [s|]; cbn; [apply (ec_removed_status (dl_edges s))|rewrite lookup_empty; reflexivity].
  - apply HI.
  - apply HI'.
Qed.
Lemma clear_new_edges g : g_lookup (snd (g_get_new_edges g true)) = g_lookup g /\
  forall c k, es (snd (g_get_new_edges g true)) c !! k = seen (es g c !! k).
Proof.
  unfold g_get_new_edges. set (fs := fun l => sl_get_new_edges l true). set (fd := fun d => dl_get_new_edges d true).
  pose proof (visit_lay fs (g_layers g)) as HL. pose proof (visit_dyn fd (g_dlayers g)) as HD.
  destruct (visit_static fs _) as [r1 ls], (visit_dynamic fd _) as [r2 ds]. cbn [snd] in *.
  pose proof (ec_new_status (g_inter g)) as HI. pose proof (ec_new_status (g_dinter g)) as HI'.
  destruct (ec_get_new (g_inter g) true) as [r3 c3], (ec_get_new (g_dinter g) true) as [r4 c4]. split; [reflexivity|].
  intros [l|l p| |] k; unfold es; cbn [g_cont].
  - cbn. rewrite HL. destruct (g_layers g !! l) as [s|]; cbn; [apply (ec_new_status (sl_edges s))|rewrite lookup_empty; reflexivity].
  - rewrite !gd_bind. cbn. rewrite HD. destruct (g_dlayers g !! l ≫= _) as [s|]; cbn; [apply (ec_new_status (dl_edges s))|rewrite lookup_empty; reflexivity].
  - apply HI.
  - apply HI'.
Qed.

(** One synchronisation. *)
Lemma sync g1 rn a1 nn a2 re a3 ne a4 : reachable g1 ->
  g_get_removed_nodes g1 true = (rn, a1) -> g_get_new_nodes a1 true = (nn, a2) ->
  g_get_removed_edges a2 true = (re, a3) -> g_get_new_edges a3 true = (ne, a4) ->
  reachable a4 /\ no_edge_lost a4 /\ (forall x, its_nodes a4 x <-> its_nodes g1 x) /\ (forall k, its_edges a4 k <-> its_edges g1 k) /\
  (forall x, x ∈ rn <-> x ∈ fst (g_get_removed_nodes g1 false)) /\ (forall x, x ∈ nn <-> x ∈ fst (g_get_new_nodes g1 false)) /\
  (forall x, x ∈ re <-> x ∈ fst (g_get_removed_edges g1 false)) /\ (forall x, x ∈ ne <-> x ∈ fst (g_get_new_edges g1 false)).
Proof.
  intros Hr E1 E2 E3 E4.
  destruct (clear_removed_nodes g1) as (L1 & S1 & N1). rewrite E1 in L1, S1, N1. cbn [snd] in L1, S1, N1.
  destruct (clear_new_nodes a1) as (L2 & S2). rewrite E2 in L2, S2. cbn [snd] in L2, S2.
  destruct (clear_removed_edges a2) as (L3 & S3). rewrite E3 in L3, S3. cbn [snd] in L3, S3.
  destruct (clear_new_edges a3) as (L4 & S4). rewrite E4 in L4, S4. cbn [snd] in L4, S4.
  assert (R1 : reachable a1) by (apply (reach_step g1 (GRemovedNodes true) true a1 Hr I); cbn [g_step]; rewrite E1; reflexivity).
  assert (R2 : reachable a2) by (apply (reach_step a1 (GNewNodes true) true a2 R1 I); cbn [g_step]; rewrite E2; reflexivity).
  assert (R3 : reachable a3) by (apply (reach_step a2 (GRemovedEdges true) true a3 R2 I); cbn [g_step]; rewrite E3; reflexivity).
  assert (R4 : reachable a4) by (apply (reach_step a3 (GNewEdges true) true a4 R3 I); cbn [g_step]; rewrite E4; reflexivity).
  destruct (reachable_RepL g1 Hr) as [b1 [B1 _]], (reachable_RepL a1 R1) as [b2 [B2 _]], (reachable_RepL a4 R4) as [b4 [B4 _]].
  assert (Hes : forall c k, es a4 c !! k = seen (not_deleted (es g1 c !! k))) by (intros c k; rewrite S4, S3, S2, S1; reflexivity).
  split; [exact R4|]. split; [|split; [|split; [|split; [|split; [|split]]]]].
  - intros k _ Hk. apply removed_edges_iff in Hk as (c & Hc). rewrite Hes in Hc. destruct (es g1 c !! k) as [[]|]; discriminate.
  - intros x. rewrite !known_iff. unfold layer_of, g_layer_for_node. rewrite L4, L3, L2, L1. reflexivity.
  - intros k. rewrite (edges_iff a4 b4 k B4), (edges_iff g1 b1 k B1). split; intros [c Hc]; exists c; rewrite Hes in *.
    + destruct (es g1 c !! k) as [[]|]; cbn in Hc; try exact Hc; destruct Hc; try discriminate; (left; reflexivity) || (right; reflexivity).
    + destruct Hc as [Hc|Hc]; rewrite Hc; right; reflexivity.
  - intros x. pose proof (removed_iff g1 b1 true x B1) as Hn. rewrite E1 in Hn. cbn [fst] in Hn. rewrite Hn, (removed_iff g1 b1 false x B1). reflexivity.
  - intros x. pose proof (new_iff a1 b2 true x B2) as Hn. rewrite E2 in Hn. cbn [fst] in Hn. rewrite Hn, (new_iff g1 b1 false x B1).
    split; intros (c & j & -> & H); exists c, j; (split; [reflexivity|]); apply N1, H.
  - intros x. pose proof (removed_edges_iff a2 true x) as Hn. rewrite E3 in Hn. cbn [fst] in Hn. rewrite Hn, removed_edges_iff.
    split; intros [c H]; exists c; rewrite ?S2, ?S1 in *; exact H.
  - intros x. pose proof (new_edges_iff a3 true x) as Hn. rewrite E4 in Hn. cbn [fst] in Hn. rewrite Hn, new_edges_iff.
    split; intros [c H]; exists c; rewrite ?S3, ?S2, ?S1 in *; [|rewrite H; reflexivity]. destruct (es g1 c !! x) as [[]|]; try discriminate; reflexivity.
Qed.
Lemma after_ext {A} (M M' : A -> Prop) n n' r r' x : (forall x, M x <-> M' x) -> (forall x, x ∈ n <-> x ∈ n') -> (forall x, x ∈ r <-> x ∈ r') ->
  (after_reports M n r x <-> after_reports M' n' r' x).
Proof. intros H1 H2 H3. unfold after_reports. rewrite H1, H2, H3. reflexivity. Qed.

Lemma follows_mirror g M E g' M' E' : follows g M E g' M' E' -> reachable g -> none_lost g -> no_edge_lost g ->
  (forall x, M x <-> its_nodes g x) -> (forall k, E k <-> its_edges g k) ->
  reachable g' /\ (forall x, M' x <-> its_nodes g' x) /\ (forall k, E' k <-> its_edges g' k).
Proof.
  induction 1 as [g M E|g M E os outs g1 rn a1 nn a2 re a3 ne a4 g' M' E' Ha Hp Hrun E1 E2 E3 E4 Hlost Hf IH]; intros Hr Hn He HM HE; [auto|].
  destruct (reachable_RepL g Hr) as [a [HR _]].
  assert (Hr1 : reachable g1) by (eapply run_reachable; eassumption). destruct (reachable_RepL g1 Hr1) as [b [HR1 _]].
  pose proof (run_Inv g os g outs g1 Hr Ha Hp (Inv_start g a HR Hn He) Hrun) as HI.
  destruct (sync g1 rn a1 nn a2 re a3 ne a4 Hr1 E1 E2 E3 E4) as (R4 & K1 & K2 & K3 & K4 & K5 & K6 & K7).
  apply IH; [exact R4|exact Hlost|exact K1| |].
  - intros x. rewrite K2, (nodes_mirrored g g1 b HR1 HI x). apply after_ext; auto.
  - intros k. rewrite K3, (edges_mirrored g g1 b HR1 HI k). apply after_ext; auto.
Qed.
