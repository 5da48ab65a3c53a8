(** The logger. *)
From Coq Require Import NArith Bool List String Ascii Lia.
From stdpp Require Import base list gmap fin_maps strings.
From Verif.Model Require Import Types Mesh Attrs Node EdgeContainer SLayer DLayer Graph Views Names Logger.
From Verif.Spec Require Import AbstractGraph GraphHistory GraphObs LoggerSpec.
From Verif.Proof Require Import Arith Keys SLayerP GraphRep GraphSim GraphObsP GraphProps GraphProps2 GraphCounts MatrixP NamesP.
From Verif.Properties Require Import P21_Queries P26_LayerQueries.
Local Open Scope string_scope.
Local Open Scope list_scope.
Local Open Scope N_scope.
#[local] Arguments edge_key : simpl never.

Definition live_b (s : NodeStatus) : bool := match s with NNew | NVisible => true | _ => false end.
Definition tally (P : N * NodeStatus -> bool) (xs : list (N * NodeStatus)) : N := N.of_nat (length (List.filter P xs)).
Lemma tally_cons P x xs : tally P (x :: xs) = (if P x then 1 else 0) + tally P xs.
Proof. unfold tally. cbn [List.filter]. destruct (P x); cbn [length]; lia. Qed.
Definition node_b (g : Graph) (p : Node -> bool) (x : N * NodeStatus) : bool :=
  live_b (snd x) && match g_get_node g (fst x) with Ok n => p n | _ => false end.

Lemma stats_fold g xs : (forall x, x ∈ xs -> live_b (snd x) = true -> exists n, g_get_node g (fst x) = Ok n) ->
  forall s, rfold (count_node g) xs s = Ok (mkStats (st_active s + tally (fun x => live_b (snd x)) xs) (st_removed s + tally (fun x => bool_decide (snd x = NDeleted)) xs)
    (st_merged s + tally (fun x => bool_decide (snd x = NMerged)) xs) (st_parents s + tally (node_b g node_has_parent) xs)
    (st_children s + tally (node_b g node_has_children) xs) (st_edges s)).
Proof.
  induction xs as [|[x st] xs IH]; intros H s.
  - cbn. destruct s. rewrite !N.add_0_r. reflexivity.
  - assert (IH' := IH (fun y Hy => H y (elem_of_list_further _ _ _ Hy))). cbn [rfold]. rewrite !tally_cons. unfold node_b at 1 3. cbn [snd fst]. destruct st; cbn [count_node snd fst live_b andb].
    1,2: destruct (H (x, _) (elem_of_list_here _ _) eq_refl) as [n Hn]; cbn [fst] in Hn; rewrite Hn; cbn [rbind]; rewrite IH';
      rewrite !bool_decide_false by discriminate; cbn [st_active st_removed st_merged st_parents st_children st_edges]; f_equal; f_equal; destruct (node_has_parent n), (node_has_children n); lia.
    all: cbn [rbind]; rewrite IH'; cbn [st_active st_removed st_merged st_parents st_children st_edges]; f_equal; f_equal; repeat case_bool_decide; try discriminate; try congruence; lia.
Qed.
Lemma tally_count (m : gmap N NodeStatus) P (Q : N -> Prop) : (forall x, Q x <-> exists s, m !! x = Some s /\ P (x, s) = true) -> is_count Q (tally P (map_to_list m)).
Proof.
  intros H. exists (map fst (List.filter P (map_to_list m))). split; [|split].
  - pose proof (NoDup_fst_map_to_list m) as Hn. induction (map_to_list m) as [|y ys IH]; [apply NoDup_nil_2|]. rewrite fmap_cons in Hn. apply stdpp.list.NoDup_cons in Hn as [Hy Hn].
    cbn [List.filter]. destruct (P y); [|apply IH, Hn]. cbn [map]. apply NoDup_cons_2; [|apply IH, Hn].
    intros K. apply Hy. apply elem_of_list_In, in_map_iff in K as (z & Ez & Hz). apply filter_In in Hz as [Hz _]. apply elem_of_list_fmap. exists z. split; [congruence|apply elem_of_list_In, Hz].
  - intros x. rewrite H, elem_of_list_In, in_map_iff. split.
    + intros ([y s] & <- & Hy). apply filter_In in Hy as [Hy HP]. apply elem_of_list_In, elem_of_map_to_list in Hy. eauto.
    + intros (s & Hs & HP). exists (x, s). split; [reflexivity|]. apply filter_In. split; [|exact HP]. apply elem_of_list_In, elem_of_map_to_list. exact Hs.
  - unfold tally. rewrite map_length. reflexivity.
Qed.

Section Stats.
  Context (g : Graph) (l : LayerId) (L : SLayer) (Hr : reachable g) (HL : g_layers g !! l = Some L).
  Lemma part_wf : exists a, Rep g a /\ sl_wf L.
  Proof using Hr HL.
    destruct (reachable_RepL g Hr) as [a [HR _]]. exists a. split; [exact HR|]. destruct (rp_part _ _ HR (key_static l) L) as (H & _); [intros _; reflexivity|exact HL|exact H].
  Qed.
  Lemma live_iff x : layer_of g x = Some (key_static l) <-> exists s, sl_status L !! x = Some s /\ live_b s = true.
  Proof using Hr HL.
    destruct part_wf as (a & HR & Hwf). assert (Hk : canon (key_static l)) by (intros _; reflexivity).
    change (layer_of g x) with (g_lookup g !! x). rewrite (rp_home _ _ HR x _ Hk).
    assert (HP : g_part g (key_static l) = Some L) by exact HL. split.
    - intros (L' & HL' & Hx). rewrite HP in HL'. injection HL' as <-. apply (slw_status _ Hwf) in Hx as (s & Hs & Hl). exists s. split; [exact Hs|]. destruct s; cbn in *; try reflexivity; destruct Hl; discriminate.
    - intros (s & Hs & Hl). exists L. split; [exact HP|]. apply (slw_status _ Hwf). exists s. split; [exact Hs|]. destruct s; cbn in *; try discriminate; [left|right]; reflexivity.
  Qed.
  Lemma stats_ok : exists s, layer_stats g L = Ok s /\ describes g l L s.
  Proof using Hr HL.
    destruct part_wf as (a & HR & Hwf).
    assert (HG : forall x, layer_of g x = Some (key_static l) -> exists n, g_get_node g x = Ok n /\ node_at g x = Some n).
    { intros x Hx. destruct (C24_queries g x Hr) as (_ & Hf & Hg & _). destruct (node_at g x) as [n|] eqn:E; [eauto|].
      exfalso. pose proof (obs_node g a HR x) as K. rewrite E in K. rewrite (obs_layer g a HR) in Hx. congruence. }
    unfold layer_stats. rewrite stats_fold.
    2:{ intros [x s] Hx Hl. apply elem_of_map_to_list in Hx. destruct (HG x) as (n & Hn & _); [apply live_iff; eauto|]. eauto. }
    cbn [rbind st_active st_removed st_merged st_parents st_children st_edges]. eexists. split; [reflexivity|].
    assert (HN : forall p x, (exists s, sl_status L !! x = Some s /\ node_b g p (x, s) = true) <-> layer_of g x = Some (key_static l) /\ exists n, node_at g x = Some n /\ p n = true).
    { intros p x. unfold node_b. cbn [fst snd]. split.
      - intros (s & Hs & Hb). apply andb_true_iff in Hb as [Hl Hp]. assert (Hx : layer_of g x = Some (key_static l)) by (apply live_iff; eauto). split; [exact Hx|].
        destruct (HG x Hx) as (n & Hn & Ha). rewrite Hn in Hp. eauto.
      - intros (Hx & n & Hn & Hp). destruct (HG x Hx) as (n' & Hn' & Ha). assert (n' = n) by congruence. subst n'. apply live_iff in Hx as (s & Hs & Hl). exists s. split; [exact Hs|]. rewrite Hl, Hn'. exact Hp. }
    split; cbn [st_active st_removed st_merged st_parents st_children st_edges]; rewrite ?N.add_0_l.
    - apply tally_count. exact live_iff.
    - apply tally_count. intros x. unfold sl_check_node. cbn [snd]. destruct (sl_status L !! x) as [s|]; split.
      + intros ->. exists NDeleted. split; [reflexivity|]. apply bool_decide_true. reflexivity.
      + intros (s' & [= <-] & H). apply bool_decide_eq_true in H. exact H.
      + discriminate.
      + intros (s' & ? & _). discriminate.
    - apply tally_count. intros x. unfold sl_check_node. cbn [snd]. destruct (sl_status L !! x) as [s|]; split.
      + intros ->. exists NMerged. split; [reflexivity|]. apply bool_decide_true. reflexivity.
      + intros (s' & [= <-] & H). apply bool_decide_eq_true in H. exact H.
      + discriminate.
      + intros (s' & ? & _). discriminate.
    - apply tally_count. intros x. rewrite HN. split; intros (Hx & H); (split; [exact Hx|]); destruct (HG x Hx) as (n & Hn & Ha); destruct (C22_parent_queries g x n Hr Ha) as (K & _).
      + exists n. split; [exact Ha|]. apply K. exact H.
      + destruct H as (n' & Hn' & Hp). assert (n' = n) by congruence. subst n'. apply K, Hp.
    - apply tally_count. intros x. rewrite HN. split; intros (Hx & H); (split; [exact Hx|]); destruct (HG x Hx) as (n & Hn & Ha); destruct (C22_parent_queries g x n Hr Ha) as (_ & _ & K & _).
      + exists n. split; [exact Ha|]. apply K. exact H.
      + destruct H as (n' & Hn' & Hp). assert (n' = n) by congruence. subst n'. apply K, Hp.
    - exists (map fst (map_to_list (ec_edges (sl_edges L)))). split; [apply NoDup_fst_map_to_list|]. split; [|unfold sl_num_edges, ec_size; rewrite map_length, map_to_list_len; reflexivity].
      intros [u v]. cbn [fst snd]. assert (Hk : canon (key_static l)) by (intros _; reflexivity). assert (HP : g_part g (key_static l) = Some L) by exact HL.
      rewrite elem_of_list_In, in_map_iff. split.
      + intros ([k e] & E & He). cbn in E. subst k. apply elem_of_list_In, elem_of_map_to_list in He.
        pose proof (ecw_key _ (slw_ec _ Hwf) _ _ He) as K. destruct (slw_ends _ Hwf _ _ He) as (Hne & _).
        assert (Huv : u < v) by (pose proof (edge_key_ordered _ _ Hne) as O; rewrite <- K in O; exact O).
        pose proof (partition_edges g a (key_static l) L u v HR Hk HP) as PE. rewrite (edge_key_lt u v Huv) in PE. apply (eq_trans (eq_sym PE)) in He.
        split; [exact Huv|]. case_decide as D; [|discriminate]. destruct D as [D1 D2]. split; [exact D1|]. split; [exact D2|].
        apply (obs_adjacent g a HR). exists e. rewrite <- (obs_edge g a HR). exact He.
      + intros (Huv & D1 & D2 & Ha). pose proof (partition_edges g a (key_static l) L u v HR Hk HP) as PE. rewrite decide_True in PE by (split; assumption).
        apply (obs_adjacent g a HR) in Ha. destruct Ha as [e He]. rewrite <- (obs_edge g a HR) in He. rewrite He, (edge_key_lt u v Huv) in PE.
        exists ((u, v), e). split; [reflexivity|]. apply elem_of_list_In, elem_of_map_to_list. exact PE.
  Qed.
End Stats.
