(** Counts equal contents. *)
From Coq Require Import NArith ZArith Bool List Lia.
From stdpp Require Import base list gmap fin_maps tactics.
From Verif.Model Require Import Types Mesh Attrs Node EdgeContainer SLayer DLayer Graph.
From Verif.Spec Require Import AbstractGraph GraphHistory GraphObs.
From Verif.Proof Require Import Arith Keys SLayerP SLayerMerge DLayerP DLayerOps GraphRep GraphEdges GraphSim GraphObsP GraphProps GraphDyn.
Local Open Scope N_scope.

Lemma map_to_list_len {K} `{Countable K} {A} (m : gmap K A) : length (map_to_list m) = size m.
Proof. reflexivity. Qed.
Lemma NoDup_concat_map {A B} (f : A -> list B) (l : list A) : NoDup l -> (forall x, x ∈ l -> NoDup (f x)) ->
  (forall x y z, x ∈ l -> y ∈ l -> z ∈ f x -> z ∈ f y -> x = y) -> NoDup (concat (map f l)).
Proof.
  induction l as [|x r IH]; intros Hl Hf Hd; cbn; [constructor|]. apply list.NoDup_cons in Hl as [Hx Hr].
  apply NoDup_app. split; [apply Hf; left|]. split.
  - intros z Hz Hc. apply elem_of_list_In, in_concat in Hc as (ys & Hys & Hz'). apply in_map_iff in Hys as (y & <- & Hy).
    apply elem_of_list_In in Hy, Hz'. apply Hx. rewrite (Hd x y z); auto; [left|right; assumption].
  - apply IH; [assumption| |]; intros; [apply Hf; right; assumption|eapply Hd; eauto; right; assumption].
Qed.
Lemma elem_of_concat_map {A B} (f : A -> list B) (l : list A) z : z ∈ concat (map f l) <-> exists x, x ∈ l /\ z ∈ f x.
Proof.
  rewrite elem_of_list_In, in_concat. setoid_rewrite in_map_iff. setoid_rewrite <- elem_of_list_In. split.
  - intros (ys & (x & <- & Hx) & Hz). eauto.
  - intros (x & Hx & Hz). exists (f x). eauto.
Qed.
Lemma length_concat_map {A B} (f : A -> list B) (l : list A) : length (concat (map f l)) = sum_list (map (fun x => length (f x)) l).
Proof. unfold sum_list. induction l as [|x r IH]; cbn; [reflexivity|]. rewrite app_length, IH. reflexivity. Qed.
Lemma sum_list_app a b : sum_list (a ++ b) = (sum_list a + sum_list b)%nat.
Proof. unfold sum_list. induction a as [|x a IH]; cbn; [reflexivity|]. rewrite IH. lia. Qed.

(** The dynamic layers with their keys. *)
Definition keyed_dl (g : Graph) : list (N * N * DLayer) :=
  concat (map (fun x => map (fun y => (fst x, fst y, snd y)) (map_to_list (snd x))) (map_to_list (g_dlayers g))).
Lemma keyed_snd g : map snd (keyed_dl g) = g_all_dlayers g.
Proof.
  unfold keyed_dl, g_all_dlayers. induction (map_to_list (g_dlayers g)) as [|x r IH]; cbn; [reflexivity|].
  rewrite map_app, IH. f_equal. rewrite map_map. reflexivity.
Qed.
Lemma elem_keyed g l p d : (l, p, d) ∈ keyed_dl g <-> g_dlayer g l p = Some d.
Proof.
  unfold keyed_dl, g_dlayer. rewrite elem_of_concat_map. split.
  - intros ((l' & m) & Hm & Hy). apply elem_of_map_to_list in Hm. apply elem_of_list_In, in_map_iff in Hy as ((p' & d') & [= -> -> ->] & Hy).
    apply elem_of_list_In, elem_of_map_to_list in Hy. unfold LayerId in *. rewrite Hm. exact Hy.
  - destruct (g_dlayers g !! l) as [m|] eqn:Em; [|discriminate]. intros Hd. exists (l, m). split; [apply elem_of_map_to_list; exact Em|].
    apply elem_of_list_In, in_map_iff. exists (p, d). split; [reflexivity|]. apply elem_of_list_In, elem_of_map_to_list. exact Hd.
Qed.
Lemma NoDup_keyed g : NoDup (keyed_dl g).
Proof.
  unfold keyed_dl. apply NoDup_concat_map.
  - apply NoDup_map_to_list.
  - intros [l m] _. apply NoDup_fmap_2; [|apply NoDup_map_to_list]. intros [] [] [=]; congruence.
  - intros [l m] [l' m'] [[a b] c] H1 H2 H3 H4. apply elem_of_map_to_list in H1, H2.
    apply elem_of_list_In, in_map_iff in H3 as (? & [= <- _ _] & _), H4 as (? & [= -> _ _] & _). congruence.
Qed.

Definition parts (g : Graph) : list (LayerKey * SLayer) :=
  map (fun x => (key_static (fst x), snd x)) (map_to_list (g_layers g)) ++
  map (fun x => (key_dynamic (fst (fst x)) (snd (fst x)), dl_view (snd x))) (keyed_dl g).
Lemma elem_parts g k L : (k, L) ∈ parts g <-> canon k /\ g_part g k = Some L.
Proof.
  unfold parts, g_part. rewrite elem_of_app. split.
  - intros [H|H]; apply elem_of_list_In, in_map_iff in H.
    + destruct H as ([l s] & [= <- <-] & Hs). apply elem_of_list_In, elem_of_map_to_list in Hs. split; auto.
    + destruct H as ([[l p] d] & [= <- <-] & Hs). apply elem_of_list_In, elem_keyed in Hs. split; auto. cbn. rewrite Hs. reflexivity.
  - intros [Hc HL]. destruct k as [l p dy]. cbn in *. destruct dy.
    + right. apply fmap_Some in HL as (d & Hd & ->). apply elem_of_list_In, in_map_iff. exists (l, p, d). split; [reflexivity|].
      apply elem_of_list_In, elem_keyed. exact Hd.
    + left. unfold canon in Hc. cbn in Hc. rewrite Hc by reflexivity. apply elem_of_list_In, in_map_iff. exists (l, L). split; [reflexivity|].
      apply elem_of_list_In, elem_of_map_to_list. exact HL.
Qed.
Lemma NoDup_parts g : NoDup (parts g).
Proof.
  unfold parts. apply NoDup_app. split; [|split].
  - apply NoDup_fmap_2; [|apply NoDup_map_to_list]. intros [l s] [l' s'] [=]; congruence.
  - intros [k L] H1 H2. apply elem_of_list_In, in_map_iff in H1 as (? & [= <- _] & _), H2 as (? & [=] & _).
  - apply (NoDup_fmap_1 fst). rewrite <- list_fmap_compose.
    assert (NoDup (fst <$> keyed_dl g)) as Hk.
    { pose proof (NoDup_keyed g) as Hnd. revert Hnd. generalize (elem_keyed g). generalize (keyed_dl g). intros ks Hks Hnd.
      assert (Hu : forall x y, x ∈ ks -> y ∈ ks -> fst x = fst y -> x = y).
      { intros [[l p] d] [[l' p'] d'] H1 H2 [= <- <-]. apply Hks in H1, H2. congruence. }
      clear Hks. induction ks as [|x r IH]; [constructor|]. apply list.NoDup_cons in Hnd as [Hx Hr]. cbn. constructor.
      - intros Hin. apply elem_of_list_fmap in Hin as (y & Hxy & Hy). apply Hx. rewrite (Hu x y); auto; [left|right; assumption].
      - apply IH; [assumption|]. intros. apply Hu; auto; right; assumption. }
    assert (Heq : (fst ∘ (fun x : N * N * DLayer => (key_dynamic x.1.1 x.1.2, dl_view x.2))) <$> keyed_dl g =
                  (fun x => key_dynamic x.1 x.2) <$> (fst <$> keyed_dl g)) by (rewrite <- list_fmap_compose; reflexivity).
    unfold LayerId in *. rewrite Heq. apply NoDup_fmap_2; [|exact Hk]. intros [] [] [=]; congruence.
Qed.

Lemma dl_num_nodes_live d : dl_core d -> dl_num_nodes d = size (dl_nmap d).
Proof.
  intros H. unfold dl_num_nodes. set (ts := omap (fun x : N * Node => n_time (snd x)) (map_to_list (dl_nmap d))).
  assert (Hin : forall t, t ∈ ts <-> t ∈ dl_times d).
  { intros t. unfold ts. rewrite elem_of_list_omap, (dlc_times _ H). split.
    - intros ([x n] & Hx & Ht). apply elem_of_map_to_list, (dl_nmap_Some d x n H) in Hx as (i & Hi & _). eauto.
    - intros (i & n & Hi & Ht). exists (prefix_make_id (dl_prefix d) (N.of_nat i), n). split; [|exact Ht].
      apply elem_of_map_to_list, (dl_nmap_Some d _ _ H). eauto. }
  assert (Hall : forall x, x ∈ map_to_list (dl_nmap d) -> exists t, n_time (snd x) = Some t).
  { intros [x n] Hx. apply elem_of_map_to_list, (dl_nmap_Some d x n H) in Hx as (i & Hi & _). destruct (dlc_node _ H i n Hi) as (_ & _ & t & Ht). eauto. }
  assert (Hinj : forall x y, x ∈ map_to_list (dl_nmap d) -> y ∈ map_to_list (dl_nmap d) -> n_time (snd x) = n_time (snd y) -> x = y).
  { intros [x n] [y m] Hx Hy Ht. apply elem_of_map_to_list, (dl_nmap_Some d _ _ H) in Hx as (i & Hi & ->), Hy as (j & Hj & ->).
    cbn in Ht. pose proof (dlc_times_inj _ H i j n m Hi Hj Ht). subst j. congruence. }
  assert (Hlen : length ts = size (dl_nmap d) /\ NoDup ts).
  { unfold ts. rewrite <- (map_to_list_len (dl_nmap d)). pose proof (NoDup_map_to_list (dl_nmap d)) as Hnd.
    clear ts Hin. induction (map_to_list (dl_nmap d)) as [|x r IH]; cbn; [split; [reflexivity|constructor]|].
    apply list.NoDup_cons in Hnd as [Hx Hr]. destruct (Hall x) as [t Ht]; [left|]. rewrite Ht. cbn.
    destruct IH as [IH1 IH2]; [intros; apply Hall; right; assumption|intros; apply Hinj; auto; right; assumption|assumption|].
    split; [rewrite IH1; reflexivity|]. constructor; [|assumption]. intros Hin. apply elem_of_list_omap in Hin as (y & Hy & Hyt).
    apply Hx. rewrite (Hinj x y); auto; [left|right; assumption|congruence]. }
  destruct Hlen as [Hlen Hnd]. rewrite <- Hlen, <- (size_list_to_set (C := gset Z) ts Hnd). f_equal. apply set_eq. intros t.
  rewrite elem_of_list_to_set, Hin. reflexivity.
Qed.

Lemma sum_list_map_ext {A} (f f' : A -> nat) l : (forall x, x ∈ l -> f x = f' x) -> sum_list (map f l) = sum_list (map f' l).
Proof.
  unfold sum_list. induction l as [|x r IH]; intros H; cbn; [reflexivity|]. rewrite (H x) by left. rewrite IH; [reflexivity|]. intros; apply H; right; assumption.
Qed.

Lemma num_nodes_parts g a : Rep g a -> g_num_nodes g false = sum_list (map (fun x => size (sl_nodes (snd x))) (parts g)).
Proof.
  intros HR. unfold g_num_nodes, g_num_static_nodes, g_num_dynamic_nodes, parts. rewrite map_app, sum_list_app, !map_map.
  rewrite <- keyed_snd, map_map.
  assert (Heq : match g_mesh g with Some m => if false then length (m_points m) else 0%nat | None => 0%nat end = 0%nat) by (destruct (g_mesh g); reflexivity).
  rewrite Heq, Nat.add_0_r. f_equal. apply sum_list_map_ext. intros [[l p] d] Hd. apply elem_keyed in Hd. cbn.
  apply dl_num_nodes_live. apply (rp_dinv _ _ HR l p d Hd).
Qed.
Lemma num_edges_parts g : g_num_edges g =
  (sum_list (map (fun x => size (ec_edges (sl_edges (snd x)))) (parts g)) + size (ec_edges (g_inter g)) + size (ec_edges (g_dinter g)))%nat.
Proof.
  unfold g_num_edges, g_num_static_edges, g_num_dynamic_edges, parts. rewrite map_app, sum_list_app, !map_map.
  rewrite <- keyed_snd, map_map. unfold dl_num_edges, sl_num_edges, ec_size; cbn. unfold LayerId in *. lia.
Qed.

Lemma part_unique g k L L' : g_part g k = Some L -> g_part g k = Some L' -> L = L'. Proof. congruence. Qed.

Lemma count_nodes g : reachable g -> exists ids, NoDup ids /\ (forall x, x ∈ ids <-> g_has_node g x = true) /\ length ids = g_num_nodes g false.
Proof.
  intros Hr. destruct (reachable_RepL g Hr) as (a & HR & _).
  exists (concat (map (fun x => map fst (map_to_list (sl_nodes (snd x)))) (parts g))). split; [|split].
  - apply NoDup_concat_map; [apply NoDup_parts|intros [k L] _; apply NoDup_fst_map_to_list|].
    intros [k L] [k' L'] z H1 H2 H3 H4. apply elem_parts in H1 as [C1 P1], H2 as [C2 P2].
    apply elem_of_list_In, in_map_iff in H3 as ([z1 n1] & <- & N1), H4 as ([z2 n2] & E2 & N2). cbn in *. subst z2.
    apply elem_of_list_In, elem_of_map_to_list in N1, N2.
    assert (g_lookup g !! z1 = Some k) by (apply (rp_home _ _ HR z1 k C1); eauto).
    assert (g_lookup g !! z1 = Some k') by (apply (rp_home _ _ HR z1 k' C2); eauto). assert (k = k') by congruence. subst.
    rewrite (part_unique _ _ _ _ P1 P2). reflexivity.
  - intros x. rewrite elem_of_concat_map. unfold g_has_node. rewrite bool_decide_eq_true. split.
    + intros ([k L] & HL & Hx). apply elem_parts in HL as [Hc HL]. apply elem_of_list_In, in_map_iff in Hx as ([x' n] & <- & Hx).
      apply elem_of_list_In, elem_of_map_to_list in Hx. cbn in *. exists k. apply (rp_home _ _ HR x' k Hc). eauto.
    + intros [k Hk]. pose proof (rp_canon _ _ HR x k Hk) as Hc. apply (rp_home _ _ HR x k Hc) in Hk as (L & HL & n & Hn).
      exists (k, L). split; [apply elem_parts; auto|]. apply elem_of_list_In, in_map_iff. exists (x, n). split; [reflexivity|].
      apply elem_of_list_In, elem_of_map_to_list. exact Hn.
  - rewrite length_concat_map, (num_nodes_parts g a HR). apply sum_list_map_ext. intros [k L] _. rewrite map_length. apply map_to_list_len.
Qed.

Lemma edge_key_lt u v : u < v -> edge_key u v = (u, v).
Proof. intros H. unfold edge_key. f_equal; lia. Qed.
Lemma edge_key_ordered u v : u <> v -> fst (edge_key u v) < snd (edge_key u v).
Proof. intros H. unfold edge_key; cbn. lia. Qed.

Lemma count_edges g : reachable g -> exists ps, NoDup ps /\ (forall u v, (u, v) ∈ ps <-> u < v /\ adjacent g u v) /\ length ps = g_num_edges g.
Proof.
  intros Hr. destruct (reachable_RepL g Hr) as (a & HR & _).
  set (ks := fun m : gmap EdgeKey Edge => map fst (map_to_list m)).
  assert (Hks : forall m k, k ∈ ks m <-> is_Some (m !! k)).
  { intros m k. unfold ks. rewrite elem_of_list_In, in_map_iff. split.
    - intros ([k' e] & <- & H). apply elem_of_list_In, elem_of_map_to_list in H. eauto.
    - intros [e He]. exists (k, e). split; [reflexivity|]. apply elem_of_list_In, elem_of_map_to_list. exact He. }
  assert (Hksn : forall m, NoDup (ks m)) by (intros m; apply NoDup_fst_map_to_list).
  assert (Hlen : forall m, length (ks m) = size m) by (intros m; unfold ks; rewrite map_length; apply map_to_list_len).
  (* where an edge key is recorded determines the partitions of its ends *)
  assert (Hpart : forall k L x e, canon k -> g_part g k = Some L -> ec_edges (sl_edges L) !! x = Some e ->
     fst x < snd x /\ g_lookup g !! fst x = Some k /\ g_lookup g !! snd x = Some k).
  { intros k L x e Hc HL He. destruct (rp_part _ _ HR k L Hc HL) as (Hwf & _ & _).
    pose proof (ecw_key _ (slw_ec _ Hwf) _ _ He) as Hx. destruct (slw_ends _ Hwf _ _ He) as (Hne & Hs & Ht).
    assert (Ks : g_lookup g !! e_src e = Some k) by (apply (rp_home _ _ HR _ k Hc); eauto).
    assert (Kt : g_lookup g !! e_tgt e = Some k) by (apply (rp_home _ _ HR _ k Hc); eauto).
    subst x. split; [apply edge_key_ordered, Hne|]. unfold edge_key; cbn. destruct (N.min_spec (e_src e) (e_tgt e)) as [[_ ->]|[_ ->]], (N.max_spec (e_src e) (e_tgt e)) as [[_ ->]|[_ ->]]; auto. }
  assert (Hint : forall dyn x e, ec_edges (g_ec g dyn) !! x = Some e ->
     fst x < snd x /\ exists ku kv, g_lookup g !! fst x = Some ku /\ g_lookup g !! snd x = Some kv /\ ku <> kv /\ pair_dyn ku kv = dyn).
  { intros dyn x e He. pose proof (ecw_key _ (rp_ec _ _ HR dyn) _ _ He) as Hx. destruct (rp_inter _ _ HR _ _ _ He) as (ku & kv & Ks & Kt & Hne & Hd).
    assert (Hse : e_src e <> e_tgt e) by (intros Heq; rewrite Heq in Ks; congruence).
    subst x. split; [apply edge_key_ordered, Hse|]. unfold edge_key; cbn.
    destruct (N.lt_ge_cases (e_src e) (e_tgt e)).
    - rewrite N.min_l, N.max_r by lia. exists ku, kv. auto.
    - rewrite N.min_r, N.max_l by lia. exists kv, ku. rewrite pair_dyn_comm. auto. }
  exists (concat (map (fun x => ks (ec_edges (sl_edges (snd x)))) (parts g)) ++ ks (ec_edges (g_inter g)) ++ ks (ec_edges (g_dinter g))).
  split; [|split].
  - apply NoDup_app. split; [|split; [|apply NoDup_app; split; [apply Hksn|split; [|apply Hksn]]]].
    + apply NoDup_concat_map; [apply NoDup_parts|auto|]. intros [k L] [k' L'] z H1 H2 H3 H4. apply elem_parts in H1 as [C1 P1], H2 as [C2 P2].
      apply Hks in H3 as [e1 E1], H4 as [e2 E2]. cbn in *. destruct (Hpart _ _ _ _ C1 P1 E1) as (_ & K1 & _), (Hpart _ _ _ _ C2 P2 E2) as (_ & K2 & _).
      assert (k = k') by congruence. subst. rewrite (part_unique _ _ _ _ P1 P2). reflexivity.
    + intros z H1 H2. apply elem_of_concat_map in H1 as ([k L] & H1 & H3). apply elem_parts in H1 as [C1 P1]. apply Hks in H3 as [e1 E1].
      destruct (Hpart _ _ _ _ C1 P1 E1) as (_ & K1 & K2).
      assert (exists dyn e, ec_edges (g_ec g dyn) !! z = Some e) as (dyn & e & He).
      { apply elem_of_app in H2 as [H2|H2]; apply Hks in H2 as [e He]; [exists false, e|exists true, e]; exact He. }
      destruct (Hint _ _ _ He) as (_ & ku & kv & ? & ? & ? & _). congruence.
    + intros z H1 H2. apply Hks in H1 as [e1 E1], H2 as [e2 E2]. destruct (Hint false _ _ E1) as (_ & ku & kv & A1 & A2 & _ & A3).
      destruct (Hint true _ _ E2) as (_ & ku' & kv' & B1 & B2 & _ & B3). congruence.
  - intros u v. rewrite (obs_adjacent g a HR). unfold a_linked. rewrite (rp_edge _ _ HR). unfold g_edge_at.
    rewrite !elem_of_app, elem_of_concat_map, !Hks. split.
    + intros [([k L] & H1 & H2)|H2].
      * apply elem_parts in H1 as [C1 P1]. apply Hks in H2 as [e He]. cbn in He. destruct (Hpart _ _ _ _ C1 P1 He) as (Hlt & K1 & K2). cbn in *.
        split; [assumption|]. rewrite K1, K2, decide_True by reflexivity. rewrite P1, edge_key_lt by assumption. eauto.
      * assert (exists dyn e, ec_edges (g_ec g dyn) !! (u, v) = Some e) as (dyn & e & He).
        { destruct H2 as [[e He]|[e He]]; [exists false, e|exists true, e]; exact He. }
        destruct (Hint _ _ _ He) as (Hlt & ku & kv & K1 & K2 & Hne & Hd). cbn in *. split; [assumption|].
        rewrite K1, K2, decide_False by assumption. rewrite Hd, edge_key_lt by assumption. eauto.
    + intros [Hlt H]. destruct (g_lookup g !! u) as [ku|] eqn:Ku; [|destruct H; discriminate]. destruct (g_lookup g !! v) as [kv|] eqn:Kv; [|destruct H; discriminate].
      rewrite edge_key_lt in H by assumption. destruct (decide (ku = kv)) as [->|Hne].
      * left. destruct (g_part g kv) as [L|] eqn:EL; [|destruct H; discriminate]. exists (kv, L).
        split; [apply elem_parts; split; [eapply (rp_canon _ _ HR); exact Kv|exact EL]|]. apply Hks. exact H.
      * right. destruct (pair_dyn ku kv); auto.
  - rewrite !app_length, length_concat_map, !Hlen, (num_edges_parts g). rewrite (sum_list_map_ext _ (fun x => size (ec_edges (sl_edges (snd x))))); [lia|].
    intros [k L] _. apply Hlen.
Qed.

Lemma g_dlayer_outer g l : NE g -> ((exists p, g_has_dlayer g l p = true) <-> is_Some (g_dlayers g !! l)).
Proof.
  intros Hne. unfold g_has_dlayer. setoid_rewrite bool_decide_eq_true. unfold g_dlayer. destruct (g_dlayers g !! l) as [m|] eqn:Em.
  - split; [eauto|]. intros _. destruct (map_choose m (Hne l m Em)) as (p & d & Hd). exists p. eauto.
  - split; [intros [p [? ?]]; discriminate|intros [? ?]; discriminate].
Qed.
Lemma count_layers g : reachable g -> exists ls, NoDup ls /\
  (forall l, l ∈ ls <-> g_has_layer g l = true \/ exists p, g_has_dlayer g l p = true) /\ length ls = g_num_layers g.
Proof.
  intros Hr. pose proof (reachable_NE g Hr) as Hne.
  exists (map fst (map_to_list (g_layers g)) ++ filter (fun l => g_layers g !! l = None) (map fst (map_to_list (g_dlayers g)))).
  assert (Hk : forall {A} (m : gmap N A) l, l ∈ map fst (map_to_list m) <-> is_Some (m !! l)).
  { intros A m l. rewrite elem_of_list_In, in_map_iff. split.
    - intros ([k' e] & <- & H). apply elem_of_list_In, elem_of_map_to_list in H. eauto.
    - intros [e He]. exists (l, e). split; [reflexivity|]. apply elem_of_list_In, elem_of_map_to_list. exact He. }
  split; [|split].
  - apply NoDup_app. split; [apply NoDup_fst_map_to_list|]. split; [|apply list.NoDup_filter, NoDup_fst_map_to_list].
    intros l H1 H2. apply Hk in H1 as [s Hs]. apply elem_of_list_filter in H2 as [H2 _]. unfold LayerId in *; congruence.
  - intros l. rewrite elem_of_app, elem_of_list_filter, !Hk, (g_dlayer_outer g l Hne). unfold g_has_layer. rewrite bool_decide_eq_true.
    rewrite eq_None_not_Some. change LayerId with N. destruct (decide (is_Some (g_layers g !! l))); tauto.
  - rewrite app_length, map_length. unfold g_num_layers. rewrite map_to_list_len. reflexivity.
Qed.
