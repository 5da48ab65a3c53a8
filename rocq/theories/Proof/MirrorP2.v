(** One call between two clearings: what it does to the statuses. *)
From Coq Require Import NArith ZArith Bool List Lia.
From stdpp Require Import base list gmap fin_maps tactics.
From Verif.Model Require Import Types Mesh Attrs Node EdgeContainer SLayer DLayer Graph.
From Verif.Spec Require Import AbstractGraph GraphHistory GraphObs MirrorSpec.
From Verif.Proof Require Import Arith Keys SLayerP SLayerMerge DLayerP DLayerOps GraphRep GraphEdges GraphAttrs GraphNodes GraphRemove GraphMerge GraphSim GraphObsP QueryP StaleP StaleP2 MirrorP.
Local Open Scope N_scope.
#[local] Arguments edge_key : simpl never.

(** The id reported for entry [j] of a partition. *)
Definition nid (c : cid) (j : N) : N := match c with CDy _ p => prefix_make_id p j | _ => j end.
Definition nlive (s : option NodeStatus) : Prop := s = Some NNew \/ s = Some NVisible.
Definition ngone (s : option NodeStatus) : Prop := s = Some NDeleted \/ s = Some NMerged.
Definition NX (g g' : Graph) : Prop := forall c j,
  ns g' c !! j = ns g c !! j \/ ns g' c !! j = Some NNew \/
  (ngone (ns g' c !! j) /\ (nlive (ns g c !! j) \/ layer_of g (nid c j) = None)).
Definition EX (g g' : Graph) : Prop := forall c k, es g' c !! k = es g c !! k \/ (tch g c k /\ en (es g' c !! k)).
Definition SX (g g' : Graph) : Prop := NX g g' /\ EX g g'.

Lemma MR_SX g g' : MR (tch g) g g' -> SX g g'.
Proof. intros (_ & H1 & H2). split; [|exact H2]. intros c j. left. rewrite H1. reflexivity. Qed.
Lemma SX_refl g : SX g g. Proof. apply MR_SX, MR_refl. Qed.
Lemma SX_same g g' : (forall c, ns g' c = ns g c) -> (forall c, es g' c = es g c) -> SX g g'.
Proof. intros H1 H2. split; intros c j; left; [rewrite H1|rewrite H2]; reflexivity. Qed.
(** Only the partition [c] changes. *)
Lemma SX_one g g' c0 : (forall c, c <> c0 -> ns g' c = ns g c) -> (forall c, es g' c = es g c) ->
  (forall j, ns g' c0 !! j = ns g c0 !! j \/ ns g' c0 !! j = Some NNew \/
     (ngone (ns g' c0 !! j) /\ (nlive (ns g c0 !! j) \/ layer_of g (nid c0 j) = None))) -> SX g g'.
Proof.
  intros H1 H2 H3. split; [|intros c j; left; rewrite H2; reflexivity].
  intros c j. destruct (decide (c = c0)) as [->|Hne]; [apply H3|left; rewrite (H1 c Hne); reflexivity].
Qed.
Lemma ns_lookup g lk c : ns (g_with_lookup g lk) c = ns g c. Proof. destruct c; reflexivity. Qed.
Lemma es_lookup g lk c : es (g_with_lookup g lk) c = es g c. Proof. destruct c; reflexivity. Qed.

(** *** Adding nodes *)
Lemma SX_static g l s st : g_layers g !! l = Some s -> sl_edges st = sl_edges s ->
  (sl_status st = sl_status s \/ exists x, sl_status st = <[x := NNew]> (sl_status s)) -> SX g (g_set_layer g l st).
Proof.
  intros Hl He Hs. apply (SX_one g _ (CSt l)).
  - intros c Hc. rewrite ns_layer, decide_False by exact Hc. reflexivity.
  - intros c. rewrite es_layer. destruct (decide _) as [->|]; [|reflexivity]. unfold es. cbn. rewrite Hl. cbn. rewrite He. reflexivity.
  - intros j. rewrite ns_layer, decide_True by reflexivity. cbn [ns]. rewrite Hl. destruct Hs as [->|(x & ->)]; [auto|].
    destruct (decide (j = x)) as [->|Hne]; [rewrite lookup_insert; auto|]. rewrite lookup_insert_ne by congruence. auto.
Qed.
Lemma SX_with_lookup g g' lk : SX g g' -> SX g (g_with_lookup g' lk).
Proof. intros [H1 H2]. split; intros c j; rewrite ?ns_lookup, ?es_lookup; [apply H1|apply H2]. Qed.
Lemma SX_emplace_node g l s id a (ok : bool) s' : g_layers g !! l = Some s -> sl_emplace_node s id a = (ok, s') ->
  SX g (if ok then g_with_lookup (g_set_layer g l s') (<[id := key_static l]> (g_lookup (g_set_layer g l s'))) else g_set_layer g l s').
Proof.
  intros Hl H. assert (K : SX g (g_set_layer g l s')).
  { unfold sl_emplace_node in H. destruct (sl_nodes s !! id); injection H as <- <-; (eapply SX_static; [exact Hl|reflexivity|]); cbn; eauto. }
  destruct ok; [apply SX_with_lookup|]; exact K.
Qed.
Lemma SX_insert_node g n : SX g (snd (g_insert_node g n)).
Proof.
  unfold g_insert_node. destruct n as [n|]; [|apply SX_refl]. destruct (g_has_node g _); [apply SX_refl|].
  destruct (g_layers g !! _) as [s|] eqn:E; [|apply SX_refl]. destruct (sl_insert_node s (Some n)) as [ok s'] eqn:Es. cbn [snd].
  assert (K : SX g (g_set_layer g (n_layer n) s')).
  { unfold sl_insert_node in Es. destruct (negb _); [injection Es as <- <-; eapply SX_static; eauto|].
    destruct (sl_has_node s _); injection Es as <- <-; (eapply SX_static; [exact E|reflexivity|]); cbn; eauto. }
  destruct ok; [apply SX_with_lookup|]; exact K.
Qed.
Lemma create_same g l p : (forall c, ns (snd (g_create_dlayer g l p)) c = ns g c) /\ (forall c, es (snd (g_create_dlayer g l p)) c = es g c) /\
  g_lookup (snd (g_create_dlayer g l p)) = g_lookup g.
Proof.
  unfold g_create_dlayer, g_has_dlayer. case_bool_decide as E; [auto|]. cbn [snd].
  assert (Hn : g_dlayer g l p = None) by (apply eq_None_not_Some; exact E). split; [|split; [|reflexivity]].
  - intros c. rewrite ns_dlayer. destruct (decide _) as [->|]; [|reflexivity]. cbn. rewrite Hn. reflexivity.
  - intros c. rewrite es_dlayer. destruct (decide _) as [->|]; [|reflexivity]. unfold es. cbn. rewrite Hn. reflexivity.
Qed.
Lemma SX_create g l p : SX g (snd (g_create_dlayer g l p)).
Proof. destruct (create_same g l p) as (H1 & H2 & _). apply SX_same; assumption. Qed.
Lemma create_dlayer g l p d : g_dlayer (snd (g_create_dlayer g l p)) l p = Some d ->
  (g_dlayer g l p = Some d) \/ (g_dlayer g l p = None /\ d = dl_new l p).
Proof.
  unfold g_create_dlayer, g_has_dlayer. case_bool_decide as E; cbn [snd]; [auto|]. rewrite g_dlayer_set, decide_True by auto. intros [= <-].
  right. split; [apply eq_None_not_Some; exact E|reflexivity].
Qed.

Lemma dl_pad_status k : forall nodes st nodes' st', dl_pad k nodes st = (nodes', st') -> forall j,
  st' !! j = st !! j \/ (st' !! j = Some NDeleted /\ N.of_nat (length nodes) < j /\ j <= N.of_nat (length nodes) + N.of_nat k).
Proof.
  induction k as [|k IH]; intros nodes st nodes' st'; cbn [dl_pad]; [intros [= _ <-]; auto|].
  intros H j. destruct (IH _ _ _ _ H j) as [E|(E & H1 & H2)].
  - rewrite E. destruct (decide (j = N.of_nat (length (nodes ++ [None])))) as [->|Hne].
    + rewrite lookup_insert. right. rewrite app_length. cbn. split; [reflexivity|]. lia.
    + rewrite lookup_insert_ne by congruence. auto.
  - right. rewrite app_length in H1, H2. cbn in H1, H2. split; [exact E|]. lia.
Qed.

Lemma SX_emplace_prev g a l id t at_ b g' : Rep g a -> prev_args g l id t -> prev_plain g l id ->
  g_emplace_prev g l id t at_ = Ok (b, g') -> SX g g'.
Proof.
  intros HR Ha Hp. unfold g_emplace_prev. destruct (g_has_node g id) eqn:Eh; [intros [= _ <-]; apply SX_refl|].
  destruct Hp as [Hp|[Hp Hi]]; [congruence|]. destruct Ha as [Ha|(Hid & (_ & Hp32 & Hsub) & _)]; [congruence|].
  set (p := prefix_from_id id) in *. destruct (g_dlayer (snd (g_create_dlayer g l p)) l p) as [d|] eqn:Ed; cbn [deref rbind]; [|discriminate].
  destruct (create_same g l p) as (C1 & C2 & C3). set (g1 := snd (g_create_dlayer g l p)) in *.
  destruct (dl_emplace_at d t (prefix_index id) at_) as [ok d'] eqn:Em. intros [= _ <-].
  assert (Hd1 : ns g1 (CDy l p) = dl_status d) by (cbn; rewrite Ed; reflexivity).
  assert (Hcore : dl_core d /\ dl_prefix d = p).
  { destruct (create_dlayer g l p d Ed) as [H|[H ->]].
    - destruct (rp_dinv _ _ HR _ _ _ H) as (K1 & _ & K2 & _). auto.
    - split; [|reflexivity]. apply dl_core_new. exact Hp32. }
  assert (Hdx : forall x k, layer_of g x = Some k -> prefix_from_id x = p -> prefix_index x < dl_size d).
  { intros x k Hx Hpx. specialize (Hp x k Hx Hpx). subst k.
    destruct (known_layer g a x _ HR Hx) as [(s & n & Hk & _)|(d0 & n & _ & Hd0 & Hn & _ & _ & Hc0 & _)]; [discriminate|].
    cbn in Hd0. destruct (create_dlayer g l p d Ed) as [H|[H _]]; [|congruence]. assert (d0 = d) as -> by congruence.
    destruct (dl_nmap_slot d x n Hc0 Hn) as (Hsl & _). apply lookup_lt_Some in Hsl. unfold dl_size. lia. }
  destruct Hcore as [Hcore Hpre].
  assert (Hlen : N.of_nat (length (dl_nodes d)) = dl_size d) by reflexivity.
  assert (HP : forall j, dl_status d' !! j = dl_status d !! j \/ dl_status d' !! j = Some NNew \/
    (dl_status d' !! j = Some NDeleted /\ dl_size d < j /\ j <= prefix_index id + 1)).
  { intros j. unfold dl_emplace_at in Em. destruct (dl_has_index d _); [injection Em as <- <-; auto|].
    destruct (dl_size d <=? prefix_index id) eqn:El.
    - destruct (dl_pad _ _ _) as [nodes st] eqn:Epad. injection Em as <- <-. cbn [dl_status].
      destruct (decide (j = prefix_index id)) as [->|Hne]; [rewrite lookup_insert; auto|]. rewrite lookup_insert_ne by congruence.
      destruct (dl_pad_status _ _ _ _ _ Epad j) as [E|(E & H1 & H2)]; [auto|]. right. right. split; [exact E|].
      apply N.leb_le in El. rewrite Hlen in *. lia.
    - injection Em as <- <-. cbn [dl_status]. destruct (decide (j = prefix_index id)) as [->|Hne]; [rewrite lookup_insert; auto|].
      rewrite lookup_insert_ne by congruence. auto. }
  assert (HE : dl_edges d' = dl_edges d).
  { unfold dl_emplace_at in Em. destruct (dl_has_index d _); [injection Em as <- <-; reflexivity|].
    destruct (if dl_size d <=? prefix_index id then _ else _) as [nodes st]. injection Em as <- <-. reflexivity. }
  assert (K : SX g (g_set_dlayer g1 l p d')).
  { apply (SX_one g _ (CDy l p)).
    - intros c Hc. rewrite ns_dlayer, decide_False by exact Hc. apply C1.
    - intros c. rewrite es_dlayer. destruct (decide _) as [->|]; [|apply C2]. rewrite HE, <- C2. unfold es. cbn. rewrite Ed. reflexivity.
    - intros j. rewrite ns_dlayer, decide_True by reflexivity. rewrite <- C1, Hd1. destruct (HP j) as [E|[E|(E & H1 & H2)]]; [auto|auto|].
      right. right. split; [left; exact E|]. right. cbn [nid]. destruct (layer_of g (prefix_make_id p j)) as [k|] eqn:Ek; [|reflexivity]. exfalso.
      assert (Hj : j < two32) by (change two32 with (2 ^ 32); lia).
      pose proof (Hdx _ k Ek (make_id_from p Hp32 j Hj)) as Hlt. rewrite (make_id_index p Hp32 j Hj) in Hlt. lia. }
  destruct ok; [apply SX_with_lookup|]; exact K.
Qed.

Lemma SX_emplace_dynamic g a l p t at_ e b g' : Rep g a -> allowed g (GEmplaceDyn l p t at_ e) ->
  g_emplace_dynamic g l p t at_ e = Ok (b, g') -> SX g g'.
Proof.
  intros HR [(_ & Hp32 & Hsub) Ha]. unfold g_emplace_dynamic.
  set (id := match g_dlayer g l p with None => prefix_make_id p 0 | Some d => prefix_make_id p (dl_next d) end).
  destruct (g_has_node g id) eqn:Eh; [intros [= _ <-]; apply SX_refl|].
  destruct (g_dlayer (snd (g_create_dlayer g l p)) l p) as [d|] eqn:Ed; cbn [deref rbind]; [|discriminate].
  destruct (create_same g l p) as (C1 & C2 & C3). set (g1 := snd (g_create_dlayer g l p)) in *.
  assert (Hid : layer_of g (prefix_make_id p (dl_size d)) = None /\ dl_prefix d = p).
  { assert (H : layer_of g id = None).
    { unfold g_has_node in Eh. apply bool_decide_eq_false in Eh. apply eq_None_not_Some. exact Eh. }
    destruct (create_dlayer g l p d Ed) as [E|[E ->]]; unfold id in H; rewrite E in H.
    - destruct (Ha d E) as [<- _]. split; [exact H|]. apply (rp_dinv _ _ HR _ _ _ E).
    - split; [exact H|reflexivity]. }
  destruct Hid as [Hid Hpre].
  destruct (dl_emplace_node d t at_ e) as [[ok d']| |] eqn:Em; cbn [rbind]; [|discriminate|discriminate]. intros [= _ <-].
  assert (HK : (dl_status d' = dl_status d \/ dl_status d' = <[dl_size d := NNew]> (dl_status d)) /\ XR (tch g (CDy l p)) (dl_edges d) (dl_edges d')).
  { unfold dl_emplace_node in Em. destruct (bool_decide _); [injection Em as _ <-; split; [auto|apply XR_same; reflexivity]|].
    set (d1 := mkDL _ _ _ _ _ _ _) in Em.
    assert (Hs1 : dl_size d1 = dl_size d + 1) by (unfold dl_size, d1; cbn [dl_nodes]; rewrite app_length; cbn; lia).
    destruct (e && _).
    - destruct (dl_insert_edge d1 _ _ None) as [[b0 d2]| |] eqn:Ei; cbn [rbind] in Em; [|discriminate|discriminate]. injection Em as _ <-. cbn [dl_status dl_edges].
      rewrite Hs1, Hpre in Ei. replace (dl_size d + 1 - 1) with (dl_size d) in Ei by lia.
      edestruct (dl_insert_edge_X (tch g (CDy l p))) as ([K1 _] & K2 & _); [|exact Ei|].
      { apply tch_key. right. unfold cont. change (g_lookup g !! prefix_make_id p (dl_size d)) with (layer_of g (prefix_make_id p (dl_size d))). rewrite Hid. destruct (g_lookup g !! _); reflexivity. }
      split; [right; exact K1|exact K2].
    - cbn [rbind] in Em. injection Em as _ <-. split; [right; reflexivity|apply XR_same; reflexivity]. }
  destruct HK as [HK1 HK2].
  assert (K : SX g (g_set_dlayer g1 l p d')).
  { split.
    - intros c j. rewrite ns_dlayer. destruct (decide _) as [->|]; [|left; rewrite C1; reflexivity]. rewrite <- C1. cbn [ns]. rewrite Ed.
      destruct HK1 as [->| ->]; [auto|]. destruct (decide (j = dl_size d)) as [->|Hne]; [rewrite lookup_insert; auto|]. rewrite lookup_insert_ne by congruence. auto.
    - intros c k. rewrite es_dlayer. destruct (decide _) as [->|]; [|left; rewrite C2; reflexivity]. rewrite <- C2. unfold es. cbn [g_cont]. rewrite Ed. cbn. apply HK2. }
  destruct ok; [apply SX_with_lookup|]; exact K.
Qed.

(** *** Removing and merging nodes *)
Lemma SX_layer g g2 g' k b b' x : MR (tch g) g g2 -> bl_pre g2 k b -> bl_same b b' ->
  XR (tch g (bcid k b)) (bl_edges b) (bl_edges b') ->
  (exists j s, bl_nst b' = <[j := s]> (bl_nst b) /\ ngone (Some s) /\ nlive (bl_nst b !! j)) ->
  g' = g_with_lookup (g_put_layer g2 k b') x -> SX g g'.
Proof.
  intros (_ & M1 & M2) Hp Hs HX (j0 & s & Hn & Hg & Hl) ->. apply SX_with_lookup. split.
  - intros c j. rewrite ns_put. destruct (decide _) as [->|]; [|left; rewrite M1; reflexivity].
    rewrite (same_cid k b b' Hs), <- M1, (pre_ns g2 k b Hp), Hn. destruct (decide (j = j0)) as [->|Hne].
    + rewrite lookup_insert. right. right. auto.
    + rewrite lookup_insert_ne by congruence. auto.
  - intros c k0. rewrite es_put. destruct (decide _) as [->|]; [|apply M2]. rewrite (same_cid k b b' Hs).
    destruct (HX k0) as [E|E]; [|right; exact E]. rewrite E, <- (pre_es g2 k b Hp). apply M2.
Qed.
Lemma rem_loop g0 x k ts : forall g a g', Rep g a -> g_lookup g = g_lookup g0 -> g_lookup g !! x = Some k -> NoDup ts ->
  (forall t, t ∈ ts -> a_linked a x t /\ exists kt, g_lookup g !! t = Some kt /\ kt <> k) ->
  rfold (fun g t => g_remove_interlayer g x t) ts g = Ok g' -> MR (tch g0) g g'.
Proof.
  intros g a g' HR E Hx Hnd Hts Hr.
  assert (H : MM (tch g0) g (rfold (fun g t => g_remove_interlayer g x t) ts g) id).
  { apply MM_rfold; [|exact E]. intros g1 t E1 Ht. destruct (Hts t Ht) as (_ & kt & Hkt & Hne). rewrite E, <- E1 in Hkt, Hx.
    unfold g_remove_interlayer. rewrite Hx, Hkt. cbn [at_ rbind]. apply MM_remove_keys; try assumption. congruence. }
  rewrite Hr in H. exact H.
Qed.
Lemma rew_loop g0 from to k ts : forall g a g', Rep g a -> g_lookup g = g_lookup g0 -> g_lookup g !! from = Some k -> g_lookup g !! to = Some k ->
  (forall t, t ∈ ts -> a_linked a from t /\ exists kt, g_lookup g !! t = Some kt /\ kt <> k) ->
  rfold (fun g t => g_rewire_interlayer g from to t) ts g = Ok g' -> MR (tch g0) g g'.
Proof.
  intros g a g' HR E Hx Hy Hts Hr.
  assert (H : MM (tch g0) g (rfold (fun g t => g_rewire_interlayer g from to t) ts g) id).
  { apply MM_rfold; [|exact E]. intros g1 t E1 Ht. destruct (Hts t Ht) as (_ & kt & Hkt & Hne). rewrite E, <- E1 in Hkt, Hx, Hy.
    eapply MM_rewire; eassumption. }
  rewrite Hr in H. exact H.
Qed.
Lemma in_static_tch g g2 a2 l s u v : Rep g2 a2 -> g_lookup g2 = g_lookup g -> g_layers g2 !! l = Some s ->
  is_Some (sl_nodes s !! u) -> is_Some (sl_nodes s !! v) -> tch g (CSt l) (edge_key u v).
Proof.
  intros HR E Hs Hu Hv. apply (tch_same g g2 u v (key_static l) E); [apply (static_home g2 a2 l s u HR Hs Hu)|apply (static_home g2 a2 l s v HR Hs Hv)].
Qed.
Lemma in_dynamic_tch g g2 a2 l p d u v : Rep g2 a2 -> g_lookup g2 = g_lookup g -> g_dlayer g2 l p = Some d ->
  is_Some (dl_nmap d !! u) -> is_Some (dl_nmap d !! v) -> tch g (CDy l p) (edge_key u v).
Proof.
  intros HR E Hs Hu Hv. apply (tch_same g g2 u v (key_dynamic l p) E); [apply (dyn_home g2 a2 l p d u HR Hs Hu)|apply (dyn_home g2 a2 l p d v HR Hs Hv)].
Qed.

Lemma SX_remove_node g a x b g' : Rep g a -> g_remove_node g x = Ok (b, g') -> SX g g'.
Proof.
  intros HR. unfold g_remove_node.
  destruct (g_lookup g !! x) as [k|] eqn:Hx; [|intros [= _ <-]; apply SX_refl].
  destruct (Rep_node_ptr g a x k HR Hx) as (L & n & HL & Hn & -> & Hok). cbn [rbind deref].
  assert (Hc1 : forall t, t ∈ elements (n_chd n) -> a_linked a x t /\ exists kt, g_lookup g !! t = Some kt /\ kt <> k).
  { intros t Ht. apply elem_of_elements in Ht. apply (no_links _ _ _ _ _ Hok RChild t) in Ht as (Hl & kt & Hkt & Hr).
    split; [assumption|]. exists kt. split; [assumption|]. intros ->. rewrite rel_refl in Hr. discriminate. }
  destruct (remove_inter_loop (elements (n_chd n)) x k g a HR Hx (NoDup_elements _) Hc1) as (g1 & E1 & HF1 & HR1).
  rewrite E1. cbn [rbind]. pose proof (rem_loop g x k _ g a g1 HR eq_refl Hx (NoDup_elements _) Hc1 E1) as M1.
  assert (Hx1 : g_lookup g1 !! x = Some k) by (rewrite (gf_lookup _ _ HF1); assumption).
  destruct (Rep_node_ptr g1 _ x k HR1 Hx1) as (L1 & n1 & HL1 & Hn1 & -> & Hok1). cbn [rbind deref].
  match type of HR1 with Rep _ ?a1 =>
  assert (Hc2 : forall t, t ∈ elements (n_par n1) -> a_linked a1 x t /\ exists kt, g_lookup g1 !! t = Some kt /\ kt <> k) end.
  { intros t Ht. apply elem_of_elements in Ht. apply (no_links _ _ _ _ _ Hok1 RParent t) in Ht as (Hl & kt & Hkt & Hr).
    split; [assumption|]. exists kt. split; [assumption|]. intros ->. rewrite rel_refl in Hr. discriminate. }
  destruct (remove_inter_loop (elements (n_par n1)) x k g1 _ HR1 Hx1 (NoDup_elements _) Hc2) as (g2 & E2 & HF2 & HR2).
  rewrite E2. cbn [rbind]. pose proof (rem_loop g x k _ g1 _ g2 HR1 (gf_lookup _ _ HF1) Hx1 (NoDup_elements _) Hc2 E2) as M2.
  pose proof (MR_trans _ _ _ _ M1 M2) as M.
  assert (Hlk2 : g_lookup g2 = g_lookup g) by apply M.
  assert (Hx2 : layer_of g2 x = Some k) by (change (g_lookup g2 !! x = Some k); rewrite Hlk2; assumption).
  destruct (known_layer g2 _ x k HR2 Hx2) as [(s & n2 & Hk & Hs & Hn2 & Hat & _ & Hwf & _)|(d & n2 & Hk & Hd & Hn2 & Hat & _ & Hc & Hp & Hpart)]; rewrite Hat; cbn [rbind bl_remove_node].
  - destruct (sl_remove_node s x) as [[r s']| |] eqn:Er; cbn [rbind]; [|discriminate|discriminate]. intros [= _ <-].
    destruct (sl_remove_node_X (tch g (CSt (lk_layer k))) s x r s') as [K1 K2]; [|eauto|exact Er|].
    { intros u v Hu Hv. eapply in_static_tch; eassumption. }
    eapply (SX_layer g g2 _ k (BS s) (BS s')); [exact M|exact Hs|exact I|exact K2| |reflexivity].
    exists x, NDeleted. split; [exact K1|]. split; [left; reflexivity|]. cbn [bl_nst].
    destruct (proj1 (slw_status _ Hwf x)) as (st & Hst & Hl); [eauto|]. rewrite Hst. destruct Hl as [->| ->]; [left|right]; reflexivity.
  - destruct (dl_remove_node d x) as [[r d']| |] eqn:Er; cbn [rbind]; [|discriminate|discriminate]. intros [= _ <-].
    destruct (dl_nmap_slot d x n2 Hc Hn2) as (Hsl & Hpf & Hlt).
    assert (Hhas : dl_has_node d x = true) by (apply dl_has_node_true; eauto).
    destruct (dl_remove_node_X (tch g (CDy (lk_layer k) (lk_prefix k))) d x r d') as [K1 K2]; [| |exact Hhas|exact Er|].
    { intros k0 [e He]. assert (Hg : g_cont g2 (CDy (lk_layer k) (lk_prefix k)) = Some (dl_edges d)) by (cbn; rewrite Hd; reflexivity).
      destruct (cont_edge g2 _ _ _ _ _ HR2 Hg He) as (-> & _ & Hcc). apply tch_key. left. unfold cont in *. rewrite <- Hlk2. exact Hcc. }
    { intros u v Hu Hv H1 H2. apply (dl_has_node_true d u Hc Hu) in H1. apply (dl_has_node_true d v Hc Hv) in H2. eapply in_dynamic_tch; eassumption. }
    eapply (SX_layer g g2 _ k (BD d) (BD d')); [exact M|exact Hd|exact I|exact K2| |reflexivity].
    exists (prefix_index x), NDeleted. split; [exact K1|]. split; [left; reflexivity|]. cbn [bl_nst].
    unfold dl_has_node in Hhas. apply andb_true_iff in Hhas as [_ Hi]. unfold dl_has_index in Hi.
    destruct (dl_status d !! prefix_index x) as [[]|]; try discriminate; [left|right]; reflexivity.
Qed.

Lemma SX_merge_nodes g a from to b g' : Rep g a -> clean a (GMergeNodes from to) -> g_merge_nodes g from to = Ok (b, g') -> SX g g'.
Proof.
  intros HR [_ Hstat]. unfold g_merge_nodes. rewrite <- !(rp_lookup _ _ HR) in *.
  destruct (g_lookup g !! from) as [fk|] eqn:Hf; [|intros [= _ <-]; apply SX_refl].
  destruct (g_lookup g !! to) as [tk|] eqn:Ht; [|intros [= _ <-]; apply SX_refl].
  pose proof (rp_canon _ _ HR _ _ Hf) as Hk. pose proof (rp_canon _ _ HR _ _ Ht) as Hk'.
  destruct (N.eqb_spec from to) as [->|Hne]; [intros [= _ <-]; apply SX_refl|].
  destruct (key_eqb fk tk) eqn:Ek; cbn [negb]; [|intros [= _ <-]; apply SX_refl].
  apply key_eqb_true in Ek; try assumption. subst tk.
  assert (Hst : lk_dynamic fk = false) by (eapply Hstat; auto).
  destruct (Rep_home _ _ _ _ HR Hf) as (_ & _ & L & n & HL & Hn & Hwf & Hid & Hok).
  assert (Hlay : forall g0 L0, g_part g0 fk = Some L0 -> g_layers g0 !! lk_layer fk = Some L0).
  { intros g0 L0. unfold g_part. rewrite Hst. auto. }
  rewrite (Hlay _ _ HL). cbn [deref rbind]. rewrite Hn. cbn [at_ rbind].
  assert (Hc1 : forall t, t ∈ elements (n_par n) -> a_linked a from t /\ exists kt, g_lookup g !! t = Some kt /\ kt <> fk).
  { intros t Hin. apply elem_of_elements in Hin. apply (no_links _ _ _ _ _ Hok RParent t) in Hin as (Hl & kt & Hkt & Hr).
    split; [assumption|]. exists kt. split; [assumption|]. intros ->. rewrite rel_refl in Hr. discriminate. }
  destruct (rewire_loop from to fk (elements (n_par n)) g a HR Hf Ht Hne (NoDup_elements _) Hc1) as (g1 & E1 & R1 & HF1 & HR1 & HM1 & HE1).
  rewrite R1. cbn [rbind]. pose proof (rew_loop g from to fk _ g a g1 HR eq_refl Hf Ht Hc1 R1) as M1.
  assert (Hf1 : g_lookup g1 !! from = Some fk) by (rewrite (gf_lookup _ _ HF1); assumption).
  assert (Ht1 : g_lookup g1 !! to = Some fk) by (rewrite (gf_lookup _ _ HF1); assumption).
  destruct (Rep_home _ _ _ _ HR1 Hf1) as (_ & _ & L1 & n1 & HL1 & Hn1 & Hwf1 & Hid1 & Hok1).
  rewrite (Hlay _ _ HL1). cbn [deref rbind]. rewrite Hn1. cbn [deref rbind].
  assert (Hc2 : forall t, t ∈ elements (n_chd n1) -> a_linked (a_with_edges a E1) from t /\ exists kt, g_lookup g1 !! t = Some kt /\ kt <> fk).
  { intros t Hin. apply elem_of_elements in Hin. apply (no_links _ _ _ _ _ Hok1 RChild t) in Hin as (Hl & kt & Hkt & Hr).
    split; [assumption|]. exists kt. split; [assumption|]. intros ->. rewrite rel_refl in Hr. discriminate. }
  destruct (rewire_loop from to fk (elements (n_chd n1)) g1 _ HR1 Hf1 Ht1 Hne (NoDup_elements _) Hc2) as (g2 & E2 & R2 & HF2 & HR2 & HM2 & HE2).
  rewrite R2. cbn [rbind]. pose proof (rew_loop g from to fk _ g1 _ g2 HR1 (gf_lookup _ _ HF1) Hf1 Ht1 Hc2 R2) as M2.
  pose proof (MR_trans _ _ _ _ M1 M2) as M. assert (Hlk2 : g_lookup g2 = g_lookup g) by apply M.
  assert (Hf2 : g_lookup g2 !! from = Some fk) by (rewrite Hlk2; assumption).
  assert (Ht2 : g_lookup g2 !! to = Some fk) by (rewrite Hlk2; assumption).
  destruct (Rep_home _ _ _ _ HR2 Hf2) as (_ & _ & L2 & n2 & HL2 & Hn2 & Hwf2 & Hid2 & Hok2).
  rewrite (Hlay _ _ HL2). cbn [deref rbind].
  assert (HtoL : is_Some (sl_nodes L2 !! to)) by (eapply Rep_in_part; eassumption).
  destruct (sl_merge_nodes L2 from to) as [[r L3]| |] eqn:Em; cbn [rbind]; [|discriminate|discriminate]. intros [= _ <-].
  destruct (sl_merge_nodes_X (tch g (CSt (lk_layer fk))) L2 from to r L3) as [K1 K2]; [|eauto|exact HtoL|exact Hne|exact Em|].
  { intros u v Hu Hv. eapply in_static_tch; [exact HR2|exact Hlk2|apply Hlay, HL2|exact Hu|exact Hv]. }
  eapply (SX_layer g g2 _ fk (BS L2) (BS L3)); [exact M|apply Hlay, HL2|exact I|exact K2| |reflexivity].
  exists from, NMerged. split; [exact K1|]. split; [right; reflexivity|]. cbn [bl_nst].
  destruct (proj1 (slw_status _ Hwf2 from)) as (st & Hst2 & Hl); [eauto|]. rewrite Hst2. destruct Hl as [->| ->]; [left|right]; reflexivity.
Qed.

(** *** All calls *)
Lemma MM_SX {A} g (r : result A) f x : MM (tch g) g r f -> r = Ok x -> SX g (f x).
Proof. intros H ->. apply MR_SX, H. Qed.
Lemma visit_static_id {R} (f : SLayer -> list R * SLayer) m : (forall s, snd (f s) = s) -> snd (visit_static f m) = m.
Proof. intros H. unfold visit_static. cbn. apply map_eq. intros i. rewrite lookup_fmap. destruct (m !! i); cbn; [rewrite H|]; reflexivity. Qed.
Lemma visit_dynamic_id {R} (f : DLayer -> list R * DLayer) m : (forall s, snd (f s) = s) -> snd (visit_dynamic f m) = m.
Proof.
  intros H. unfold visit_dynamic. cbn. apply map_eq. intros i. rewrite lookup_fmap. destruct (m !! i) as [mm|]; cbn; [|reflexivity]. f_equal.
  apply map_eq. intros j. rewrite lookup_fmap. destruct (mm !! j); cbn; [rewrite H|]; reflexivity.
Qed.
Lemma SX_parts g g' : g_layers g' = g_layers g -> g_dlayers g' = g_dlayers g -> g_inter g' = g_inter g -> g_dinter g' = g_dinter g -> SX g g'.
Proof.
  intros H1 H2 H3 H4. apply SX_same; intros []; unfold es; cbn; unfold g_dlayer; rewrite ?H1, ?H2, ?H3, ?H4; reflexivity.
Qed.
Lemma step_SX g a o b g' : Rep g a -> allowed g o -> plain g o -> g_step g o = Ok (b, g') -> SX g g'.
Proof.
  intros HR Ha Hp. destruct o; cbn [g_step].
  - intros [= Hs]. revert Hs. unfold g_emplace_node. destruct (g_has_node g id); [intros [= _ <-]; apply SX_refl|].
    destruct (g_layers g !! l) as [s|] eqn:El; [|intros [= _ <-]; apply SX_refl]. destruct (sl_emplace_node s id a0) as [ok s'] eqn:Es.
    intros [= _ <-]. eapply SX_emplace_node; eassumption.
  - intros Hs. pose proof (SX_insert_node g (Some (node_new id l t a0))) as H. destruct (g_insert_node g _) as [b1 g1]. assert (g1 = g') as <- by congruence. exact H.
  - intros H. eapply SX_emplace_dynamic; eassumption.
  - intros H. eapply SX_emplace_prev; eassumption.
  - intros Hs. pose proof (SX_create g l p) as H. destruct (g_create_dlayer g l p) as [b1 g1]. assert (g1 = g') as <- by congruence. exact H.
  - unfold g_add_or_update_node. destruct (g_layers g !! l) as [s|] eqn:El; [|intros [= _ <-]; apply SX_refl].
    destruct (g_lookup g !! id) as [k|] eqn:Ek.
    + destruct (g_upd_ptr g id k _) as [g1| |] eqn:E; cbn [rbind]; [|discriminate|discriminate]. intros [= _ <-].
      apply (MM_SX g _ (fun x => x) g1 (MM_upd_ptr g g id k _) E).
    + destruct t; [intros H; eapply SX_emplace_prev; eassumption|].
      destruct (sl_emplace_node s id a0) as [ok s'] eqn:Es. intros [= _ <-]. eapply SX_emplace_node; eassumption.
  - unfold g_set_node_attributes. destruct (g_lookup g !! id) as [k|] eqn:Ek; [|intros [= _ <-]; apply SX_refl].
    destruct (g_upd_ptr g id k _) as [g1| |] eqn:E; cbn [rbind]; [|discriminate|discriminate]. intros [= _ <-].
    apply (MM_SX g _ (fun x => x) g1 (MM_upd_ptr g g id k _) E).
  - intros H. apply (MM_SX g _ snd (b, g') (MM_insert_edge g a HR g u v i eq_refl) H).
  - intros H. eapply (MM_SX g _ snd (b, g')); [|exact H]. apply (MM_insert_parent_edge g a HR g u v i eq_refl).
    intros sk tk H1 H2 ->. apply (Ha tk tk H1 H2). reflexivity.
  - unfold g_add_or_update_edge. destruct (g_has_edge g u v) as [has| |]; cbn [rbind]; [|discriminate|discriminate].
    intros H. destruct has; [apply (MM_SX g _ snd (b, g') (MM_set_edge g g u v i) H)|apply (MM_SX g _ snd (b, g') (MM_insert_edge g a HR g u v (Some i) eq_refl) H)].
  - intros H. apply (MM_SX g _ snd (b, g') (MM_set_edge g g u v i) H).
  - intros H. apply (MM_SX g _ snd (b, g') (MM_remove_edge g a HR g u v eq_refl) H).
  - intros H. eapply SX_remove_node; eassumption.
  - intros H. eapply SX_merge_nodes; [exact HR|exact (allowed_clean g a HR _ Ha)|exact H].
  - destruct (g_find_edge g u v) as [[o g1]| |] eqn:E; cbn [rbind]; [|discriminate|discriminate]. intros [= _ <-].
    apply (MM_SX g _ snd (o, g1) (MM_find g g u v) E).
  - intros [= _ <-]. apply SX_same.
    + intros [l|l p| |]; cbn; try reflexivity.
      * rewrite lookup_fmap. destruct (g_layers g !! l); reflexivity.
      * unfold g_dlayer. cbn. rewrite lookup_fmap. destruct (g_dlayers g !! l) as [m|]; cbn; [|reflexivity]. rewrite lookup_fmap. destruct (m !! p); reflexivity.
    + intros c. unfold es. rewrite mark_cont. destruct (g_cont g c); reflexivity.
  - cbn in Hp. subst clear. intros [= _ <-]. apply SX_parts; try reflexivity.
    + exact (visit_static_id (fun l => sl_get_new_nodes l false) (g_layers g) (fun s => match s with mkSL _ _ _ _ => eq_refl end)).
    + exact (visit_dynamic_id (fun l => dl_get_new_nodes l false) (g_dlayers g) (fun s => match s with mkDL _ _ _ _ _ _ _ => eq_refl end)).
  - cbn in Hp. subst clear. intros [= _ <-]. apply SX_parts; try reflexivity.
    + exact (visit_static_id (fun l => sl_get_removed_nodes l false) (g_layers g) (fun s => match s with mkSL _ _ _ _ => eq_refl end)).
    + exact (visit_dynamic_id (fun l => dl_get_removed_nodes l false) (g_dlayers g) (fun s => match s with mkDL _ _ _ _ _ _ _ => eq_refl end)).
  - cbn in Hp. subst clear. intros [= _ <-]. apply SX_parts; try reflexivity.
    + exact (visit_static_id (fun l => sl_get_new_edges l false) (g_layers g) (fun s => match s with mkSL _ _ _ _ => eq_refl end)).
    + exact (visit_dynamic_id (fun l => dl_get_new_edges l false) (g_dlayers g) (fun s => match s with mkDL _ _ _ _ _ _ _ => eq_refl end)).
  - cbn in Hp. subst clear. intros [= _ <-]. apply SX_parts; try reflexivity.
    + exact (visit_static_id (fun l => sl_get_removed_edges l false) (g_layers g) (fun s => match s with mkSL _ _ _ _ => eq_refl end)).
    + exact (visit_dynamic_id (fun l => dl_get_removed_edges l false) (g_dlayers g) (fun s => match s with mkDL _ _ _ _ _ _ _ => eq_refl end)).
  - intros [= _ <-]. apply SX_same; intros []; reflexivity.
  - destruct Hp.
Qed.
