(** The reports in terms of the statuses, and histories. *)
From Coq Require Import NArith ZArith Bool List Lia.
From stdpp Require Import base list gmap fin_maps tactics.
From Verif.Model Require Import Types Mesh Attrs Node EdgeContainer SLayer DLayer Graph.
From Verif.Spec Require Import AbstractGraph GraphHistory GraphObs MirrorSpec.
From Verif.Proof Require Import Arith Keys SLayerP SLayerMerge DLayerP DLayerOps GraphRep GraphEdges GraphAttrs GraphNodes GraphRemove GraphMerge GraphSim GraphObsP QueryP StaleP StaleP2 MirrorP MirrorP2.
Local Open Scope N_scope.
#[local] Arguments edge_key : simpl never.

Definition ckey (c : cid) : LayerKey := match c with CDy l p => key_dynamic l p | CSt l => key_static l | _ => key_unknown end.

(** *** Nodes *)
Lemma live_home g a c j : Rep g a -> nlive (ns g c !! j) -> layer_of g (nid c j) = Some (ckey c) /\ (forall l p, c = CDy l p -> j < two32).
Proof.
  intros HR H. destruct c as [l|l p| |]; cbn [ns nid ckey] in *.
  - destruct (g_layers g !! l) as [s|] eqn:E; [|rewrite lookup_empty in H; destruct H; discriminate]. split; [|discriminate].
    destruct (rp_part _ _ HR (key_static l) s) as (Hwf & _); [intros _; reflexivity|exact E|].
    apply (static_home g a l s j HR E), (slw_status _ Hwf j). destruct H as [->| ->]; [exists NNew|exists NVisible]; (split; [reflexivity|]); [left|right]; reflexivity.
  - destruct (g_dlayer g l p) as [d|] eqn:E; [|rewrite lookup_empty in H; destruct H; discriminate].
    destruct (rp_dinv _ _ HR _ _ _ E) as (Hc & _ & Hp & _).
    assert (Hi : dl_has_index d j = true) by (unfold dl_has_index; destruct H as [->| ->]; reflexivity).
    apply (dlc_status _ Hc) in Hi as [n Hn]. pose proof (dl_index_lt _ _ _ Hc Hn) as Hlt. rewrite N2Nat.id in Hlt.
    split; [|intros ? ? _; exact Hlt]. apply (dyn_home g a l p d _ HR E). exists n. apply dl_nmap_Some; [exact Hc|].
    exists (N.to_nat j). split; [exact Hn|]. rewrite N2Nat.id, Hp. reflexivity.
  - rewrite lookup_empty in H; destruct H; discriminate.
  - rewrite lookup_empty in H; destruct H; discriminate.
Qed.
Lemma known_live g a x k : Rep g a -> layer_of g x = Some k -> exists c j, x = nid c j /\ nlive (ns g c !! j) /\ ckey c = k.
Proof.
  intros HR Hx. destruct (known_layer g a x k HR Hx) as [(s & n & Hk & Hs & Hn & _ & _ & Hwf & _)|(d & n & Hk & Hd & Hn & _ & _ & Hc & Hp & _)].
  - exists (CSt (lk_layer k)), x. split; [reflexivity|]. split; [|exact (eq_sym Hk)]. cbn. rewrite Hs.
    destruct (proj1 (slw_status _ Hwf x)) as (st & Hst & Hl); [eauto|]. rewrite Hst. destruct Hl as [->| ->]; [left|right]; reflexivity.
  - exists (CDy (lk_layer k) (lk_prefix k)), (prefix_index x). destruct (dl_nmap_slot d x n Hc Hn) as (Hsl & Hpf & Hlt).
    split; [|split; [|exact (eq_sym Hk)]].
    + cbn. symmetry. rewrite <- Hp. apply make_id_of_id; [apply (dlc_prefix _ Hc)|exact Hlt|exact Hpf].
    + cbn. rewrite Hd. assert (Hi : dl_has_index d (prefix_index x) = true) by (apply (dlc_status _ Hc); eauto).
      unfold dl_has_index in Hi. destruct (dl_status d !! prefix_index x) as [[]|]; try discriminate; [left|right]; reflexivity.
Qed.
Lemma live_same g a c j c' j' : Rep g a -> nlive (ns g c !! j) -> nlive (ns g c' !! j') -> nid c j = nid c' j' -> c = c' /\ j = j'.
Proof.
  intros HR H H' E. destruct (live_home g a c j HR H) as [H1 H2], (live_home g a c' j' HR H') as [H1' H2'].
  rewrite E, H1' in H1. injection H1 as H1.
  assert (c = c') as <-.
  { destruct c, c'; cbn in H1; try discriminate; try reflexivity; try (injection H1 as ->; reflexivity); try (injection H1 as -> ->; reflexivity);
      try (exfalso; cbn in H; rewrite lookup_empty in H; destruct H; discriminate); exfalso; cbn in H'; rewrite lookup_empty in H'; destruct H'; discriminate. }
  split; [reflexivity|]. destruct c; cbn in E; try exact E. cbn in H. destruct (g_dlayer g l p) as [d|] eqn:Ed; [|rewrite lookup_empty in H; destruct H; discriminate].
  destruct (rp_dinv _ _ HR _ _ _ Ed) as (Hc & _ & Hp & _). eapply (make_id_inj p); eauto. rewrite <- Hp. apply (dlc_prefix _ Hc).
Qed.
(** What getRemovedNodes reports of a partition. *)
Definition rgone (c : cid) (s : option NodeStatus) : Prop :=
  match c with CDy _ _ => s = Some NDeleted | _ => ngone s end.
Lemma removed_iff g a b x : Rep g a -> (x ∈ fst (g_get_removed_nodes g b) <-> exists c j, x = nid c j /\ rgone c (ns g c !! j)).
Proof.
  intros HR.
  assert (E : fst (g_get_removed_nodes g b) = fst (visit_static (fun l => sl_get_removed_nodes l b) (g_layers g)) ++ fst (visit_dynamic (fun d => dl_get_removed_nodes d b) (g_dlayers g))).
  { unfold g_get_removed_nodes. destruct (visit_static _ _), (visit_dynamic _ _). reflexivity. }
  rewrite E, elem_of_app, elem_visit_static, elem_visit_dynamic. split.
  - intros [(l & s & Hs & Hx)|(l & p & d & Hd & Hx)].
    + cbn in Hx. apply elem_of_keys_with in Hx as (st & Hst & Hr). exists (CSt l), x. split; [reflexivity|]. cbn. rewrite Hs, Hst. destruct st; try discriminate; (left; reflexivity) || (right; reflexivity).
    + cbn in Hx. apply elem_of_list_fmap in Hx as (i & -> & Hi). apply elem_of_keys_with in Hi as (st & Hst & Hr).
      destruct (rp_dinv _ _ HR _ _ _ Hd) as (_ & _ & Hp & _).
      exists (CDy l p), i. cbn. rewrite Hd, Hst, Hp. split; [reflexivity|]. destruct st; try discriminate. reflexivity.
  - intros (c & j & -> & H). destruct c as [l|l p| |]; cbn in *.
    + destruct (g_layers g !! l) as [s|] eqn:Es; [|rewrite lookup_empty in H; destruct H; discriminate]. left. exists l, s. split; [exact Es|].
      apply elem_of_keys_with. destruct H as [->| ->]; eauto.
    + destruct (g_dlayer g l p) as [d|] eqn:Es; [|rewrite lookup_empty in H; discriminate]. right. exists l, p, d. split; [exact Es|].
      destruct (rp_dinv _ _ HR _ _ _ Es) as (_ & _ & Hp & _). apply elem_of_list_fmap. exists j. rewrite Hp. split; [reflexivity|].
      apply elem_of_keys_with. eauto.
    + rewrite lookup_empty in H; destruct H; discriminate.
    + rewrite lookup_empty in H; destruct H; discriminate.
Qed.
Lemma new_iff g a b x : Rep g a -> (x ∈ fst (g_get_new_nodes g b) <-> exists c j, x = nid c j /\ ns g c !! j = Some NNew).
Proof.
  intros HR.
  assert (E : fst (g_get_new_nodes g b) = fst (visit_static (fun l => sl_get_new_nodes l b) (g_layers g)) ++ fst (visit_dynamic (fun d => dl_get_new_nodes d b) (g_dlayers g))).
  { unfold g_get_new_nodes. destruct (visit_static _ _), (visit_dynamic _ _). reflexivity. }
  rewrite E, elem_of_app, elem_visit_static, elem_visit_dynamic. split.
  - intros [(l & s & Hs & Hx)|(l & p & d & Hd & Hx)].
    + cbn in Hx. apply elem_of_keys_with in Hx as (st & Hst & Hr). exists (CSt l), x. split; [reflexivity|]. cbn. rewrite Hs, Hst. destruct st; try discriminate; reflexivity.
    + cbn in Hx. apply elem_of_list_fmap in Hx as (i & -> & Hi). apply elem_of_keys_with in Hi as (st & Hst & Hr).
      destruct (rp_dinv _ _ HR _ _ _ Hd) as (_ & _ & Hp & _).
      exists (CDy l p), i. cbn. rewrite Hd, Hst, Hp. split; [reflexivity|]. destruct st; try discriminate. reflexivity.
  - intros (c & j & -> & H). destruct c as [l|l p| |]; cbn in *.
    + destruct (g_layers g !! l) as [s|] eqn:Es; [|rewrite lookup_empty in H; discriminate]. left. exists l, s. split; [exact Es|].
      apply elem_of_keys_with. eauto.
    + destruct (g_dlayer g l p) as [d|] eqn:Es; [|rewrite lookup_empty in H; discriminate]. right. exists l, p, d. split; [exact Es|].
      destruct (rp_dinv _ _ HR _ _ _ Es) as (_ & _ & Hp & _). apply elem_of_list_fmap. exists j. rewrite Hp. split; [reflexivity|].
      apply elem_of_keys_with. eauto.
    + rewrite lookup_empty in H; discriminate.
    + rewrite lookup_empty in H; discriminate.
Qed.
(** A status that is no longer live is reported. *)
Lemma gone_reported g a c j : Rep g a -> ngone (ns g c !! j) -> rgone c (ns g c !! j).
Proof.
  intros HR H. destruct c as [l|l p| |]; try exact H. cbn in *. destruct (g_dlayer g l p) as [d|] eqn:E; [|rewrite lookup_empty in H; destruct H; discriminate].
  destruct (rp_dinv _ _ HR _ _ _ E) as (Hc & _). destruct H as [H|H]; [exact H|]. destruct (dlc_status_ok _ Hc _ _ H) as [|[|]]; discriminate.
Qed.
Lemma rgone_ngone c s : rgone c s -> ngone s. Proof. destruct c; cbn; auto. intros ->. left. reflexivity. Qed.

(** *** Edges *)
Definition elive (s : option EdgeStatus) : Prop := s = Some ENew \/ s = Some EVisible.
Lemma g_cont_wf g a c e : Rep g a -> g_cont g c = Some e -> ec_wf e.
Proof.
  intros HR H. destruct c as [l|l p| |]; cbn in H.
  - destruct (g_layers g !! l) as [s|] eqn:E; [|discriminate]. injection H as <-.
    destruct (rp_part _ _ HR (key_static l) s) as (Hwf & _); [intros _; reflexivity|exact E|]. apply slw_ec, Hwf.
  - destruct (g_dlayer g l p) as [d|] eqn:E; [|discriminate]. injection H as <-.
    destruct (rp_part _ _ HR (key_dynamic l p) (dl_view d)) as (Hwf & _); [intros ?; discriminate| |]. { unfold g_part. cbn. rewrite E. reflexivity. }
    exact (slw_ec _ Hwf).
  - injection H as <-. exact (rp_ec _ _ HR false).
  - injection H as <-. exact (rp_ec _ _ HR true).
Qed.
Lemma elive_cont g a c k : Rep g a -> elive (es g c !! k) -> cont g (fst k) (snd k) = Some c /\ its_edges g k.
Proof.
  intros HR H. unfold es in H. destruct (g_cont g c) as [e|] eqn:E; [|rewrite lookup_empty in H; destruct H; discriminate].
  pose proof (g_cont_wf g a c e HR E) as Hwf.
  assert (Hin : is_Some (ec_edges e !! k)).
  { apply (ecw_live _ Hwf). destruct H as [H|H]; eexists; (split; [exact H|]); [left|right]; reflexivity. }
  destruct Hin as [x Hx]. destruct (cont_edge g a c e k x HR E Hx) as (Hk & Hl & Hc). subst k. split.
  - rewrite (cont_key g _ _ _ _ (edge_key_self (e_src x) (e_tgt x))). exact Hc.
  - exists (e_src x), (e_tgt x). split; [reflexivity|]. apply (obs_adjacent g a HR). exact Hl.
Qed.
Lemma edge_live g a k : Rep g a -> its_edges g k -> exists c, elive (es g c !! k).
Proof.
  intros HR (u & v & -> & H). apply (obs_adjacent g a HR) in H. destruct (cont_linked g a u v HR H) as (c & e & Hc & He & Hin).
  exists c. unfold es. rewrite He. apply (ecw_live _ (g_cont_wf g a c e HR He)) in Hin as (s & -> & [->| ->]); [left|right]; reflexivity.
Qed.
Lemma edges_report (f : EdgeStatus -> bool) (fs : SLayer -> list EdgeKey * SLayer) (fd : DLayer -> list EdgeKey * DLayer) g k :
  (forall s, fst (fs s) = keys_with f (ec_status (sl_edges s))) -> (forall s, fst (fd s) = keys_with f (ec_status (dl_edges s))) ->
  (k ∈ fst (visit_static fs (g_layers g)) ++ fst (visit_dynamic fd (g_dlayers g)) ++ keys_with f (ec_status (g_inter g)) ++ keys_with f (ec_status (g_dinter g)) <->
   exists c s, es g c !! k = Some s /\ f s = true).
Proof.
  intros Hs Hd. rewrite !elem_of_app, elem_visit_static, elem_visit_dynamic, !elem_of_keys_with. split.
  - intros [(l & s & E & H)|[(l & p & d & E & H)|[(s & E & H)|(s & E & H)]]].
    + rewrite Hs in H. apply elem_of_keys_with in H as (st & H & Hf). exists (CSt l), st. unfold es. cbn. rewrite E. auto.
    + rewrite Hd in H. apply elem_of_keys_with in H as (st & H & Hf). exists (CDy l p), st. unfold es. cbn. rewrite E. auto.
    + exists CIn, s. auto.
    + exists CDin, s. auto.
  - intros (c & s & H & Hf). unfold es in H. destruct c as [l|l p| |]; cbn in H.
    + destruct (g_layers g !! l) as [x|] eqn:E; cbn in H; [|rewrite lookup_empty in H; discriminate]. left. exists l, x. split; [exact E|]. rewrite Hs. apply elem_of_keys_with. eauto.
    + destruct (g_dlayer g l p) as [x|] eqn:E; cbn in H; [|rewrite lookup_empty in H; discriminate]. right. left. exists l, p, x. split; [exact E|]. rewrite Hd. apply elem_of_keys_with. eauto.
    + right. right. left. eauto.
    + right. right. right. eauto.
Qed.
Lemma new_edges_iff g b k : k ∈ fst (g_get_new_edges g b) <-> exists c, es g c !! k = Some ENew.
Proof.
  unfold g_get_new_edges. destruct (visit_static _ _) as [r1 ls] eqn:E1, (visit_dynamic _ _) as [r2 ds] eqn:E2. cbn [ec_get_new fst].
  assert (Hr1 : r1 = fst (visit_static (fun l => sl_get_new_edges l b) (g_layers g))) by (rewrite E1; reflexivity).
  assert (Hr2 : r2 = fst (visit_dynamic (fun l => dl_get_new_edges l b) (g_dlayers g))) by (rewrite E2; reflexivity).
  rewrite Hr1, Hr2, (edges_report e_is_new); [|reflexivity|reflexivity]. split.
  - intros (c & s & H & Hf). exists c. destruct s; try discriminate. exact H.
  - intros (c & H). exists c, ENew. auto.
Qed.
Lemma removed_edges_iff g b k : k ∈ fst (g_get_removed_edges g b) <-> exists c, es g c !! k = Some EDeleted.
Proof.
  unfold g_get_removed_edges. destruct (visit_static _ _) as [r1 ls] eqn:E1, (visit_dynamic _ _) as [r2 ds] eqn:E2. cbn [ec_get_removed fst].
  assert (Hr1 : r1 = fst (visit_static (fun l => sl_get_removed_edges l b) (g_layers g))) by (rewrite E1; reflexivity).
  assert (Hr2 : r2 = fst (visit_dynamic (fun l => dl_get_removed_edges l b) (g_dlayers g))) by (rewrite E2; reflexivity).
  rewrite Hr1, Hr2, (edges_report e_is_deleted); [|reflexivity|reflexivity]. split.
  - intros (c & s & H & Hf). exists c. destruct s; try discriminate. exact H.
  - intros (c & H). exists c, EDeleted. auto.
Qed.

Lemma classic_live g a k : Rep g a -> (exists c, elive (es g c !! k)) \/ (forall c, ~ elive (es g c !! k)).
Proof.
  intros HR. destruct (cont g (fst k) (snd k)) as [c|] eqn:Ec.
  - destruct (es g c !! k) as [[]|] eqn:E; try (left; exists c; rewrite E; (left; reflexivity) || (right; reflexivity));
      right; intros c' H; destruct (elive_cont g a c' k HR H) as [H' _]; assert (c' = c) as -> by congruence; rewrite E in H; destruct H; discriminate.
  - right. intros c H. destruct (elive_cont g a c k HR H) as [H' _]. congruence.
Qed.

(** *** Histories *)
Record Inv (g0 g : Graph) : Prop := {
  iv_old : forall c j, ns g c !! j = Some NVisible -> is_Some (layer_of g0 (nid c j));
  iv_gone : forall x, is_Some (layer_of g0 x) -> layer_of g x = None -> exists c j, x = nid c j /\ ngone (ns g c !! j);
  iv_kept : forall c j c' j', ns g c !! j = Some NVisible -> nid c' j' = nid c j -> ~ ngone (ns g c' !! j');
  iv_eold : forall c k, es g c !! k = Some EVisible -> its_edges g0 k;
  iv_egone : forall k, its_edges g0 k -> (forall c, ~ elive (es g c !! k)) -> exists c, es g c !! k = Some EDeleted;
  iv_ekept : forall c k c', es g c !! k = Some EVisible -> es g c' !! k <> Some EDeleted
}.
Lemma Inv_start g a : Rep g a -> none_lost g -> no_edge_lost g -> Inv g g.
Proof.
  intros HR Hn He. split.
  - intros c j H. destruct (live_home g a c j HR (or_intror H)) as [E _]. eauto.
  - intros x [k Hk] H. congruence.
  - intros c j c' j' H E Hg. destruct (live_home g a c j HR (or_intror H)) as [E1 _].
    apply (Hn (nid c j)); [unfold g_has_node; apply bool_decide_eq_true; unfold layer_of, g_layer_for_node in E1; rewrite E1; eauto|].
    apply (removed_iff g a false _ HR). exists c', j'. split; [auto|]. apply (gone_reported g a c' j' HR Hg).
  - intros c k H. apply (elive_cont g a c k HR (or_intror H)).
  - intros k Hk H. exfalso. destruct (edge_live g a k HR Hk) as [c Hc]. exact (H c Hc).
  - intros c k c' H H'. apply (He k); [apply (elive_cont g a c k HR (or_intror H))|]. apply removed_edges_iff. eauto.
Qed.
Lemma Inv_step g0 g a g' a' : Rep g a -> Rep g' a' -> SX g g' -> Inv g0 g -> Inv g0 g'.
Proof.
  intros HR HR' [HN HE] HI.
  assert (Hback : forall c j, ns g' c !! j = Some NVisible -> ns g c !! j = Some NVisible).
  { intros c j H. destruct (HN c j) as [E|[E|[[E|E] _]]]; congruence. }
  assert (Heback : forall c k, es g' c !! k = Some EVisible -> es g c !! k = Some EVisible).
  { intros c k H. destruct (HE c k) as [E|[_ [E|E]]]; congruence. }
  split.
  - intros c j H. apply (iv_old _ _ HI c j), Hback, H.
  - intros x Hx Hn. destruct (layer_of g x) as [k|] eqn:Ek.
    + destruct (known_live g a x k HR Ek) as (c & j & -> & Hl & _). exists c, j. split; [reflexivity|].
      destruct (HN c j) as [E|[E|[E _]]]; [exfalso|exfalso|exact E].
      * rewrite <- E in Hl. destruct (live_home g' a' c j HR' Hl) as [E' _]. congruence.
      * destruct (live_home g' a' c j HR' (or_introl E)) as [E' _]. congruence.
    + destruct (iv_gone _ _ HI x Hx Ek) as (c & j & -> & Hg). exists c, j. split; [reflexivity|].
      destruct (HN c j) as [E|[E|[E _]]]; [rewrite E; exact Hg|exfalso|exact E].
      destruct (live_home g' a' c j HR' (or_introl E)) as [E' _]. congruence.
  - intros c j c' j' H E Hg. pose proof (Hback c j H) as Hv. pose proof (iv_kept _ _ HI c j c' j' Hv E) as Hk.
    destruct (HN c' j') as [E'|[E'|[_ [Hl|Hl]]]].
    + rewrite E' in Hg. contradiction.
    + rewrite E' in Hg. destruct Hg; discriminate.
    + destruct (live_same g a c' j' c j HR Hl (or_intror Hv) E) as [-> ->]. rewrite H in Hg. destruct Hg; discriminate.
    + rewrite E in Hl. destruct (live_home g a c j HR (or_intror Hv)) as [E1 _]. congruence.
  - intros c k H. apply (iv_eold _ _ HI c k), Heback, H.
  - intros k Hk Hn. destruct (classic_live g a k HR) as [[c Hc]|Hno].
    + exists c. destruct (HE c k) as [E|[_ [E|E]]]; [exfalso|exfalso|exact E].
      * apply (Hn c). rewrite E. exact Hc.
      * apply (Hn c). left. exact E.
    + destruct (iv_egone _ _ HI k Hk Hno) as [c Hc]. exists c. destruct (HE c k) as [E|[_ [E|E]]]; [congruence|exfalso|exact E].
      apply (Hn c). left. exact E.
  - intros c k c' H H'. pose proof (Heback c k H) as Hv. pose proof (iv_ekept _ _ HI c k c' Hv) as Hk.
    destruct (HE c' k) as [E'|[Ht _]]; [congruence|]. destruct (elive_cont g a c k HR (or_intror Hv)) as [Hc _].
    destruct Ht as [Ht|Ht]; [|congruence]. assert (c' = c) as -> by congruence. congruence.
Qed.
