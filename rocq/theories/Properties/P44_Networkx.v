(** C75: conversion to networkx. *)
From Coq Require Import NArith ZArith Bool List Lia String.
From stdpp Require Import base list gmap strings.
From Verif.Model Require Import Types Mesh Attrs Node EdgeContainer SLayer DLayer Graph Views Iterators PyConvert.
From Verif.Spec Require Import AbstractGraph GraphHistory LayerLog GraphObs IterSpec ConvertSpec.
From Verif.Proof Require Import Arith Keys SLayerP DLayerP DLayerOps GraphRep GraphEdges GraphAttrs GraphSim LayerRep GraphObsP GraphProps GraphCounts MatrixP StaleP StaleP2 CloneP IterP ConvertP LayerLogP LayerLogP2.
From Verif.Properties Require Import ExGraph P04_Layer P31_Iterators.
Local Open Scope N_scope.
#[local] Arguments edge_key : simpl never.

Lemma node_there g x k : reachable g -> layer_of g x = Some k -> exists n, node_at g x = Some n /\ n_id n = x.
Proof.
  intros Hr Hk. destruct (reachable_RepL g Hr) as [a [HR _]]. pose proof (rp_canon _ _ HR x k Hk) as Hc.
  destruct (Rep_node_ptr _ _ _ _ HR Hk) as (L & n & HL & Hn & E & _). destruct (part_lists g a HR k L Hc HL) as (E1 & [_ HN] & _).
  exists n. assert (Q : n ∈ map snd (node_iter L)).
  { rewrite elem_of_list_In, in_map_iff. exists (x, n). split; [reflexivity|]. apply elem_of_list_In, (elem_ascending (sl_nodes L) (x, n)). exact Hn. }
  apply HN in Q as [Q _].
  assert (Ex : n_id n = x).
  { assert (In (n_id n) (map n_id (map snd (node_iter L)))) as _ by (apply in_map, in_map_iff; exists (x, n); split; [reflexivity|]; apply elem_of_list_In, (elem_ascending (sl_nodes L) (x, n)); exact Hn).
    assert (K : forall ys : list (N * Node), map n_id (map snd ys) = map fst ys -> forall y m, In (y, m) ys -> n_id m = y).
    { induction ys as [|[y m] ys IH]; intros Hy y' m' Hin; [destruct Hin|]. cbn in Hy. injection Hy as H1 H2. destruct Hin as [[= <- <-]|Hin]; [exact H1|apply (IH H2 _ _ Hin)]. }
    apply (K _ E1). apply elem_of_list_In, (elem_ascending (sl_nodes L) (x, n)). exact Hn. }
  rewrite Ex in Q. auto.
Qed.
Lemma dlayers_in g d : d ∈ di_all (ascending (g_dlayers g)) <-> exists l p, g_dlayer g l p = Some d.
Proof.
  unfold di_all. rewrite in_concat_map. split.
  - intros ([l m] & H1 & H2). apply elem_of_list_In, in_map_iff in H2 as ([p d'] & <- & H2). apply elem_of_list_In in H2. exists l, p.
    apply (elem_ascending (g_dlayers g) (l, m)) in H1. apply (elem_ascending m (p, d')) in H2. cbn in H1, H2. assert (H3 : g_dlayers g !! l = Some m) by exact H1. unfold g_dlayer. rewrite H3. exact H2.
  - intros (l & p & H). unfold g_dlayer in H. destruct (g_dlayers g !! l) as [m|] eqn:Em; [|discriminate]. exists (l, m). split; [apply (elem_ascending (g_dlayers g) (l, m)), Em|].
    apply elem_of_list_In, in_map_iff. exists (p, d). split; [reflexivity|]. apply elem_of_list_In, (elem_ascending m (p, d)), H.
Qed.

Section any.
Context {V : Type} (cn : NodeAttrs -> dict V) (ce : EdgeAttrs -> dict V).

(** graph_to_networkx has exactly one result: the nodes and edges of the static layers, or of all
    layers, each with the converted attributes, and nothing else.  (Reading the slot behind the last
    node of a dynamic layer is assumed harmless, as in C61.) *)
Theorem C75_graph : forall past g dyn, reachable g -> (dyn = true -> exists b, past = Ok b) -> exists G,
  (forall r, graph_to_networkx cn ce past g dyn r <-> r = Ok G) /\
  (forall x, nx_node G !! x = if shown dyn g x then cn <$> attributes_of g x else None) /\
  (forall u v, nx_adj G !! (u, v) = if shown dyn g u && shown dyn g v then ce <$> info_of g u v else None).
Proof.
  intros past g dyn Hr Hp. exists (fold_left nx_op (graph_ops cn ce g dyn) nx_empty). split; [intros r; apply graph_ok, Hp|].
  destruct (reachable_RepL g Hr) as [a [HR _]]. pose proof (rp_canon _ _ HR) as HC.
  set (F := fun x => if shown dyn g x then cn <$> attributes_of g x else None).
  set (H := fun u v => if shown dyn g u && shown dyn g v then ce <$> info_of g u v else None).
  assert (Hsym : forall u v, H u v = H v u).
  { intros u v. unfold H, info_of. rewrite andb_comm. destruct (edges_symmetric g u v Hr) as [_ E]. cbn in E. unfold edge_at in *.
    destruct (shown dyn g v && shown dyn g u); [|reflexivity]. f_equal. f_equal. apply (edges_symmetric g u v Hr). }
  assert (K : forall k ns es, (lk_dynamic k = true -> dyn = true) -> lists_nodes g (eq k) ns -> (forall e, e ∈ es <-> edge_at g (e_src e) (e_tgt e) = Some e /\ inside k (layer_of g (e_src e)) (layer_of g (e_tgt e))) ->
    fills cn ce F H ns es).
  { intros k ns es Hd [_ HN] HE.
    assert (HS : forall x, layer_of g x = Some k -> shown dyn g x = true) by (intros x Hx; unfold shown; rewrite Hx; destruct (lk_dynamic k); [rewrite Hd by reflexivity|rewrite orb_true_r]; reflexivity).
    split.
    - intros n Hn. apply HN in Hn as (E & k' & Hk & <-). unfold F. rewrite (HS _ Hk). unfold attributes_of. rewrite E. reflexivity.
    - intros e He. apply HE in He as (E & H1 & H2). split; [unfold H; rewrite (HS _ H1), (HS _ H2); unfold info_of; rewrite E; reflexivity|].
      assert (Q : forall x, layer_of g x = Some k -> exists n, n ∈ ns /\ n_id n = x).
      { intros x Hx. destruct (node_there g x k Hr Hx) as (n & E1 & E2). exists n. split; [|exact E2]. apply HN. rewrite E2. eauto. }
      split; apply Q; assumption. }
  assert (KS : forall l L, g_layers g !! l = Some L -> fills cn ce F H (map snd (node_iter L)) (map snd (edge_iter (sl_edges L))) /\ lists_nodes g (eq (key_static l)) (map snd (node_iter L)) /\
      forall e, e ∈ map snd (edge_iter (sl_edges L)) <-> edge_at g (e_src e) (e_tgt e) = Some e /\ inside (key_static l) (layer_of g (e_src e)) (layer_of g (e_tgt e))).
  { intros l L HL. destruct (part_lists g a HR (key_static l) L (canon_static l) HL) as (_ & HN & _). destruct (cont_lists g a HR (CSt l) (sl_edges L)) as [_ HE]; [cbn; rewrite HL; reflexivity|].
    assert (HE' : forall e, e ∈ map snd (edge_iter (sl_edges L)) <-> edge_at g (e_src e) (e_tgt e) = Some e /\ inside (key_static l) (layer_of g (e_src e)) (layer_of g (e_tgt e))) by (intros e; rewrite HE, (cont_static g _ _ l HC); reflexivity).
    split; [apply (K (key_static l)); [discriminate|exact HN|exact HE']|auto]. }
  assert (KD : forall l p d, g_dlayer g l p = Some d -> lists_nodes g (eq (key_dynamic l p)) (dl_live d) /\
      forall e, e ∈ map snd (edge_iter (dl_edges d)) <-> edge_at g (e_src e) (e_tgt e) = Some e /\ inside (key_dynamic l p) (layer_of g (e_src e)) (layer_of g (e_tgt e))).
  { intros l p d Hd. split; [apply (live_nodes g a l p d _ HR Hd), live_omap|]. destruct (cont_lists g a HR (CDy l p) (dl_edges d)) as [_ HE]; [cbn; rewrite Hd; reflexivity|]. intros e. rewrite HE, cont_dynamic. reflexivity. }
  assert (KI : forall b e, e ∈ map snd (edge_iter (if b : bool then g_dinter g else g_inter g)) <-> edge_at g (e_src e) (e_tgt e) = Some e /\ between b (layer_of g (e_src e)) (layer_of g (e_tgt e))).
  { intros b e. destruct (cont_lists g a HR (if b then CDin else CIn) (if b then g_dinter g else g_inter g)) as [_ HE]; [destruct b; reflexivity|]. rewrite HE, cont_between. reflexivity. }
  unfold graph_ops. rewrite fold_left_app, fold_left_app.
  destruct (layers_inv cn ce F H Hsym (fun L => map snd (node_iter L)) (fun L => map snd (edge_iter (sl_edges L))) (map snd (layer_iter g)) nx_empty) as (I1 & _ & N1 & E1).
  { split; [intros x Hx|intros u v Hx]; destruct Hx; apply lookup_empty. }
  { intros L HL. apply elem_of_list_In, in_map_iff in HL as ([l L'] & <- & HL). apply elem_of_list_In, layers_in in HL. apply (KS l), HL. }
  change (fun x => nodes_ops cn (map snd (node_iter x)) ++ edges_ops ce (map snd (edge_iter (sl_edges x)))) with (layer_ops cn ce) in I1, N1, E1.
  set (G1 := fold_left nx_op (concat (map (layer_ops cn ce) (map snd (layer_iter g)))) nx_empty) in *.
  assert (LI : forall l L, g_layers g !! l = Some L -> L ∈ map snd (layer_iter g)).
  { intros l L HL. apply elem_of_list_In, in_map_iff. exists (l, L). split; [reflexivity|]. apply elem_of_list_In, layers_in, HL. }
  assert (SN : forall x l, layer_of g x = Some (key_static l) -> has_node G1 x).
  { intros x l Hx. destruct (node_there g x _ Hr Hx) as (n & En & Ei). destruct (Rep_node_ptr _ _ _ _ HR Hx) as (L & _ & HL0 & _). assert (HL : g_layers g !! l = Some L) by exact HL0.
    rewrite <- Ei. apply (N1 L n (LI l L HL)). apply (KS l L HL). rewrite Ei. eauto. }
  assert (KK : forall x k, layer_of g x = Some k -> (exists l, k = key_static l) \/ exists l p, k = key_dynamic l p).
  { intros x k Hx. pose proof (HC x k Hx) as Hc. destruct k as [l p d]. destruct d; [right; exists l, p; reflexivity|left]. exists l. unfold canon in Hc. cbn in Hc. rewrite Hc by reflexivity. reflexivity. }
  assert (SE : forall k k', between false (Some k) (Some k') -> lk_dynamic k = false /\ lk_dynamic k' = false).
  { intros k k' (k1 & k2 & [= <-] & [= <-] & _ & E). apply orb_false_iff, E. }
  destruct (edges_inv ce F H Hsym (map snd (edge_iter (g_inter g))) G1 I1) as (I2 & W2 & E2).
  { intros e He. apply (KI false) in He as [Ee B]. assert (B' := B). destruct B as (k & k' & B1 & B2 & _). rewrite B1, B2 in B'. apply SE in B' as [D1 D2].
    split; [unfold H, shown, info_of; rewrite B1, B2, D1, D2, !orb_true_r, Ee; reflexivity|].
    destruct (KK _ _ B1) as [[l ->]|(l & p & ->)]; [|discriminate]. destruct (KK _ _ B2) as [[l' ->]|(l' & p & ->)]; [|discriminate]. split; eapply SN; eassumption. }
  set (G2 := fold_left nx_op (edges_ops ce (map snd (edge_iter (g_inter g)))) G1) in *.
  assert (EE : forall e, edge_at g (e_src e) (e_tgt e) = Some e -> lk_dynamic <$> layer_of g (e_src e) = Some false -> lk_dynamic <$> layer_of g (e_tgt e) = Some false ->
    has_edge G2 (e_src e) (e_tgt e) /\ has_edge G2 (e_tgt e) (e_src e)).
  { intros e Ee D1 D2. destruct (layer_of g (e_src e)) as [k|] eqn:B1; [|discriminate]. destruct (layer_of g (e_tgt e)) as [k'|] eqn:B2; [|discriminate]. cbn in D1, D2.
    destruct (KK _ _ B1) as [[l ->]|(l & p & ->)]; [|discriminate]. destruct (KK _ _ B2) as [[l' ->]|(l' & p & ->)]; [|discriminate].
    destruct (decide (key_static l = key_static l')) as [Q|Q].
    - destruct (Rep_node_ptr _ _ _ _ HR B1) as (L & _ & HL0 & _). assert (HL : g_layers g !! l = Some L) by exact HL0.
      destruct (E1 L e (LI l L HL)) as [X1 X2]; [apply (KS l L HL); split; [exact Ee|split; [exact B1|congruence]]|]. split; apply W2; assumption.
    - apply E2. apply (KI false). split; [exact Ee|]. exists (key_static l), (key_static l'). auto. }
  assert (FIN : forall G', Inv F H G' -> (forall x, shown dyn g x = true -> has_node G' x) ->
    (forall e, edge_at g (e_src e) (e_tgt e) = Some e -> shown dyn g (e_src e) = true -> shown dyn g (e_tgt e) = true -> has_edge G' (e_src e) (e_tgt e) /\ has_edge G' (e_tgt e) (e_src e)) ->
    (forall x, nx_node G' !! x = F x) /\ (forall u v, nx_adj G' !! (u, v) = H u v)).
  { intros G' [J1 J2] C1 C2. split.
    - intros x. destruct (nx_node G' !! x) as [d|] eqn:E; [rewrite <- E; apply J1; unfold has_node; congruence|]. unfold F. destruct (shown dyn g x) eqn:Es; [|reflexivity]. destruct (C1 x Es E).
    - intros u v. destruct (nx_adj G' !! (u, v)) as [d|] eqn:E; [rewrite <- E; apply J2; unfold has_edge; congruence|]. unfold H. destruct (shown dyn g u && shown dyn g v) eqn:Es; [|reflexivity].
      apply andb_true_iff in Es as [S1 S2]. unfold info_of. destruct (edge_at g u v) as [e|] eqn:Ee; [|reflexivity]. exfalso.
      destruct (edges_symmetric g u v Hr) as (_ & Esym & _ & HP). destruct (HP e Ee) as [_ [[P1 P2]|[P1 P2]]].
      + destruct (C2 e) as [X _]; [rewrite P1, P2; exact Ee|rewrite P1; exact S1|rewrite P2; exact S2|]. rewrite P1, P2 in X. exact (X E).
      + destruct (C2 e) as [_ X]; [rewrite P1, P2, <- Esym; exact Ee|rewrite P1; exact S2|rewrite P2; exact S1|]. rewrite P1, P2 in X. exact (X E). }
  destruct dyn.
  2:{ apply FIN; [exact I2| |].
      - intros x Hx. unfold shown in Hx. destruct (layer_of g x) as [k|] eqn:Ek; [|discriminate]. destruct (KK _ _ Ek) as [[l ->]|(l & p & ->)]; [|discriminate]. apply W2. eapply SN, Ek.
      - intros e Ee S1 S2. apply EE; [exact Ee| |]; [unfold shown in S1; destruct (layer_of g (e_src e))|unfold shown in S2; destruct (layer_of g (e_tgt e))]; try discriminate; cbn in *; f_equal; apply negb_true_iff; assumption. }
  rewrite fold_left_app.
  destruct (layers_inv cn ce F H Hsym dl_live (fun d => map snd (edge_iter (dl_edges d))) (di_all (ascending (g_dlayers g))) G2 I2) as (I3 & W3 & N3 & E3).
  { intros d Hd. apply dlayers_in in Hd as (l & p & Hd). destruct (KD l p d Hd) as [Q1 Q2]. apply (K (key_dynamic l p)); [reflexivity|exact Q1|exact Q2]. }
  change (fun x => nodes_ops cn (dl_live x) ++ edges_ops ce (map snd (edge_iter (dl_edges x)))) with (dlayer_ops cn ce) in I3, W3, N3, E3.
  set (G3 := fold_left nx_op (concat (map (dlayer_ops cn ce) (di_all (ascending (g_dlayers g))))) G2) in *.
  assert (DL : forall x l p, layer_of g x = Some (key_dynamic l p) -> exists d, g_dlayer g l p = Some d).
  { intros x l p Hx. destruct (Rep_node_ptr _ _ _ _ HR Hx) as (L & _ & HL & _). unfold g_part in HL. cbn in HL. destruct (g_dlayer g l p) as [d|]; [eauto|discriminate]. }
  assert (AN : forall x k, layer_of g x = Some k -> has_node G3 x).
  { intros x k Hx. destruct (KK _ _ Hx) as [[l ->]|(l & p & ->)]; [apply W3, W2; eapply SN, Hx|]. destruct (DL x l p Hx) as [d Hd].
    destruct (node_there g x _ Hr Hx) as (n & En & Ei). rewrite <- Ei. apply (N3 d n); [apply dlayers_in; eauto|]. apply (KD l p d Hd). rewrite Ei. eauto. }
  destruct (edges_inv ce F H Hsym (map snd (edge_iter (g_dinter g))) G3 I3) as (I4 & W4 & E4).
  { intros e He. apply (KI true) in He as [Ee (k & k' & B1 & B2 & _)]. split; [unfold H, shown, info_of; rewrite B1, B2, Ee; reflexivity|]. split; eapply AN; eassumption. }
  apply FIN; [exact I4| |].
  - intros x Hx. unfold shown in Hx. destruct (layer_of g x) as [k|] eqn:Ek; [|discriminate]. apply W4. eapply AN, Ek.
  - intros e Ee S1 S2. unfold shown in S1, S2. destruct (layer_of g (e_src e)) as [k|] eqn:B1; [|discriminate]. destruct (layer_of g (e_tgt e)) as [k'|] eqn:B2; [|discriminate].
    destruct (lk_dynamic k || lk_dynamic k') eqn:D.
    + destruct (decide (k = k')) as [<-|Q].
      * destruct (KK _ _ B1) as [[l ->]|(l & p & ->)]; [discriminate|]. destruct (DL _ l p B1) as [d Hd].
        destruct (E3 d e) as [X1 X2]; [apply dlayers_in; eauto|apply (KD l p d Hd); split; [exact Ee|split; assumption]|]. split; apply W4; assumption.
      * apply E4. apply (KI true). split; [exact Ee|]. exists k, k'. auto.
    + apply orb_false_iff in D as [D1 D2]. destruct (EE e Ee) as [X1 X2]; [rewrite B1; cbn; congruence|rewrite B2; cbn; congruence|]. split; apply W4, W3; assumption.
Qed.

(** layer_to_networkx: the nodes and edges of the layer. *)
Lemma wf_layer L : sl_wf L -> exists G,
  (forall r, layer_to_networkx cn ce L r <-> r = Ok G) /\
  (forall x, nx_node G !! x = (fun n => cn (n_attrs n)) <$> sl_find_node L x) /\
  (forall u v, nx_adj G !! (u, v) = (fun e => ce (e_info e)) <$> fst (sl_find_edge L u v)).
Proof.
  intros W. exists (fold_left nx_op (layer_ops cn ce L) nx_empty). split; [intros r; apply fill_ok|].
  set (F := fun x => (fun n => cn (n_attrs n)) <$> sl_find_node L x). set (H := fun u v => (fun e => ce (e_info e)) <$> fst (sl_find_edge L u v)).
  assert (Hsym : forall u v, H u v = H v u) by (intros u v; unfold H, sl_find_edge, ec_find; cbn; rewrite edge_key_comm; reflexivity).
  assert (HN : forall x n, sl_nodes L !! x = Some n -> n ∈ map snd (node_iter L)).
  { intros x n Hn. apply elem_of_list_In, in_map_iff. exists (x, n). split; [reflexivity|]. apply elem_of_list_In, (elem_ascending (sl_nodes L) (x, n)). exact Hn. }
  destruct (layer_inv cn ce F H Hsym (map snd (node_iter L)) (map snd (edge_iter (sl_edges L))) nx_empty) as ([I1 I2] & _ & N1 & E1).
  { split; [intros x Hx|intros u v Hx]; destruct Hx; apply lookup_empty. }
  { split.
    - intros n Hn. apply elem_of_list_In, in_map_iff in Hn as ([x n'] & <- & Hn). apply elem_of_list_In, (elem_ascending (sl_nodes L) (x, n')) in Hn. cbn in Hn |- *.
      assert (Hn' : sl_nodes L !! x = Some n') by exact Hn. destruct (slw_node _ W _ _ Hn') as [-> _]. unfold F, sl_find_node. rewrite Hn'. reflexivity.
    - intros e He. apply edge_list_in in He as [k He]. pose proof (ecw_key _ (slw_ec _ W) _ _ He) as ->. destruct (slw_ends _ W _ _ He) as (_ & [n1 Q1] & [n2 Q2]).
      split; [unfold H, sl_find_edge, ec_find; cbn; rewrite He; reflexivity|]. split; [exists n1|exists n2]; (split; [eapply HN; eassumption|eapply slw_node; eassumption]). }
  change (nodes_ops cn (map snd (node_iter L)) ++ edges_ops ce (map snd (edge_iter (sl_edges L)))) with (layer_ops cn ce L) in *.
  set (G := fold_left nx_op (layer_ops cn ce L) nx_empty) in *. clearbody G. unfold has_node in *. unfold has_edge in *. split.
  - intros x. change (nx_node G !! x = F x).
    destruct (nx_node G !! x) as [d|] eqn:E; [rewrite <- E; apply I1; congruence|].
    unfold F, sl_find_node. destruct (sl_nodes L !! x) as [n|] eqn:En; [|reflexivity]. destruct (N1 n (HN x n En)). destruct (slw_node _ W _ _ En) as [-> _]. exact E.
  - intros u v. change (nx_adj G !! (u, v) = H u v).
    destruct (nx_adj G !! (u, v)) as [d|] eqn:E; [rewrite <- E; apply I2; congruence|].
    unfold H, sl_find_edge, ec_find. cbn. destruct (ec_edges (sl_edges L) !! edge_key u v) as [e|] eqn:Ee; [|reflexivity]. exfalso.
    destruct (E1 e) as [X1 X2]; [apply edge_list_in; eauto|]. pose proof (ecw_key _ (slw_ec _ W) _ _ Ee) as Hk. symmetry in Hk. apply edge_key_inj in Hk.
    destruct Hk as [[P1 P2]|[P1 P2]]; rewrite P1, P2 in X1, X2; [exact (X1 E)|exact (X2 E)].
Qed.
Theorem C75_layer : forall L, (exists lid, layer_reachable lid L) \/ (exists g l, reachable g /\ g_layers g !! l = Some L) -> exists G,
  (forall r, layer_to_networkx cn ce L r <-> r = Ok G) /\
  (forall x, nx_node G !! x = (fun n => cn (n_attrs n)) <$> sl_find_node L x) /\
  (forall u v, nx_adj G !! (u, v) = (fun e => ce (e_info e)) <$> fst (sl_find_edge L u v)).
Proof.
  intros L [[lid H]|(g & l & Hr & H)]; apply wf_layer.
  - destruct (reach_LR _ _ H) as [c HR]. apply HR.
  - destruct (reachable_RepL g Hr) as [a [HR _]]. apply (rp_part _ _ HR (key_static l) L (canon_static l) H).
Qed.

(** As the language defines it, including dynamic layers is undefined behaviour as soon as there is
    one: the loop over its nodes reads past the end (C61). *)
Lemma fill_dynamic_ub G d r : nx_fill_dynamic cn ce UB G d r <-> r = UB.
Proof.
  unfold nx_fill_dynamic. rewrite (then_ok _ _ UB (fun G => Ok (fold_left nx_op (edges_ops ce (map snd (edge_iter (dl_edges d)))) G))); [reflexivity| |intros; apply put_edges].
  intros q. destruct (dynamic_nodes_break d) as [[_ E]|(it & E & B)].
  - unfold py_then. rewrite E. split; [intros [(s & Q & _)|[[Q _]|[_ Q]]]; congruence|]. intros ->. right. right. auto.
  - assert (K : forall q, py_for (DynamicNodeIter UB) (nx_put_dnode cn) (py_iter it) G q <-> q = UB).
    { intros q'. apply (for_breaks _ _ (put_d cn) _ _ B); [intros s [n|] z _; reflexivity|]. intros s x Hx. rewrite live_omap in Hx. apply elem_of_list_In, in_map_iff in Hx as (n & <- & _). cbn. eauto. }
    unfold py_then. rewrite E. split; [intros [(s & Q & Q')|[[Q _]|[Q _]]]; [|congruence|congruence]; injection Q as ->; apply K, Q'|]. intros ->. left. exists it. split; [reflexivity|apply K; reflexivity].
Qed.
Theorem C75_dynamic_refuted : forall g l p, reachable g -> is_Some (g_dlayer g l p) ->
  forall r, graph_to_networkx cn ce UB g true r <-> r = UB.
Proof.
  intros g l p Hr [d Hd] r. unfold graph_to_networkx.
  rewrite (then_ok _ _ (Ok (fold_left nx_op (concat (map (layer_ops cn ce) (map snd (layer_iter g)))) nx_empty)) (fun _ => UB)); [reflexivity|intros; apply static_ok|].
  intros G1 q. rewrite (then_ok _ _ (Ok (fold_left nx_op (edges_ops ce (map snd (edge_iter (g_inter g)))) G1)) (fun _ => UB)); [reflexivity|intros; apply put_edges|].
  intros G2 z. rewrite (then_ok _ _ UB (fun G => Ok (fold_left nx_op (edges_ops ce (map snd (edge_iter (g_dinter g)))) G))); [reflexivity| |intros; apply put_edges].
  intros w. rewrite (for_visits DynamicLayerIter (nx_fill_dynamic cn ce UB) (fun _ _ => UB) _ _ (dynamic_layers_visited g)) by (intros; apply fill_dynamic_ub).
  assert (Hin : d ∈ di_all (ascending (g_dlayers g))) by (apply dlayers_in; eauto). destruct (di_all (ascending (g_dlayers g))) as [|x xs]; [inversion Hin|reflexivity].
Qed.
End any.
Print Assumptions C75_graph.
Print Assumptions C75_layer.
Print Assumptions C75_dynamic_refuted.

(** In the example graph: five nodes of static layers, three agents. *)
Theorem C75_ex : forall dyn, exists G,
  (forall r, graph_to_networkx (fun a => {["pos"%string := attrs_position a]}) (fun _ => ∅) (Ok false) ex_graph dyn r <-> r = Ok G) /\
  nx_node G !! 10 = Some {["pos"%string := mkVec3 0 0 0]} /\
  (nx_node G !! agent 0 = None <-> dyn = false) /\ (nx_adj G !! (agent 1, agent 0) = Some ∅ <-> dyn = true) /\ nx_adj G !! (20, 10) = Some ∅ /\ nx_adj G !! (10, 21) = None.
Proof.
  intros dyn. destruct (C75_graph (fun a => {["pos"%string := attrs_position a]}) (fun _ => ∅) (Ok false) ex_graph dyn ex_reachable (fun _ => ex_intro _ false eq_refl)) as (G & H & HN & HE).
  exists G. split; [exact H|]. rewrite !HN, !HE. destruct dyn; vm_compute; repeat split; congruence.
Qed.
