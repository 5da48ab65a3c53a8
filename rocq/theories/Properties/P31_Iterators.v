(** C61: loops over a graph from Python. *)
From Coq Require Import NArith ZArith Bool List Lia.
From stdpp Require Import base list gmap fin_maps sorting.
From Verif.Model Require Import Types Mesh Attrs Node EdgeContainer SLayer DLayer Graph Views Iterators.
From Verif.Spec Require Import AbstractGraph GraphHistory LayerLog GraphObs IterSpec.
From Verif.Proof Require Import Arith Keys SLayerP DLayerP DLayerOps GraphRep GraphEdges GraphAttrs GraphSim LayerRep GraphObsP GraphProps GraphCounts MatrixP StaleP StaleP2 CloneP IterP.
From Verif.Properties Require Import ExGraph.
Local Open Scope N_scope.
#[local] Arguments edge_key : simpl never.

Lemma in_concat_map {A B} (f : A -> list B) (l : list A) z : z ∈ concat (map f l) <-> exists x, x ∈ l /\ z ∈ f x.
Proof.
  rewrite elem_of_list_In, in_concat. split.
  - intros (y & Hy & Hz). apply in_map_iff in Hy as (x & <- & Hx). exists x. split; apply elem_of_list_In; assumption.
  - intros (x & Hx & Hz). apply elem_of_list_In in Hx. apply elem_of_list_In in Hz. exists (f x). split; [apply in_map, Hx|exact Hz].
Qed.
Lemma layers_in g l s : (l, s) ∈ layer_iter g <-> g_layers g !! l = Some s.
Proof. apply (elem_ascending (g_layers g) (l, s)). Qed.

(** graph.nodes: each node of a static layer once, in ascending order of layer and id *)
Theorem C61_nodes : forall g, reachable g -> exists l, visits GlobalNodeIter (gn_begin g) l /\
  lists_nodes g (fun k => lk_dynamic k = false) l /\
  (forall i j n m, (i < j)%nat -> l !! i = Some n -> l !! j = Some m -> n_layer n < n_layer m \/ (n_layer n = n_layer m /\ n_id n < n_id m)).
Proof.
  intros g Hr. destruct (reachable_RepL g Hr) as [a [HR _]]. exists (gn_all (layer_iter g)). split; [apply global_nodes_visited|].
  assert (HP : forall l s, (l, s) ∈ layer_iter g -> g_part g (key_static l) = Some s) by (intros l s H; apply layers_in in H; exact H).
  assert (HO : forall i j n m, (i < j)%nat -> gn_all (layer_iter g) !! i = Some n -> gn_all (layer_iter g) !! j = Some m -> n_layer n < n_layer m \/ (n_layer n = n_layer m /\ n_id n < n_id m)).
  { assert (K : forall ls, Sorting.Sorted.StronglySorted (fun x y : N * SLayer => fst x < fst y) ls -> (forall l s, (l, s) ∈ ls -> g_part g (key_static l) = Some s) ->
      forall i j n m, (i < j)%nat -> gn_all ls !! i = Some n -> gn_all ls !! j = Some m -> n_layer n < n_layer m \/ (n_layer n = n_layer m /\ n_id n < n_id m)).
    { intros ls HS. induction HS as [|[l s] r HS IH HF]; intros Hin i j n m Hij Hi Hj; [discriminate|]. unfold gn_all in Hi, Hj. cbn [map concat snd] in Hi, Hj. fold (gn_all r) in Hi, Hj.
      destruct (part_lists g a HR (key_static l) s (canon_static l)) as (HE & _ & HL); [apply Hin; left|].
      assert (Hr' : forall l s, (l, s) ∈ r -> g_part g (key_static l) = Some s) by (intros; apply Hin; right; assumption).
      assert (HRn : forall m, m ∈ gn_all r -> exists l', l < l' /\ n_layer m = l').
      { intros x Hx. apply in_concat_map in Hx as ([l' s'] & H1 & H2). exists l'. rewrite List.Forall_forall in HF. split; [apply (HF (l', s')), elem_of_list_In, H1|].
        destruct (part_lists g a HR (key_static l') s' (canon_static l') (Hr' l' s' H1)) as (_ & _ & HL'). apply (HL' _ H2). }
      apply lookup_app_Some in Hi as [Hi|[Hli Hi]]; apply lookup_app_Some in Hj as [Hj|[Hlj Hj]].
      - right. split; [rewrite (HL n), (HL m); [reflexivity|eapply elem_of_list_lookup_2; eassumption|eapply elem_of_list_lookup_2; eassumption]|].
        pose proof (ascending_sorted (sl_nodes s)) as SS. change (ascending (sl_nodes s)) with (node_iter s) in SS.
        assert (forall k x, map snd (node_iter s) !! k = Some x -> exists y, node_iter s !! k = Some y /\ fst y = n_id x) as Hk.
        { intros k x Hx. change (map snd (node_iter s)) with ((node_iter s).*2) in Hx. rewrite list_lookup_fmap in Hx. destruct (node_iter s !! k) as [y|] eqn:Ey; [|discriminate]. cbn in Hx. injection Hx as <-.
          exists y. split; [reflexivity|]. pose proof (f_equal (fun q => q !! k) HE) as Q. cbn beta in Q. rewrite map_map in Q. change (map fst (node_iter s)) with ((node_iter s).*1) in Q.
          change (map (fun x => n_id (snd x)) (node_iter s)) with ((fun x => n_id (snd x)) <$> node_iter s) in Q. rewrite !list_lookup_fmap, Ey in Q. cbn in Q. congruence. }
        destruct (Hk i n Hi) as (y & Ey & <-), (Hk j m Hj) as (z & Ez & <-). clear - SS Hij Ey Ez. revert i j Hij Ey Ez. induction SS as [|x q SS IH HF]; intros i j Hij Ey Ez; [discriminate|].
        destruct i as [|i], j as [|j]; try lia; cbn in Ey, Ez.
        + injection Ey as ->. rewrite List.Forall_forall in HF. apply HF, elem_of_list_In. eapply elem_of_list_lookup_2, Ez.
        + apply (IH i j); [lia|assumption|assumption].
      - left. rewrite (HL n) by (eapply elem_of_list_lookup_2; eassumption). destruct (HRn m) as (l' & H1 & ->); [eapply elem_of_list_lookup_2; eassumption|exact H1].
      - exfalso. apply lookup_lt_Some in Hj. lia.
      - apply (IH Hr' (i - length (map snd (node_iter s)))%nat (j - length (map snd (node_iter s)))%nat); [lia|assumption|assumption]. }
    apply K; [apply ascending_sorted|exact HP]. }
  split; [|exact HO]. split.
  - apply NoDup_alt. intros i j x Hi Hj. change (map n_id (gn_all (layer_iter g))) with (n_id <$> gn_all (layer_iter g)) in Hi, Hj. rewrite list_lookup_fmap in Hi, Hj.
    destruct (gn_all (layer_iter g) !! i) as [n|] eqn:En; [|discriminate]. destruct (gn_all (layer_iter g) !! j) as [m|] eqn:Em; [|discriminate]. cbn in Hi, Hj.
    assert (n_id n = n_id m) by congruence. assert (Hly : n_layer n = n_layer m).
    { assert (Q : forall q y, gn_all (layer_iter g) !! q = Some y -> node_at g (n_id y) = Some y).
      { intros q y Hq. apply elem_of_list_lookup_2, in_concat_map in Hq as ([l s] & H1 & H2). destruct (part_lists g a HR (key_static l) s (canon_static l) (HP _ _ H1)) as (_ & [_ HN] & _). apply HN, H2. }
      pose proof (Q i n En). pose proof (Q j m Em). congruence. }
    destruct (Nat.lt_trichotomy i j) as [Hlt|[->|Hlt]]; [|reflexivity|].
    + destruct (HO i j n m Hlt En Em) as [?|[_ ?]]; lia.
    + destruct (HO j i m n Hlt Em En) as [?|[_ ?]]; lia.
  - intros n. unfold gn_all. rewrite in_concat_map. split.
    + intros ([l s] & H1 & H2). destruct (part_lists g a HR (key_static l) s (canon_static l) (HP _ _ H1)) as (_ & [_ HN] & _). apply HN in H2 as [H2 (k & H3 & <-)]. split; [exact H2|]. eauto.
    + intros [H1 (k & H2 & H3)]. assert (Hc : canon k) by (eapply (rp_canon _ _ HR); exact H2). assert (exists l, k = key_static l) as [l ->].
      { exists (lk_layer k). destruct k as [l p d]; cbn in *. subst d. unfold canon in Hc. cbn in Hc. rewrite (Hc eq_refl). reflexivity. }
      destruct (proj1 (rp_home _ _ HR _ _ Hc) H2) as (s & Hs & _). exists (l, s). split; [apply layers_in, Hs|].
      destruct (part_lists g a HR (key_static l) s (canon_static _) Hs) as (_ & [_ HN] & _). apply HN. split; [exact H1|]. exists (key_static l). auto.
Qed.
Print Assumptions C61_nodes.

(** layer.nodes of a static layer: each of its nodes once, in ascending order of the ids *)
Theorem C61_layer_nodes : forall g l L, reachable g -> g_layers g !! l = Some L -> exists ns, visits NodeIter (node_iter L) ns /\
  lists_nodes g (eq (key_static l)) ns /\ Sorting.Sorted.StronglySorted N.lt (map n_id ns).
Proof.
  intros g l L Hr HL. destruct (reachable_RepL g Hr) as [a [HR _]]. exists (map snd (node_iter L)). split; [apply list_visits|].
  destruct (part_lists g a HR (key_static l) L (canon_static l) HL) as (E & HN & _). split; [exact HN|]. rewrite E.
  pose proof (ascending_sorted (sl_nodes L)) as SS. change (ascending (sl_nodes L)) with (node_iter L) in SS. clear E HN. induction SS as [|x r SS IH HF]; cbn; constructor; [exact IH|].
  rewrite List.Forall_map. exact HF.
Qed.
Print Assumptions C61_layer_nodes.

(** graph.edges: each edge between two nodes of static layers, once *)
Definition inside (k : LayerKey) (a b : option LayerKey) : Prop := a = Some k /\ b = Some k.
Lemma cont_static g u v l : (forall x k, g_lookup g !! x = Some k -> canon k) -> cont g u v = Some (CSt l) <-> inside (key_static l) (layer_of g u) (layer_of g v).
Proof.
  intros HC. unfold cont, inside. change (layer_of g u) with (g_lookup g !! u). change (layer_of g v) with (g_lookup g !! v).
  destruct (g_lookup g !! u) as [ku|] eqn:Eu; [|split; [discriminate|intros [? ?]; discriminate]]. destruct (g_lookup g !! v) as [kv|] eqn:Ev; [|split; [discriminate|intros [? ?]; discriminate]].
  pose proof (HC _ _ Eu) as Hu. unfold canon in Hu. destruct (decide (ku = kv)) as [->|Hne].
  - destruct kv as [l' p d]. unfold key_cid; cbn in *. destruct d; [split; [discriminate|intros [? ?]; discriminate]|]. rewrite Hu by reflexivity. split; [intros [= <-]; auto|intros [[= ->] _]; reflexivity].
  - split; [destruct (pair_dyn ku kv); discriminate|]. intros [[= ->] [= ->]]. congruence.
Qed.
Lemma cont_dynamic g u v l p : cont g u v = Some (CDy l p) <-> inside (key_dynamic l p) (layer_of g u) (layer_of g v).
Proof.
  unfold cont, inside. change (layer_of g u) with (g_lookup g !! u). change (layer_of g v) with (g_lookup g !! v).
  destruct (g_lookup g !! u) as [ku|] eqn:Eu; [|split; [discriminate|intros [? ?]; discriminate]]. destruct (g_lookup g !! v) as [kv|] eqn:Ev; [|split; [discriminate|intros [? ?]; discriminate]].
  destruct (decide (ku = kv)) as [->|Hne].
  - destruct kv as [l' p' d]. unfold key_cid; cbn in *. destruct d; [|split; [discriminate|intros [? ?]; discriminate]]. split; [intros [= <- <-]; auto|intros [[= -> ->] _]; reflexivity].
  - split; [destruct (pair_dyn ku kv); discriminate|]. intros [[= ->] [= ->]]. congruence.
Qed.
Definition between (dyn : bool) (a b : option LayerKey) : Prop := exists k k', a = Some k /\ b = Some k' /\ k <> k' /\ lk_dynamic k || lk_dynamic k' = dyn.
Lemma cont_between g u v dyn : cont g u v = Some (if dyn : bool then CDin else CIn) <-> between dyn (layer_of g u) (layer_of g v).
Proof.
  unfold cont, between. change (layer_of g u) with (g_lookup g !! u). change (layer_of g v) with (g_lookup g !! v).
  destruct (g_lookup g !! u) as [ku|] eqn:Eu; [|split; [discriminate|intros (? & ? & ? & _); discriminate]]. destruct (g_lookup g !! v) as [kv|] eqn:Ev; [|split; [discriminate|intros (? & ? & _ & ? & _); discriminate]].
  destruct (decide (ku = kv)) as [->|Hne].
  - split; [unfold key_cid; destruct (lk_dynamic kv), dyn; discriminate|]. intros (? & ? & [= <-] & [= <-] & ? & _). congruence.
  - fold (pair_dyn ku kv). split; [|intros (? & ? & [= <-] & [= <-] & _ & H); unfold pair_dyn; rewrite H; reflexivity].
    intros H. exists ku, kv. repeat split; try assumption. fold (pair_dyn ku kv). destruct (pair_dyn ku kv), dyn; congruence.
Qed.
Lemma inside_both g k : (forall x k, g_lookup g !! x = Some k -> canon k) -> forall u v, inside k (layer_of g u) (layer_of g v) -> lk_dynamic k = false -> k = key_static (lk_layer k).
Proof.
  intros HC u v [H _] Hd. pose proof (HC u k H) as Hc. destruct k as [l p d]; cbn in *. subst d. unfold canon in Hc. cbn in Hc. rewrite (Hc eq_refl). reflexivity.
Qed.
Theorem C61_edges : forall g, reachable g -> exists l, visits GlobalEdgeIter (ge_begin g) l /\
  lists_edges g (fun k k' => on_static k /\ on_static k') l.
Proof.
  intros g Hr. destruct (reachable_RepL g Hr) as [a [HR _]]. pose proof (rp_canon _ _ HR) as HC.
  exists (ge_all (layer_iter g) ++ map snd (edge_iter (g_inter g))). split; [apply global_edges_visited|].
  assert (HS : forall l s, (l, s) ∈ layer_iter g -> g_cont g (CSt l) = Some (sl_edges s)) by (intros l s H; apply layers_in in H; cbn; rewrite H; reflexivity).
  assert (HI : forall e, e ∈ ge_all (layer_iter g) <-> exists l s, (l, s) ∈ layer_iter g /\ e ∈ map snd (edge_iter (sl_edges s))).
  { intros e. unfold ge_all. rewrite in_concat_map. split; [intros ([l s] & H1 & H2); eauto|intros (l & s & H1 & H2); exists (l, s); auto]. }
  split.
  - apply pairs_distinct. rewrite map_app. apply NoDup_app. split; [|split; [|apply (cont_lists g a HR CIn (g_inter g) eq_refl)]].
    + unfold ge_all. rewrite concat_map, map_map. apply NoDup_concat_map.
      * pose proof (ascending_nodup (g_layers g)) as Q. change (layer_iter g) with (ascending (g_layers g)). apply (NoDup_fmap_1 fst). exact Q.
      * intros [l s] H. apply (cont_lists g a HR (CSt l) (sl_edges s) (HS l s H)).
      * intros [l s] [l' s'] z H H' Hz Hz'. cbn [snd] in Hz, Hz'. apply elem_of_list_In, in_map_iff in Hz as (e & <- & He), Hz' as (e' & E & He'). apply elem_of_list_In in He, He'.
        apply (cont_lists g a HR (CSt l) (sl_edges s) (HS l s H)) in He as [_ C1]. apply (cont_lists g a HR (CSt l') (sl_edges s') (HS l' s' H')) in He' as [_ C2].
        rewrite (cont_key g _ _ _ _ E) in C2. assert (l = l') as -> by congruence. apply layers_in in H, H'. congruence.
    + intros z Hz Hz'. apply elem_of_list_In, in_map_iff in Hz as (e & <- & He), Hz' as (e' & E & He'). apply elem_of_list_In in He, He'. apply HI in He as (l & s & H & He).
      apply (cont_lists g a HR (CSt l) (sl_edges s) (HS l s H)) in He as [_ C1]. apply (cont_lists g a HR CIn (g_inter g) eq_refl) in He' as [_ C2].
      rewrite (cont_key g _ _ _ _ E) in C2. congruence.
  - intros e. rewrite elem_of_app, HI, (proj2 (cont_lists g a HR CIn (g_inter g) eq_refl)). rewrite (cont_between g _ _ false). split.
    + intros [(l & s & H & He)|[He (k & k' & K1 & K2 & Hne & Hd)]].
      * apply (cont_lists g a HR (CSt l) (sl_edges s) (HS l s H)) in He as [He C]. split; [exact He|]. apply (cont_static g _ _ l HC) in C as [C1 C2]. rewrite C1, C2. split; eexists; reflexivity.
      * split; [exact He|]. apply orb_false_iff in Hd as [D1 D2]. split; [exists (lk_layer k)|exists (lk_layer k')].
        -- rewrite K1. f_equal. apply (inside_both g k HC (e_src e) (e_src e)); [split; exact K1|exact D1].
        -- rewrite K2. f_equal. apply (inside_both g k' HC (e_tgt e) (e_tgt e)); [split; exact K2|exact D2].
    + intros [He [[l K1] [l' K2]]]. destruct (decide (l = l')) as [->|Hne].
      * left. assert (Hk : g_lookup g !! e_src e = Some (key_static l')) by exact K1. apply (rp_home _ _ HR _ _ (canon_static l')) in Hk as (s & Hs & _). exists l', s.
        assert (H : (l', s) ∈ layer_iter g) by (apply layers_in, Hs). split; [exact H|]. apply (cont_lists g a HR (CSt l') (sl_edges s) (HS l' s H)). split; [exact He|].
        apply (cont_static g _ _ l' HC). split; assumption.
      * right. split; [exact He|]. exists (key_static l), (key_static l'). split; [exact K1|]. split; [exact K2|]. split; [intros [= E]; exact (Hne E)|reflexivity].
Qed.
Print Assumptions C61_edges.

#[local] Instance edge_key_le_trans {A} : Transitive (edge_key_le (A := A)). Proof. intros x y z. unfold edge_key_le. lia. Qed.
#[local] Instance edge_key_le_total {A} : Total (edge_key_le (A := A)). Proof. intros x y. unfold edge_key_le. lia. Qed.
Lemma sorted_lookup {A} (R : A -> A -> Prop) l : Sorting.Sorted.StronglySorted R l -> forall i j x y, (i < j)%nat -> l !! i = Some x -> l !! j = Some y -> R x y.
Proof.
  induction 1 as [|a r HS IH HF]; intros i j x y Hij Hi Hj; [discriminate|]. destruct i as [|i], j as [|j]; try lia; cbn in Hi, Hj.
  - injection Hi as ->. rewrite List.Forall_forall in HF. apply HF, elem_of_list_In. eapply elem_of_list_lookup_2, Hj.
  - apply (IH i j); [lia|assumption|assumption].
Qed.
Lemma edges_by_ids ec : (forall k e, ec_edges ec !! k = Some e -> k = edge_key (e_src e) (e_tgt e)) -> by_ids (map snd (edge_iter ec)).
Proof.
  intros HK i j e f Hij He Hf. change (map snd (edge_iter ec)) with ((edge_iter ec).*2) in He, Hf. rewrite list_lookup_fmap in He, Hf.
  destruct (edge_iter ec !! i) as [[k e']|] eqn:Ei; [|discriminate]. destruct (edge_iter ec !! j) as [[k' f']|] eqn:Ej; [|discriminate]. cbn in He, Hf.
  injection He as ->. injection Hf as ->.
  assert (HN : NoDup ((edge_iter ec).*1)) by (unfold edge_iter; rewrite (ascending_edges_perm _); apply NoDup_fst_map_to_list).
  assert (Hin : forall n k e, edge_iter ec !! n = Some (k, e) -> k = edge_key (e_src e) (e_tgt e)).
  { intros n q x Hx. apply elem_of_list_lookup_2 in Hx. unfold edge_iter in Hx. rewrite (ascending_edges_perm _) in Hx. apply HK. apply elem_of_map_to_list, Hx. }
  assert (Hne : k <> k').
  { intros <-. assert (i = j); [|lia]. apply (NoDup_lookup _ i j k HN); rewrite list_lookup_fmap; [rewrite Ei|rewrite Ej]; reflexivity. }
  pose proof (sorted_lookup edge_key_le (edge_iter ec) (StronglySorted_merge_sort edge_key_le (map_to_list (ec_edges ec))) i j _ _ Hij Ei Ej) as HL.
  pose proof (Hin _ _ _ Ei) as ->. pose proof (Hin _ _ _ Ej) as ->. unfold edge_key_le, edge_key in HL, Hne. cbn [fst snd] in HL.
  destruct HL as [HL|[HL HL']]; [left; exact HL|right]. split; [exact HL|]. destruct (N.eq_dec (N.max (e_src e) (e_tgt e)) (N.max (e_src f) (e_tgt f))) as [E|E]; [|lia].
  exfalso. apply Hne. congruence.
Qed.
(** The edges of one static layer, of one dynamic layer, and the two lists of edges between layers *)
Theorem C61_layer_edges : forall g, reachable g ->
  (forall l L, g_layers g !! l = Some L -> exists es, visits EdgeIter (edge_iter (sl_edges L)) es /\ lists_edges g (inside (key_static l)) es /\ by_ids es) /\
  (forall l p d, g_dlayer g l p = Some d -> exists es, visits EdgeIter (edge_iter (dl_edges d)) es /\ lists_edges g (inside (key_dynamic l p)) es /\ by_ids es) /\
  (exists es, visits EdgeIter (edge_iter (g_inter g)) es /\ lists_edges g (between false) es /\ by_ids es) /\
  (exists es, visits EdgeIter (edge_iter (g_dinter g)) es /\ lists_edges g (between true) es /\ by_ids es).
Proof.
  intros g Hr. destruct (reachable_RepL g Hr) as [a [HR _]]. pose proof (rp_canon _ _ HR) as HC.
  assert (K : forall c ec P, g_cont g c = Some ec -> (forall u v, cont g u v = Some c <-> P (layer_of g u) (layer_of g v)) -> exists es, visits EdgeIter (edge_iter ec) es /\ lists_edges g P es /\ by_ids es).
  { intros c ec P Hc HP. exists (map snd (edge_iter ec)). split; [apply list_visits|]. destruct (cont_lists g a HR c ec Hc) as [H1 H2]. split.
    { split; [apply pairs_distinct, H1|]. intros e. rewrite H2, HP. reflexivity. }
    apply edges_by_ids. intros k e He. apply (cont_edge g a c ec k e HR Hc He). }
  split; [|split; [|split]].
  - intros l L HL. apply (K (CSt l)); [cbn; rewrite HL; reflexivity|]. intros u v. apply cont_static, HC.
  - intros l p d Hd. apply (K (CDy l p)); [cbn; rewrite Hd; reflexivity|]. intros u v. apply cont_dynamic.
  - apply (K CIn); [reflexivity|]. intros u v. apply (cont_between g u v false).
  - apply (K CDin); [reflexivity|]. intros u v. apply (cont_between g u v true).
Qed.
Print Assumptions C61_layer_edges.

(** graph.layers: each layer once, in ascending order; graph.dynamic_layers: each dynamic layer once *)
Theorem C61_layers : forall g, reachable g ->
  (exists Ls, visits LayerIter (layer_iter g) Ls /\ Sorting.Sorted.StronglySorted N.lt (map sl_id Ls) /\ forall L, L ∈ Ls <-> g_layers g !! sl_id L = Some L) /\
  (exists ds, visits DynamicLayerIter (di_begin g) ds /\ NoDup (map (fun d => (dl_id d, dl_prefix d)) ds) /\
     forall d, d ∈ ds <-> g_dlayer g (dl_id d) (dl_prefix d) = Some d).
Proof.
  intros g Hr. destruct (reachable_RepL g Hr) as [a [HR _]]. split.
  - exists (map snd (layer_iter g)). split; [apply list_visits|].
    assert (HI : forall l s, g_layers g !! l = Some s -> sl_id s = l) by (intros l s H; apply (rp_part _ _ HR (key_static l) s (canon_static l) H)).
    assert (E : map sl_id (map snd (layer_iter g)) = map fst (layer_iter g)).
    { rewrite map_map. apply map_ext_in. intros [l s] H. apply elem_of_list_In, layers_in in H. apply (HI l s H). }
    split.
    + rewrite E. pose proof (ascending_sorted (g_layers g)) as SS. change (ascending (g_layers g)) with (layer_iter g) in SS. clear E. induction SS as [|x r SS IH HF]; cbn; constructor; [exact IH|].
      rewrite List.Forall_map. exact HF.
    + intros s. rewrite elem_of_list_In, in_map_iff. split.
      * intros ([l s'] & <- & H). apply elem_of_list_In, layers_in in H. cbn. rewrite (HI l s' H). exact H.
      * intros H. exists (sl_id s, s). split; [reflexivity|]. apply elem_of_list_In, layers_in, H.
  - exists (di_all (ascending (g_dlayers g))). split; [apply dynamic_layers_visited|].
    assert (HI : forall l p d, g_dlayer g l p = Some d -> dl_id d = l /\ dl_prefix d = p) by (intros l p d H; destruct (rp_dinv _ _ HR l p d H) as (_ & H1 & H2 & _); auto).
    assert (HM : forall l m p d, (l, m) ∈ ascending (g_dlayers g) -> (p, d) ∈ ascending m -> g_dlayer g l p = Some d).
    { intros l m p d H1 H2. apply (elem_ascending (g_dlayers g) (l, m)) in H1. apply (elem_ascending m (p, d)) in H2. cbn in H1, H2. assert (H3 : g_dlayers g !! l = Some m) by exact H1. unfold g_dlayer. rewrite H3. exact H2. }
    assert (E : map (fun d => (dl_id d, dl_prefix d)) (di_all (ascending (g_dlayers g))) = concat (map (fun x => map (fun y => (fst x, fst y)) (ascending (snd x))) (ascending (g_dlayers g)))).
    { unfold di_all. rewrite concat_map, map_map. f_equal. apply map_ext_in. intros [l m] H. rewrite map_map. apply map_ext_in. intros [p d] H'. cbn. apply elem_of_list_In in H, H'.
      destruct (HI l p d (HM l m p d H H')) as [-> ->]. reflexivity. }
    split.
    + rewrite E. apply NoDup_concat_map.
      * apply (NoDup_fmap_1 fst). apply ascending_nodup.
      * intros [l m] _. cbn. pose proof (ascending_nodup m) as Q. apply (NoDup_fmap_1 snd). change (NoDup (map snd (map (fun y : N * DLayer => (l, fst y)) (ascending m)))). rewrite map_map. exact Q.
      * intros [l m] [l' m'] z H1 H2 Hz Hz'. apply elem_of_list_In, in_map_iff in Hz as (y & <- & _), Hz' as (y' & Ez & _). cbn in Ez. assert (l' = l) as -> by congruence.
        apply (elem_ascending (g_dlayers g) (l, m)) in H1. apply (elem_ascending (g_dlayers g) (l, m')) in H2. cbn in H1, H2. congruence.
    + intros d. unfold di_all. rewrite in_concat_map. split.
      * intros ([l m] & H1 & H2). apply elem_of_list_In, in_map_iff in H2 as ([p d'] & <- & H2). apply elem_of_list_In in H2. cbn. pose proof (HM l m p d' H1 H2) as H. destruct (HI l p d' H) as [-> ->]. exact H.
      * intros H. unfold g_dlayer in H. destruct (g_dlayers g !! dl_id d) as [m|] eqn:Em; [|discriminate]. exists (dl_id d, m). split; [apply (elem_ascending (g_dlayers g) (dl_id d, m)), Em|].
        apply elem_of_list_In, in_map_iff. exists (dl_prefix d, d). split; [reflexivity|]. apply elem_of_list_In, (elem_ascending m (dl_prefix d, d)), H.
Qed.
Print Assumptions C61_layers.

(** layer.nodes of a dynamic layer.  The loops of the iterator read one slot past the last one
    before they compare with the end.  If that read does no harm ([past] is what it says), the
    caller sees each node of the layer once, in the order of their positions; *)
Definition nodes_in_order (ns : list Node) : Prop := Sorting.Sorted.StronglySorted N.lt (map n_id ns).
Lemma live_nodes g a l p d ns : Rep g a -> g_dlayer g l p = Some d -> live (dl_nodes d) = map Some ns ->
  lists_nodes g (eq (key_dynamic l p)) ns /\ nodes_in_order ns.
Proof.
  intros HR Hd Hl. destruct (rp_dinv _ _ HR _ _ _ Hd) as (Hc & Hid & Hp & _). assert (Hpl : p < two32) by (rewrite <- Hp; apply Hc).
  assert (HL : g_part g (key_dynamic l p) = Some (dl_view d)) by (unfold g_part; cbn; rewrite Hd; reflexivity).
  destruct (part_lists g a HR _ _ (canon_dynamic l p) HL) as (_ & [_ HN] & _).
  assert (HD : forall n, n ∈ ns <-> node_at g (n_id n) = Some n /\ exists k, layer_of g (n_id n) = Some k /\ key_dynamic l p = k).
  { intros n. rewrite <- HN. assert (Q : n ∈ ns <-> Some n ∈ live (dl_nodes d)).
    { rewrite Hl. rewrite !elem_of_list_In, in_map_iff. split; [eauto|]. intros (m & [= ->] & H). exact H. }
    rewrite Q, live_in, elem_of_list_lookup. rewrite elem_of_list_In, in_map_iff. unfold node_iter. split.
    - intros [i Hi]. exists (prefix_make_id (dl_prefix d) (N.of_nat i), n). split; [reflexivity|]. apply elem_of_list_In, (elem_ascending (sl_nodes (dl_view d)) (_, n)). cbn. apply (dl_nmap_Some d _ n Hc). eauto.
    - intros ([x m] & <- & H). apply elem_of_list_In, (elem_ascending (sl_nodes (dl_view d)) (x, m)) in H. cbn in H |- *. apply (dl_nmap_Some d _ m Hc) in H as (i & H & _). eauto. }
  assert (HO : nodes_in_order ns).
  { assert (K : forall q off, (forall i n, q !! i = Some (Some n) -> n_id n = prefix_make_id p (N.of_nat (off + i)) /\ N.of_nat (off + i) < two32) ->
      forall ms, live q = map Some ms -> nodes_in_order ms /\ forall m, m ∈ ms -> exists i, q !! i = Some (Some m)).
    { unfold nodes_in_order. induction q as [|o q IH]; intros off Hq ms Hm; [destruct ms; [|discriminate]; split; [constructor|]; intros ? H; inversion H|].
      assert (Hq' : forall i n, q !! i = Some (Some n) -> n_id n = prefix_make_id p (N.of_nat (S off + i)) /\ N.of_nat (S off + i) < two32).
      { intros i n H. replace (S off + i)%nat with (off + S i)%nat by lia. apply Hq. exact H. }
      destruct o as [n|]; cbn in Hm.
      - destruct ms as [|m ms]; [discriminate|]. cbn in Hm. injection Hm as <- Hm. destruct (IH (S off) Hq' ms Hm) as [H1 H2]. split.
        + cbn. constructor; [exact H1|]. rewrite List.Forall_map, List.Forall_forall. intros m Hm'. apply elem_of_list_In, H2 in Hm' as [i Hi]. destruct (Hq' i m Hi) as [-> B1]. destruct (Hq 0%nat n eq_refl) as [-> B2].
          clear - B1 B2 Hpl. rewrite !(make_id_small p Hpl) by assumption. lia.
        + intros x Hx. apply elem_of_cons in Hx as [->|Hx]; [exists 0%nat; reflexivity|]. destruct (H2 x Hx) as [i Hi]. exists (S i). exact Hi.
      - destruct (IH (S off) Hq' ms Hm) as [H1 H2]. split; [exact H1|]. intros x Hx. destruct (H2 x Hx) as [i Hi]. exists (S i). exact Hi. }
    apply (K (dl_nodes d) 0%nat); [|exact Hl]. intros i n Hi. cbn. rewrite <- Hp. split; [apply Hc, Hi|]. apply (dl_index_lt d i n Hc Hi). }
  split; [|exact HO]. split; [|exact HD]. unfold nodes_in_order in HO. clear - HO. induction HO as [|x r HO IH HF]; constructor; [|exact IH]. rewrite List.Forall_forall in HF. intros H. apply elem_of_list_In, HF in H. lia.
Qed.
Theorem C61_dynamic_nodes : forall g l p d past, reachable g -> g_dlayer g l p = Some d -> exists it ns,
  dnode_iter (Ok past) d = Ok it /\ visits (DynamicNodeIter (Ok past)) it (map Some ns) /\
  lists_nodes g (eq (key_dynamic l p)) ns /\ nodes_in_order ns.
Proof.
  intros g l p d past Hr Hd. destruct (reachable_RepL g Hr) as [a [HR _]]. destruct (live_some (dl_nodes d)) as [ns Hns].
  destruct (dynamic_nodes_visited past d) as (it & E & H). exists it, ns. rewrite <- Hns. split; [exact E|]. split; [exact H|]. apply (live_nodes g a l p d ns HR Hd Hns).
Qed.
Print Assumptions C61_dynamic_nodes.
(** but as the language defines it, every such loop runs into undefined behaviour: after the last
    node, or before the loop starts if the layer has no nodes *)
Theorem C61_dynamic_nodes_refuted : forall g l p d, reachable g -> g_dlayer g l p = Some d -> exists ns,
  lists_nodes g (eq (key_dynamic l p)) ns /\
  ((ns = [] /\ dnode_iter UB d = UB) \/ exists it, dnode_iter UB d = Ok it /\ breaks (DynamicNodeIter UB) (py_iter it) (map Some ns)).
Proof.
  intros g l p d Hr Hd. destruct (reachable_RepL g Hr) as [a [HR _]]. destruct (live_some (dl_nodes d)) as [ns Hns]. exists ns.
  split; [apply (live_nodes g a l p d ns HR Hd Hns)|]. pose proof (dynamic_nodes_break d) as H. rewrite Hns in H. destruct H as [[H1 H2]|H]; [left|right; exact H]. split; [|exact H2].
  destruct ns; [reflexivity|discriminate].
Qed.
Print Assumptions C61_dynamic_nodes_refuted.
(** graph.nodes and graph.edges are not all nodes and edges: in the example graph neither an
    agent nor an edge between agents is seen. *)
Theorem C61_all_nodes_refuted : exists ns es e, reachable ex_graph /\
  visits GlobalNodeIter (gn_begin ex_graph) ns /\ visits GlobalEdgeIter (ge_begin ex_graph) es /\
  map n_id ns = [10; 11; 12; 20; 21] /\ g_has_node ex_graph (agent 0) = true /\
  edge_at ex_graph (agent 0) (agent 1) = Some e /\ e ∉ es /\ length es = 5%nat.
Proof.
  exists (gn_all (layer_iter ex_graph)), (ge_all (layer_iter ex_graph) ++ map snd (edge_iter (g_inter ex_graph))).
  destruct (edge_at ex_graph (agent 0) (agent 1)) as [e|] eqn:E.
  2:{ exfalso. assert (match edge_at ex_graph (agent 0) (agent 1) with Some _ => true | None => false end = true) as Q by (vm_compute; reflexivity). rewrite E in Q. discriminate. }
  exists e. split; [exact ex_reachable|]. split; [apply global_nodes_visited|]. split; [apply global_edges_visited|].
  split; [vm_compute; reflexivity|]. split; [vm_compute; reflexivity|]. split; [reflexivity|]. split; [|vm_compute; reflexivity].
  assert (Hs : e_src e = agent 0).
  { assert (match edge_at ex_graph (agent 0) (agent 1) with Some e => N.eqb (e_src e) (agent 0) | None => false end = true) as Q by (vm_compute; reflexivity). rewrite E in Q. apply N.eqb_eq, Q. }
  intros Hin. assert (Hall : forallb (fun f => negb (N.eqb (e_src f) (agent 0))) (ge_all (layer_iter ex_graph) ++ map snd (edge_iter (g_inter ex_graph))) = true) by (vm_compute; reflexivity).
  rewrite forallb_forall in Hall. apply elem_of_list_In, Hall in Hin. rewrite Hs, N.eqb_refl in Hin. discriminate.
Qed.
Print Assumptions C61_all_nodes_refuted.
Example C61_ex : match g_dlayer ex_graph AGENTS pfx_a with Some d => map (fun o => match o with Some n => n_id n | None => 0 end) (live (dl_nodes d)) | None => [] end = [agent 0; agent 1; agent 2].
Proof. vm_compute. reflexivity. Qed.
