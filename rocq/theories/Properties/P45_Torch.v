(** C76: conversion to pytorch geometric (one node type). *)
From Coq Require Import NArith ZArith Bool List Lia.
From stdpp Require Import base list gmap sorting.
From Verif.Model Require Import Types Mesh Attrs Node EdgeContainer SLayer DLayer Graph Views Iterators PyConvert AttrCodec Torch.
From Verif.Spec Require Import AbstractGraph GraphHistory GraphObs IterSpec ConvertSpec TorchSpec.
From Verif.Proof Require Import Keys GraphRep GraphEdges GraphSim GraphObsP GraphProps GraphCounts IterP ConvertP TorchP.
From Verif.Properties Require Import ExGraph P14_GraphFiles P31_Iterators P44_Networkx.
Local Open Scope N_scope.
#[local] Arguments edge_key : simpl never.
Set Default Proof Using "Type".

(** ** Lists and loops *)
Lemma yields_fun {I A} (c : IterClass I A) s l s1 : yields c s l s1 -> forall l' s2, yields c s l' s2 -> l = l'.
Proof.
  induction 1 as [s s' H|s x s' l s'' H Y IH]; intros l' s2 Y'; inversion Y' as [q q' H'|q y q' k q'' H' Y2]; subst; try congruence.
  rewrite H in H'. injection H' as <- <-. f_equal. eapply IH, Y2.
Qed.
Lemma visits_fun {I A} (c : IterClass I A) it l l' : visits c it l -> visits c it l' -> l = l'.
Proof. intros (s & Y & _) (s' & Y' & _). eapply yields_fun; eassumption. Qed.
Lemma sum_perm (l l' : list nat) : l ≡ₚ l' -> sum_list l = sum_list l'.
Proof. unfold sum_list. induction 1; cbn in *; lia. Qed.
Lemma ascending_length {A} (m : gmap N A) : length (ascending m) = size m.
Proof. unfold ascending. rewrite (Permutation_length (merge_sort_Permutation _ _)). apply map_to_list_len. Qed.
Lemma edges_length c : length (map snd (edge_iter c)) = ec_size c.
Proof. unfold edge_iter, ascending_edges. rewrite map_length, (Permutation_length (merge_sort_Permutation _ _)). apply map_to_list_len. Qed.
Lemma layers_perm g : layer_iter g ≡ₚ map_to_list (g_layers g).
Proof. apply merge_sort_Permutation. Qed.
Lemma nodes_count g : length (gn_all (layer_iter g)) = g_num_static_nodes g.
Proof.
  unfold gn_all, g_num_static_nodes. rewrite length_concat_map. rewrite (sum_perm _ (map (fun x => length (map snd (node_iter (snd x)))) (map_to_list (g_layers g)))).
  - apply sum_list_map_ext. intros x _. rewrite map_length. apply ascending_length.
  - apply Permutation_map, layers_perm.
Qed.
Lemma edges_count g : length (ge_all (layer_iter g) ++ map snd (edge_iter (g_inter g))) = g_num_static_edges g.
Proof.
  rewrite app_length, edges_length. unfold ge_all, g_num_static_edges. rewrite length_concat_map. rewrite (sum_perm _ (map (fun x => length (map snd (edge_iter (sl_edges (snd x))))) (map_to_list (g_layers g)))).
  - rewrite Nat.add_comm. f_equal. apply sum_list_map_ext. intros x _. apply edges_length.
  - apply Permutation_map, layers_perm.
Qed.
Lemma same_pair_arrow g e : same_pair (arrow g e).1 (arrow g e).2 (e_src e) (e_tgt e).
Proof. unfold arrow, same_pair. destruct (layer_of g (e_src e)), (layer_of g (e_tgt e)); try destruct (_ <? _); cbn; auto. Qed.

Lemma shown_static g : reachable g -> forall x, shown false g x = true <-> on_static (layer_of g x).
Proof.
  intros Hr. destruct (reachable_RepL g Hr) as [a [HR _]]. pose proof (rp_canon _ _ HR) as HC.
  intros x. unfold shown, on_static. destruct (layer_of g x) as [k|] eqn:Ek; [|split; [discriminate|intros [l H]; discriminate]]. cbn. pose proof (HC x k Ek) as Hc. split.
    - intros H. apply negb_true_iff in H. exists (lk_layer k). destruct k as [l p d]. unfold canon in Hc. cbn in *. subst d. rewrite Hc by reflexivity. reflexivity.
    - intros [l [= ->]]. reflexivity.
Qed.
Lemma static_there g : reachable g -> forall x l, layer_of g x = Some (key_static l) -> exists n, node_at g x = Some n /\ n_id n = x /\ n_layer n = l /\ is_Some (g_layers g !! l).
Proof.
  intros Hr. destruct (reachable_RepL g Hr) as [a [HR _]].
  intros x l Hx. destruct (node_there g x _ Hr Hx) as (n & En & Ei). exists n. split; [exact En|]. split; [exact Ei|].
    destruct (Rep_node_ptr _ _ _ _ HR Hx) as (L & _ & HL0 & _). assert (HL : g_layers g !! l = Some L) by exact HL0.
    destruct (part_lists g a HR (key_static l) L (canon_static l) HL0) as (_ & [_ Q] & Q3). split; [|eauto]. apply Q3, Q. rewrite Ei. eauto.
Qed.

Section any.
Context {F E : Type} (nc : Graph -> Node -> result F) (ec : option (Graph -> Edge -> result E))
        (precision : Vec3 -> Vec3) (add : E -> E -> E).

Definition masks_of (M : nat) (ls : list SLayer) : gmap LayerId (list bool) :=
  fold_left (fun m L => <[sl_id L := replicate M false]> m) ls ∅.
Lemma masks_fold M ls : forall (m : gmap LayerId (list bool)) (l : LayerId), fold_left (fun m L => <[sl_id L := replicate M false]> m) ls m !! l =
  (if existsb (fun L => sl_id L =? l) ls then Some (replicate M false) else m !! l : option (list bool)).
Proof.
  induction ls as [|L ls IH]; intros m l; [reflexivity|]. cbn [fold_left existsb]. rewrite IH. destruct (existsb (fun L => sl_id L =? l) ls); [rewrite orb_true_r; reflexivity|]. rewrite orb_false_r.
  destruct (N.eqb_spec (sl_id L) l) as [->|H]; [apply lookup_insert|apply lookup_insert_ne, H].
Qed.
Lemma torch_fun g und : forall r, torch_homogeneous nc ec precision add g und r <-> r =
  rbind (rfold (put_row nc precision g) (gn_all (layer_iter g)) (mkT [] (replicate (g_num_static_nodes g) (mkVec3 0 0 0)) (masks_of (g_num_static_nodes g) (map snd (layer_iter g))) [] [] ∅)) (fun s =>
  rbind (rfold (put_column ec g (t_map s)) (ge_all (layer_iter g) ++ map snd (edge_iter (g_inter g))) (0%nat, replicate (g_num_static_edges g) (0%nat, 0%nat), [])) (fun c =>
  Ok (finish ec add und s c.1.2 c.2))).
Proof.
  intros r. unfold torch_homogeneous. cbv zeta.
  rewrite (then_ok _ _ (Ok (masks_of (g_num_static_nodes g) (map snd (layer_iter g)))) (fun m =>
    rbind (rfold (put_row nc precision g) (gn_all (layer_iter g)) (mkT [] (replicate (g_num_static_nodes g) (mkVec3 0 0 0)) m [] [] ∅)) (fun s =>
    rbind (rfold (put_column ec g (t_map s)) (ge_all (layer_iter g) ++ map snd (edge_iter (g_inter g))) (0%nat, replicate (g_num_static_edges g) (0%nat, 0%nat), [])) (fun c =>
    Ok (finish ec add und s c.1.2 c.2))))); [reflexivity| |].
  - intros q. rewrite (for_visits LayerIter _ (fun m L => Ok (<[sl_id L := replicate (g_num_static_nodes g) false]> m)) _ _ (list_visits snd (layer_iter g))) by reflexivity.
    rewrite rfold_ok. reflexivity.
  - intros m q. apply then_ok.
    + intros z. apply (for_visits GlobalNodeIter _ (put_row nc precision g) _ _ (global_nodes_visited g)). reflexivity.
    + intros s z. apply then_ok; [|intros c w; split; intros ->; reflexivity].
      intros w. apply (for_visits GlobalEdgeIter _ (put_column ec g (t_map s)) _ _ (global_edges_visited g)). reflexivity.
Qed.

Lemma start_inv g a : Rep g a -> TInv nc precision g (g_num_static_nodes g) []
  (mkT [] (replicate (g_num_static_nodes g) (mkVec3 0 0 0)) (masks_of (g_num_static_nodes g) (map snd (layer_iter g))) [] [] ∅).
Proof.
  intros HR. set (M := g_num_static_nodes g). clearbody M.
  split; cbn; try constructor.
    - apply replicate_length.
    - intros i n H. discriminate H.
    - unfold masks_of in H. rewrite masks_fold, lookup_empty in H. destruct (existsb _ _); [|discriminate]. injection H as <-. apply replicate_length.
    - intros i Hi. unfold masks_of in H. rewrite masks_fold, lookup_empty in H. destruct (existsb _ _); [|discriminate]. injection H as <-. apply lookup_replicate_2, Hi.
    - unfold masks_of. rewrite masks_fold, lookup_empty. destruct (existsb _ _) eqn:Ex; [intros _|intros [? H]; discriminate H]. apply existsb_exists in Ex as (L & Hin & HL). apply N.eqb_eq in HL. subst l.
      apply in_map_iff in Hin as ([l L'] & <- & Hin). apply elem_of_list_In, layers_in in Hin. cbn. destruct (rp_part _ _ HR (key_static l) L' (canon_static l) Hin) as (_ & Q & _). cbn in Q. rewrite Q. eauto.
    - unfold masks_of. rewrite masks_fold, lookup_empty. intros [L HL]. replace (existsb (fun L => sl_id L =? l) (map snd (layer_iter g))) with true; [eauto|]. symmetry. apply existsb_exists. exists L.
      split; [apply in_map_iff; exists (l, L); split; [reflexivity|apply elem_of_list_In, layers_in, HL]|]. destruct (rp_part _ _ HR (key_static l) L (canon_static l) HL) as (_ & Q & _). cbn in Q. rewrite Q. apply N.eqb_refl.
    - intros H. rewrite lookup_empty in H. discriminate H.
    - intros (n & H & _). discriminate H.
Qed.
(** The tensors of a graph whose static nodes have labels: one row for each node of a static layer,
    one column for each edge between them (two, if asked for an undirected graph), each with the
    features the converters give. *)
Theorem C76_homogeneous : forall g undirected, reachable g ->
  (forall x n, node_at g x = Some n -> shown false g x = true -> (exists f, nc g n = Ok f) /\ exists l, semantic_label (n_attrs n) = Ok l) ->
  (forall f u v e, ec = Some f -> edge_at g u v = Some e -> shown false g u = true -> shown false g v = true -> exists x, f g e = Ok x) ->
  exists d, (forall r, torch_homogeneous nc ec precision add g undirected r <-> r = Ok d) /\
  NoDup (td_ids d) /\ (forall x, x ∈ td_ids d <-> shown false g x = true) /\
  rows_for (td_ids d) (td_x d) (fun x f => exists n, node_at g x = Some n /\ nc g n = Ok f) /\
  rows_for (td_ids d) (td_label d) (fun x l => exists a, attributes_of g x = Some a /\ semantic_label a = Ok l) /\
  rows_for (td_ids d) (td_pos d) (fun x p => exists a, attributes_of g x = Some a /\ p = precision (attrs_position a)) /\
  (forall l, is_Some (td_masks d !! l) <-> g_has_layer g l = true) /\
  (forall l m, td_masks d !! l = Some m -> rows_for (td_ids d) m (fun x b => b = true <-> layer_of g x = Some (key_static l))) /\
  NoDup (td_edge_index d) /\
  (forall i j, (i, j) ∈ td_edge_index d <-> exists x y e, td_ids d !! i = Some x /\ td_ids d !! j = Some y /\
     edge_at g x y = Some e /\ (undirected = true \/ arrow g e = (x, y))) /\
  match ec, td_edge_attr d with
  | Some f, Some rows => length rows = length (td_edge_index d) /\
      forall k i j x y r, td_edge_index d !! k = Some (i, j) -> td_ids d !! i = Some x -> td_ids d !! j = Some y -> rows !! k = Some r ->
        exists e, edge_at g x y = Some e /\ f g e = Ok r
  | None, None => True
  | _, _ => False
  end.
Proof.
  intros g und Hr HNC HEC. destruct (reachable_RepL g Hr) as [a [HR _]]. pose proof (rp_canon _ _ HR) as HC.
  set (ns := gn_all (layer_iter g)). set (es := ge_all (layer_iter g) ++ map snd (edge_iter (g_inter g))). set (M := g_num_static_nodes g).
  assert (LN : lists_nodes g (fun k => lk_dynamic k = false) ns).
  { destruct (C61_nodes g Hr) as (l & V & L & _). rewrite (visits_fun _ _ _ _ V (global_nodes_visited g)) in L. exact L. }
  assert (LE : lists_edges g (fun k k' => on_static k /\ on_static k') es).
  { destruct (C61_edges g Hr) as (l & V & L). rewrite (visits_fun _ _ _ _ V (global_edges_visited g)) in L. exact L. }
  assert (CN : length ns = M) by apply nodes_count. assert (CE : length es = g_num_static_edges g) by apply edges_count.
  pose proof (shown_static g Hr) as ST. pose proof (static_there g Hr) as NT.
  assert (NI : forall n, n ∈ ns <-> node_at g (n_id n) = Some n /\ on_static (layer_of g (n_id n))).
  { intros n. destruct LN as [_ Q]. rewrite Q. split; (intros [H1 H2]; split; [exact H1|]).
    - apply ST. unfold shown. destruct H2 as (k & -> & ->). reflexivity.
    - destruct H2 as [l ->]. exists (key_static l). auto. }
  assert (IDS : forall x, x ∈ map n_id ns <-> shown false g x = true).
  { intros x. rewrite ST, elem_of_list_In, in_map_iff. split.
    - intros (n & <- & Hn). apply elem_of_list_In, NI in Hn as [_ Hn]. exact Hn.
    - intros [l Hx]. destruct (NT x l Hx) as (n & En & Ei & _). exists n. split; [exact Ei|]. apply elem_of_list_In, NI. rewrite Ei. split; [exact En|]. exists l. exact Hx. }
  destruct (rows_fold nc precision g M ns [] (mkT [] (replicate M (mkVec3 0 0 0)) (masks_of M (map snd (layer_iter g))) [] [] ∅)) as (s & Es & I).
  { apply (start_inv g a), HR. }
  { cbn. lia. }
  { apply LN. }
  { intros n Hn. apply NI in Hn as [E1 [l E2]]. destruct (NT _ _ E2) as (n' & E3 & _ & E4 & E5). assert (n' = n) as -> by congruence. rewrite E4. split; [exact E5|].
    apply (HNC (n_id n)); [exact E1|]. apply ST. exists l. exact E2. }
  cbn [app] in I.
  assert (MAP : forall x i, t_map s !! x = Some i <-> map n_id ns !! i = Some x).
  { intros x i. rewrite (ti_map _ _ _ _ _ _ I). change (map n_id ns) with (n_id <$> ns). rewrite list_lookup_fmap, fmap_Some. split; intros (n & H1 & H2); exists n; auto. }
  assert (ARR : forall e, e ∈ es -> exists i j, directed_edge g (t_map s) e = Ok (i, j) /\ map n_id ns !! i = Some (arrow g e).1 /\ map n_id ns !! j = Some (arrow g e).2).
  { intros e He. apply LE in He as (Ee & [l1 S1] & [l2 S2]). destruct (NT _ _ S1) as (n1 & A1 & A2 & A3 & _). destruct (NT _ _ S2) as (n2 & B1 & B2 & B3 & _).
    assert (G : forall x n, node_at g x = Some n -> g_get_node g x = Ok n).
    { intros x n H. unfold node_at in H. unfold g_get_node. destruct (g_find_node g x) as [o| |]; try discriminate. subst o. reflexivity. }
    assert (X1 : exists i, map n_id ns !! i = Some (e_src e)) by (apply elem_of_list_lookup, IDS, ST; exists l1; exact S1).
    assert (X2 : exists i, map n_id ns !! i = Some (e_tgt e)) by (apply elem_of_list_lookup, IDS, ST; exists l2; exact S2).
    destruct X1 as [i1 X1], X2 as [i2 X2]. unfold directed_edge. rewrite (G _ _ A1). cbn [rbind]. rewrite (G _ _ B1). cbn [rbind]. rewrite A3, B3, (proj2 (MAP _ _) X1), (proj2 (MAP _ _) X2). cbn [at_ rbind].
    unfold arrow. rewrite S1, S2. cbn [lk_layer key_static]. destruct (l1 <? l2); [exists i2, i1|exists i1, i2]; auto. }
  destruct (edges_fold ec g (t_map s) (g_num_static_edges g) es [] (0%nat, replicate (g_num_static_edges g) (0%nat, 0%nat), [])) as ([[idx cols] feats] & Ec & J).
  { split; cbn; [reflexivity|apply replicate_length|intros i e H; discriminate H|destruct ec; constructor]. }
  { cbn. lia. }
  { intros e He. split; [destruct (ARR e He) as (i & j & Q & _); eauto|]. destruct ec as [f|] eqn:Hec; [|exact Logic.I]. apply LE in He as (Ee & S1 & S2). apply (HEC f (e_src e) (e_tgt e)); [reflexivity|exact Ee|apply ST, S1|apply ST, S2]. }
  cbn [app] in J. destruct J as [J1 J2 J3 J4]. cbn in J1, J2, J3, J4. subst idx.
  set (ids := map n_id ns) in *. assert (HND : NoDup ids) by apply LN.
  assert (UN : forall i j x, ids !! i = Some x -> ids !! j = Some x -> i = j) by (intros i j x H1 H2; eapply NoDup_lookup; eassumption).
  (* the k-th column is the arrow of the k-th edge *)
  assert (COL : forall k i j, cols !! k = Some (i, j) -> exists e x y, es !! k = Some e /\ e ∈ es /\ ids !! i = Some x /\ ids !! j = Some y /\ arrow g e = (x, y) /\ edge_at g x y = Some e).
  { intros k i j Hk. assert (Hl : (k < length es)%nat) by (rewrite CE, <- J2; eapply lookup_lt_Some, Hk). apply lookup_lt_is_Some in Hl as [e He]. assert (Hin : e ∈ es) by (eapply elem_of_list_lookup_2, He).
    destruct (J3 k e He) as (c & Q1 & Q2). destruct (ARR e Hin) as (i' & j' & Q3 & Q4 & Q5). assert ((i', j') = (i, j)) as [= -> ->] by congruence. exists e, (arrow g e).1, (arrow g e).2.
    split; [exact He|]. split; [exact Hin|]. split; [exact Q4|]. split; [exact Q5|]. split; [destruct (arrow g e); reflexivity|]. apply LE in Hin as [Ee _].
    destruct (same_pair_arrow g e) as [[-> ->]|[-> ->]]; [exact Ee|]. destruct (edges_symmetric g (e_tgt e) (e_src e) Hr) as (_ & -> & _). exact Ee. }
  assert (PAIR : forall k k' i j, cols !! k = Some (i, j) -> (cols !! k' = Some (i, j) \/ cols !! k' = Some (j, i)) -> k = k').
  { intros k k' i j H1 H2. destruct (COL k i j H1) as (e & x & y & A1 & _ & A3 & A4 & A5 & _).
    assert (exists e', es !! k' = Some e' /\ (arrow g e' = (x, y) \/ arrow g e' = (y, x))) as (e' & B1 & B2).
    { destruct H2 as [H2|H2]; destruct (COL _ _ _ H2) as (e' & x' & y' & B1 & _ & B3 & B4 & B5 & _); exists e'; (split; [exact B1|]); rewrite B5; [left|right]; f_equal; congruence. }
    destruct LE as [LE1 _]. apply (LE1 k k' e e' A1 B1). pose proof (same_pair_arrow g e) as P1. pose proof (same_pair_arrow g e') as P2. rewrite A5 in P1. cbn in P1. unfold same_pair in *.
    destruct B2 as [B2|B2]; rewrite B2 in P2; cbn in P2; destruct P1 as [[-> ->]|[-> ->]], P2 as [[-> ->]|[-> ->]]; auto. }
  assert (NDC : NoDup cols) by (apply NoDup_alt; intros k k' [i j] H1 H2; apply (PAIR k k' i j); auto).
  assert (NSW : forall c, c ∈ cols -> swap_column c ∉ cols).
  { intros [i j] H1 H2. apply elem_of_list_lookup in H1 as [k H1]. apply elem_of_list_lookup in H2 as [k' H2]. cbn in H2. assert (k = k') as <- by (apply (PAIR k k' i j); auto).
    rewrite H1 in H2. injection H2 as H2 _. destruct (COL _ _ _ H1) as (e & x & y & _ & _ & A3 & A4 & _ & A6). destruct (edges_symmetric g x y Hr) as (_ & _ & _ & HP). destruct (HP e A6) as [Hne _]. congruence. }
  assert (INC : forall i j, (i, j) ∈ cols <-> exists x y e, ids !! i = Some x /\ ids !! j = Some y /\ edge_at g x y = Some e /\ arrow g e = (x, y)).
  { intros i j. split.
    - intros H. apply elem_of_list_lookup in H as [k H]. destruct (COL _ _ _ H) as (e & x & y & _ & _ & A3 & A4 & A5 & A6). exists x, y, e. auto.
    - intros (x & y & e & A1 & A2 & A3 & A4). assert (He : e ∈ es).
      { assert (SX : shown false g x = true) by (apply IDS; eapply elem_of_list_lookup_2, A1). assert (SY : shown false g y = true) by (apply IDS; eapply elem_of_list_lookup_2, A2). apply ST in SX, SY.
        apply LE. pose proof (same_pair_arrow g e) as P. rewrite A4 in P. cbn in P. destruct P as [[-> ->]|[-> ->]]; [auto|]. destruct (edges_symmetric g (e_src e) (e_tgt e) Hr) as (_ & -> & _). auto. }
      apply elem_of_list_lookup in He as [k He]. destruct (J3 k e He) as (c & Q1 & Q2). destruct (ARR e) as (i' & j' & Q3 & Q4 & Q5); [eapply elem_of_list_lookup_2, He|].
      rewrite A4 in Q4, Q5. cbn in Q4, Q5. rewrite (UN _ _ _ A1 Q4), (UN _ _ _ A2 Q5). eapply elem_of_list_lookup_2. rewrite Q1. congruence. }
  exists (finish ec add und s cols feats).
  split. { intros r. rewrite torch_fun. fold ns es M. rewrite Es. cbn [rbind]. rewrite Ec. cbn [rbind fst snd]. reflexivity. }
  assert (FIN : td_ids (finish ec add und s cols feats) = ids /\ td_x (finish ec add und s cols feats) = t_feat s /\ td_label (finish ec add und s cols feats) = t_labels s /\
      td_pos (finish ec add und s cols feats) = t_pos s /\ td_masks (finish ec add und s cols feats) = t_masks s).
  { unfold finish. rewrite <- (ti_ids _ _ _ _ _ _ I : t_ids s = ids). destruct (if _ && und then _ else _) as [index attr]. cbn. auto. }
  destruct FIN as (-> & -> & -> & -> & ->).
  split; [exact HND|]. split; [exact IDS|].
  assert (ROW : forall {A} (rows : list A) (R : Node -> A -> Prop) (P : N -> A -> Prop), Forall2 R ns rows -> (forall n r, node_at g (n_id n) = Some n -> R n r -> P (n_id n) r) -> rows_for ids rows P).
  { intros A rows R P HF HP. split; [unfold ids; rewrite map_length; symmetry; eapply Forall2_length, HF|]. intros i x r H1 H2. unfold ids in H1. change (map n_id ns) with (n_id <$> ns) in H1. rewrite list_lookup_fmap, fmap_Some in H1. destruct H1 as (n & H1 & ->).
    apply HP; [|eapply Forall2_lookup_lr; eassumption]. apply elem_of_list_lookup_2, NI in H1 as [H1 _]. exact H1. }
  split. { apply (ROW _ _ _ _ (ti_feat _ _ _ _ _ _ I)). intros n r H1 H2. eauto. }
  split. { apply (ROW _ _ _ _ (ti_label _ _ _ _ _ _ I)). intros n r H1 H2. exists (n_attrs n). unfold attributes_of. rewrite H1. auto. }
  split. { split; [unfold ids; rewrite map_length, CN; apply (ti_poslen _ _ _ _ _ _ I)|]. intros i x r H1 H2. unfold ids in H1. change (map n_id ns) with (n_id <$> ns) in H1. rewrite list_lookup_fmap, fmap_Some in H1. destruct H1 as (n & H1 & ->).
    pose proof (ti_pos _ _ _ _ _ _ I _ _ H1) as H3. exists (n_attrs n). split; [|congruence]. apply elem_of_list_lookup_2, NI in H1 as [H1 _]. unfold attributes_of. rewrite H1. reflexivity. }
  split. { intros l. rewrite (ti_layers _ _ _ _ _ _ I). unfold g_has_layer. rewrite bool_decide_eq_true. reflexivity. }
  split. { intros l m Hm. destruct (ti_mask _ _ _ _ _ _ I _ _ Hm) as [L1 L2]. split; [unfold ids; rewrite map_length; congruence|]. intros i x r H1 H2. unfold ids in H1. change (map n_id ns) with (n_id <$> ns) in H1. rewrite list_lookup_fmap, fmap_Some in H1. destruct H1 as (n & H1 & ->).
    rewrite L2, H1 in H2 by (rewrite <- CN; eapply lookup_lt_Some, H1). injection H2 as <-. apply elem_of_list_lookup_2, NI in H1 as [H1 [l' H2]]. destruct (NT _ _ H2) as (n' & E1 & _ & E3 & _). assert (n' = n) as -> by congruence.
    rewrite E3, H2, N.eqb_eq. split; [intros ->; reflexivity|intros [= ->]; reflexivity]. }
  (* the columns *)
  assert (UND : forall i j, (i, j) ∈ to_undirected cols <-> exists x y e, ids !! i = Some x /\ ids !! j = Some y /\ edge_at g x y = Some e).
  { intros i j. rewrite undirected_in. change (swap_column (i, j)) with (j, i). rewrite !INC. split.
    - intros [(x & y & e & A1 & A2 & A3 & _)|(x & y & e & A1 & A2 & A3 & _)]; [exists x, y, e; auto|exists y, x, e]. destruct (edges_symmetric g y x Hr) as (_ & -> & _). auto.
    - intros (x & y & e & A1 & A2 & A3). destruct (edges_symmetric g x y Hr) as (_ & Q & _ & HP). destruct (HP e A3) as [_ P]. pose proof (same_pair_arrow g e) as P'. destruct (arrow g e) as [u v] eqn:Ea. cbn in P'. unfold same_pair in *.
      assert ((u = x /\ v = y) \/ (u = y /\ v = x)) as [[-> ->]|[-> ->]] by (destruct P as [[P1 P2]|[P1 P2]], P' as [[-> ->]|[-> ->]]; auto); [left; exists x, y, e|right; exists y, x, e; rewrite <- Q]; auto. }
  assert (NIL : length cols = 0%nat -> forall i j x y e, ids !! i = Some x -> ids !! j = Some y -> edge_at g x y = Some e -> False).
  { intros Hl i j x y e A1 A2 A3. assert (Q : (i, j) ∈ to_undirected cols) by (apply UND; eauto 6). destruct cols; [|discriminate]. apply undirected_in in Q as [Q|Q]; inversion Q. }
  assert (LF : forall f, ec = Some f -> length feats = length cols).
  { intros f Hf. rewrite Hf in J4. rewrite J2, <- CE. symmetry. eapply Forall2_length, J4. }
  assert (FE : forall f k i j r, ec = Some f -> cols !! k = Some (i, j) -> feats !! k = Some r -> exists e x y, ids !! i = Some x /\ ids !! j = Some y /\ edge_at g x y = Some e /\ f g e = Ok r).
  { intros f k i j r Hf H1 H2. rewrite Hf in J4. destruct (COL _ _ _ H1) as (e & x & y & A1 & _ & A3 & A4 & _ & A6). exists e, x, y. split; [exact A3|]. split; [exact A4|]. split; [exact A6|]. apply (Forall2_lookup_lr _ _ _ _ _ _ J4 A1 H2). }
  unfold finish. destruct und; cbn [andb]; [destruct (Nat.ltb_spec 0 (length cols)) as [Hl|Hl]|]; rewrite ?andb_false_r; cbn [andb].
  - assert (U1 : forall f, ec = Some f -> (to_undirected_with add cols feats).1 = to_undirected cols /\ length (to_undirected_with add cols feats).2 = length (to_undirected cols) /\
      forall k c r j, to_undirected cols !! k = Some c -> (cols !! j = Some c \/ cols !! j = Some (swap_column c)) -> feats !! j = Some r -> (to_undirected_with add cols feats).2 !! k = Some r).
    { intros f Hf. apply undirected_with; [exact NDC|exact NSW|apply (LF f Hf)]. }
    assert (Q : (let '(index, attr) := match ec with None => (to_undirected cols, feats) | Some _ => to_undirected_with add cols feats end in index) = to_undirected cols).
    { destruct ec as [f|]; [|reflexivity]. destruct (U1 f eq_refl) as [Q _]. destruct (to_undirected_with add cols feats). exact Q. }
    destruct (match ec with None => (to_undirected cols, feats) | Some _ => to_undirected_with add cols feats end) as [index attr] eqn:Ex. cbn in Q. subst index. cbn.
    split; [apply undirected_nodup|]. split; [intros i j; rewrite UND; split; intros (x & y & e & A1 & A2 & A3); exists x, y, e; [|destruct A3]; auto|].
    destruct ec as [f|]; [|exact Logic.I]. destruct (U1 f eq_refl) as (_ & U2 & U3). rewrite Ex in U2, U3. cbn in U2, U3. split; [exact U2|].
    intros k i j x y r H1 A1 A2 H2. assert (Hin : (i, j) ∈ to_undirected cols) by (eapply elem_of_list_lookup_2, H1). apply undirected_in in Hin.
    assert (exists m, cols !! m = Some (i, j) \/ cols !! m = Some (j, i)) as [m Hm] by (destruct Hin as [Hin|Hin]; apply elem_of_list_lookup in Hin as [m Hm]; exists m; auto).
    assert (exists r', feats !! m = Some r') as [r' Hr'] by (apply lookup_lt_is_Some; rewrite (LF f eq_refl); destruct Hm as [Hm|Hm]; eapply lookup_lt_Some, Hm).
    pose proof (U3 k (i, j) r' m H1 Hm Hr') as H3. assert (r' = r) as -> by congruence.
    destruct Hm as [Hm|Hm]; destruct (FE f m _ _ r eq_refl Hm Hr') as (e & x' & y' & B1 & B2 & B3 & B4); exists e; (split; [|exact B4]); [congruence|].
    destruct (edges_symmetric g x y Hr) as (_ & -> & _). congruence.
  - cbn. split; [exact NDC|]. split.
    + intros i j. split; [|intros (x & y & e & A1 & A2 & A3 & _); destruct (NIL ltac:(lia) i j x y e A1 A2 A3)]. rewrite INC. intros (x & y & e & A). exists x, y, e. tauto.
    + destruct ec as [f|]; [|exact Logic.I]. split; [apply (LF f eq_refl)|]. intros k i j x y r H1. apply lookup_lt_Some in H1. lia.
  - cbn. split; [exact NDC|]. split.
    + intros i j. rewrite INC. split; intros (x & y & e & A1 & A2 & A3 & A4); exists x, y, e; [auto|]. destruct A4; [discriminate|auto].
    + destruct ec as [f|]; [|exact Logic.I]. split; [apply (LF f eq_refl)|]. intros k i j x y r H1 A1 A2 H2. destruct (FE f k _ _ r eq_refl H1 H2) as (e & x' & y' & B1 & B2 & B3 & B4). exists e. split; [congruence|exact B4].
Qed.

(** Without the condition on the labels it is false: a static node with plain (or agent) attributes
    has none, and the whole conversion raises. *)
Lemma rows_fail g M todo : forall done s, TInv nc precision g M done s -> (length done + length todo <= M)%nat -> NoDup (map n_id (done ++ todo)) ->
  (forall n, n ∈ todo -> is_Some (g_layers g !! n_layer n) /\ (exists f, nc g n = Ok f)) -> (exists n, n ∈ todo /\ semantic_label (n_attrs n) = Throw) ->
  rfold (put_row nc precision g) todo s = Throw.
Proof.
  induction todo as [|n todo IH]; intros done s I HM HN HT (b & Hb & Eb); [inversion Hb|]. cbn [rfold]. cbn in HM. destruct (HT n ltac:(left)) as (H1 & H2).
  destruct (semantic_label (n_attrs n)) as [l| |] eqn:El.
  - destruct (row_step nc precision g M done s n I) as (s1 & E1 & I1); [lia|exact H1| |exact H2|eauto|].
    { rewrite map_app in HN. cbn in HN. apply NoDup_app in HN as (_ & HN & _). intros Hin. apply elem_of_list_In in Hin. apply (HN _ Hin). left. }
    rewrite E1. cbn [rbind]. apply (IH (done ++ [n]) s1 I1).
    + rewrite app_length. cbn. lia.
    + rewrite <- app_assoc. exact HN.
    + intros m Hm. apply HT. right. exact Hm.
    + apply elem_of_cons in Hb as [->|Hb]; [congruence|eauto].
  - pose proof (Forall2_length _ _ _ (ti_feat _ _ _ _ _ _ I)) as LF. apply (ti_layers _ _ _ _ _ _ I) in H1 as [mask Hmask]. destruct (ti_mask _ _ _ _ _ _ I _ _ Hmask) as [Lm _]. destruct H2 as [f Hf].
    unfold put_row. cbv zeta. rewrite Hmask. cbn [at_ rbind]. rewrite <- LF. rewrite assign_ok by lia. cbn [rbind]. rewrite assign_ok by (rewrite (ti_poslen _ _ _ _ _ _ I); lia). cbn [rbind]. rewrite Hf. cbn [rbind]. rewrite El. reflexivity.
  - exfalso. destruct (n_attrs n); discriminate El.
Qed.
Theorem C76_unlabelled_refuted : forall g x a undirected, reachable g -> shown false g x = true -> attributes_of g x = Some a ->
  (match a with Attrs.ANode _ | Attrs.AAgent _ => True | _ => False end) -> (forall n, exists f, nc g n = Ok f) ->
  forall r, torch_homogeneous nc ec precision add g undirected r <-> r = Throw.
Proof.
  intros g x at' und Hr Hx Ha Hk HNC r. destruct (reachable_RepL g Hr) as [a [HR _]]. rewrite torch_fun.
  destruct (C61_nodes g Hr) as (l & V & L & _). rewrite (visits_fun _ _ _ _ V (global_nodes_visited g)) in L.
  rewrite (rows_fail g (g_num_static_nodes g) (gn_all (layer_iter g)) [] _ (start_inv g a HR)); [reflexivity| | | |].
  - cbn. rewrite nodes_count. lia.
  - apply L.
  - intros n Hn. split; [|apply HNC]. apply L in Hn as (E1 & k & E2 & E3). destruct (proj1 (shown_static g Hr (n_id n))) as [l' E4]; [unfold shown; rewrite E2, E3; reflexivity|].
    destruct (static_there g Hr _ _ E4) as (n' & F1 & _ & F3 & F4). assert (n' = n) as -> by congruence. rewrite F3. exact F4.
  - pose proof Hx as Hs. apply (shown_static g Hr) in Hs as [l' E4]. destruct (static_there g Hr _ _ E4) as (n & F1 & F2 & _). exists n. split.
    + apply L. rewrite F2. split; [exact F1|]. exists (key_static l'). auto.
    + unfold attributes_of in Ha. rewrite F1 in Ha. cbn in Ha. injection Ha as <-. destruct (n_attrs n); cbn; [reflexivity| | |destruct Hk|..]; try destruct Hk; reflexivity.
Qed.
End any.
Print Assumptions C76_homogeneous.
Print Assumptions C76_unlabelled_refuted.

(** The hypotheses are met: two places below a room, an agent that is left out. *)
Definition labelled (l : N) : NodeAttrs := Attrs.ASem (mkSem base_default [] (mkColor 0 0 0 255) bbox_default l (mkMatrix 0 0 [])).
Definition ex_torch : Graph := build [GEmplace PLACES 10 (labelled 3); GEmplace PLACES 11 (labelled 4); GEmplace ROOMS 20 (labelled 7);
  GEmplaceDyn AGENTS pfx_a 1 (base_at 0 0 1) true; GInsertEdge 11 10 None; GInsertEdge 10 20 (Some (mkEA true 5)); GInsertEdge (agent 0) 10 None].
Lemma ex_torch_reachable : reachable ex_torch.
Proof. apply run_b_start. vm_compute. reflexivity. Qed.
Definition ex_node_converter (g : Graph) (n : Node) : result N := Ok (n_id n).
Definition ex_edge_converter (g : Graph) (e : Edge) : result N := Ok (ea_weight (e_info e)).
Definition labels_b (g : Graph) : bool :=
  forallb (fun x => match node_at g (fst x) with
                    | Some n => if shown false g (fst x) then match semantic_label (n_attrs n) with Ok _ => true | _ => false end else true
                    | None => true end) (map_to_list (g_lookup g)).
Lemma labels_b_ok g : labels_b g = true -> forall x n, node_at g x = Some n -> shown false g x = true -> exists l, semantic_label (n_attrs n) = Ok l.
Proof.
  intros H x n Hn Hs. unfold labels_b in H. rewrite forallb_forall in H. assert (exists k, layer_of g x = Some k) as [k Hk] by (unfold shown in Hs; destruct (layer_of g x); [eauto|discriminate]).
  specialize (H _ (layer_of_elem _ _ _ Hk)). cbn [fst] in H. rewrite Hn, Hs in H. destruct (semantic_label (n_attrs n)) as [l| |]; [eauto|discriminate..].
Qed.
Theorem C76_ex : forall undirected, exists d,
  (forall r, torch_homogeneous ex_node_converter (Some ex_edge_converter) (fun p => p) N.add ex_torch undirected r <-> r = Ok d) /\
  (exists i j, td_ids d !! i = Some 20 /\ td_ids d !! j = Some 10 /\ td_label d !! i = Some 7 /\ (i, j) ∈ td_edge_index d /\ ((j, i) ∈ td_edge_index d <-> undirected = true)) /\
  agent 0 ∉ td_ids d.
Proof.
  intros und. destruct (C76_homogeneous ex_node_converter (Some ex_edge_converter) (fun p => p) N.add ex_torch und ex_torch_reachable) as (d & H & HN & HI & _ & [L1 L2] & _ & _ & _ & _ & HE & _).
  { intros x n Hn Hs. split; [eexists; reflexivity|]. apply (labels_b_ok ex_torch) with x; [vm_compute; reflexivity|exact Hn|exact Hs]. }
  { intros f u v e [= <-] _ _ _. eexists. reflexivity. }
  assert (S20 : shown false ex_torch 20 = true) by (vm_compute; reflexivity). assert (S10 : shown false ex_torch 10 = true) by (vm_compute; reflexivity).
  assert (SA : shown false ex_torch (agent 0) = false) by (vm_compute; reflexivity).
  assert (E1 : (e_src <$> edge_at ex_torch 20 10, e_tgt <$> edge_at ex_torch 20 10) = (Some 10, Some 20)) by (vm_compute; reflexivity).
  assert (E3 : edge_at ex_torch 10 20 = edge_at ex_torch 20 10) by apply (edges_symmetric ex_torch 10 20 ex_torch_reachable).
  assert (E2 : (lk_layer <$> layer_of ex_torch 10, lk_layer <$> layer_of ex_torch 20) = (Some PLACES, Some ROOMS)) by (vm_compute; reflexivity).
  assert (A20 : (match attributes_of ex_torch 20 with Some a => semantic_label a | None => UB end) = Ok 7) by (vm_compute; reflexivity).
  revert H HN HI L2 HE S20 S10 SA E1 E2 E3 A20. generalize ex_torch. intros g H HN HI L2 HE S20 S10 SA E1 E2 E3 A20. exists d. split; [exact H|]. split.
  - apply HI, elem_of_list_lookup in S20 as [i Hi]. apply HI, elem_of_list_lookup in S10 as [j Hj]. exists i, j. split; [exact Hi|]. split; [exact Hj|].
    destruct (edge_at g 20 10) as [e|] eqn:Ee; [|discriminate]. cbn in E1. injection E1 as E1 E1'.
    destruct (layer_of g 10) as [k1|] eqn:K1; [|discriminate]. destruct (layer_of g 20) as [k2|] eqn:K2; [|discriminate]. cbn in E2. injection E2 as E2 E2'.
    assert (AR : arrow g e = (20, 10)) by (unfold arrow; rewrite E1, E1', K1, K2, E2, E2'; reflexivity).
    split; [|split].
    + assert (exists l, td_label d !! i = Some l) as [l Hl] by (apply lookup_lt_is_Some; rewrite L1; eapply lookup_lt_Some, Hi). destruct (L2 i 20 l Hi Hl) as (a & Q1 & Q2). rewrite Q1 in A20. congruence.
    + apply HE. exists 20, 10, e. auto.
    + rewrite HE. split; [|intros ->; exists 10, 20, e; auto]. intros (x & y & e' & Q1 & Q2 & Q3 & [Q4|Q4]); [exact Q4|]. assert (x = 10) as -> by congruence. assert (y = 20) as -> by congruence. assert (e' = e) as -> by congruence. rewrite AR in Q4. discriminate.
  - intros Q. apply HI in Q. congruence.
Qed.
