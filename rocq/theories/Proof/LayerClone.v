(** SceneGraphLayer::clone. *)
From Coq Require Import NArith ZArith Bool List Lia.
From stdpp Require Import base list gmap fin_maps tactics.
From Verif.Model Require Import Types Mesh Attrs Node EdgeContainer SLayer.
From Verif.Spec Require Import EdgeLog LayerLog.
From Verif.Proof Require Import Keys EdgeLogP SLayerP LayerLogP LayerLogP2.
Local Open Scope N_scope.
#[local] Arguments edge_key : simpl never.

Lemma map_fmap {A B} (f : A -> B) (l : list A) : map f l = f <$> l.
Proof. reflexivity. Qed.

Lemma keys_map {A B} (f : A -> N * B) (g : A -> N) xs : (forall a, fst (f a) = g a) -> (map f xs).*1 = map g xs.
Proof. intros H. induction xs as [|x r IH]; [reflexivity|]. cbn. f_equal; [apply H|exact IH]. Qed.

Definition state (l : SLayer) (os : list lop) : SLayer := snd (sl_run l os).
Lemma state_cons l o r : state l (o :: r) = state (snd (sl_step l o)) r.
Proof. unfold state. cbn [sl_run]. destruct (sl_step l o) as [x l1]. cbn [snd]. destruct (sl_run l1 r). reflexivity. Qed.
Lemma state_app a : forall l b, state l (a ++ b) = state (state l a) b.
Proof.
  induction a as [|o r IH]; intros l b; [reflexivity|]. cbn [app]. rewrite !state_cons. apply IH.
Qed.

Definition fresh_nodes (lid : LayerId) (xs : list (N * Node)) : gmap N Node :=
  list_to_map (map (fun x => (fst x, node_new (fst x) lid None (n_attrs (snd x)))) xs).
Lemma fresh_cons lid x n r : fresh_nodes lid ((x, n) :: r) = <[x := node_new x lid None (n_attrs n)]> (fresh_nodes lid r).
Proof. reflexivity. Qed.
Lemma fresh_none lid xs x : x ∉ map fst xs -> fresh_nodes lid xs !! x = None.
Proof.
  intros H. unfold fresh_nodes. apply not_elem_of_list_to_map_1. rewrite (keys_map _ fst) by reflexivity; exact H.
Qed.
Lemma fresh_some lid xs x n : NoDup (map fst xs) -> (x, n) ∈ xs -> fresh_nodes lid xs !! x = Some (node_new x lid None (n_attrs n)).
Proof.
  intros Hd Hin. unfold fresh_nodes. apply elem_of_list_to_map_1.
  - rewrite (keys_map _ fst) by reflexivity; exact Hd.
  - apply elem_of_list_fmap. exists (x, n). auto.
Qed.
Definition marks {A} (xs : list (N * A)) (f : N -> NodeStatus) : gmap N NodeStatus :=
  list_to_map (map (fun x => (fst x, f (fst x))) xs).
Lemma marks_some {A} (xs : list (N * A)) f x : x ∈ map fst xs -> marks xs f !! x = Some (f x).
Proof.
  unfold marks. induction xs as [|[y a] r IH]; [intros H; inversion H|]. cbn. intros H. destruct (decide (y = x)) as [->|Hne].
  - rewrite lookup_insert. reflexivity.
  - rewrite lookup_insert_ne by congruence. apply IH. apply elem_of_cons in H as [H|H]; [congruence|exact H].
Qed.
Lemma marks_none {A} (xs : list (N * A)) f x : x ∉ map fst xs -> marks xs f !! x = None.
Proof.
  intros H. unfold marks. apply not_elem_of_list_to_map_1. rewrite (keys_map _ fst) by reflexivity; exact H.
Qed.

(** emplaceNode on absent nodes. *)
Lemma emplace_new_all xs : forall l, NoDup (map fst xs) -> (forall x, x ∈ map fst xs -> sl_nodes l !! x = None) ->
  state l (map (fun x => LEmplace (fst x) (n_attrs (snd x))) xs) =
  mkSL (sl_id l) (fresh_nodes (sl_id l) xs ∪ sl_nodes l) (marks xs (fun _ => NNew) ∪ sl_status l) (sl_edges l).
Proof.
  induction xs as [|[x n] r IH]; intros l Hd Hno; cbn [map].
  - unfold state, fresh_nodes, marks; cbn. rewrite !left_id_L by apply _. destruct l; reflexivity.
  - cbn [map fst] in Hd. apply stdpp.list.NoDup_cons in Hd as [Hx Hd]. rewrite state_cons. cbn [fst snd sl_step].
    unfold sl_emplace_node. rewrite (Hno x) by (left; reflexivity). cbn [snd]. rewrite IH.
    + cbn [sl_id sl_nodes sl_status sl_edges sl_with_nodes sl_with_status]. rewrite fresh_cons. unfold marks at 2. cbn [map fst list_to_map foldr]. f_equal.
      * rewrite <- insert_union_r by (apply fresh_none, Hx). rewrite insert_union_l. reflexivity.
      * change (list_to_map (map (fun x0 : N * Node => (x0.1, NNew)) r)) with (marks r (fun _ => NNew)).
        rewrite <- insert_union_r by (apply marks_none, Hx). rewrite insert_union_l. reflexivity.
    + exact Hd.
    + intros y Hy. cbn. rewrite lookup_insert_ne by congruence. apply Hno. right. exact Hy.
Qed.
(** emplaceNode on present ones marks them as new. *)
Lemma emplace_old_all xs : forall l, NoDup (map fst xs) -> (forall x, x ∈ map fst xs -> is_Some (sl_nodes l !! x)) ->
  state l (map (fun x => LEmplace (fst x) (n_attrs (snd x))) xs) =
  mkSL (sl_id l) (sl_nodes l) (marks xs (fun _ => NNew) ∪ sl_status l) (sl_edges l).
Proof.
  induction xs as [|[x n] r IH]; intros l Hd Hno; cbn [map].
  - unfold state, marks; cbn. rewrite left_id_L by apply _. destruct l; reflexivity.
  - cbn [map fst] in Hd. apply stdpp.list.NoDup_cons in Hd as [Hx Hd]. rewrite state_cons. cbn [fst snd sl_step].
    unfold sl_emplace_node. destruct (Hno x) as [m ->]; [left; reflexivity|]. cbn [snd]. rewrite IH.
    + cbn [sl_id sl_nodes sl_status sl_edges sl_with_nodes sl_with_status]. unfold marks at 2. cbn [map fst list_to_map foldr]. f_equal.
      change (list_to_map (map (fun x0 : N * Node => (x0.1, NNew)) r)) with (marks r (fun _ => NNew)).
      rewrite <- insert_union_r by (apply marks_none, Hx). rewrite insert_union_l. reflexivity.
    + exact Hd.
    + intros y Hy. cbn. apply Hno. right. exact Hy.
Qed.

(** The node loop of cloneImpl. *)
Definition keep (f : Node -> bool) (xs : list (N * Node)) : list (N * Node) := filter (fun x => f (snd x) = true) xs.
Definition status_of (l : SLayer) (x : N) : NodeStatus := default NNonexistent (sl_status l !! x).
Lemma keep_keys f xs x : x ∈ map fst (keep f xs) -> x ∈ map fst xs.
Proof.
  rewrite !map_fmap, !elem_of_list_fmap. intros (y & E & H). apply elem_of_list_filter in H as [_ H]. eauto.
Qed.
Lemma keep_nodup f xs : NoDup (map fst xs) -> NoDup (map fst (keep f xs)).
Proof.
  induction xs as [|[x n] r IH]; intros H; [exact H|]. cbn [map fst] in H. apply stdpp.list.NoDup_cons in H as [H1 H2]. unfold keep. cbn.
  destruct (decide (f n = true)); cbn; [|apply IH, H2]. constructor; [intros K; apply H1, (keep_keys f), K|apply IH, H2].
Qed.
Lemma clone_nodes l f xs : forall acc, NoDup (map fst xs) -> (forall x, x ∈ map fst xs -> is_Some (sl_status l !! x)) ->
  (forall x, x ∈ map fst xs -> sl_nodes acc !! x = None) ->
  rfold (fun acc x => let '(id, n) := x in
           if negb (f n) then Ok acc
           else let '(_, acc1) := sl_emplace_node acc id (n_attrs n) in
                let! st := at_ (sl_status l !! id) in
                Ok (sl_with_status acc1 (<[id := st]> (sl_status acc1)))) xs acc =
  Ok (mkSL (sl_id acc) (fresh_nodes (sl_id acc) (keep f xs) ∪ sl_nodes acc) (marks (keep f xs) (status_of l) ∪ sl_status acc) (sl_edges acc)).
Proof.
  induction xs as [|[x n] r IH]; intros acc Hd Hst Hno; cbn [rfold].
  - unfold keep, fresh_nodes, marks; cbn. rewrite !left_id_L by apply _. destruct acc; reflexivity.
  - cbn [map fst] in Hd. apply stdpp.list.NoDup_cons in Hd as [Hx Hd].
    assert (Hst' : forall y, y ∈ map fst r -> is_Some (sl_status l !! y)) by (intros y Hy; apply Hst; right; exact Hy).
    unfold keep at 1 2. rewrite !filter_cons. cbn [snd]. destruct (f n) eqn:Ef.
    + rewrite decide_True by reflexivity. cbn [negb]. unfold sl_emplace_node. rewrite (Hno x) by (left; reflexivity).
      destruct (Hst x) as [st Es]; [left; reflexivity|]. rewrite Es. cbn [at_ rbind]. rewrite IH; [|exact Hd|exact Hst'|].
      * cbn [sl_id sl_nodes sl_status sl_edges sl_with_nodes sl_with_status]. f_equal. rewrite fresh_cons. unfold marks at 2. cbn [map fst list_to_map foldr].
        change (list_to_map (map (fun y : N * Node => (y.1, status_of l y.1)) (filter (λ z : N * Node, f z.2 = true) r))) with (marks (keep f r) (status_of l)).
        change (filter (λ z : N * Node, f z.2 = true) r) with (keep f r). f_equal.
        -- rewrite <- insert_union_r by (apply fresh_none; intros K; apply Hx, (keep_keys f), K). rewrite insert_union_l. reflexivity.
        -- unfold status_of at 2. rewrite Es. cbn [default]. rewrite insert_insert.
           rewrite <- insert_union_r by (apply marks_none; intros K; apply Hx, (keep_keys f), K). rewrite insert_union_l. reflexivity.
      * intros y Hy. cbn. rewrite lookup_insert_ne by congruence. apply Hno. right. exact Hy.
    + rewrite decide_False by discriminate. cbn [negb rbind]. rewrite IH; [reflexivity|exact Hd|exact Hst'|]. intros y Hy. apply Hno. right. exact Hy.
Qed.

(** The edge loop. *)
Lemma clone_edges xs : forall l, sl_wf l -> NoDup (map fst xs) -> (forall k e, (k, e) ∈ xs -> k = edge_key (e_src e) (e_tgt e) /\ e_src e <> e_tgt e) ->
  exists l', rfold (fun acc (x : EdgeKey * Edge) => let e := snd x in
                      let! (_, acc') := sl_insert_edge acc (e_src e) (e_tgt e) (Some (e_info e)) in Ok acc') xs l = Ok l' /\
    l' = state l (map (fun x => LInsertEdge (e_src (snd x)) (e_tgt (snd x)) (Some (e_info (snd x)))) xs) /\
    sl_wf l' /\ sl_id l' = sl_id l /\ sl_status l' = sl_status l /\
    (forall x, (fun n => (n_time n, n_attrs n)) <$> sl_nodes l' !! x = (fun n => (n_time n, n_attrs n)) <$> sl_nodes l !! x) /\
    (forall k e, (k, e) ∈ xs -> is_Some (sl_nodes l !! e_src e) -> is_Some (sl_nodes l !! e_tgt e) -> ec_edges (sl_edges l) !! k = None ->
       ec_edges (sl_edges l') !! k = Some e) /\
    (forall k, (forall e, (k, e) ∈ xs -> ~ (is_Some (sl_nodes l !! e_src e) /\ is_Some (sl_nodes l !! e_tgt e))) ->
       ec_edges (sl_edges l') !! k = ec_edges (sl_edges l) !! k).
Proof.
  induction xs as [|[k0 e0] r IH]; intros l Hwf Hd Hin; cbn [rfold map].
  - exists l. split; [reflexivity|]. split; [reflexivity|]. split; [exact Hwf|]. do 3 (split; [reflexivity|]). split; [intros k e K; inversion K|reflexivity].
  - cbn [map fst] in Hd. apply stdpp.list.NoDup_cons in Hd as [Hx Hd]. cbn [snd].
    destruct (Hin k0 e0) as [Hk0 Hne0]; [left; reflexivity|].
    assert (Hin' : forall k e, (k, e) ∈ r -> k = edge_key (e_src e) (e_tgt e) /\ e_src e <> e_tgt e) by (intros k e K; apply Hin; right; exact K).
    rewrite state_cons. cbn [sl_step].
    destruct (decide (sl_can_insert l (e_src e0) (e_tgt e0))) as [Hc|Hc].
    + rewrite (sl_insert_edge_ok l _ _ (Some (e_info e0)) Hc). cbn [rbind snd].
      pose proof (sl_wf_insert_edge l _ _ (Some (e_info e0)) Hwf Hc) as Hwf1. set (l1 := sl_inserted l (e_src e0) (e_tgt e0) (Some (e_info e0))) in *.
      assert (HN : forall x, (fun n => (n_time n, n_attrs n)) <$> sl_nodes l1 !! x = (fun n => (n_time n, n_attrs n)) <$> sl_nodes l !! x).
      { intros x. unfold l1, sl_inserted. cbn [sl_nodes]. destruct Hc as (C1 & C2 & C3 & C4). rewrite lookup_link_sib by assumption.
        destruct (sl_nodes l !! x) as [n|]; [|reflexivity]. cbn. destruct (decide (x = e_src e0)); [|destruct (decide (x = e_tgt e0))]; reflexivity. }
      assert (HS : forall x, is_Some (sl_nodes l1 !! x) <-> is_Some (sl_nodes l !! x)).
      { intros x. specialize (HN x). destruct (sl_nodes l1 !! x), (sl_nodes l !! x); cbn in HN; try discriminate; split; intros [? ?]; eauto; discriminate. }
      assert (HE : forall k, ec_edges (sl_edges l1) !! k = if decide (k = k0) then Some e0 else ec_edges (sl_edges l) !! k).
      { intros k. unfold l1, sl_inserted. cbn [sl_edges]. unfold ec_insert. cbn [ec_edges]. rewrite <- Hk0.
        destruct Hc as (_ & C2 & _). unfold ec_contains in C2. rewrite <- Hk0 in C2. 
        destruct (ec_edges (sl_edges l) !! k0) eqn:E; [exfalso; congruence|]. destruct (decide (k = k0)) as [->|Hne].
        - rewrite lookup_insert. destruct e0; reflexivity.
        - rewrite lookup_insert_ne by congruence. reflexivity. }
      destruct (IH l1 Hwf1 Hd Hin') as (l' & R & HS' & Hwf' & Hid & Hst & Hn & Hy & Hz). exists l'.
      split; [exact R|]. split; [exact HS'|]. split; [exact Hwf'|]. split; [rewrite Hid; reflexivity|]. split; [rewrite Hst; reflexivity|].
      split; [intros x; rewrite Hn; apply HN|]. split.
      * intros k e K Hs Ht Hno. apply elem_of_cons in K as [K|K].
        -- injection K as -> ->. rewrite Hz; [rewrite HE, decide_True by reflexivity; reflexivity|].
           intros e' K'. exfalso. apply Hx. rewrite map_fmap. apply elem_of_list_fmap. exists (k0, e'). auto.
        -- apply Hy; [exact K|apply HS, Hs|apply HS, Ht|]. rewrite HE, decide_False; [exact Hno|]. intros ->. apply Hx. rewrite map_fmap. apply elem_of_list_fmap. exists (k0, e). auto.
      * intros k K. rewrite Hz; [rewrite HE; rewrite decide_False; [reflexivity|]|].
        -- intros ->. apply (K e0); [left; reflexivity|]. split; apply Hc.
        -- intros e Ke. rewrite !HS. apply K. right. exact Ke.
    + rewrite (sl_insert_edge_noop l _ _ (Some (e_info e0)) Hc). cbn [rbind snd].
      destruct (IH l Hwf Hd Hin') as (l' & R & HS' & Hwf' & Hid & Hst & Hn & Hy & Hz). exists l'.
      split; [exact R|]. split; [exact HS'|]. do 4 (split; [assumption|]). split.
      * intros k e K Hs Ht Hno. apply elem_of_cons in K as [K|K]; [|apply Hy; assumption]. exfalso. injection K as -> ->. apply Hc.
        split; [exact Hne0|]. split; [rewrite <- Hk0; exact Hno|]. auto.
      * intros k K. apply Hz. intros e Ke. apply K. right. exact Ke.
Qed.

Lemma node_list_keys (m : gmap N Node) x : x ∈ map fst (map_to_list m) <-> is_Some (m !! x).
Proof.
  rewrite map_fmap, elem_of_list_fmap. split.
  - intros ([y n] & -> & H). apply elem_of_map_to_list in H. eauto.
  - intros [n H]. exists (x, n). split; [reflexivity|]. apply elem_of_map_to_list, H.
Qed.
Lemma node_list_nodup (m : gmap N Node) : NoDup (map fst (map_to_list m)).
Proof. apply NoDup_fst_map_to_list. Qed.

(** The state after the node loop is one a program can build: insert the nodes, fetch the report of
    new nodes (which makes them VISIBLE), insert again those that are NEW in the original. *)
Lemma clone_nodes_reachable l f : sl_wf l ->
  let ks := keep f (map_to_list (sl_nodes l)) in
  exists os, mkSL (sl_id l) (fresh_nodes (sl_id l) ks) (marks ks (status_of l)) ec_empty = state (sl_new (sl_id l)) os.
Proof.
  intros Hwf ks. set (ns := filter (fun x : N * Node => status_of l (fst x) = NNew) ks).
  pose proof (keep_nodup f _ (node_list_nodup (sl_nodes l))) as Hd. fold ks in Hd.
  assert (Hns : forall x, x ∈ map fst ns <-> x ∈ map fst ks /\ status_of l x = NNew).
  { intros x. rewrite !map_fmap, !elem_of_list_fmap. split.
    - intros ([y n] & -> & H). apply elem_of_list_filter in H as [H1 H2]. split; [eauto|exact H1].
    - intros [([y n] & -> & H) Hs]. exists (y, n). split; [reflexivity|]. apply elem_of_list_filter. auto. }
  assert (Hdn : NoDup (map fst ns)).
  { unfold ns. clear Hns. induction ks as [|[x n] r IH]; [constructor|]. cbn [map fst] in Hd. apply stdpp.list.NoDup_cons in Hd as [H1 H2].
    rewrite filter_cons. destruct (decide _); [|apply IH, H2]. cbn [map fst]. constructor; [|apply IH, H2].
    intros K. apply H1. rewrite map_fmap, elem_of_list_fmap in K. destruct K as (y & E & K). apply elem_of_list_filter in K as [_ K].
    rewrite map_fmap, elem_of_list_fmap. eauto. }
  set (emp := fun x : N * Node => LEmplace (fst x) (n_attrs (snd x))).
  exists (map emp ks ++ [LNewNodes true] ++ map emp ns). rewrite !state_app.
  unfold emp at 1. rewrite (emplace_new_all ks (sl_new (sl_id l)) Hd (fun x _ => lookup_empty x)).
  cbn [sl_new sl_id sl_nodes sl_status sl_edges]. unfold state at 2. cbn [sl_run sl_step sl_get_new_nodes snd sl_with_status sl_id sl_nodes sl_status sl_edges].
  unfold emp. rewrite emplace_old_all; cbn [sl_id sl_nodes sl_status sl_edges].
  - f_equal; [rewrite map_union_empty; reflexivity|]. apply map_eq. intros x. rewrite lookup_union. cbn [sl_with_status sl_status]. rewrite lookup_fmap, map_union_empty.
    destruct (decide (x ∈ map fst ks)) as [Hx|Hx].
    + rewrite !(marks_some ks _ x Hx). cbn [fmap option_fmap option_map n_is_new].
      assert (Hl : n_live (status_of l x)).
      { apply keep_keys, node_list_keys in Hx. apply (slw_status _ Hwf) in Hx as (s & Hs & Hl). unfold status_of. rewrite Hs. exact Hl. }
      destruct (decide (status_of l x = NNew)) as [E|E].
      * rewrite marks_some by (apply Hns; auto). rewrite E. reflexivity.
      * rewrite marks_none by (rewrite Hns; tauto). destruct Hl as [Hl|Hl]; [congruence|rewrite Hl; reflexivity].
    + rewrite !(marks_none ks _ x Hx). rewrite marks_none by (rewrite Hns; tauto). reflexivity.
  - exact Hdn.
  - intros x Hx. cbn [sl_with_status sl_nodes]. apply Hns in Hx as [Hx _]. rewrite map_fmap, elem_of_list_fmap in Hx. destruct Hx as ([y n] & -> & Hx).
    rewrite map_union_empty. cbn [fst]. rewrite (fresh_some _ ks y n Hd Hx). eauto.
Qed.

Lemma clone_layer_ok l f : sl_wf l ->
  exists l', sl_clone l f = Ok l' /\ layer_reachable (sl_id l) l' /\
    (forall x, (fun n => (n_time n, n_attrs n)) <$> sl_nodes l' !! x =
       match sl_nodes l !! x with Some n => if f n then Some (None, n_attrs n) else None | None => None end) /\
    (forall x, sl_check_node l' x = match sl_nodes l !! x with Some n => if f n then sl_check_node l x else NNonexistent | None => NNonexistent end) /\
    (forall k e, ec_edges (sl_edges l') !! k = Some e <-> ec_edges (sl_edges l) !! k = Some e /\ is_Some (sl_nodes l' !! e_src e) /\ is_Some (sl_nodes l' !! e_tgt e)).
Proof.
  intros Hwf. unfold sl_clone. set (ks := keep f (map_to_list (sl_nodes l))).
  rewrite (clone_nodes l f (map_to_list (sl_nodes l)) (sl_new (sl_id l))).
  2: apply node_list_nodup.
  2: { intros x Hx. apply node_list_keys in Hx. apply (slw_status _ Hwf) in Hx as (s & -> & _). eauto. }
  2: { intros x _. apply lookup_empty. }
  cbn [sl_new sl_id sl_nodes sl_status sl_edges rbind]. rewrite !map_union_empty. fold ks.
  destruct (clone_nodes_reachable l f Hwf) as [os Hos]. fold ks in Hos. rewrite Hos.
  pose proof (LR_run (sl_id l) os _ _ (LR_init (sl_id l))) as [_ HR].
  assert (Hwf1 : sl_wf (state (sl_new (sl_id l)) os)) by apply HR.
  pose proof (keep_nodup f _ (node_list_nodup (sl_nodes l))) as Hd. fold ks in Hd.
  destruct (clone_edges (map_to_list (ec_edges (sl_edges l))) _ Hwf1) as (l' & R & HS & Hwf' & Hid & Hst & Hn & Hy & Hz).
  { apply NoDup_fst_map_to_list. }
  { intros k e K. apply elem_of_map_to_list in K. split; [exact (ecw_key _ (slw_ec _ Hwf) _ _ K)|apply (slw_ends _ Hwf _ _ K)]. }
  exists l'. split; [exact R|]. split; [exists (os ++ map (fun x => LInsertEdge (e_src (snd x)) (e_tgt (snd x)) (Some (e_info (snd x)))) (map_to_list (ec_edges (sl_edges l)))); rewrite HS; symmetry; apply state_app|].
  rewrite <- Hos in *. cbn [sl_nodes sl_status sl_edges sl_id] in *.
  assert (Hin : forall x n, (x, n) ∈ ks <-> sl_nodes l !! x = Some n /\ f n = true).
  { intros x n. unfold ks, keep. rewrite elem_of_list_filter, elem_of_map_to_list. cbn. tauto. }
  assert (Hkey : forall x, x ∈ map fst ks <-> exists n, sl_nodes l !! x = Some n /\ f n = true).
  { intros x. rewrite map_fmap, elem_of_list_fmap. split.
    - intros ([y n] & -> & H). exists n. apply Hin, H.
    - intros (n & H). exists (x, n). split; [reflexivity|]. apply Hin, H. }
  assert (HN : forall x, (fun n => (n_time n, n_attrs n)) <$> sl_nodes l' !! x =
       match sl_nodes l !! x with Some n => if f n then Some (None, n_attrs n) else None | None => None end).
  { intros x. rewrite Hn. destruct (sl_nodes l !! x) as [n|] eqn:E; [destruct (f n) eqn:Ef|].
    - rewrite (fresh_some _ ks x n Hd) by (apply Hin; auto). reflexivity.
    - rewrite fresh_none; [reflexivity|]. rewrite Hkey. intros (n' & H1 & H2). congruence.
    - rewrite fresh_none; [reflexivity|]. rewrite Hkey. intros (n' & H1 & H2). congruence. }
  split; [exact HN|]. split.
  - intros x. unfold sl_check_node. rewrite Hst. destruct (sl_nodes l !! x) as [n|] eqn:E; [destruct (f n) eqn:Ef|].
    + rewrite marks_some by (apply Hkey; eauto). unfold status_of. destruct (sl_status l !! x); reflexivity.
    + rewrite marks_none; [reflexivity|]. rewrite Hkey. intros (n' & H1 & H2). congruence.
    + rewrite marks_none; [reflexivity|]. rewrite Hkey. intros (n' & H1 & H2). congruence.
  - assert (HS' : forall x, is_Some (sl_nodes l' !! x) <-> is_Some (fresh_nodes (sl_id l) ks !! x)).
    { intros x. specialize (Hn x). destruct (sl_nodes l' !! x), (fresh_nodes (sl_id l) ks !! x); cbn in Hn; try discriminate; split; intros [? ?]; eauto; discriminate. }
    intros k e. rewrite !HS'. split.
    + intros He. destruct (slw_ends _ Hwf' _ _ He) as (_ & E1 & E2). split; [|split; apply HS'; assumption].
      destruct (ec_edges (sl_edges l) !! k) as [e1|] eqn:E.
      * destruct (decide (is_Some (fresh_nodes (sl_id l) ks !! e_src e1) /\ is_Some (fresh_nodes (sl_id l) ks !! e_tgt e1))) as [[D1 D2]|D].
        -- rewrite (Hy k e1) in He by (apply elem_of_map_to_list, E || exact D1 || exact D2 || apply lookup_empty). exact He.
        -- exfalso. rewrite Hz in He; [rewrite (lookup_empty k : ec_edges ec_empty !! k = None) in He; discriminate|]. intros e' K. apply elem_of_map_to_list in K. rewrite E in K. injection K as <-. exact D.
      * exfalso. rewrite Hz in He; [rewrite (lookup_empty k : ec_edges ec_empty !! k = None) in He; discriminate|]. intros e' K. apply elem_of_map_to_list in K. rewrite E in K. discriminate.
    + intros (E & E1 & E2). apply Hy; [apply elem_of_map_to_list, E|exact E1|exact E2|apply lookup_empty].
Qed.
