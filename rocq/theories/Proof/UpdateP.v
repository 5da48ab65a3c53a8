(** updateFromLayer: the nodes and edges of a stand-alone layer are moved into a graph. *)
From Coq Require Import NArith ZArith Bool List Lia.
From stdpp Require Import base list gmap fin_maps tactics.
From Verif.Model Require Import Types Mesh Attrs Node EdgeContainer SLayer DLayer Graph.
From Verif.Spec Require Import AbstractGraph GraphHistory EdgeLog LayerLog.
From Verif.Proof Require Import Arith Keys EdgeLogP SLayerP SLayerMerge LayerLogP LayerLogP2 DLayerP DLayerOps GraphRep GraphEdges GraphAttrs GraphNodes LayerRep.
Local Open Scope N_scope.
#[local] Arguments edge_key : simpl never.

(** *** A stand-alone layer has no parents or children *)
Definition flat_node (n : Node) : Prop := n_par n = ∅ /\ n_chd n = ∅.
Definition flat (l : SLayer) : Prop := forall x n, sl_nodes l !! x = Some n -> flat_node n.
Definition flat_r {A} (f : A -> SLayer) (r : result A) : Prop := match r with Ok x => flat (f x) | _ => True end.
Definition keeps_flat (f : Node -> Node) : Prop := forall n, flat_node n -> flat_node (f n).

Lemma flat_upd l x f : flat l -> keeps_flat f -> flat_r id (sl_upd l x f).
Proof.
  intros H Hf. unfold sl_upd. destruct (sl_nodes l !! x) as [n|] eqn:E; [|exact I]. cbn. intros y m. cbn.
  rewrite lookup_insert_Some. intros [[<- <-]|[_ Hy]]; [apply Hf, (H _ _ E)|apply (H _ _ Hy)].
Qed.
Lemma flat_bind {A B} (f : A -> SLayer) (h : B -> SLayer) (r : result A) (k : A -> result B) :
  flat_r f r -> (forall x, flat (f x) -> flat_r h (k x)) -> flat_r h (rbind r k).
Proof. intros H1 H2. destruct r; cbn in *; auto. Qed.
Lemma flat_rfold {A} (f : SLayer -> A -> result SLayer) xs : (forall l x, flat l -> flat_r id (f l x)) ->
  forall l, flat l -> flat_r id (rfold f xs l).
Proof.
  intros Hf. induction xs as [|x r IH]; intros l H; cbn [rfold]; [exact H|].
  apply (flat_bind id id); [apply Hf, H|]. intros l'. apply IH.
Qed.
Lemma kf_add x : keeps_flat (add_sib x). Proof. intros n [? ?]. split; assumption. Qed.
Lemma kf_del x : keeps_flat (del_sib x). Proof. intros n [? ?]. split; assumption. Qed.
Lemma flat_edges l e : flat l -> flat (sl_with_edges l e). Proof. intros H. exact H. Qed.
Lemma flat_insert_edge l s t i : flat l -> flat_r snd (sl_insert_edge l s t i).
Proof.
  intros H. unfold sl_insert_edge. repeat (destruct (_ : bool); [exact H|]).
  apply (flat_bind id); [apply flat_upd; auto using kf_add|]. intros l1 H1.
  apply (flat_bind id); [apply flat_upd; auto using kf_add|]. intros l2 H2. exact H2.
Qed.
Lemma flat_remove_edge l s t : flat l -> flat_r snd (sl_remove_edge l s t).
Proof.
  intros H. unfold sl_remove_edge. destruct (negb _); [exact H|].
  apply (flat_bind id); [apply flat_upd; auto using kf_del|]. intros l1 H1.
  apply (flat_bind id); [apply flat_upd; auto using kf_del|]. intros l2 H2.
  destruct (ec_remove _ _ _); cbn; auto.
Qed.
Lemma flat_rewire l s t ns nt : flat l -> flat_r snd (sl_rewire_edge l s t ns nt).
Proof.
  intros H. unfold sl_rewire_edge. do 3 (destruct (_ : bool); [exact H|]). destruct (_ : bool).
  - apply (flat_bind snd); [apply flat_remove_edge, H|]. intros [b l'] H'. exact H'.
  - destruct (ec_rewire _ _ _ _ _); cbn [rbind]; [|exact I|exact I].
    apply (flat_bind id); [apply flat_upd; [exact H|apply kf_del]|]. intros l1 H1.
    apply (flat_bind id); [apply flat_upd; auto using kf_del|]. intros l2 H2.
    apply (flat_bind id); [apply flat_upd; auto using kf_add|]. intros l3 H3.
    apply (flat_bind id); [apply flat_upd; auto using kf_add|]. intros l4 H4. exact H4.
Qed.
Lemma flat_delete l x st : flat l -> flat (mkSL (sl_id l) (delete x (sl_nodes l)) st (sl_edges l)).
Proof. intros H y n. cbn. rewrite lookup_delete_Some. intros [_ Hy]. apply (H _ _ Hy). Qed.
Lemma flat_insert l x n st : flat l -> flat_node n -> flat (mkSL (sl_id l) (<[x := n]> (sl_nodes l)) st (sl_edges l)).
Proof. intros H Hn y m. cbn. rewrite lookup_insert_Some. intros [[_ <-]|[_ Hy]]; [exact Hn|apply (H _ _ Hy)]. Qed.

Lemma flat_step l o : flat l -> flat (snd (sl_step l o)).
Proof.
  intros H.
  assert (HR : forall r : result (bool * SLayer), flat_r snd r ->
     flat (snd (match r with Ok (b, c') => (LMBool b, c') | Throw => (LMThrow, l) | UB => (LMUB, l) end))).
  { intros [[b c]| |]; cbn; auto. }
  destruct o; cbn [sl_step]; try exact H.
  - unfold sl_emplace_node. destruct (sl_nodes l !! id); [exact H|]. apply flat_insert; [exact H|split; reflexivity].
  - destruct x as [[[[n l0] t] a]|]; cbn [fmap option_fmap option_map]; [|exact H]. unfold sl_insert_node.
    destruct (negb _); [exact H|]. destruct (sl_has_node _ _); [exact H|]. apply flat_insert; [exact H|split; reflexivity].
  - apply HR, flat_insert_edge, H.
  - apply HR, flat_remove_edge, H.
  - apply HR, flat_rewire, H.
  - apply HR. unfold sl_remove_node. destruct (sl_nodes l !! n) as [nd|]; [|exact H].
    apply (flat_bind id); [apply flat_rfold; [|exact H]|intros l1 H1; apply flat_delete, H1].
    intros l1 t H1. apply (flat_bind snd); [apply flat_remove_edge, H1|]. intros [b l'] H'. exact H'.
  - apply HR. unfold sl_merge_nodes. do 2 (destruct (_ : bool); [exact H|]).
    destruct (sl_nodes l !! from) as [nd|]; cbn [at_ rbind]; [|exact I].
    apply (flat_bind id); [apply flat_rfold; [|exact H]|intros l1 H1; apply flat_delete, H1].
    intros l1 t H1. apply (flat_bind snd); [apply flat_rewire, H1|]. intros [b l'] H'. exact H'.
  - unfold sl_find_node. destruct (sl_nodes l !! n) as [nd|] eqn:E; [|exact H]. apply flat_insert; [exact H|].
    destruct (H _ _ E). split; assumption.
  - destruct (sl_get_position l n); exact H.
  - destruct clear; exact H.
  - destruct clear; exact H.
  - intros x n K. cbn in K. rewrite lookup_empty in K. discriminate.
Qed.
Lemma flat_run os : forall l, flat l -> flat (snd (sl_run l os)).
Proof.
  induction os as [|o r IH]; intros l H; cbn [sl_run]; [exact H|].
  pose proof (flat_step l o H) as H1. destruct (sl_step l o) as [x l1]. cbn in H1. specialize (IH l1 H1).
  destruct (sl_run l1 r). exact IH.
Qed.

(** What a stand-alone layer provides. *)
Record alone (lid : LayerId) (l : SLayer) : Prop := {
  al_id : sl_id l = lid; al_wf : sl_wf l; al_closed : sl_closed l; al_flat : flat l }.
Lemma reachable_alone lid l : layer_reachable lid l -> alone lid l.
Proof.
  intros [os ->]. pose proof (LR_run lid os _ _ (LR_init lid)) as HR.
  split; [apply HR|apply HR|apply HR|]. apply flat_run. intros x n H. cbn in H. rewrite lookup_empty in H. discriminate.
Qed.

(** *** Extra siblings *)
Definition with_sib (s : gset N) (n : Node) : Node :=
  mkNode (n_id n) (n_layer n) (n_time n) (n_attrs n) (n_par n) s (n_chd n).
Definition aug (F : N -> gset N) (L : SLayer) : SLayer := map_part (fun x n => with_sib (n_sib n ∪ F x) n) L.

Lemma aug_lookup F L x : sl_nodes (aug F L) !! x = (fun n => with_sib (n_sib n ∪ F x) n) <$> sl_nodes L !! x.
Proof. apply lookup_map_part. Qed.
Lemma aug_id F L : (forall x n, sl_nodes L !! x = Some n -> F x ⊆ n_sib n) -> aug F L = L.
Proof.
  intros H. unfold aug, map_part, sl_with_nodes. destruct L as [i m st e]. cbn in *. f_equal. apply map_eq. intros x.
  rewrite map_lookup_imap. destruct (m !! x) as [n|] eqn:E; cbn; [|reflexivity]. f_equal.
  destruct n; unfold with_sib; cbn. f_equal. specialize (H _ _ E). cbn in H. set_solver.
Qed.
Lemma aug_insert F L x n st e : n_sib n = ∅ ->
  mkSL (sl_id L) (<[x := with_sib (F x) n]> (sl_nodes (aug F L))) st e =
  aug F (mkSL (sl_id L) (<[x := n]> (sl_nodes L)) st e).
Proof.
  intros Hn. unfold aug at 2, map_part, sl_with_nodes. cbn. f_equal. apply map_eq. intros y.
  rewrite map_lookup_imap. destruct (decide (x = y)) as [<-|Hne].
  - rewrite !lookup_insert. cbn. rewrite Hn, union_empty_l_L. reflexivity.
  - rewrite !lookup_insert_ne by assumption. rewrite map_lookup_imap. reflexivity.
Qed.
Lemma aug_set_attrs F L x n n' at0 : sl_nodes L !! x = Some n -> sl_nodes (aug F L) !! x = Some n' ->
  sl_with_nodes (aug F L) (<[x := set_attrs at0 n']> (sl_nodes (aug F L))) =
  aug F (sl_with_nodes L (<[x := set_attrs at0 n]> (sl_nodes L))).
Proof.
  intros Hn. rewrite aug_lookup, Hn. intros [= <-].
  unfold aug at 3, map_part, sl_with_nodes. cbn. f_equal. apply map_eq. intros y.
  rewrite map_lookup_imap. destruct (decide (x = y)) as [<-|Hne].
  - rewrite !lookup_insert. reflexivity.
  - rewrite !lookup_insert_ne by assumption. rewrite map_lookup_imap. reflexivity.
Qed.
Lemma aug_has F L x : is_Some (sl_nodes (aug F L) !! x) <-> is_Some (sl_nodes L !! x).
Proof. rewrite aug_lookup. apply is_Some_fmap_iff. Qed.
Lemma aug_can F L s t : sl_can_insert (aug F L) s t <-> sl_can_insert L s t.
Proof. unfold sl_can_insert. rewrite !aug_has. reflexivity. Qed.
Lemma aug_inserted F L s t i : s <> t -> sl_inserted (aug F L) s t i = aug F (sl_inserted L s t i).
Proof.
  intros Hne. unfold sl_inserted, aug, map_part, sl_with_nodes. cbn. f_equal. apply map_eq. intros y.
  rewrite map_lookup_imap, !lookup_link_sib by assumption. rewrite map_lookup_imap.
  destruct (sl_nodes L !! y) as [n|]; cbn; [|reflexivity].
  repeat destruct (decide _); cbn; try reflexivity; f_equal; unfold add_sib, with_sib; cbn; f_equal; set_solver.
Qed.

(** *** The node loop *)
Definition bare (n : Node) : Node := with_sib ∅ n.

Section Update.
  Context (g : Graph) (lid : LayerId).

  (** What the loop over the nodes [xs] of the other layer does to the abstract graph. *)
  Record nodes_moved (xs : list (N * Node)) (a a' : AGraph) : Prop := {
    nm_layers : ag_layers a' = ag_layers a; nm_dyn : ag_dyn a' = ag_dyn a; nm_edges : ag_edges a' = ag_edges a;
    nm_in : forall x n, (x, n) ∈ xs -> ag_nodes a' !! x =
      Some (mkAN (key_static lid) (match ag_nodes a !! x with Some an => an_time an | None => n_time n end) (n_attrs n));
    nm_out : forall x, x ∉ xs.*1 -> ag_nodes a' !! x = ag_nodes a !! x }.

  Lemma node_loop F xs : NoDup xs.*1 -> forall L lk a, Rep (put g lid L lk) a ->
    (forall x n, (x, n) ∈ xs -> n_id n = x /\ n_layer n = lid /\ flat_node n /\
       (lk !! x = None -> n_sib n = F x) /\ (lk !! x = None \/ lk !! x = Some (key_static lid))) ->
    exists L' lk' a', fold_left g_update_node1 xs (aug F L, lk) = (aug F L', lk') /\ Rep (put g lid L' lk') a' /\
      nodes_moved xs a a' /\ sl_edges L' = sl_edges L /\
      (forall x, sl_status L' !! x = if decide (x ∈ xs.*1 /\ lk !! x = None) then Some NNew else sl_status L !! x).
  Proof.
    induction xs as [|[x n] r IH]; intros HN L lk a HR Hxs; cbn [fold_left].
    - exists L, lk, a. split; [reflexivity|]. split; [exact HR|]. split; [|split; [reflexivity|]].
      + split; try reflexivity. intros x n H. inversion H.
      + intros x. rewrite decide_False; [reflexivity|]. intros [H _]. inversion H.
    - cbn [fmap list_fmap] in HN. apply stdpp.list.NoDup_cons in HN as [Hx HN]. cbn [fst] in Hx.
      destruct (put_wf g lid L lk a HR) as [Hwf Hid].
      destruct (Hxs x n) as (H1 & H2 & H3 & H4 & H5); [left|].
      assert (Hr : forall y m, (y, m) ∈ r -> x <> y).
      { intros y m Hy ->. apply Hx. apply elem_of_list_fmap. exists (y, m). auto. }
      unfold g_update_node1 at 2. destruct H5 as [H5|H5].
      + (* a new node *)
        assert (HLx : sl_nodes L !! x = None).
        { apply eq_None_not_Some. intros Hs. apply (put_home g lid L lk a x HR) in Hs. congruence. }
        rewrite (aug_lookup F L x), HLx. cbn [fmap option_fmap option_map].
        assert (Hn : n = with_sib (F x) (bare n)). { rewrite <- (H4 H5). destruct n; reflexivity. }
        assert (Hst : mkSL (sl_id (aug F L)) (<[x := n]> (sl_nodes (aug F L))) (<[x := NNew]> (sl_status (aug F L))) (sl_edges (aug F L))
                      = aug F (sl_added L x (bare n) NNew)).
        { rewrite Hn at 1. apply (aug_insert F L x (bare n)). reflexivity. }
        rewrite Hst. change (sl_id (aug F L)) with (sl_id L). rewrite Hid.
        assert (HR1 : Rep (put g lid (sl_added L x (bare n) NNew) (<[x := key_static lid]> lk))
                        (a_add_node a x (mkAN (key_static lid) (n_time n) (n_attrs n)))).
        { apply (put_add g lid L lk a x (bare n) HR H5 H1 H2). destruct H3 as [Hp Hc]. intros []; cbn; auto. }
        destruct (IH HN _ _ _ HR1) as (L' & lk' & a' & E & HR' & HM & HE & HS).
        { intros y m Hy. destruct (Hxs y m) as (G1 & G2 & G3 & G4 & G5); [right; exact Hy|].
          rewrite !lookup_insert_ne by (eapply Hr; exact Hy). auto 6. }
        exists L', lk', a'. split; [exact E|]. split; [exact HR'|]. split; [|split].
        * destruct HM as [M1 M2 M3 M4 M5]. split; try assumption.
          -- intros y m. rewrite elem_of_cons. intros [[= -> ->]|Hy].
             ++ rewrite M5 by assumption. cbn. rewrite lookup_insert.
                assert (Ha : ag_nodes a !! x = None).
                { pose proof (rp_lookup _ _ HR x) as Hl. rewrite put_lookup, H5 in Hl. unfold a_key in Hl. destruct (ag_nodes a !! x); [discriminate|reflexivity]. }
                rewrite Ha. reflexivity.
             ++ rewrite (M4 y m Hy). cbn. rewrite lookup_insert_ne by (eapply Hr; exact Hy). reflexivity.
          -- intros y. cbn [fmap list_fmap fst]. rewrite not_elem_of_cons. intros [Hy Hy']. rewrite (M5 y Hy'). cbn.
             rewrite lookup_insert_ne by congruence. reflexivity.
        * exact HE.
        * intros y. rewrite HS, fmap_cons. cbn [fst sl_added sl_status]. destruct (decide (x = y)) as [<-|Hy].
          -- rewrite lookup_insert. destruct (decide (x ∈ x :: r.*1 /\ lk !! x = None)) as [_|Hn']; [destruct (decide _); rewrite ?lookup_insert; reflexivity|].
             exfalso. apply Hn'. split; [left|exact H5].
          -- rewrite !lookup_insert_ne by assumption. apply decide_ext. rewrite elem_of_cons. intuition congruence.
      + (* an existing node *)
        assert (HLx : is_Some (sl_nodes L !! x)) by (apply (put_home g lid L lk a x HR); exact H5).
        destruct HLx as [n0 Hn0]. destruct (sl_nodes (aug F L) !! x) as [n0'|] eqn:En0'.
        2:{ exfalso. rewrite aug_lookup, Hn0 in En0'. discriminate. }
        rewrite (aug_set_attrs F L x n0 n0' (n_attrs n) Hn0 En0').
        destruct (put_attrs g lid L lk a x n0 (n_attrs n) HR Hn0) as (an & Han & Hkey & HR1).
        destruct (IH HN _ _ _ HR1) as (L' & lk' & a' & E & HR' & HM & HE & HS).
        { intros y m Hy. apply Hxs. right. exact Hy. }
        exists L', lk', a'. split; [exact E|]. split; [exact HR'|]. split; [|split].
        * destruct HM as [M1 M2 M3 M4 M5]. split; try assumption.
          -- intros y m. rewrite elem_of_cons. intros [[= -> ->]|Hy].
             ++ rewrite M5 by assumption. cbn. rewrite lookup_insert, Han. reflexivity.
             ++ rewrite (M4 y m Hy). cbn. rewrite lookup_insert_ne by (eapply Hr; exact Hy). reflexivity.
          -- intros y. cbn [fmap list_fmap fst]. rewrite not_elem_of_cons. intros [Hy Hy']. rewrite (M5 y Hy'). cbn.
             rewrite lookup_insert_ne by congruence. reflexivity.
        * exact HE.
        * intros y. rewrite HS, fmap_cons. cbn [fst sl_with_nodes sl_status]. apply decide_ext. rewrite elem_of_cons.
          split; [tauto|]. intros [[->|Hy] Hl]; [congruence|auto].
  Qed.

  (** *** The edge loop *)
  Definition in_layer (L : SLayer) (e : Edge) : Prop :=
    e_src e <> e_tgt e /\ is_Some (sl_nodes L !! e_src e) /\ is_Some (sl_nodes L !! e_tgt e).
  Definition put_edge (o : option Edge) (e : Edge) : Edge :=
    match o with Some old => mkEdge (e_src old) (e_tgt old) (e_info e) | None => e end.
  Record edges_moved (L : SLayer) (xs : list (EdgeKey * Edge)) (a a' : AGraph) : Prop := {
    em_layers : ag_layers a' = ag_layers a; em_dyn : ag_dyn a' = ag_dyn a; em_nodes : ag_nodes a' = ag_nodes a;
    em_in : forall k e, (k, e) ∈ xs -> in_layer L e -> ag_edges a' !! k = Some (put_edge (ag_edges a !! k) e);
    em_no : forall k e, (k, e) ∈ xs -> ~ in_layer L e -> ag_edges a' !! k = ag_edges a !! k;
    em_out : forall k, k ∉ xs.*1 -> ag_edges a' !! k = ag_edges a !! k }.

  Lemma edge_loop F xs : NoDup xs.*1 -> forall L lk a, Rep (put g lid L lk) a ->
    (forall k e, (k, e) ∈ xs -> k = edge_key (e_src e) (e_tgt e)) ->
    exists L' a', rfold g_update_edge1 xs (aug F L) = Ok (aug F L') /\ Rep (put g lid L' lk) a' /\
      edges_moved L xs a a' /\ sl_status L' = sl_status L.
  Proof.
    induction xs as [|[k e] r IH]; intros HN L lk a HR Hxs; cbn [rfold].
    - exists L, a. split; [reflexivity|]. split; [exact HR|]. split; [|reflexivity].
      split; try reflexivity; intros k e H; inversion H.
    - cbn [fmap list_fmap] in HN. apply stdpp.list.NoDup_cons in HN as [Hx HN]. cbn [fst] in Hx.
      destruct (put_wf g lid L lk a HR) as [Hwf Hid].
      pose proof (Hxs k e (elem_of_list_here _ _)) as Hk.
      assert (Hr : forall y m, (y, m) ∈ r -> k <> y).
      { intros y m Hy ->. apply Hx. apply elem_of_list_fmap. exists (y, m). auto. }
      assert (Hxs' : forall k e, (k, e) ∈ r -> k = edge_key (e_src e) (e_tgt e)) by (intros; apply Hxs; right; assumption).
      assert (Hstep : exists L1 a1, g_update_edge1 (aug F L) (k, e) = Ok (aug F L1) /\ Rep (put g lid L1 lk) a1 /\
        ag_layers a1 = ag_layers a /\ ag_dyn a1 = ag_dyn a /\ ag_nodes a1 = ag_nodes a /\
        (forall x, is_Some (sl_nodes L1 !! x) <-> is_Some (sl_nodes L !! x)) /\
        (in_layer L e -> ag_edges a1 !! k = Some (put_edge (ag_edges a !! k) e)) /\
        (~ in_layer L e -> ag_edges a1 !! k = ag_edges a !! k) /\
        (forall k', k <> k' -> ag_edges a1 !! k' = ag_edges a !! k') /\ sl_status L1 = sl_status L).
      { unfold g_update_edge1, sl_has_edge. change (sl_edges (aug F L)) with (sl_edges L).
        destruct (ec_contains (sl_edges L) (e_src e) (e_tgt e)) eqn:Ec.
        - apply ec_contains_true in Ec. rewrite <- Hk in Ec. destruct Ec as [old Hold]. rewrite Hold.
          pose proof (put_info g lid L lk a k old (e_info e) HR Hold) as HR1.
          eexists _, _. split; [|split; [exact HR1|]].
          + reflexivity.
          + pose proof (ecw_key _ (slw_ec _ Hwf) _ _ Hold) as Hko. destruct (slw_ends _ Hwf _ _ Hold) as (He1 & He2 & He3).
            assert (Hin : in_layer L e).
            { rewrite Hko in Hk. apply edge_key_inj in Hk as [[E1 E2]|[E1 E2]]; unfold in_layer; rewrite <- E1, <- E2; auto. }
            do 3 (split; [reflexivity|]). split; [intros x; reflexivity|]. cbn. split; [|split; [|split]].
            * intros _. rewrite lookup_insert.
              assert (Hae : ag_edges a !! k = Some old). { rewrite Hko, (put_edges g lid L lk a _ _ HR He2 He3), <- Hko. exact Hold. }
              rewrite Hae. reflexivity.
            * intros Hn. contradiction.
            * intros k' Hne. rewrite lookup_insert_ne by assumption. reflexivity.
            * reflexivity.
        - apply ec_contains_false in Ec.
          destruct (decide (sl_can_insert L (e_src e) (e_tgt e))) as [Hc|Hc].
          + rewrite (sl_insert_edge_ok (aug F L)) by (apply aug_can; exact Hc). cbn [rbind].
            rewrite aug_inserted by apply Hc. eexists _, _. split; [reflexivity|].
            split; [apply (put_insert g lid L lk a _ _ _ HR Hc)|]. do 3 (split; [reflexivity|]).
            destruct Hc as (C1 & C2 & C3 & C4).
            split; [intros x; cbn; rewrite lookup_link_sib by assumption; apply is_Some_fmap_iff|].
            split; [|split; [|split; [|reflexivity]]].
            * intros _. cbn. rewrite <- Hk, lookup_insert.
              assert (Hae : ag_edges a !! k = None). { rewrite Hk, (put_edges g lid L lk a _ _ HR C3 C4), <- Hk. rewrite Hk. exact Ec. }
              rewrite Hae. destruct e; reflexivity.
            * intros Hn. exfalso. apply Hn. split; [|split]; assumption.
            * intros k' Hne. cbn. rewrite <- Hk. rewrite lookup_insert_ne by assumption. reflexivity.
          + rewrite (sl_insert_edge_noop (aug F L)) by (rewrite aug_can; exact Hc). cbn [rbind].
            exists L, a. split; [reflexivity|]. split; [exact HR|]. do 3 (split; [reflexivity|]). split; [reflexivity|].
            split; [|split; [reflexivity|split; reflexivity]].
            intros (I1 & I2 & I3). exfalso. apply Hc. repeat split; assumption. }
      destruct Hstep as (L1 & a1 & E1 & HR1 & A1 & A2 & A3 & A4 & A5 & A6 & A7 & A8). rewrite E1. cbn [rbind].
      destruct (IH HN L1 lk a1 HR1 Hxs') as (L' & a' & E & HR' & HM & HS).
      assert (Hin : forall e0, in_layer L1 e0 <-> in_layer L e0) by (intros e0; unfold in_layer; rewrite !A4; reflexivity).
      exists L', a'. split; [exact E|]. split; [exact HR'|]. split; [|congruence].
      destruct HM as [M1 M2 M3 M4 M5 M6]. split; try congruence.
      + intros k0 e0. rewrite elem_of_cons. intros [[= -> ->]|Hy] Hi; [rewrite (M6 k Hx); auto|].
        rewrite (M4 k0 e0 Hy) by (apply Hin, Hi). rewrite A7 by (eapply Hr; exact Hy). reflexivity.
      + intros k0 e0. rewrite elem_of_cons. intros [[= -> ->]|Hy] Hi; [rewrite (M6 k Hx); auto|].
        rewrite (M5 k0 e0 Hy) by (rewrite Hin; exact Hi). apply A7. eapply Hr; exact Hy.
      + intros k0. cbn [fmap list_fmap fst]. rewrite not_elem_of_cons. intros [Hy Hy']. rewrite (M6 k0 Hy'). apply A7. congruence.
  Qed.
End Update.

Definition listed_in (a : AGraph) (lid : LayerId) (e : Edge) : Prop :=
  e_src e <> e_tgt e /\ a_key a (e_src e) = Some (key_static lid) /\ a_key a (e_tgt e) = Some (key_static lid).
#[global] Instance listed_in_dec a lid e : Decision (listed_in a lid e). Proof. unfold listed_in. apply _. Defined.

Theorem update_main g a lid other m L0 :
  Rep g a -> alone lid other -> g_layers g !! lid = Some L0 ->
  (forall x, is_Some (sl_nodes other !! x) -> g_lookup g !! x = None \/ g_lookup g !! x = Some (key_static lid)) ->
  (forall k e, m !! k = Some e -> k = edge_key (e_src e) (e_tgt e)) ->
  (forall k e, ec_edges (sl_edges other) !! k = Some e ->
     g_lookup g !! e_src e = None \/ g_lookup g !! e_tgt e = None -> is_Some (m !! k)) ->
  exists L2 lk a', g_update_from_layer g other (Some m) = Ok (true, put g lid L2 lk, sl_reset other) /\
    Rep (put g lid L2 lk) a' /\ ag_layers a' = ag_layers a /\ ag_dyn a' = ag_dyn a /\
    (forall x, ag_nodes a' !! x = match sl_nodes other !! x with
       | Some n => Some (mkAN (key_static lid) (match ag_nodes a !! x with Some an => an_time an | None => n_time n end) (n_attrs n))
       | None => ag_nodes a !! x end) /\
    (forall k, ag_edges a' !! k = match m !! k with
       | Some e => if decide (listed_in a' lid e) then Some (put_edge (ag_edges a !! k) e) else ag_edges a !! k
       | None => ag_edges a !! k end) /\
    (forall x, sl_status L2 !! x =
       if decide (is_Some (sl_nodes other !! x) /\ g_lookup g !! x = None) then Some NNew else sl_status L0 !! x).
Proof.
  intros HR [Oid Owf Ocl Ofl] HL Hkn Hm Hcov.
  set (F := fun x => match g_lookup g !! x with Some _ => ∅ | None =>
              match sl_nodes other !! x with Some n => n_sib n | None => ∅ end end : gset N).
  assert (HRp : Rep (put g lid L0 (g_lookup g)) a) by (rewrite put_same; assumption).
  assert (HF0 : aug F L0 = L0).
  { apply aug_id. intros x n Hn. assert (g_lookup g !! x = Some (key_static lid)) as Hx.
    { apply (put_home g lid L0 (g_lookup g) a x HRp). eauto. }
    unfold F. rewrite Hx. set_solver. }
  assert (Hfst : forall x, x ∈ (map_to_list (sl_nodes other)).*1 <-> is_Some (sl_nodes other !! x)).
  { intros x. rewrite elem_of_list_fmap. split.
    - intros ([y n] & -> & Hy). apply elem_of_map_to_list in Hy. cbn. eauto.
    - intros [n Hn]. exists (x, n). split; [reflexivity|]. apply elem_of_map_to_list, Hn. }
  destruct (node_loop g lid F (map_to_list (sl_nodes other)) (NoDup_fst_map_to_list _) L0 (g_lookup g) a HRp)
    as (L1 & lk & a1 & E1 & HR1 & [N1 N2 N3 N4 N5] & HE1 & HS1).
  { intros x n Hx. apply elem_of_map_to_list in Hx. destruct (slw_node _ Owf _ _ Hx) as [? ?].
    split; [assumption|]. split; [congruence|]. split; [apply (Ofl _ _ Hx)|]. split; [|apply Hkn; eauto].
    intros Hl. unfold F. rewrite Hl, Hx. reflexivity. }
  assert (Hfstm : forall k, k ∈ (map_to_list m).*1 <-> is_Some (m !! k)).
  { intros x. rewrite elem_of_list_fmap. split.
    - intros ([y n] & -> & Hy). apply elem_of_map_to_list in Hy. cbn. eauto.
    - intros [n Hn]. exists (x, n). split; [reflexivity|]. apply elem_of_map_to_list, Hn. }
  destruct (edge_loop g lid F (map_to_list m) (NoDup_fst_map_to_list _) L1 lk a1 HR1)
    as (L2 & a2 & E2 & HR2 & [M1 M2 M3 M4 M5 M6] & HS2).
  { intros k e Hk. apply elem_of_map_to_list in Hk. apply Hm, Hk. }
  assert (Hnodes : forall x, ag_nodes a2 !! x = match sl_nodes other !! x with
       | Some n => Some (mkAN (key_static lid) (match ag_nodes a !! x with Some an => an_time an | None => n_time n end) (n_attrs n))
       | None => ag_nodes a !! x end).
  { intros x. rewrite M3. destruct (sl_nodes other !! x) as [n|] eqn:Ex.
    - apply N4, elem_of_map_to_list, Ex.
    - apply N5. rewrite Hfst, Ex. intros [? [=]]. }
  assert (Hin : forall e, in_layer L1 e <-> listed_in a2 lid e).
  { intros e. unfold in_layer, listed_in.
    assert (Hk : forall x, is_Some (sl_nodes L1 !! x) <-> a_key a2 x = Some (key_static lid)).
    { intros x. rewrite <- (put_home g lid L1 lk a1 x HR1), <- (rp_lookup _ _ HR2). reflexivity. }
    rewrite !Hk. reflexivity. }
  assert (Hedges : forall k, ag_edges a2 !! k = match m !! k with
       | Some e => if decide (listed_in a2 lid e) then Some (put_edge (ag_edges a !! k) e) else ag_edges a !! k
       | None => ag_edges a !! k end).
  { intros k. rewrite <- N3. destruct (m !! k) as [e|] eqn:Ek.
    - apply elem_of_map_to_list in Ek. destruct (decide (listed_in a2 lid e)) as [Hi|Hi]; rewrite <- Hin in Hi; [apply M4|eapply M5]; eassumption.
    - apply M6. rewrite Hfstm, Ek. intros [? [=]]. }
  assert (HF2 : aug F L2 = L2).
  { apply aug_id. intros x n Hn v Hv. unfold F in Hv. destruct (g_lookup g !! x) as [?|] eqn:Ex; [set_solver|].
    destruct (sl_nodes other !! x) as [no|] eqn:Eo; [|set_solver].
    pose proof (Ocl x no v Eo Hv) as Hvo.
    destruct (proj1 (slw_adj _ Owf x v no Eo Hvo) Hv) as [e0 He0].
    destruct (slw_ends _ Owf _ _ He0) as (Hne0 & _). pose proof (ecw_key _ (slw_ec _ Owf) _ _ He0) as Hk0.
    assert (Hc : is_Some (m !! edge_key x v)).
    { apply (Hcov _ _ He0). apply edge_key_inj in Hk0 as [[<- _]|[<- _]]; auto. }
    destruct Hc as [e He]. pose proof (Hm _ _ He) as Hke.
    assert (Hkx : a_key a2 x = Some (key_static lid)) by (unfold a_key; rewrite Hnodes, Eo; reflexivity).
    assert (Hkv : a_key a2 v = Some (key_static lid)). { unfold a_key. destruct Hvo as [nv Hnv]. rewrite Hnodes, Hnv. reflexivity. }
    assert (Hxv : x <> v).
    { intros <-. symmetry in Hk0. apply edge_key_self in Hk0 as [? ?]. congruence. }
    assert (Hl : listed_in a2 lid e).
    { apply edge_key_inj in Hke as [[E3 E4]|[E3 E4]]; unfold listed_in; rewrite <- E3, <- E4; auto. }
    assert (Hs : is_Some (ag_edges a2 !! edge_key x v)) by (rewrite Hedges, He, decide_True by assumption; eauto).
    destruct (put_wf g lid L2 lk a2 HR2) as [Hwf2 _].
    assert (Hv2 : is_Some (sl_nodes L2 !! v)).
    { apply (put_home g lid L2 lk a2 v HR2). rewrite <- (put_lookup g lid L2 lk), (rp_lookup _ _ HR2). exact Hkv. }
    apply (slw_adj _ Hwf2 x v n Hn Hv2).
    rewrite <- (put_edges g lid L2 lk a2 x v HR2); [exact Hs|eauto|exact Hv2]. }
  exists L2, lk, a2. split.
  { unfold g_update_from_layer. rewrite Oid, HL. rewrite HF0 in E1. rewrite E1, E2. cbn [rbind]. rewrite HF2. reflexivity. }
  split; [exact HR2|]. split; [congruence|]. split; [congruence|]. split; [exact Hnodes|]. split; [exact Hedges|].
  intros x. rewrite HS2, HS1. apply decide_ext. rewrite Hfst. reflexivity.
Qed.
