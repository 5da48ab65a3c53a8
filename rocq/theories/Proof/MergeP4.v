(** mergeGraph: what the abstract steps do to nodes and edges. *)
From Coq Require Import NArith ZArith Bool List Lia.
From stdpp Require Import base list gmap fin_maps tactics.
From Verif.Model Require Import Types Mesh Attrs Node EdgeContainer SLayer DLayer Graph.
From Verif.Spec Require Import AbstractGraph GraphHistory.
From Verif.Proof Require Import Arith Keys SLayerP SLayerMerge DLayerP DLayerOps GraphRep GraphEdges GraphAttrs GraphNodes GraphRemove GraphSim LayerRep StatusFrame MergeP1 MergeP2 MergeP3.
Local Open Scope N_scope.
#[local] Arguments edge_key : simpl never.

(** Edges are kept, or lost for a reason [P], or new and of origin [Q]. *)
Definition ER (P : EdgeKey -> Prop) (Q : EdgeKey -> Edge -> Prop) (a a' : AGraph) : Prop :=
  forall k, ag_edges a' !! k = ag_edges a !! k \/ (ag_edges a' !! k = None /\ P k) \/
    exists e, ag_edges a' !! k = Some e /\ Q k e /\ (ag_edges a !! k = None \/ P k).
Lemma ER_same P Q a a' : ag_edges a' = ag_edges a -> ER P Q a a'.
Proof. intros H k. left. rewrite H. reflexivity. Qed.
Lemma ER_trans P Q a b c : ER P Q a b -> ER P Q b c -> ER P Q a c.
Proof.
  intros H1 H2 k. destruct (H2 k) as [E|[[E HP]|(e & E & HQ & HE)]].
  - rewrite E. apply H1.
  - right; left. auto.
  - right; right. exists e. split; [exact E|]. split; [exact HQ|]. destruct HE as [HE|HE]; [|auto].
    destruct (H1 k) as [E1|[[E1 HP]|(e1 & E1 & _)]]; [left; congruence|auto|congruence].
Qed.
Lemma ER_weaken (P P' : EdgeKey -> Prop) (Q Q' : EdgeKey -> Edge -> Prop) a b :
  (forall k, P k -> P' k) -> (forall k e, Q k e -> Q' k e) -> ER P Q a b -> ER P' Q' a b.
Proof.
  intros HP HQ H k. destruct (H k) as [E|[[E Hp]|(e & E & Hq & HE)]]; [auto|right; left; auto|].
  right; right. exists e. split; [exact E|]. split; [auto|]. destruct HE; auto.
Qed.
Lemma ER_fold {X} (I : AGraph -> Prop) P Q (step : AGraph -> X -> AGraph) xs :
  (forall a x, x ∈ xs -> I a -> ER P Q a (step a x) /\ I (step a x)) ->
  forall a, I a -> ER P Q a (fold_left step xs a) /\ I (fold_left step xs a).
Proof.
  intros H. induction xs as [|x r IH]; intros a HI; cbn [fold_left]; [split; [apply ER_same; reflexivity|exact HI]|].
  destruct (H a x (elem_of_list_here _ _) HI) as [H1 H2].
  destruct (IH (fun b y Hy => H b y (elem_of_list_further _ _ _ Hy)) _ H2) as [H3 H4]. split; [eapply ER_trans; eassumption|exact H4].
Qed.
Lemma ER_kept P Q a a' k : ER P Q a a' -> ~ P k -> is_Some (ag_edges a !! k) -> ag_edges a' !! k = ag_edges a !! k.
Proof.
  intros H HP [e0 HS]. destruct (H k) as [E|[[_ Hp]|(e & E & _ & [HE|HE])]]; [exact E|contradiction|congruence|contradiction].
Qed.

(** *** Single steps *)
Lemma a_insert_edge_ER a u v i P (Q : EdgeKey -> Edge -> Prop) : Q (edge_key u v) (mkEdge u v i) -> ER P Q a (snd (a_insert_edge a u v (Some i))).
Proof.
  intros HQ. unfold a_insert_edge. destruct (decide _) as [(_ & _ & _ & Hn)|]; [|apply ER_same; reflexivity].
  intros k. cbn. destruct (decide (edge_key u v = k)) as [<-|Hne].
  - right; right. rewrite lookup_insert. eexists. split; [reflexivity|]. split; [exact HQ|]. left. apply eq_None_not_Some. exact Hn.
  - left. rewrite lookup_insert_ne by assumption. reflexivity.
Qed.
Lemma a_insert_edge_nodes a u v i : ag_nodes (snd (a_insert_edge a u v i)) = ag_nodes a /\ ag_dyn (snd (a_insert_edge a u v i)) = ag_dyn a /\
  ag_layers (snd (a_insert_edge a u v i)) = ag_layers a.
Proof. unfold a_insert_edge. destruct (decide _); auto. Qed.
Lemma am_edge_nodes k h a x : ag_nodes (am_edge k h a x) = ag_nodes a /\ ag_dyn (am_edge k h a x) = ag_dyn a /\ ag_layers (am_edge k h a x) = ag_layers a.
Proof. unfold am_edge. repeat destruct (decide _); try apply a_insert_edge_nodes; auto. Qed.
Lemma am_iedge_nodes f par a x : ag_nodes (am_iedge f par a x) = ag_nodes a /\ ag_dyn (am_iedge f par a x) = ag_dyn a /\ ag_layers (am_iedge f par a x) = ag_layers a.
Proof.
  unfold am_iedge. destruct (_ =? _); [auto|]. destruct par; [|apply a_insert_edge_nodes].
  unfold a_insert_parent_edge. destruct (a_key a (f (e_src (snd x)))), (a_key a (f (e_tgt (snd x)))); auto. destruct (decide _); auto.
Qed.
Lemma fold_same {X} (step : AGraph -> X -> AGraph) xs :
  (forall a x, ag_nodes (step a x) = ag_nodes a /\ ag_dyn (step a x) = ag_dyn a /\ ag_layers (step a x) = ag_layers a) ->
  forall a, ag_nodes (fold_left step xs a) = ag_nodes a /\ ag_dyn (fold_left step xs a) = ag_dyn a /\ ag_layers (fold_left step xs a) = ag_layers a.
Proof.
  intros H. induction xs as [|x r IH]; intros a; cbn [fold_left]; [auto|]. destruct (IH (step a x)) as (-> & -> & ->). apply H.
Qed.

(** Image of an edge under a renaming of its ends. *)
Definition image (h : N -> N) (e : Edge) : Edge := mkEdge (h (e_src e)) (h (e_tgt e)) (e_info e).
Definition comes_from (h : N -> N) (xs : list (EdgeKey * Edge)) (k : EdgeKey) (e : Edge) : Prop :=
  exists x, x ∈ xs /\ e = image h (snd x) /\ k = edge_key (e_src e) (e_tgt e).

Lemma am_edges_ER k h xs P a : ER P (comes_from h xs) a (fold_left (am_edge k h) xs a).
Proof.
  apply (ER_fold (fun _ => True)); [|exact I]. intros b x Hx _. split; [|exact I]. unfold am_edge.
  repeat destruct (decide _); try (apply ER_same; reflexivity).
  apply a_insert_edge_ER. exists x. split; [exact Hx|]. split; reflexivity.
Qed.
(** Edge loops only add. *)
Lemma am_edges_mono k h xs a K : is_Some (ag_edges a !! K) -> ag_edges (fold_left (am_edge k h) xs a) !! K = ag_edges a !! K.
Proof. intros H. apply (ER_kept (fun _ => False) (comes_from h xs)); [apply am_edges_ER|tauto|exact H]. Qed.
Lemma both_nodes a a' k u v : ag_nodes a' = ag_nodes a -> (both a' k u v <-> both a k u v).
Proof. unfold both, a_key. intros ->. reflexivity. Qed.
Lemma both_known a k u v : both a k u v -> a_known a u /\ a_known a v.
Proof. unfold both, a_key, a_known. intros [H1 H2]. destruct (ag_nodes a !! u), (ag_nodes a !! v); try discriminate. eauto. Qed.
Lemma am_edge_links k h a x : let e := snd x in
  both a k (h (e_src e)) (h (e_tgt e)) -> h (e_src e) <> h (e_tgt e) ->
  (both a k (e_src e) (e_tgt e) /\ a_linked (am_edge k h a x) (e_src e) (e_tgt e)) \/ a_linked (am_edge k h a x) (h (e_src e)) (h (e_tgt e)).
Proof.
  intros e Hb Hne. unfold am_edge. fold e. destruct (decide _) as [[H1 H2]|_]; [left; auto|]. right.
  rewrite decide_True by exact Hb. unfold a_insert_edge. destruct (both_known _ _ _ _ Hb).
  destruct (decide (a_linked a (h (e_src e)) (h (e_tgt e)))) as [Hl|Hl].
  - rewrite decide_False by tauto. exact Hl.
  - rewrite decide_True by tauto. unfold a_linked; cbn. rewrite lookup_insert. eauto.
Qed.
Lemma am_edges_links k h xs : forall a x, x ∈ xs -> let e := snd x in let a' := fold_left (am_edge k h) xs a in
  both a k (h (e_src e)) (h (e_tgt e)) -> h (e_src e) <> h (e_tgt e) ->
  (both a k (e_src e) (e_tgt e) /\ a_linked a' (e_src e) (e_tgt e)) \/ a_linked a' (h (e_src e)) (h (e_tgt e)).
Proof.
  induction xs as [|y r IH]; intros a x Hx e a' Hb Hne; [inversion Hx|].
  unfold a'; cbn [fold_left]. apply elem_of_cons in Hx as [->|Hx].
  - assert (Hm : forall u v, a_linked (am_edge k h a y) u v -> a_linked (fold_left (am_edge k h) r (am_edge k h a y)) u v).
    { intros u v Hl. unfold a_linked in *. rewrite am_edges_mono; assumption. }
    destruct (am_edge_links k h a y Hb Hne) as [[H1 H2]|H]; [left; split; [exact H1|apply Hm, H2]|right; apply Hm, H].
  - specialize (IH (am_edge k h a y) x Hx). cbv zeta in IH. fold e in IH.
    rewrite !(both_nodes a (am_edge k h a y)) in IH by apply am_edge_nodes. apply IH; assumption.
Qed.

Lemma am_cuts_ER k es Q a : ER (fun K => exists e, e ∈ es /\ K = edge_key (fst e) (snd e) /\ both a k (fst e) (snd e)) Q a (fold_left (am_cut k) es a).
Proof.
  refine (proj1 (ER_fold (fun b => ag_nodes b = ag_nodes a) _ _ _ es _ a eq_refl)). intros b e He Hb. split.
  - unfold am_cut. destruct (decide _) as [Hk|]; [|apply ER_same; reflexivity]. rewrite (both_nodes a b) in Hk by exact Hb.
    unfold a_remove_edge. destruct (decide _); [|apply ER_same; reflexivity].
    intros K. cbn. destruct (decide (edge_key (fst e) (snd e) = K)) as [<-|Hne].
    + right; left. rewrite lookup_delete. eauto.
    + left. rewrite lookup_delete_ne by assumption. reflexivity.
  - destruct (am_cut_nodes k [e] b) as (H & _). cbn [fold_left] in H. congruence.
Qed.
Lemma am_cuts_gone k es : forall a e, e ∈ es -> both a k (fst e) (snd e) -> ~ a_linked (fold_left (am_cut k) es a) (fst e) (snd e).
Proof.
  induction es as [|y r IH]; intros a e He Hb; [inversion He|]. cbn [fold_left]. apply elem_of_cons in He as [->|He].
  - intros Hl. assert (Hno : ~ a_linked (am_cut k a y) (fst y) (snd y)).
    { unfold am_cut. rewrite decide_True by exact Hb. unfold a_remove_edge. destruct (decide _); [|assumption].
      unfold a_linked; cbn. rewrite lookup_delete. intros [? [=]]. }
    destruct Hl as [e0 Hl]. destruct (am_cuts_ER k r (fun _ _ => False) (am_cut k a y) (edge_key (fst y) (snd y))) as [E|[[E _]|(e1 & _ & [] & _)]]; [|congruence].
    apply Hno. unfold a_linked. rewrite <- E. eauto.
  - apply IH; [exact He|]. destruct (am_cut_nodes k [y] a) as (H & _). cbn [fold_left] in H. rewrite (both_nodes a) by exact H. exact Hb.
Qed.

Lemma am_removes_eff xs : forall a, (forall x, x ∈ xs -> static_or_none a x) ->
  let a' := fold_left am_remove xs a in
  (forall y, ag_nodes a' !! y = if decide (y ∈ xs) then None else ag_nodes a !! y) /\ ag_dyn a' = ag_dyn a /\ ag_layers a' = ag_layers a /\
  forall Q, ER (fun K => exists x, x ∈ xs /\ key_touches x K) Q a a'.
Proof.
  induction xs as [|x r IH]; intros a H; cbn [fold_left].
  - split; [intros y; reflexivity|]. split; [reflexivity|]. split; [reflexivity|]. intros Q. apply ER_same. reflexivity.
  - pose proof (H x (elem_of_list_here _ _)) as Hs.
    assert (Hr : forall y, y ∈ r -> static_or_none (am_remove a x) y).
    { intros z Hz k. rewrite (am_remove_key a x z Hs). destruct (decide (z = x)); [discriminate|]. apply H. right. exact Hz. }
    destruct (IH (am_remove a x) Hr) as (N1 & D1 & L1 & E1). rewrite (am_remove_static a x Hs) in *. split; [|split; [|split]].
    + intros y. rewrite N1. destruct (decide (y ∈ r)) as [Hy|Hy].
      { rewrite (decide_True (P := y ∈ x :: r)) by (right; exact Hy). reflexivity. }
      destruct (decide (y = x)) as [->|Hne].
      * rewrite (decide_True (P := x ∈ x :: r)) by left. destruct (decide (a_known a x)) as [Hk|Hk]; cbn; [apply lookup_delete|].
        apply eq_None_not_Some. exact Hk.
      * rewrite (decide_False (P := y ∈ x :: r)) by (rewrite elem_of_cons; tauto).
        destruct (decide (a_known a x)); cbn; [apply lookup_delete_ne; congruence|reflexivity].
    + rewrite D1. destruct (decide (a_known a x)); reflexivity.
    + rewrite L1. destruct (decide (a_known a x)); reflexivity.
    + intros Q. eapply ER_trans; [|eapply ER_weaken; [|intros ? ? HQ; exact HQ|apply E1]].
      * destruct (decide (a_known a x)); [|apply ER_same; reflexivity]. intros K. cbn. unfold edges_without.
        destruct (decide (key_touches x K)) as [Ht|Ht].
        -- right; left. split; [|exists x; split; [left|exact Ht]]. apply map_filter_lookup_None. right. intros e _ Hn. apply Hn, Ht.
        -- left. destruct (ag_edges a !! K) as [e|] eqn:E.
           ++ apply map_filter_lookup_Some. auto.
           ++ apply map_filter_lookup_None. auto.
      * intros K (y & Hy & Ht). exists y. split; [right; exact Hy|exact Ht].
Qed.

(** *** Static nodes *)
Definition st_result (lid : LayerId) (upd arch : bool) (o : option ANode) (at0 : NodeAttrs) : ANode :=
  match o with
  | None => mkAN (key_static lid) None at0
  | Some an => if upd && (arch || attrs_is_active (an_attrs an)) then mkAN (an_key an) (an_time an) at0 else an
  end.
Lemma am_node_eff lid upd arch mg a x n y :
  ag_nodes (am_node lid upd arch mg a (x, n)) !! y =
    if decide (y = x) then if mg x then ag_nodes a !! x else Some (st_result lid upd arch (ag_nodes a !! x) (n_attrs n))
    else ag_nodes a !! y.
Proof.
  unfold am_node, st_result; cbn [fst snd]. destruct (mg x).
  { destruct (decide _) as [->|]; reflexivity. }
  destruct (ag_nodes a !! x) as [an|] eqn:E.
  - destruct (upd && _); cbn.
    + destruct (decide _) as [->|]; [apply lookup_insert|apply lookup_insert_ne; congruence].
    + destruct (decide _) as [->|]; [exact E|reflexivity].
  - cbn. destruct (decide _) as [->|]; [apply lookup_insert|apply lookup_insert_ne; congruence].
Qed.
Lemma am_node_rest lid upd arch mg a x : ag_edges (am_node lid upd arch mg a x) = ag_edges a /\ ag_dyn (am_node lid upd arch mg a x) = ag_dyn a /\
  ag_layers (am_node lid upd arch mg a x) = ag_layers a.
Proof.
  unfold am_node. destruct (mg _); [auto|]. destruct (ag_nodes a !! _); [destruct (upd && _)|]; auto.
Qed.
Lemma am_nodes_eff lid upd arch mg xs : NoDup xs.*1 -> forall a,
  let a' := fold_left (am_node lid upd arch mg) xs a in
  (forall y, ag_nodes a' !! y = match list_to_map (M := gmap N Node) xs !! y with
     | Some n => if mg y then ag_nodes a !! y else Some (st_result lid upd arch (ag_nodes a !! y) (n_attrs n))
     | None => ag_nodes a !! y end) /\ ag_edges a' = ag_edges a /\ ag_dyn a' = ag_dyn a /\ ag_layers a' = ag_layers a.
Proof.
  induction xs as [|[x n] r IH]; intros Hnd a; cbn [fold_left].
  - split; [intros y; reflexivity|auto].
  - rewrite fmap_cons in Hnd. apply stdpp.list.NoDup_cons in Hnd as [Hx Hnd]. cbn [fst] in Hx.
    destruct (IH Hnd (am_node lid upd arch mg a (x, n))) as (N1 & E1 & D1 & L1).
    destruct (am_node_rest lid upd arch mg a (x, n)) as (E0 & D0 & L0). split; [|split; [|split]; congruence].
    intros y. rewrite N1, !am_node_eff. rewrite list_to_map_cons. destruct (decide (y = x)) as [->|Hne].
    + rewrite lookup_insert. rewrite (not_elem_of_list_to_map_1 r x) by exact Hx. reflexivity.
    + rewrite lookup_insert_ne by congruence. reflexivity.
Qed.

(** *** A static layer *)
Section LayerEff.
  Context (cfg : MergeConfig) (lid : LayerId) (mg : N -> bool) (ol : SLayer) (a : AGraph).
  Local Notation f := (mc_merged_id cfg).
  Local Notation K := (key_static lid).
  Let a' := am_layer cfg lid mg ol a.
  Context (Hrem : forall x, x ∈ removed_ids ol -> static_or_none a x) (Howf : sl_wf ol).
  Lemma live_not_removed x : is_Some (sl_nodes ol !! x) -> x ∉ removed_ids ol.
  Proof using Howf.
    intros Hx Hin. apply elem_of_keys_with in Hin as (st & Hst & Hr).
    destruct (proj1 (slw_status _ Howf x) Hx) as (st' & Hst' & Hlive). assert (st' = st) as -> by congruence.
    destruct st; try discriminate; destruct Hlive; discriminate.
  Qed.
  Definition layer_nodes (y : N) : option ANode :=
    if decide (y ∈ removed_ids ol) then None else
    match sl_nodes ol !! y with
    | Some n => if mg y then ag_nodes a !! y else Some (st_result lid (layer_upd cfg lid) (mc_update_archived cfg) (ag_nodes a !! y) (n_attrs n))
    | None => ag_nodes a !! y end.
  Lemma am_layer_nodes : (forall y, ag_nodes a' !! y = layer_nodes y) /\ ag_dyn a' = ag_dyn a /\ ag_layers a' = ag_layers a.
  Proof using Hrem Howf.
    unfold a', am_layer.
    set (a1 := fold_left am_remove (removed_ids ol) a). set (a2 := fold_left (am_cut K) (removed_pairs ol) a1).
    set (a3 := fold_left (am_node lid (layer_upd cfg lid) (mc_update_archived cfg) mg) (map_to_list (sl_nodes ol)) a2).
    destruct (am_removes_eff (removed_ids ol) a Hrem) as (N1 & D1 & L1 & _). fold a1 in N1, D1, L1.
    destruct (am_cut_nodes K (removed_pairs ol) a1) as (N2 & L2 & D2). fold a2 in N2, L2, D2.
    destruct (am_nodes_eff lid (layer_upd cfg lid) (mc_update_archived cfg) mg (map_to_list (sl_nodes ol)) (NoDup_fst_map_to_list _) a2) as (N3 & _ & D3 & L3).
    fold a3 in N3, D3, L3.
    destruct (fold_same (am_edge (key_static lid) (mc_merged_id cfg)) (map_to_list (ec_edges (sl_edges ol))) (fun b x => am_edge_nodes _ _ b x) a3) as (N4 & D4 & L4).
    split; [|split; congruence]. intros y. rewrite N4, N3, N2, N1, list_to_map_to_list. unfold layer_nodes.
    destruct (decide (y ∈ removed_ids ol)) as [Hy|Hy]; [|reflexivity].
    destruct (sl_nodes ol !! y) as [n|] eqn:E; [|reflexivity]. exfalso. exact (live_not_removed y (ex_intro _ n E) Hy).
  Qed.
  Lemma am_layer_ER : ER (fun k => (exists x, x ∈ removed_ids ol /\ key_touches x k) \/
      exists e, e ∈ removed_pairs ol /\ k = edge_key (fst e) (snd e) /\ both a K (fst e) (snd e))
    (comes_from f (map_to_list (ec_edges (sl_edges ol)))) a a'.
  Proof using Hrem.
    unfold a', am_layer.
    set (a1 := fold_left am_remove (removed_ids ol) a). set (a2 := fold_left (am_cut K) (removed_pairs ol) a1).
    set (a3 := fold_left (am_node lid (layer_upd cfg lid) (mc_update_archived cfg) mg) (map_to_list (sl_nodes ol)) a2).
    destruct (am_removes_eff (removed_ids ol) a Hrem) as (N1 & _ & _ & E1). fold a1 in N1, E1.
    destruct (am_nodes_eff lid (layer_upd cfg lid) (mc_update_archived cfg) mg (map_to_list (sl_nodes ol)) (NoDup_fst_map_to_list _) a2) as (_ & E3 & _ & _).
    fold a3 in E3.
    eapply ER_trans; [eapply ER_weaken; [|intros ? ? H; exact H|apply E1]; intros; left; assumption|].
    eapply ER_trans; [eapply ER_weaken; [|intros ? ? H; exact H|apply (am_cuts_ER K (removed_pairs ol))]|].
    - intros k (e & He & Hk & Hb). right. exists e. split; [exact He|]. split; [exact Hk|].
      unfold both, a_key in Hb |- *. rewrite !N1 in Hb. destruct Hb as [H1 H2].
      destruct (decide _); [discriminate|]. destruct (decide (snd e ∈ _)); [discriminate|]. auto.
    - eapply ER_trans; [apply ER_same; exact E3|apply am_edges_ER].
  Qed.
  Lemma am_layer_links k e : ec_edges (sl_edges ol) !! k = Some e ->
    both a' K (f (e_src e)) (f (e_tgt e)) -> f (e_src e) <> f (e_tgt e) ->
    (both a' K (e_src e) (e_tgt e) /\ a_linked a' (e_src e) (e_tgt e)) \/ a_linked a' (f (e_src e)) (f (e_tgt e)).
  Proof using.
    intros He. unfold a', am_layer.
    set (a3 := fold_left (am_node lid (layer_upd cfg lid) (mc_update_archived cfg) mg) (map_to_list (sl_nodes ol)) _).
    destruct (fold_same (am_edge (key_static lid) (mc_merged_id cfg)) (map_to_list (ec_edges (sl_edges ol))) (fun b x => am_edge_nodes _ _ b x) a3) as (N4 & D4 & L4).
    rewrite (both_nodes a3 _ _ _ _ N4), (both_nodes a3 _ _ (e_src e) (e_tgt e) N4). intros Hb Hne.
    apply (am_edges_links K f (map_to_list (ec_edges (sl_edges ol))) a3 (k, e)); [apply elem_of_map_to_list; exact He|exact Hb|exact Hne].
  Qed.
  (** Reported pairs are not linked afterwards, unless the layer itself brings the edge. *)
  Lemma am_layer_cut e : (forall u v, a_linked a u v -> a_known a u /\ a_known a v) ->
    (forall y, is_Some (sl_nodes ol !! y) -> a_key a y = None \/ a_key a y = Some K) ->
    e ∈ removed_pairs ol -> both a' K (fst e) (snd e) -> a_linked a' (fst e) (snd e) ->
    exists e', comes_from f (map_to_list (ec_edges (sl_edges ol))) (edge_key (fst e) (snd e)) e'.
  Proof using Hrem Howf.
    intros HL Hk He Hb Hl. destruct am_layer_nodes as (N & _ & _). unfold both, a_key in Hb. rewrite !N in Hb. unfold layer_nodes in Hb.
    unfold a', am_layer in Hl.
    set (a1 := fold_left am_remove (removed_ids ol) a) in *. set (a2 := fold_left (am_cut K) (removed_pairs ol) a1) in *.
    set (a3 := fold_left (am_node lid (layer_upd cfg lid) (mc_update_archived cfg) mg) (map_to_list (sl_nodes ol)) a2) in *.
    destruct (am_removes_eff (removed_ids ol) a Hrem) as (N1 & _ & _ & E1). fold a1 in N1, E1.
    destruct (am_nodes_eff lid (layer_upd cfg lid) (mc_update_archived cfg) mg (map_to_list (sl_nodes ol)) (NoDup_fst_map_to_list _) a2) as (_ & E3 & _ & _).
    fold a3 in E3.
    destruct (am_edges_ER (key_static lid) f (map_to_list (ec_edges (sl_edges ol))) (fun _ => False) a3 (edge_key (fst e) (snd e))) as [E|[[_ []]|(e1 & _ & HQ & _)]]; [|eauto].
    exfalso. unfold a_linked in Hl. rewrite E, E3 in Hl.
    assert (Hl1 : a_linked a1 (fst e) (snd e)).
    { destruct Hl as [e2 Hl]. destruct (am_cuts_ER K (removed_pairs ol) (fun _ _ => False) a1 (edge_key (fst e) (snd e))) as [E'|[[E' _]|(e1 & _ & [] & _)]]; fold a2 in E'; [|congruence].
      unfold a_linked. rewrite <- E'. eauto. }
    apply (am_cuts_gone K (removed_pairs ol) a1 e He); [|exact Hl].
    assert (Hl0 : a_linked a (fst e) (snd e)).
    { destruct Hl1 as [e2 Hl1]. destruct (E1 (fun _ _ => False) (edge_key (fst e) (snd e))) as [E'|[[E' _]|(e1 & _ & [] & _)]]; [|congruence]. unfold a_linked. rewrite <- E'. eauto. }
    destruct (HL _ _ Hl0) as [K1 K2].
    assert (Hone : forall y, a_known a y -> an_key <$> (if decide (y ∈ removed_ids ol) then None else match sl_nodes ol !! y with
       | Some n => if mg y then ag_nodes a !! y else Some (st_result lid (layer_upd cfg lid) (mc_update_archived cfg) (ag_nodes a !! y) (n_attrs n))
       | None => ag_nodes a !! y end) = Some K -> a_key a1 y = Some K).
    { intros y [an Hy] H. unfold a_key. rewrite N1. destruct (decide (y ∈ removed_ids ol)) as [|_]; [discriminate H|].
      destruct (sl_nodes ol !! y) as [n|] eqn:En; [|exact H]. unfold a_key in Hk. destruct (Hk y) as [H0|H0]; [rewrite En; eauto| |exact H0].
      rewrite Hy in H0. discriminate. }
    split; apply Hone; tauto.
  Qed.
End LayerEff.

(** *** Nodes of a dynamic layer *)
Section DynEff.
  Context (vadd vsub : Vec3 -> Vec3 -> Vec3) (cfg : MergeConfig) (l : LayerId) (p : N) (Hp : p < two32) (n0 : N).
  Definition is_shift (a : AGraph) (i : nat) (xs : list (option Node)) (delta d : Vec3) : Prop :=
    (n0 <= N.of_nat i /\ d = delta) \/
    (N.of_nat i < n0 /\ exists on an, xs !! (N.to_nat n0 - 1 - i)%nat = Some (Some on) /\
       ag_nodes a !! prefix_make_id p (n0 - 1) = Some an /\ d = vsub (attrs_position (an_attrs an)) (attrs_position (n_attrs on))).
  Definition dyn_kept (an : ANode) (on : Node) : ANode :=
    mkAN (an_key an) (an_time an) (if mc_update_dynamic cfg then attrs_set_position (n_attrs on) (attrs_position (an_attrs an)) else an_attrs an).
  Definition dyn_new (on : Node) (d : Vec3) : ANode :=
    mkAN (key_dynamic l p) (n_time on) (attrs_set_position (n_attrs on) (vadd (attrs_position (n_attrs on)) d)).
  Definition slots_pre (a : AGraph) (i : nat) (xs : list (option Node)) : Prop :=
    forall j slot, xs !! j = Some slot -> is_Some slot /\ N.of_nat (i + j) < two32 /\
      (is_Some (ag_nodes a !! prefix_make_id p (N.of_nat (i + j))) <-> N.of_nat (i + j) < n0).
  Local Notation ident i := (prefix_make_id p (N.of_nat i)).

  Lemma dyn_kept_eq an on (b : AGraph) : (if mc_update_dynamic cfg
      then a_add_node b (n_id on) (mkAN (an_key an) (an_time an) (attrs_set_position (n_attrs on) (attrs_position (an_attrs an)))) else b) = 
     (if mc_update_dynamic cfg then a_add_node b (n_id on) (dyn_kept an on) else b).
  Proof. unfold dyn_kept. destruct (mc_update_dynamic cfg); reflexivity. Qed.

  Lemma am_dnode_eff a delta i on y :
    let r := am_dnode vadd vsub cfg l p (a, delta) (i, Some on) in let x := prefix_make_id p i in
    ag_nodes (fst r) !! y = if decide (y = x) then Some (match ag_nodes a !! x with Some an => dyn_kept an on | None => dyn_new on delta end) else ag_nodes a !! y.
  Proof.
    unfold am_dnode, dyn_kept, dyn_new. cbv zeta. set (x := prefix_make_id p i). destruct (ag_nodes a !! x) as [an|] eqn:E.
    - destruct (mc_update_dynamic cfg); cbn.
      + destruct (decide _) as [->|]; [apply lookup_insert|apply lookup_insert_ne; congruence].
      + destruct (decide _) as [->|]; [rewrite E; destruct an; reflexivity|reflexivity].
    - destruct (default _ _) as [nx sl]. cbn. destruct (decide _) as [->|]; [apply lookup_insert|apply lookup_insert_ne; congruence].
  Qed.
  Lemma am_dnode_rest a delta x : let r := am_dnode vadd vsub cfg l p (a, delta) x in
    ag_edges (fst r) = ag_edges a /\ ag_layers (fst r) = ag_layers a /\ (forall q, q <> (l, p) -> ag_dyn (fst r) !! q = ag_dyn a !! q).
  Proof.
    unfold am_dnode. destruct x as [i [on|]]; cbv zeta; [|auto]. destruct (ag_nodes a !! _).
    - destruct (mc_update_dynamic cfg); auto.
    - destruct (default _ _) as [nx sl]. cbn. split; [reflexivity|]. split; [reflexivity|]. intros q Hq. apply lookup_insert_ne. congruence.
  Qed.

  Lemma am_dnodes_eff xs : forall i a delta, slots_pre a i xs ->
    let a' := fst (fold_left (am_dnode vadd vsub cfg l p) (idx_from i xs) (a, delta)) in
    ag_edges a' = ag_edges a /\ ag_layers a' = ag_layers a /\ (forall q, q <> (l, p) -> ag_dyn a' !! q = ag_dyn a !! q) /\
    (forall y, (forall j, (j < length xs)%nat -> y <> ident (i + j)) -> ag_nodes a' !! y = ag_nodes a !! y) /\
    (forall j on, xs !! j = Some (Some on) ->
       match ag_nodes a !! ident (i + j) with
       | Some an => ag_nodes a' !! ident (i + j) = Some (dyn_kept an on)
       | None => exists d, is_shift a i xs delta d /\ ag_nodes a' !! ident (i + j) = Some (dyn_new on d)
       end).
  Proof using Hp.
    induction xs as [|s r IH]; intros i a delta Hpre.
    - cbn. split; [reflexivity|]. split; [reflexivity|]. split; [reflexivity|]. split; [reflexivity|]. intros j on Hj. discriminate Hj.
    - rewrite idx_cons. cbn [fold_left]. destruct (Hpre 0%nat s eq_refl) as ([on0 ->] & H32 & H0). rewrite Nat.add_0_r in H32, H0.
      pose proof (am_dnode_eff a delta (N.of_nat i) on0) as HE. pose proof (am_dnode_rest a delta (N.of_nat i, Some on0)) as HRest.
      assert (Hdelta : snd (am_dnode vadd vsub cfg l p (a, delta) (N.of_nat i, Some on0)) =
        match ag_nodes a !! ident i with Some an => vsub (attrs_position (an_attrs an)) (attrs_position (n_attrs on0)) | None => delta end).
      { unfold am_dnode. destruct (ag_nodes a !! ident i); [reflexivity|]. destruct (default _ _); reflexivity. }
      destruct (am_dnode vadd vsub cfg l p (a, delta) (N.of_nat i, Some on0)) as [a1 delta1]. cbn [fst snd] in HE, HRest, Hdelta. cbv zeta in HE, HRest.
      destruct HRest as (R1 & R2 & R3).
      assert (Hother : forall j slot, r !! j = Some slot -> N.of_nat (i + S j) < two32 /\ ident (i + S j) <> ident i).
      { intros j slot Hj. destruct (Hpre (S j) slot Hj) as (_ & Hj32 & _). split; [exact Hj32|]. intros E. apply make_id_inj in E; [lia|exact Hp|exact Hj32|exact H32]. }
      destruct (IH (S i) a1 delta1) as (I1 & I2 & I3 & I4 & I5).
      { intros j slot Hj. destruct (Hpre (S j) slot Hj) as (Hs & Hj32 & Hi). replace (S i + j)%nat with (i + S j)%nat by lia.
        split; [exact Hs|]. split; [exact Hj32|]. rewrite HE, decide_False by apply (Hother j slot Hj). exact Hi. }
      split; [congruence|]. split; [congruence|]. split; [intros q Hq; rewrite I3, R3 by exact Hq; reflexivity|]. split.
      + intros y Hy. rewrite I4, HE.
        * rewrite decide_False; [reflexivity|]. rewrite <- (Nat.add_0_r i). apply Hy. cbn; lia.
        * intros j Hj. replace (S i + j)%nat with (i + S j)%nat by lia. apply Hy. cbn; lia.
      + intros [|j] on Hj.
        * rewrite Nat.add_0_r. cbn in Hj. injection Hj as <-.
          assert (Hx : ag_nodes (fst (fold_left (am_dnode vadd vsub cfg l p) (idx_from (S i) r) (a1, delta1))) !! ident i = ag_nodes a1 !! ident i).
          { apply I4. intros j Hj. destruct (lookup_lt_is_Some_2 r j Hj) as [slot Hsl]. replace (S i + j)%nat with (i + S j)%nat by lia.
            intros E. exact (proj2 (Hother j slot Hsl) (eq_sym E)). }
          rewrite Hx, HE, decide_True by reflexivity. destruct (ag_nodes a !! ident i) as [an|] eqn:Ea; [reflexivity|].
          exists delta. split; [|reflexivity]. left. split; [|reflexivity].
          destruct (decide (n0 <= N.of_nat i)); [assumption|]. exfalso. assert (Hlt : N.of_nat i < n0) by lia. apply H0 in Hlt as [? [=]].
        * cbn in Hj. specialize (I5 j on Hj). replace (S i + j)%nat with (i + S j)%nat in I5 by lia.
          rewrite HE, decide_False in I5 by apply (Hother j _ Hj).
          destruct (ag_nodes a !! ident (i + S j)) as [an|] eqn:Ea; [exact I5|].
          destruct I5 as (d & Hd & Hres). exists d. split; [|exact Hres]. clear Hres.
          assert (Hge : n0 <= N.of_nat (i + S j)).
          { destruct (decide (n0 <= N.of_nat (i + S j))); [assumption|]. exfalso.
            destruct (Hpre (S j) _ Hj) as (_ & _ & Hi). assert (Hlt : N.of_nat (i + S j) < n0) by lia. apply Hi in Hlt as [? Hq]. congruence. }
          destruct Hd as [[Hn ->]|[Hn (on' & an' & X1 & X2 & ->)]].
          -- destruct (decide (N.of_nat i < n0)) as [Hlt|Hlt].
             ++ right. split; [exact Hlt|]. assert (Hi : N.of_nat i = n0 - 1) by lia.
                destruct (proj2 H0 Hlt) as [an0 Han0]. exists on0, an0. replace (N.to_nat n0 - 1 - i)%nat with 0%nat by lia.
                split; [reflexivity|]. split; [rewrite <- Hi; exact Han0|]. rewrite Hdelta, Han0. reflexivity.
             ++ left. split; [lia|]. rewrite Hdelta. destruct (ag_nodes a !! ident i) eqn:E0; [|reflexivity]. exfalso. apply Hlt, H0. eauto.
          -- right. split; [lia|]. exists on', an'. replace (N.to_nat n0 - 1 - i)%nat with (S (N.to_nat n0 - 1 - S i)) by lia.
             split; [exact X1|]. split; [|reflexivity]. rewrite HE in X2. rewrite decide_False in X2; [exact X2|].
             intros E. apply make_id_inj in E; [lia|exact Hp| |exact H32].
             assert (N.of_nat (i + S j) < two32) by (apply (Hother j _ Hj)). lia.
  Qed.
End DynEff.

(** *** Inter-layer edges *)
Definition lower_of (a : AGraph) (u v : N) : N :=
  match a_key a u, a_key a v with
  | Some ku, Some kv => match rel ku kv with RChild => v | _ => u end
  | _, _ => u
  end.
Section InterEff.
  Context (f : N -> N) (par : bool).
  (** The edge [k] gives way to the parent edge brought by one of [xs]. *)
  Definition replaced (a : AGraph) (xs : list (EdgeKey * Edge)) (k : EdgeKey) : Prop :=
    par = true /\ exists x, x ∈ xs /\ let u := f (e_src (snd x)) in let v := f (e_tgt (snd x)) in
      u <> v /\ a_known a u /\ a_known a v /\ edge_key u v <> k /\ is_parent_edge a (lower_of a u v) k = true.
  Lemma is_parent_edge_nodes a b c k : ag_nodes b = ag_nodes a -> is_parent_edge b c k = is_parent_edge a c k.
  Proof. unfold is_parent_edge, a_key. intros ->. reflexivity. Qed.
  Lemma lower_of_nodes a b u v : ag_nodes b = ag_nodes a -> lower_of b u v = lower_of a u v.
  Proof. unfold lower_of, a_key. intros ->. reflexivity. Qed.

  Lemma am_iedge_ER1 a b xs x : ag_nodes b = ag_nodes a -> x ∈ xs -> ER (replaced a xs) (comes_from f xs) b (am_iedge f par b x).
  Proof.
    intros HN Hx. unfold am_iedge. set (u := f (e_src (snd x))). set (v := f (e_tgt (snd x))). destruct (N.eqb_spec u v) as [Huv|Huv].
    { apply ER_same. reflexivity. }
    assert (HQ : comes_from f xs (edge_key u v) (mkEdge u v (e_info (snd x)))) by (exists x; split; [exact Hx|split; reflexivity]).
    destruct par eqn:Hpar; [|apply a_insert_edge_ER; exact HQ].
    unfold a_insert_parent_edge. destruct (a_key b u) as [ku|] eqn:Eu; [|apply ER_same; reflexivity].
    destruct (a_key b v) as [kv|] eqn:Ev; [|apply ER_same; reflexivity].
    destruct (decide (a_linked b u v)) as [Hl|Hl]; [apply ER_same; reflexivity|].
    assert (Hc : match rel ku kv with RChild => v | _ => u end = lower_of b u v) by (unfold lower_of; rewrite Eu, Ev; reflexivity).
    rewrite Hc. clear Hc.
    intros k. cbn. destruct (decide (edge_key u v = k)) as [<-|Hne].
    - right; right. rewrite lookup_insert. eexists. split; [reflexivity|]. split; [exact HQ|]. left. apply eq_None_not_Some. exact Hl.
    - rewrite lookup_insert_ne by assumption. unfold edges_without_parents. destruct (is_parent_edge b (lower_of b u v) k) eqn:Ep.
      + right; left. split.
        * apply map_filter_lookup_None. right. intros e _ H. cbn [fst] in H. congruence.
        * split; [exact Hpar|]. exists x. split; [exact Hx|]. cbv zeta. split; [exact Huv|].
          unfold a_key in Eu, Ev. rewrite HN in Eu, Ev. unfold a_known. fold u v.
          destruct (ag_nodes a !! u); [|discriminate]. destruct (ag_nodes a !! v); [|discriminate]. split; [eauto|]. split; [eauto|]. split; [exact Hne|].
          rewrite (is_parent_edge_nodes a b), (lower_of_nodes a b) in Ep by exact HN. exact Ep.
      + left. destruct (ag_edges b !! k) as [e|] eqn:E.
        * apply map_filter_lookup_Some. auto.
        * apply map_filter_lookup_None. auto.
  Qed.
  Lemma am_iedges_ER a b xs : ag_nodes b = ag_nodes a -> ER (replaced a xs) (comes_from f xs) b (fold_left (am_iedge f par) xs b).
  Proof.
    intros HN. refine (proj1 (ER_fold (fun c => ag_nodes c = ag_nodes a) _ _ _ xs _ b HN)). intros c x Hx Hc.
    split; [apply am_iedge_ER1; assumption|]. destruct (am_iedge_nodes f par c x) as (-> & _). exact Hc.
  Qed.
  Lemma am_iedge_links a x : let u := f (e_src (snd x)) in let v := f (e_tgt (snd x)) in
    u <> v -> a_known a u -> a_known a v -> a_linked (am_iedge f par a x) u v.
  Proof.
    intros u v Hne Hu Hv. unfold am_iedge. fold u v. rewrite (proj2 (N.eqb_neq _ _) Hne). destruct par.
    - unfold a_insert_parent_edge, a_key. destruct Hu as [nu ->], Hv as [nv ->]. cbn [fmap option_fmap option_map].
      destruct (decide (a_linked a u v)) as [Hl|Hl]; cbn [snd]; [exact Hl|].
      unfold a_linked; cbn. rewrite lookup_insert. eauto.
    - unfold a_insert_edge. destruct (decide (a_linked a u v)) as [Hl|Hl].
      + rewrite decide_False by tauto. exact Hl.
      + rewrite decide_True by tauto. unfold a_linked; cbn. rewrite lookup_insert. eauto.
  Qed.
  Lemma am_iedges_links xs : forall a x, x ∈ xs -> let u := f (e_src (snd x)) in let v := f (e_tgt (snd x)) in
    u <> v -> a_known a u -> a_known a v -> a_linked (fold_left (am_iedge f par) xs a) u v \/ replaced a xs (edge_key u v).
  Proof.
    induction xs as [|y r IH]; intros a x Hx u v Hne Hu Hv; [inversion Hx|]. cbn [fold_left].
    destruct (am_iedge_nodes f par a y) as (HN & _ & _).
    assert (Hmore : replaced (am_iedge f par a y) r (edge_key u v) -> replaced a (y :: r) (edge_key u v)).
    { intros (Hp & z & Hz & H). cbv zeta in H. split; [exact Hp|]. exists z. split; [right; exact Hz|]. cbv zeta.
      unfold a_known in H |- *. rewrite HN, (lower_of_nodes a), (is_parent_edge_nodes a) in H by exact HN. exact H. }
    apply elem_of_cons in Hx as [->|Hx].
    - pose proof (am_iedge_links a y Hne Hu Hv) as Hl. fold u v in Hl.
      destruct (am_iedges_ER (am_iedge f par a y) (am_iedge f par a y) r eq_refl (edge_key u v)) as [E|[[E HP]|(e & E & _)]].
      + left. unfold a_linked in *. rewrite E. exact Hl.
      + right. apply Hmore, HP.
      + left. unfold a_linked. rewrite E. eauto.
    - destruct (IH (am_iedge f par a y) x Hx) as [H|H]; [exact Hne| | |left; exact H|right; apply Hmore, H]; unfold a_known; rewrite HN; assumption.
  Qed.

  (** The same, for an edge of [xs] that was not there before the loop. *)
  Definition supplanted (a : AGraph) (xs : list (EdgeKey * Edge)) (k : EdgeKey) : Prop :=
    par = true /\ exists x, x ∈ xs /\ let u := f (e_src (snd x)) in let v := f (e_tgt (snd x)) in
      u <> v /\ a_known a u /\ a_known a v /\ edge_key u v <> k /\ is_parent_edge a (lower_of a u v) k = true /\ ~ a_linked a u v.
  Lemma parent_edge_child a c c' k : is_parent_edge a c k = true -> is_parent_edge a c' k = true -> c = c'.
  Proof.
    unfold is_parent_edge. rewrite !andb_true_iff, !bool_decide_eq_true. intros [H1 H2] [H1' H2'].
    destruct (N.eq_dec c c') as [|Hne]; [assumption|]. exfalso.
    assert (Ho : key_other c k = c' /\ key_other c' k = c).
    { unfold key_touches, key_other in *. destruct k as [x y]; cbn [fst snd] in *.
      destruct (N.eqb_spec x c), (N.eqb_spec x c'); subst; intuition congruence. }
    destruct Ho as [Ho1 Ho2]. rewrite Ho1 in H2. rewrite Ho2 in H2'. destruct (a_key a c) as [kc|], (a_key a c') as [kc'|]; try discriminate.
    unfold rel in H2, H2'. destruct (N.ltb_spec (lk_layer kc') (lk_layer kc)); [discriminate|].
    destruct (N.ltb_spec (lk_layer kc) (lk_layer kc')); [|discriminate]. discriminate.
  Qed.
  Lemma lower_parent_edge a u v ku kv : u <> v -> a_key a u = Some ku -> a_key a v = Some kv -> rel ku kv <> RSib ->
    is_parent_edge a (lower_of a u v) (edge_key u v) = true.
  Proof.
    intros Hne Hu Hv Hr. unfold lower_of. rewrite Hu, Hv. unfold is_parent_edge. apply andb_true_iff.
    assert (Hk : forall c, c = u \/ c = v -> key_touches c (edge_key u v) /\ key_other c (edge_key u v) = if N.eqb c u then v else u).
    { intros c Hc. unfold key_touches, key_other. destruct (edge_key u v) as [x y] eqn:E.
      assert (Hxy : (x = u /\ y = v) \/ (x = v /\ y = u)) by (unfold edge_key in E; destruct (N.le_ge_cases u v); [left|right]; injection E; lia).
      cbn [fst snd]. clear E Hu Hv Hr. assert (E1 : (u =? v) = false) by (apply N.eqb_neq; exact Hne). assert (E2 : (v =? u) = false) by (apply N.eqb_neq; auto).
      destruct Hxy as [[-> ->]|[-> ->]], Hc as [->| ->]; rewrite ?N.eqb_refl, ?E1, ?E2; auto. }
    destruct (rel ku kv) eqn:Er.
    - destruct (Hk v) as [K1 K2]; [auto|]. split; [apply bool_decide_eq_true, K1|]. rewrite K2. destruct (N.eqb_spec v u); [congruence|]. rewrite Hv, Hu.
      unfold rel in *. destruct (N.ltb_spec (lk_layer kv) (lk_layer ku)); [|destruct (_ <? _); discriminate].
      destruct (N.ltb_spec (lk_layer ku) (lk_layer kv)); [lia|]. reflexivity.
    - destruct (Hk u) as [K1 K2]; [auto|]. split; [apply bool_decide_eq_true, K1|]. rewrite K2, N.eqb_refl, Hu, Hv, Er. reflexivity.
    - contradiction.
  Qed.
  Definition apart (a : AGraph) (xs : list (EdgeKey * Edge)) : Prop := forall x ku kv, x ∈ xs ->
    a_key a (f (e_src (snd x))) = Some ku -> a_key a (f (e_tgt (snd x))) = Some kv -> rel ku kv <> RSib.
  Lemma am_iedge_ER2 a b xs x : (par = true -> apart a xs) -> ag_nodes b = ag_nodes a -> x ∈ xs -> ER (supplanted a xs) (comes_from f xs) a b ->
    ER (supplanted a xs) (comes_from f xs) a (am_iedge f par b x).
  Proof.
    intros Hap HN Hx HE. pose proof (am_iedge_ER1 a b xs x HN Hx) as H1.
    destruct par eqn:Hpar; [|eapply ER_trans; [exact HE|]; intros k; destruct (H1 k) as [E|[[_ (Hp & _)]|(e & E & HQ & [E0|(Hp & _)])]]; [auto|congruence|right; right; eauto|congruence]].
    specialize (Hap eq_refl). unfold am_iedge in *. set (u := f (e_src (snd x))) in *. set (v := f (e_tgt (snd x))) in *.
    destruct (N.eqb_spec u v) as [Huv|Huv]; [exact HE|].
    assert (HQ : comes_from f xs (edge_key u v) (mkEdge u v (e_info (snd x)))) by (exists x; split; [exact Hx|split; reflexivity]).
    unfold a_insert_parent_edge in *. destruct (a_key b u) as [ku|] eqn:Eu; [|exact HE]. destruct (a_key b v) as [kv|] eqn:Ev; [|exact HE].
    destruct (decide (a_linked b u v)) as [Hl|Hl]; [exact HE|]. clear H1.
    assert (Hc : match rel ku kv with RChild => v | _ => u end = lower_of b u v) by (unfold lower_of; rewrite Eu, Ev; reflexivity).
    rewrite Hc. clear Hc. unfold a_key in Eu, Ev. rewrite HN in Eu, Ev. fold (a_key a u) in Eu. fold (a_key a v) in Ev.
    assert (Hkn : a_known a u /\ a_known a v).
    { unfold a_known. unfold a_key in Eu, Ev. destruct (ag_nodes a !! u); [|discriminate]. destruct (ag_nodes a !! v); [|discriminate]. eauto. }
    intros k. cbn. destruct (decide (edge_key u v = k)) as [<-|Hne].
    - right; right. rewrite lookup_insert. eexists. split; [reflexivity|]. split; [exact HQ|].
      destruct (ag_edges a !! edge_key u v) as [e0|] eqn:E0; [right|left; reflexivity].
      destruct (HE (edge_key u v)) as [E|[[_ HP]|(e & E & _)]]; [|exact HP|]; exfalso; apply Hl; unfold a_linked; rewrite E; eauto.
    - rewrite lookup_insert_ne by assumption. unfold edges_without_parents. destruct (is_parent_edge b (lower_of b u v) k) eqn:Ep.
      + assert (Hn : filter (fun kv0 : EdgeKey * Edge => is_parent_edge b (lower_of b u v) kv0.1 = false) (ag_edges b) !! k = None).
        { apply map_filter_lookup_None. right. intros e _ H. cbn [fst] in H. congruence. }
        rewrite Hn. destruct (ag_edges a !! k) as [e0|] eqn:E0; [|left; reflexivity]. right; left. split; [reflexivity|].
        rewrite (is_parent_edge_nodes a b), (lower_of_nodes a b) in Ep by exact HN.
        destruct (decide (a_linked a u v)) as [Hla|Hla].
        * destruct (HE (edge_key u v)) as [E|[[_ HP]|(e & E & _)]]; [exfalso; apply Hl; unfold a_linked; rewrite E; exact Hla| |exfalso; apply Hl; unfold a_linked; rewrite E; eauto].
          destruct HP as (_ & z & Hz & Z1 & Z2 & Z3 & Z4 & Z5 & Z6). split; [exact Hpar|]. exists z. split; [exact Hz|]. cbv zeta.
          split; [exact Z1|]. split; [exact Z2|]. split; [exact Z3|]. split; [intros Heq; apply Z6; unfold a_linked; rewrite Heq, E0; eauto|]. split; [|exact Z6].
          assert (Hcc : lower_of a (f (e_src z.2)) (f (e_tgt z.2)) = lower_of a u v).
          { eapply parent_edge_child; [exact Z5|]. eapply lower_parent_edge; [exact Huv|exact Eu|exact Ev|exact (Hap x ku kv Hx Eu Ev)]. }
          rewrite Hcc. exact Ep.
        * split; [exact Hpar|]. exists x. split; [exact Hx|]. cbv zeta. fold u v. tauto.
      + assert (Hn : filter (fun kv0 : EdgeKey * Edge => is_parent_edge b (lower_of b u v) kv0.1 = false) (ag_edges b) !! k = ag_edges b !! k).
        { destruct (ag_edges b !! k) as [e|] eqn:E; [apply map_filter_lookup_Some; auto|apply map_filter_lookup_None; auto]. }
        rewrite Hn. apply HE.
  Qed.
  Lemma am_iedges_ER2 a xs : (par = true -> apart a xs) -> ER (supplanted a xs) (comes_from f xs) a (fold_left (am_iedge f par) xs a).
  Proof.
    intros Hap. assert (H : forall ys b, (forall y, y ∈ ys -> y ∈ xs) -> ag_nodes b = ag_nodes a -> ER (supplanted a xs) (comes_from f xs) a b ->
      ER (supplanted a xs) (comes_from f xs) a (fold_left (am_iedge f par) ys b)).
    { induction ys as [|y r IH]; intros b Hin HN HE; cbn [fold_left]; [exact HE|]. apply IH.
      - intros z Hz. apply Hin. right. exact Hz.
      - destruct (am_iedge_nodes f par b y) as (-> & _). exact HN.
      - apply am_iedge_ER2; auto. apply Hin. left. }
    apply H; auto. apply ER_same. reflexivity.
  Qed.
End InterEff.
