(** The effect of the entries of a message on nodes and edges. *)
From Coq Require Import NArith ZArith Bool List Lia.
From stdpp Require Import base list gmap fin_maps tactics.
From Verif.Model Require Import Types Mesh Attrs Node EdgeContainer SLayer DLayer Graph Binary AttrCodec GraphCodec.
From Verif.Spec Require Import BinarySpec AbstractGraph GraphHistory GraphObs MessageSpec.
From Verif.Proof Require Import Arith Keys GraphRep GraphEdges GraphAttrs GraphNodes GraphRemove GraphSim GraphObsP StaleP StaleP2 CloneP GraphMesh GraphCodecP TransferP MessageP.
Local Open Scope N_scope.
#[local] Arguments edge_key : simpl never.

Lemma node_result_snoc old l k t a : node_result old (l ++ [(k, t, a)]) =
  Some (match node_result old l with Some (k', t', _) => (k', t', a) | None => (k, t, a) end).
Proof.
  unfold node_result. rewrite last_snoc. destruct old as [[[ko to] ao]|]; [destruct (list.last l) as [d|]; [destruct d as [[? ?] ?]|]; reflexivity|].
  destruct l as [|[[k0 t0] a0] r]; [reflexivity|]. cbn [app head]. destruct (list.last ((k0, t0, a0) :: r)) as [[[? ?] ?]|] eqn:E; [reflexivity|].
  apply last_None in E. discriminate.
Qed.
Lemma node_result_from old l k t a : node_result old l = Some (k, t, a) -> (exists a', old = Some (k, t, a')) \/ exists a', (k, t, a') ∈ l.
Proof.
  unfold node_result. destruct (list.last l) as [[[k1 t1] a1]|]; [|intros ->; eauto]. destruct old as [[[ko to] ao]|]; cbn.
  - intros [= <- <- <-]. eauto.
  - destruct l as [|[[k0 t0] a0] r]; cbn; [discriminate|]. intros [= <- <- <-]. right. exists a0. left.
Qed.
Lemma about_snoc ids x l r : about ids x (l ++ [r]) = about ids x l ++
  (if decide (nr_id r = x /\ nr_layer r ∈ ids) then match nr_attrs r with Some a => [(place r, nr_time r, a)] | None => [] end else []).
Proof.
  unfold about. rewrite omap_app. f_equal. cbn [omap list_omap]. destruct (decide _); [|reflexivity]. destruct (nr_attrs r); reflexivity.
Qed.
Lemma about_in ids x l k t a : (k, t, a) ∈ about ids x l -> exists r, r ∈ l /\ nr_id r = x /\ accepted ids r /\ place r = k /\ nr_time r = t.
Proof.
  unfold about. rewrite elem_of_list_omap. intros (r & Hr & E). destruct (decide _) as [[H1 H2]|]; [|discriminate]. destruct (nr_attrs r) as [b|] eqn:Eb; [|discriminate].
  cbn in E. injection E as <- <- <-. exists r. unfold accepted. rewrite Eb. eauto 10.
Qed.

Section Nodes.
  Context (g : Graph) (b0 : AGraph) (HL0 : RepL g b0) (ids : list N) (ns : list NodeRec).
  Hypothesis (Ht : times_ok g ids ns) (H64 : forall r, r ∈ ns -> nr_id r < 2 ^ 64).

  Definition nodes_so_far (done : list NodeRec) (b : AGraph) : Prop :=
    (forall x, an_data <$> ag_nodes b !! x = node_result (an_data <$> ag_nodes b0 !! x) (about ids x done)) /\ ag_edges b = ag_edges b0.

  Lemma nodes_step s0 r done c b : r ∈ ns -> (forall x, x ∈ done -> x ∈ ns) -> CInv c b -> nodes_so_far done b -> g_layer_ids c = ids ->
    exists c' b', add_node (c, s0 ∖ list_to_set (map nr_id done)) r = Ok (c', s0 ∖ list_to_set (map nr_id (done ++ [r]))) /\
      CInv c' b' /\ nodes_so_far (done ++ [r]) b' /\ g_layer_ids c' = ids /\ g_mesh c' = g_mesh c.
  Proof using HL0 Ht H64.
    intros Hin Hdone HC [HN HE] Hi.
    assert (Hset : s0 ∖ list_to_set (map nr_id done) ∖ {[nr_id r]} = s0 ∖ list_to_set (map nr_id (done ++ [r])))
      by (rewrite map_app, list_to_set_app_L; cbn; set_solver).
    assert (Hsame : about ids (nr_id r) (done ++ [r]) = about ids (nr_id r) done -> nodes_so_far (done ++ [r]) b).
    { intros E. split; [|exact HE]. intros x. rewrite HN. destruct (decide (nr_id r = x)) as [<-|Hne]; [rewrite E; reflexivity|].
      rewrite about_snoc, decide_False by tauto. rewrite app_nil_r. reflexivity. }
    unfold add_node. cbn [fst snd]. destruct (nr_attrs r) as [a|] eqn:Ea.
    2:{ exists c, b. rewrite Hset. split; [reflexivity|]. split; [exact HC|]. split; [|auto]. apply Hsame. rewrite about_snoc, Ea. destruct (decide _); apply app_nil_r. }
    pose proof (proj1 (proj1 HC)) as HRc. pose proof (proj2 (proj1 HC)) as HI.
    destruct (decide (nr_layer r ∈ ids)) as [Hl|Hl].
    2:{ assert (E : g_layers c !! nr_layer r = None).
        { apply eq_None_not_Some. intros Hs. apply Hl. apply (rp_layers _ _ HRc) in Hs. rewrite HI, Hi in Hs. apply elem_of_list_to_set in Hs. exact Hs. }
        assert (E2 : g_add_or_update_node c (nr_layer r) (nr_id r) a (nr_time r) = Ok (false, c)).
        { unfold g_add_or_update_node. match goal with |- match ?z with _ => _ end = _ => replace z with (@None SLayer) by (symmetry; exact E) end. reflexivity. }
        rewrite E2. cbn [rbind]. exists c, b. rewrite Hset. split; [reflexivity|]. split; [exact HC|]. split; [|auto].
        apply Hsame. rewrite about_snoc, decide_False by tauto. apply app_nil_r. }
    assert (Hlay : nr_layer r ∈ ag_layers b) by (rewrite HI, Hi; apply elem_of_list_to_set, Hl).
    assert (Hacc : accepted ids r) by (split; [exact Hl|rewrite Ea; eauto]).
    assert (Ha : allowed c (GAddOrUpdateNode (nr_layer r) (nr_id r) a (nr_time r))).
    { cbn. destruct (nr_time r) as [t|] eqn:Et; [|exact I]. unfold prev_args. destruct (ag_nodes b !! nr_id r) as [m|] eqn:Ex; [left; apply (obs_known c b HRc); unfold a_known; eauto|right].
      destruct (proj1 Ht r t Hin Hacc Et) as (D1 & D2). pose proof (fun y a => proj2 Ht r t y a Hin Hacc Et) as D3. split; [apply H64, Hin|]. split; [exact D1|]. intros y aty Hy. rewrite (obs_data c b HRc), HN in Hy.
      assert (Hp : place r = key_dynamic (nr_layer r) (prefix_from_id (nr_id r))) by (unfold place; rewrite Et; reflexivity). rewrite <- Hp in Hy.
      assert (y = nr_id r) as ->.
      { apply node_result_from in Hy as [[a' Hy]|[a' Hy]].
        - apply (D3 y a'). rewrite (obs_data g b0 (proj1 HL0)). exact Hy.
        - apply about_in in Hy as (s & Hs & <- & As & Ps & Ts). apply (D2 s); auto. }
      rewrite <- HN, Ex in Hy. discriminate. }
    pose proof (CInv_step c b _ HC Ha) as Hs. pose proof (step_mesh c (GAddOrUpdateNode (nr_layer r) (nr_id r) a (nr_time r)) ltac:(discriminate) ltac:(discriminate)) as Hm.
    cbn [g_step a_step] in Hs, Hm. destruct (g_add_or_update_node c (nr_layer r) (nr_id r) a (nr_time r)) as [[q c1]| |]; [|cbn in Hs; discriminate|contradiction].
    destruct Hs as (_ & HC1 & Hi1). cbn [rbind]. unfold keepm in Hm. cbn in Hm.
    pose proof (add_update_nodes b (nr_layer r) (nr_id r) a (nr_time r) Hlay) as (E1 & E2 & E3). cbn [ab snd] in HC1. set (b1 := snd (a_add_or_update_node b (nr_layer r) (nr_id r) a (nr_time r))) in *.
    exists c1, b1. rewrite Hset. split; [reflexivity|]. split; [exact HC1|]. split; [|split; congruence]. split; [|congruence].
    intros x. rewrite E3. destruct (decide (nr_id r = x)) as [<-|Hne].
    - rewrite lookup_insert. rewrite about_snoc, decide_True, Ea by auto. rewrite node_result_snoc, <- HN. cbn [fmap option_fmap option_map].
      destruct (ag_nodes b !! nr_id r) as [m|]; cbn; unfold an_data; cbn; [reflexivity|]. unfold place. destruct (nr_time r); reflexivity.
    - rewrite lookup_insert_ne by congruence. rewrite HN, about_snoc, decide_False by tauto. rewrite app_nil_r. reflexivity.
  Qed.
  Lemma nodes_all s0 rest : forall done c b, (forall x, x ∈ rest -> x ∈ ns) -> (forall x, x ∈ done -> x ∈ ns) -> CInv c b -> nodes_so_far done b -> g_layer_ids c = ids ->
    exists c' b', rfold add_node rest (c, s0 ∖ list_to_set (map nr_id done)) = Ok (c', s0 ∖ list_to_set (map nr_id (done ++ rest))) /\
      CInv c' b' /\ nodes_so_far (done ++ rest) b' /\ g_layer_ids c' = ids /\ g_mesh c' = g_mesh c.
  Proof using HL0 Ht H64.
    induction rest as [|r rest IH]; intros done c b Hr Hd HC HN Hi.
    - exists c, b. rewrite app_nil_r. cbn. auto.
    - destruct (nodes_step s0 r done c b (Hr r (elem_of_list_here _ _)) Hd HC HN Hi) as (c1 & b1 & E1 & HC1 & HN1 & Hi1 & Hm1).
      destruct (IH (done ++ [r]) c1 b1) as (c2 & b2 & E2 & HC2 & HN2 & Hi2 & Hm2); auto.
      { intros x Hx. apply Hr. right. exact Hx. }
      { intros x Hx. apply elem_of_app in Hx as [Hx|Hx]; [auto|]. apply elem_of_list_singleton in Hx as ->. apply Hr. left. }
      exists c2, b2. cbn [rfold]. rewrite E1. cbn [rbind]. rewrite E2, <- app_assoc in *. cbn [app] in *. split; [reflexivity|]. split; [exact HC2|]. split; [exact HN2|]. split; [exact Hi2|]. congruence.
  Qed.
End Nodes.

(* ---------------------------------------------------------------- *)
#[local] Instance links_dec u v r : Decision (links u v r). Proof. unfold links. apply _. Defined.
Lemma last_about_snoc u v l r x : last_about u v (l ++ [r]) x <-> (links u v r /\ x = r) \/ (~ links u v r /\ last_about u v l x).
Proof.
  unfold last_about. split.
  - intros (a & b & E & H1 & H2). destruct b as [|r' b' _] using rev_ind.
    + apply app_inj_tail in E as [-> ->]. auto.
    + right. rewrite app_comm_cons, app_assoc in E. apply app_inj_tail in E as [-> ->]. apply List.Forall_app in H2 as [H2 H3]. inversion H3; subst. split; [assumption|]. eauto 10.
  - intros [[H ->]|(H & a & b & -> & H1 & H2)].
    + exists l, []. split; [reflexivity|]. split; [exact H|constructor].
    + exists a, (b ++ [r]). split; [rewrite <- app_assoc; reflexivity|]. split; [exact H1|]. apply List.Forall_app. split; [exact H2|]. constructor; [exact H|constructor].
Qed.
Lemma first_about_snoc u v l r x : first_about u v (l ++ [r]) x <-> first_about u v l x \/ ((forall y, y ∈ l -> ~ links u v y) /\ links u v r /\ x = r).
Proof.
  unfold first_about. split.
  - intros (a & b & E & H1 & H2). destruct b as [|r' b' _] using rev_ind.
    + apply app_inj_tail in E as [-> ->]. right. split; [|auto]. intros y Hy. rewrite List.Forall_forall in H2. apply H2, elem_of_list_In, Hy.
    + left. rewrite app_comm_cons, app_assoc in E. apply app_inj_tail in E as [-> ->]. eauto 10.
  - intros [(a & b & -> & H1 & H2)|(H & H1 & ->)].
    + exists a, (b ++ [r]). split; [rewrite <- app_assoc; reflexivity|]. auto.
    + exists l, []. split; [reflexivity|]. split; [exact H1|]. apply List.Forall_forall. intros y Hy. apply H, elem_of_list_In, Hy.
Qed.
Lemma last_about_in u v l x : last_about u v l x -> x ∈ l /\ links u v x.
Proof. intros (a & b & -> & H & _). split; [|exact H]. apply elem_of_app. right. left. Qed.
Lemma last_about_some u v l : (exists r, r ∈ l /\ links u v r) -> exists r, last_about u v l r.
Proof.
  induction l as [|x l IH] using rev_ind; intros (r & Hr & H); [inversion Hr|]. destruct (decide (links u v x)) as [Hx|Hx].
  - exists x. apply last_about_snoc. auto.
  - apply elem_of_app in Hr as [Hr|Hr].
    + destruct IH as [y Hy]; [eauto|]. exists y. apply last_about_snoc. auto.
    + apply elem_of_list_singleton in Hr as ->. contradiction.
Qed.
Lemma links_key u v r : links u v r <-> edge_key u v = edge_key (er_src r) (er_tgt r).
Proof. unfold links, same_pair. rewrite edge_key_inj. reflexivity. Qed.

Definition rop (r : EdgeRec) : gop :=
  match er_attrs r with Some a => GAddOrUpdateEdge (er_src r) (er_tgt r) a | None => GInsertEdge (er_src r) (er_tgt r) None end.
Definition a_can (b : AGraph) (u v : N) : Prop := u <> v /\ a_known b u /\ a_known b v.
#[local] Instance a_can_dec b u v : Decision (a_can b u v). Proof. unfold a_can. apply _. Defined.
Lemma any_link u v (l : list EdgeRec) : (exists r, r ∈ l /\ links u v r) \/ ~ (exists r, r ∈ l /\ links u v r).
Proof.
  destruct (decide (Exists (links u v) l)) as [H|H]; [left|right]; [apply List.Exists_exists in H as (r & Hr & Hl); exists r; split; [apply elem_of_list_In, Hr|exact Hl]|].
  intros (r & Hr & Hl). apply H, List.Exists_exists. exists r. split; [apply elem_of_list_In, Hr|exact Hl].
Qed.
Lemma linked_can c b u v : Rep c b -> a_linked b u v -> a_can b u v.
Proof.
  intros HR Hl. destruct (Rep_linked_known _ _ _ _ HR Hl) as (Hne & ku & kv & Hu & Hv). rewrite (rp_lookup _ _ HR) in Hu, Hv.
  unfold a_can, a_known, a_key in *. destruct (ag_nodes b !! u); [|discriminate]. destruct (ag_nodes b !! v); [|discriminate]. eauto.
Qed.

Lemma edge_round c b r : CInv c b ->
  match add_edge c r with
  | Throw => False
  | UB => er_attrs r = None
  | Ok c' => let b' := snd (a_step b (rop r)) in
      (exists o, g_step c (rop r) = Ok (o, c')) /\ allowed c (rop r) /\ CInv c' b' /\ ag_nodes b' = ag_nodes b /\ g_layer_ids c' = g_layer_ids c /\ g_mesh c' = g_mesh c /\
      (a_linked b (er_src r) (er_tgt r) -> is_Some (er_attrs r)) /\
      (~ a_can b (er_src r) (er_tgt r) -> ag_edges b' = ag_edges b) /\
      (a_can b (er_src r) (er_tgt r) -> ag_edges b' = <[edge_key (er_src r) (er_tgt r) :=
        match ag_edges b !! edge_key (er_src r) (er_tgt r) with
        | Some e => mkEdge (e_src e) (e_tgt e) (default ea_default (er_attrs r))
        | None => mkEdge (er_src r) (er_tgt r) (default ea_default (er_attrs r)) end]> (ag_edges b))
  end.
Proof.
  intros HC. pose proof (proj1 (proj1 HC)) as HR.
  assert (Hal : allowed c (rop r)) by (unfold rop; destruct (er_attrs r); exact I).
  pose proof (CInv_step c b (rop r) HC Hal) as Hs. pose proof (step_mesh c (rop r)) as Hm.
  assert (Hm' : keepm c (g_step c (rop r)) snd) by (apply Hm; unfold rop; destruct (er_attrs r); discriminate). clear Hm.
  unfold add_edge, rop in *. destruct (er_attrs r) as [a|] eqn:Ea.
  - cbn [g_step] in Hs, Hm'. cbn [a_step] in *. destruct (g_add_or_update_edge c (er_src r) (er_tgt r) a) as [[o c']| |] eqn:Es; cbn [rbind].
    + destruct Hs as (_ & HC' & Hi). unfold keepm in Hm'. cbn in Hm'. cbv zeta. split; [exists o; exact Es|]. split; [exact I|]. split; [exact HC'|].
      clear HC'. unfold a_add_or_update_edge. destruct (decide (a_linked b (er_src r) (er_tgt r))) as [Hl|Hl].
      * pose proof (linked_can _ _ _ _ HR Hl) as Hcan. unfold a_set_edge_attrs. rewrite decide_True by (split; apply Hcan). destruct Hl as [e0 He0]. rewrite He0. cbn.
        split; [reflexivity|]. split; [exact Hi|]. split; [exact Hm'|]. split; [eauto|]. split; [intros H; exfalso; exact (H Hcan)|]. reflexivity.
      * unfold a_insert_edge. destruct (decide _) as [Hd|Hd]; cbn.
        -- split; [reflexivity|]. split; [exact Hi|]. split; [exact Hm'|]. split; [eauto|]. split; [intros H; exfalso; apply H; unfold a_can; tauto|].
           intros _. assert (E : ag_edges b !! edge_key (er_src r) (er_tgt r) = None) by (apply eq_None_not_Some; exact Hl). rewrite E. reflexivity.
        -- split; [reflexivity|]. split; [exact Hi|]. split; [exact Hm'|]. split; [eauto|]. split; [reflexivity|]. intros [H1 [H2 H3]]. exfalso. apply Hd. auto.
    + cbn in Hs. unfold a_add_or_update_edge in Hs. destruct (decide (a_linked b (er_src r) (er_tgt r))) as [Hl|Hl].
      * pose proof (linked_can _ _ _ _ HR Hl) as Hcan. unfold a_set_edge_attrs in Hs. rewrite decide_True in Hs by (split; apply Hcan). destruct Hl as [e0 He0]. rewrite He0 in Hs. discriminate.
      * destruct (a_insert_edge b (er_src r) (er_tgt r) (Some a)). discriminate.
    + contradiction.
  - rewrite (obs_has_edge c b HR). cbn [rbind]. destruct (bool_decide_reflect (a_linked b (er_src r) (er_tgt r))) as [Hl|Hl]; [reflexivity|].
    cbn [g_step] in Hs, Hm'. cbn [a_step] in *. destruct (g_insert_edge c (er_src r) (er_tgt r) None) as [[o c']| |] eqn:Es; cbn [rbind].
    + destruct Hs as (_ & HC' & Hi). unfold keepm in Hm'. cbn in Hm'. cbv zeta. split; [exists o; exact Es|]. split; [exact I|]. split; [exact HC'|].
      clear HC'. unfold a_insert_edge. destruct (decide _) as [Hd|Hd]; cbn.
      * split; [reflexivity|]. split; [exact Hi|]. split; [exact Hm'|]. split; [contradiction|]. split; [intros H; exfalso; apply H; unfold a_can; tauto|].
        intros _. assert (E : ag_edges b !! edge_key (er_src r) (er_tgt r) = None) by (apply eq_None_not_Some; exact Hl). rewrite E. reflexivity.
      * split; [reflexivity|]. split; [exact Hi|]. split; [exact Hm'|]. split; [contradiction|]. split; [reflexivity|]. intros [H1 [H2 H3]]. exfalso. apply Hd. auto.
    + cbn in Hs. discriminate.
    + reflexivity.
Qed.

Definition edges_so_far (b0 : AGraph) (done : list EdgeRec) (b : AGraph) : Prop := forall u v,
  ((forall r, r ∈ done -> ~ links u v r) \/ ~ a_can b0 u v -> ag_edges b !! edge_key u v = ag_edges b0 !! edge_key u v) /\
  (forall r, a_can b0 u v -> last_about u v done r -> exists e, ag_edges b !! edge_key u v = Some e /\ e_info e = default ea_default (er_attrs r) /\
     (ag_edges b0 !! edge_key u v = None -> forall f, first_about u v done f -> e_src e = er_src f /\ e_tgt e = er_tgt f)).
Lemma can_links b u v r : links u v r -> a_can b u v <-> a_can b (er_src r) (er_tgt r).
Proof. unfold a_can. intros [[-> ->]|[-> ->]]; intuition congruence. Qed.

Lemma edges_so_far_step b0 done b b' r : ag_nodes b = ag_nodes b0 -> edges_so_far b0 done b ->
  (~ a_can b (er_src r) (er_tgt r) -> ag_edges b' = ag_edges b) ->
  (a_can b (er_src r) (er_tgt r) -> ag_edges b' = <[edge_key (er_src r) (er_tgt r) :=
     match ag_edges b !! edge_key (er_src r) (er_tgt r) with
     | Some e => mkEdge (e_src e) (e_tgt e) (default ea_default (er_attrs r))
     | None => mkEdge (er_src r) (er_tgt r) (default ea_default (er_attrs r)) end]> (ag_edges b)) ->
  edges_so_far b0 (done ++ [r]) b'.
Proof.
  intros Hn HQ H1 H2 u v. assert (Hcan : forall x y, a_can b x y <-> a_can b0 x y) by (intros; unfold a_can, a_known; rewrite Hn; reflexivity).
  destruct (HQ u v) as [Q1 Q2].
  assert (Hskip : ~ links u v r \/ ~ a_can b0 u v -> ag_edges b' !! edge_key u v = ag_edges b !! edge_key u v).
  { intros Hor. destruct (decide (a_can b (er_src r) (er_tgt r))) as [Hc|Hc]; [|rewrite (H1 Hc); reflexivity]. rewrite (H2 Hc).
    apply lookup_insert_ne. intros E. symmetry in E. apply links_key in E. destruct Hor as [Hor|Hor]; [contradiction|]. apply Hor. apply (can_links b0 u v r E), Hcan, Hc. }
  split.
  - intros Hor. rewrite Hskip.
    + apply Q1. destruct Hor as [Hor|Hor]; [left|right; exact Hor]. intros x Hx. apply Hor, elem_of_app. auto.
    + destruct Hor as [Hor|Hor]; [left|right; exact Hor]. apply Hor, elem_of_app. right. left.
  - intros x Hc Hx. apply last_about_snoc in Hx as [[Hl ->]|[Hl Hx]].
    + rewrite H2 by (apply Hcan, (can_links b0 u v r Hl), Hc). pose proof (proj1 (links_key u v r) Hl) as E. rewrite <- E, lookup_insert.
      eexists. split; [reflexivity|]. destruct (any_link u v done) as [Hex|Hex].
      * destruct (last_about_some u v done Hex) as [z Hz]. destruct (Q2 z Hc Hz) as (e & He & Hi & Hd). rewrite He. cbn. split; [reflexivity|].
        intros Hb f Hf. apply first_about_snoc in Hf as [Hf|(Hf & _ & _)]; [exact (Hd Hb f Hf)|]. exfalso. destruct Hex as (s & Hs & Hls). exact (Hf s Hs Hls).
      * rewrite Q1 by (left; intros s Hs Hls; apply Hex; eauto). split; [destruct (ag_edges b0 !! edge_key u v); reflexivity|].
        intros Hb f Hf. rewrite Hb. cbn. apply first_about_snoc in Hf as [Hf|(Hf & _ & ->)]; [|auto]. exfalso. apply Hex. destruct Hf as (a & bb & -> & Hlf & _). exists f. split; [|exact Hlf]. apply elem_of_app. right. left.
    + rewrite (Hskip (or_introl Hl)). destruct (Q2 x Hc Hx) as (e & He & Hi & Hd). exists e. split; [exact He|]. split; [exact Hi|].
      intros Hb f Hf. apply first_about_snoc in Hf as [Hf|(_ & Hf & _)]; [exact (Hd Hb f Hf)|contradiction].
Qed.

Lemma edges_all b0 rest : forall done c b, CInv c b -> ag_nodes b = ag_nodes b0 -> edges_so_far b0 done b ->
  match rfold add_edge rest c with
  | Throw => False
  | UB => exists r, r ∈ rest /\ er_attrs r = None
  | Ok c' => exists b' outs, g_run c (map rop rest) = Some (outs, c') /\ CInv c' b' /\ ag_nodes b' = ag_nodes b0 /\ edges_so_far b0 (done ++ rest) b' /\
      allowed_run c (map rop rest) /\
      (forall u v, adjacent c u v -> always_adjacent c (map rop rest) u v /\ ((exists r, r ∈ rest /\ links u v r) -> exists o, In o (map rop rest) /\ looks_up o u v)) /\
      g_layer_ids c' = g_layer_ids c /\ g_mesh c' = g_mesh c
  end.
Proof.
  induction rest as [|r rest IH]; intros done c b HC Hn HQ.
  - cbn. exists b, []. rewrite app_nil_r. split; [reflexivity|]. split; [exact HC|]. split; [exact Hn|]. split; [exact HQ|]. split; [exact I|]. split; [|auto].
    intros u v H. split; [auto|]. intros (r & Hr & _). inversion Hr.
  - cbn [rfold map]. pose proof (edge_round c b r HC) as Hr. destruct (add_edge c r) as [c1| |] eqn:Es; cbn [rbind]; [|contradiction|exists r; split; [left|exact Hr]].
    cbv zeta in Hr. destruct Hr as ((o & Ho) & Ha & HC1 & Hn1 & Hi1 & Hm1 & Hat & HE1 & HE2). set (b1 := snd (a_step b (rop r))) in *.
    assert (HQ1 : edges_so_far b0 (done ++ [r]) b1) by (eapply edges_so_far_step; eassumption).
    specialize (IH (done ++ [r]) c1 b1 HC1 (eq_trans Hn1 Hn) HQ1). destruct (rfold add_edge rest c1) as [c'| |].
    + destruct IH as (b' & outs & G1 & G2 & G3 & G4 & G5 & G6 & G7 & G8). exists b', (ABool o :: outs). cbn [g_run]. rewrite Ho. cbn [step_graph step_out]. rewrite G1. split; [reflexivity|].
      split; [exact G2|]. split; [exact G3|]. rewrite <- app_assoc in G4. split; [exact G4|]. split; [cbn [allowed_run]; rewrite Ho; cbn; auto|]. split; [|split; congruence].
      intros u v Hadj. pose proof (proj1 (proj1 HC)) as HR. pose proof (proj1 (proj1 HC1)) as HR1.
      assert (Hadj1 : adjacent c1 u v).
      { apply (obs_adjacent c1 b1 HR1). apply (obs_adjacent c b HR) in Hadj. unfold a_linked in *.
        destruct (decide (a_can b (er_src r) (er_tgt r))) as [Hc|Hc]; [rewrite (HE2 Hc)|rewrite (HE1 Hc); exact Hadj].
        destruct (decide (edge_key (er_src r) (er_tgt r) = edge_key u v)) as [->|Hk]; [rewrite lookup_insert; eauto|rewrite lookup_insert_ne by exact Hk; exact Hadj]. }
      destruct (G6 u v Hadj1) as [A1 A2]. split; [cbn [always_adjacent]; rewrite Ho; cbn [step_graph]; auto|].
      intros (x & Hx & Hl). apply elem_of_cons in Hx as [->|Hx].
      * exists (rop r). split; [left; reflexivity|]. destruct Hat as [a Hat'].
        { apply (obs_adjacent c b HR) in Hadj. unfold a_linked in *. rewrite <- (proj1 (links_key u v r) Hl). exact Hadj. }
        unfold rop. rewrite Hat'. cbn. destruct Hl as [[-> ->]|[-> ->]]; unfold same_pair; auto.
      * destruct A2 as (o' & Ho' & Hlo); [eauto|]. exists o'. split; [right; exact Ho'|exact Hlo].
    + exact IH.
    + destruct IH as (x & Hx & Hn'). exists x. split; [right; exact Hx|exact Hn'].
Qed.

Lemma sweep_ids g g' : g_remove_all_stale g = Ok g' -> g_layer_ids g' = g_layer_ids g.
Proof.
  intros E5. unfold g_remove_all_stale in E5.
  assert (Hk : forall ks g g', g_remove_stale g ks = Ok g' -> g_layer_ids g' = g_layer_ids g).
  { clear. intros ks. unfold g_remove_stale. induction ks as [|k r IH]; intros g g'; cbn; [congruence|].
    pose proof (step_ids g (GRemoveEdge (fst k) (snd k))) as Hi. cbn [g_step] in Hi. destruct (g_remove_edge g _ _) as [[? g1]| |]; cbn; [|discriminate..].
    intros H. apply IH in H. cbn in Hi. congruence. }
  repeat match type of E5 with rbind ?r _ = _ => destruct r eqn:?; [cbn [rbind] in E5|discriminate..] end.
  repeat match goal with H : g_remove_stale _ _ = Ok _ |- _ => apply Hk in H end. congruence.
Qed.

Theorem applied_ok m g : reachable g -> times_ok g (g_layer_ids g) (mg_nodes m) -> gone_ok g (mg_nodes m) ->
  (forall r, r ∈ mg_nodes m -> nr_id r < 2 ^ 64) ->
  match applied m g with
  | Throw => False
  | UB => exists r, r ∈ mg_edges m /\ er_attrs r = None
  | Ok g' => reachable g' /\ g_layer_ids g' = g_layer_ids g /\ nodes_after g (g_layer_ids g) (mg_nodes m) g' /\ edges_after (mg_edges m) g' /\
      ((forall x, g_has_node g x = false) -> directions (mg_edges m) g') /\
      g_mesh g' = match mg_mesh m with Some mesh => Some mesh | None => g_mesh g end
  end.
Proof.
  intros Hrg Ht Hg H64. destruct (reachable_RepL g Hrg) as [b0 HL0]. pose proof (proj1 HL0) as HR0. set (ns := mg_nodes m) in *. set (es := mg_edges m) in *. set (ids := g_layer_ids g) in *.
  unfold applied. fold ns es.
  destruct (nodes_all g b0 HL0 ids ns Ht H64 (dom (g_lookup g)) ns [] g b0) as (c1 & b1 & E1 & HC1 & [N1 Ed1] & I1 & M1).
  { auto. } { intros x Hx. inversion Hx. } { split; assumption. } { split; [|reflexivity]. intros x. reflexivity. } { reflexivity. }
  cbn [map list_to_set app] in E1. rewrite difference_empty_L in E1. rewrite E1. cbn [rbind fst snd]. cbn [app] in N1.
  set (D := (list_to_set (map nr_id ns) : gset N)) in *.
  assert (HD : forall x, x ∈ D <-> x ∈ map nr_id ns) by (intros; unfold D; apply elem_of_list_to_set).
  assert (Hgone : forall x, x ∈ elements (dom (g_lookup g) ∖ D) <-> a_known b0 x /\ x ∉ map nr_id ns).
  { intros x. rewrite elem_of_elements, elem_of_difference, HD, elem_of_dom, (rp_lookup _ _ HR0). unfold a_key, a_known. rewrite fmap_is_Some. tauto. }
  assert (K1 : forall x k, a_key b1 x = Some k -> a_known b0 x -> a_key b0 x = Some k).
  { intros x k Hk [n Hn]. unfold a_key in *. pose proof (N1 x) as Nx. rewrite Hn in *. destruct (ag_nodes b1 !! x) as [n1|]; [|discriminate]. cbn in *. injection Hk as <-.
    unfold node_result in Nx. destruct (list.last (about ids x ns)) as [[[? ?] ?]|]; cbn in Nx; unfold an_data in Nx; congruence. }
  destruct (remove_phase b1 (elements (dom (g_lookup g) ∖ D)) c1 b1 HC1) as (c3 & b3 & E3 & HC3 & N3 & I3 & M3).
  { intros x Hx. apply Hgone in Hx as [Hx1 Hx2].
    assert (Hnf : no_cross_sibling b0 x) by (apply (no_foreign_cross g b0 HR0), Hg; [apply (obs_known g b0 HR0), Hx1|exact Hx2]).
    intros v k kv Hl Hk Hkv Hrel. assert (Hl0 : a_linked b0 x v) by (unfold a_linked in *; congruence).
    destruct (linked_can _ _ _ _ HR0 Hl0) as (_ & _ & Hv0).
    apply (Hnf v k kv Hl0); [|apply K1; auto|exact Hrel]. apply K1; auto. }
  { auto. } { auto. }
  change (rfold drop_node (elements (dom (g_lookup g) ∖ D)) c1) with (rfold rstep (elements (dom (g_lookup g) ∖ D)) c1). rewrite E3. cbn [rbind].
  assert (HCm : CInv (g_mark_stale c3) b3) by (apply (CInv_step c3 b3 GMarkStale HC3 I)).
  pose proof (edges_all b3 es [] (g_mark_stale c3) b3 HCm eq_refl) as HE.
  destruct (rfold add_edge es (g_mark_stale c3)) as [c4| |] eqn:E4; cbn [rbind].
  2:{ apply HE. intros u v. split; [reflexivity|]. intros r _ H. apply last_about_in in H as [H _]. inversion H. }
  2:{ apply HE. intros u v. split; [reflexivity|]. intros r _ H. apply last_about_in in H as [H _]. inversion H. }
  destruct HE as (b4 & outs & R4 & HC4 & N4 & D4 & A4 & Adj4 & I4 & M4).
  { intros u v. split; [reflexivity|]. intros r _ H. apply last_about_in in H as [H _]. inversion H. }
  cbn [app] in D4.
  destruct (stale_sweep c3 (map rop es) outs c4 (proj2 HC3) A4) as (c5 & E5 & Hr5 & SN5 & SE5).
  { apply List.Forall_forall. intros o Ho. apply in_map_iff in Ho as (e & <- & _). unfold rop. destruct (er_attrs e); discriminate. }
  { exact R4. }
  rewrite E5. cbn [rbind]. pose proof (sweep_mesh _ _ E5) as M5. pose proof (sweep_ids _ _ E5) as I5.
  pose proof (proj1 (proj1 HC4)) as HR4. pose proof (proj1 (proj1 HC3)) as HR3.
  assert (Hadjm : forall u v, adjacent c3 u v <-> adjacent (g_mark_stale c3) u v).
  { intros u v. rewrite (obs_adjacent c3 b3 HR3), (obs_adjacent _ b3 (proj1 (proj1 HCm))). reflexivity. }
  destruct (reachable_RepL c5 Hr5) as [b5 HL5]. pose proof (proj1 HL5) as HR5.
  assert (Hdata5 : forall x, an_data <$> ag_nodes b5 !! x = an_data <$> ag_nodes b3 !! x).
  { intros x. rewrite <- (obs_data c5 b5 HR5), (SN5 x), (obs_data c4 b4 HR4), N4. reflexivity. }
  assert (Hknown : forall x, a_known b5 x <-> a_known b3 x).
  { intros x. unfold a_known. rewrite <- (fmap_is_Some an_data (ag_nodes b5 !! x)), Hdata5, fmap_is_Some. reflexivity. }
  assert (Hcan5 : forall u v, can_link c5 u v <-> a_can b3 u v).
  { intros u v. unfold can_link, a_can. rewrite !(obs_known c5 b5 HR5), !Hknown. reflexivity. }
  (* the edges after the sweep *)
  assert (Hedge : forall u v,
    (forall r, a_can b3 u v -> last_about u v es r -> exists e, edge_at c5 u v = Some e /\ e_info e = default ea_default (er_attrs r) /\
       (ag_edges b3 !! edge_key u v = None -> forall f, first_about u v es f -> e_src e = er_src f /\ e_tgt e = er_tgt f)) /\
    ((forall r, r ∈ es -> ~ links u v r) \/ ~ a_can b3 u v -> edge_at c5 u v = None)).
  { intros u v. destruct (SE5 u v) as (S1 & S2 & S3). destruct (D4 u v) as [DA DB]. rewrite (obs_edge c4 b4 HR4) in *. split.
    - intros r Hc Hr. destruct (DB r Hc Hr) as (e & He & Hi & Hf). exists e. split; [|auto]. rewrite <- He. destruct (decide (a_linked b3 u v)) as [Hl|Hl].
      + apply (obs_adjacent c3 b3 HR3), Hadjm, Adj4 in Hl as [Hl1 Hl2]. apply (S3 Hl1), Hl2. apply last_about_in in Hr. eauto.
      + apply S2. intros H. apply Hl, (obs_adjacent c3 b3 HR3), H.
    - intros Hor. specialize (DA Hor). destruct (decide (a_linked b3 u v)) as [Hl|Hl].
      + pose proof (linked_can _ _ _ _ HR3 Hl) as Hc. destruct Hor as [Hor|Hor]; [|contradiction]. apply (obs_adjacent c3 b3 HR3), Hadjm, Adj4 in Hl as [Hl1 Hl2]. apply (S3 Hl1).
        intros (o & Ho & Hlo). apply in_map_iff in Ho as (x & <- & Hx). apply (Hor x (proj2 (elem_of_list_In _ _) Hx)). unfold rop in Hlo. destruct (er_attrs x); cbn in Hlo; [|contradiction].
        unfold links, same_pair in *. destruct Hlo as [[H1 H2]|[H1 H2]]; auto.
      + rewrite S2 by (intros H; apply Hl, (obs_adjacent c3 b3 HR3), H). rewrite DA. apply eq_None_not_Some, Hl. }
  set (gm := match mg_mesh m with Some mesh => g_set_mesh c5 (Some mesh) | None => c5 end).
  assert (Hm : (exists mesh, gm = g_set_mesh c5 mesh) \/ gm = c5) by (unfold gm; destruct (mg_mesh m); eauto).
  assert (Hgm : reachable gm /\ (forall x, node_data gm x = node_data c5 x) /\ (forall u v, edge_at gm u v = edge_at c5 u v) /\ g_layer_ids gm = g_layer_ids c5 /\
    (forall u v, adjacent gm u v <-> edge_at c5 u v <> None) /\ (forall u v, can_link gm u v <-> can_link c5 u v)).
  { assert (Hadj5 : forall u v, adjacent c5 u v <-> edge_at c5 u v <> None).
    { intros u v. rewrite (obs_adjacent c5 b5 HR5), (obs_edge c5 b5 HR5). unfold a_linked. destruct (ag_edges b5 !! edge_key u v); split; try congruence; eauto. intros [? ?]. discriminate. }
    destruct Hm as [[mesh ->]| ->]; [|split; [exact Hr5|]; split; [reflexivity|]; split; [reflexivity|]; split; [reflexivity|]; split; [exact Hadj5|reflexivity]].
    destruct (CInv_step c5 b5 (GSetMesh mesh) (conj HL5 Hr5) I) as (_ & [[HRm _] Hrm] & Him). cbn in HRm, Hrm, Him.
    split; [exact Hrm|]. split; [intros x; rewrite (obs_data _ _ HRm), (obs_data _ _ HR5); reflexivity|].
    split; [intros u v; rewrite (obs_edge _ _ HRm), (obs_edge _ _ HR5); reflexivity|]. split; [exact Him|]. split; [|reflexivity].
    intros u v. rewrite (obs_adjacent _ _ HRm), <- (obs_adjacent c5 b5 HR5). apply Hadj5. }
  destruct Hgm as (Hgr & Hgn & Hge & Hgi & Hga & Hgc).
  split; [exact Hgr|]. split. { rewrite Hgi, I5, I4. change (g_layer_ids (g_mark_stale c3)) with (g_layer_ids c3). congruence. }
  split.
  { intros x. rewrite Hgn, (obs_data c5 b5 HR5), Hdata5, N3. split; intros Hx.
    - rewrite decide_False; [|rewrite Hgone; tauto]. rewrite N1, (obs_data g b0 HR0). reflexivity.
    - destruct (decide _) as [|Hn]; [reflexivity|]. rewrite N1. assert (E : ag_nodes b0 !! x = None).
      { apply eq_None_not_Some. intros H. apply Hn, Hgone. auto. }
      rewrite E. cbn. unfold node_result. assert (Ea : about ids x ns = []).
      { destruct (about ids x ns) as [|[[k t] a] l] eqn:El; [reflexivity|]. exfalso. apply Hx. destruct (about_in ids x ns k t a) as (r & Hr & <- & _); [rewrite El; left|].
        apply elem_of_list_In, in_map, elem_of_list_In, Hr. }
      rewrite Ea. reflexivity. }
  split.
  { intros u v. rewrite Hga, Hgc, Hcan5. destruct (Hedge u v) as [HA HB]. split.
    - split.
      + intros Hne. destruct (any_link u v es) as [Hex|Hex].
        * destruct (decide (a_can b3 u v)) as [Hc|Hc]; [auto|]. exfalso. apply Hne, HB. auto.
        * exfalso. apply Hne, HB. left. intros r Hr Hl. apply Hex. eauto.
      + intros [Hc Hex]. destruct (last_about_some u v es Hex) as [r Hr]. destruct (HA r Hc Hr) as (e & -> & _). discriminate.
    - intros r Hc Hr. rewrite Hgc, Hcan5 in Hc. destruct (HA r Hc Hr) as (e & He & Hi & _). exists e. rewrite Hge. auto. }
  split.
  { intros Hempty u v r e Hr He. rewrite Hge in He. destruct (Hedge u v) as [HA HB].
    assert (Hin : exists x, x ∈ es /\ links u v x) by (destruct Hr as (a & bb & -> & Hl & _); exists r; split; [apply elem_of_app; right; left|exact Hl]).
    destruct (last_about_some u v es Hin) as [z Hz]. destruct (decide (a_can b3 u v)) as [Hc|Hc]; [|rewrite HB in He by auto; discriminate].
    destruct (HA z Hc Hz) as (e' & He' & _ & Hf). assert (e' = e) as -> by congruence. apply Hf; [|exact Hr].
    assert (Hnone : elements (dom (g_lookup g) ∖ D) = []).
    { destruct (elements (dom (g_lookup g) ∖ D)) as [|x l] eqn:El; [reflexivity|]. exfalso.
      destruct (proj1 (Hgone x)) as [Hk _]; [left|]. apply (obs_known g b0 HR0) in Hk. congruence. }
    rewrite Hnone in E3. cbn in E3. injection E3 as <-.
    enough (Hno : forall k, ag_edges b1 !! k = None).
    { pose proof (obs_edge c1 b3 HR3 u v) as O3. rewrite (obs_edge c1 b1 (proj1 (proj1 HC1)) u v), Hno in O3. congruence. }
    intros k. rewrite Ed1. apply eq_None_not_Some. intros [e0 He0]. destruct (rp_norm _ _ HR0 _ _ He0) as [Hn _].
    assert (Hl : a_linked b0 (e_src e0) (e_tgt e0)) by (unfold a_linked; rewrite <- Hn; eauto).
    destruct (Rep_linked_known _ _ _ _ HR0 Hl) as (_ & ku & kv & Hu & _). specialize (Hempty (e_src e0)).
    unfold g_has_node in Hempty. rewrite Hu in Hempty. discriminate. }
  assert (Hc5 : g_mesh c5 = g_mesh g) by (rewrite M5, M4; change (g_mesh (g_mark_stale c3)) with (g_mesh c3); congruence).
  unfold gm. destruct (mg_mesh m); [reflexivity|exact Hc5].
Qed.
