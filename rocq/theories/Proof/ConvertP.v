(** Proofs about the Python conversions: loops as folds over what the iterators yield. *)
From Coq Require Import NArith Bool List Lia String.
From stdpp Require Import base list gmap strings.
From Verif.Model Require Import Types Attrs Node EdgeContainer SLayer DLayer Graph Views Iterators PyConvert.
From Verif.Spec Require Import GraphObs IterSpec.
From Verif.Proof Require Import IterP.
Local Open Scope N_scope.
Local Open Scope list_scope.
Set Default Proof Using "Type".

Section loops.
Context {I A S : Type} (c : IterClass I A) (body : S -> A -> result S -> Prop) (f : S -> A -> result S).
Lemma for_yields st l st' : yields c st l st' -> (forall s x r, x ∈ l -> (body s x r <-> r = f s x)) ->
  forall s r, py_for c body st s r <-> r = rfold f l s.
Proof.
  induction 1 as [st st' E|st x st' l st'' E Y IH]; intros HB s r.
  - cbn. split.
    + intros H. inversion H; subst; try congruence.
    + intros ->. eapply for_end, E.
  - assert (HB' : forall s y r, y ∈ l -> (body s y r <-> r = f s y)) by (intros; apply HB; right; assumption).
    assert (HX : forall s r, body s x r <-> r = f s x) by (intros; apply HB; left). cbn. split.
    + intros H. inversion H; subst; try congruence.
      * replace (f s x) with (Ok s1). 2:{ apply HX. congruence. } cbn. apply (IH HB'). congruence.
      * replace (f s x) with (@Throw S); [reflexivity|]. apply HX. congruence.
      * replace (f s x) with (@UB S); [reflexivity|]. apply HX. congruence.
    + intros ->. destruct (f s x) as [s1| |] eqn:Ef; cbn.
      * eapply for_step; [exact E| |apply (IH HB'); reflexivity]. apply HX. congruence.
      * eapply for_throw; [exact E|]. apply HX. congruence.
      * eapply for_ub; [exact E|]. apply HX. congruence.
Qed.
Lemma for_visits it l : visits c it l -> (forall s x r, x ∈ l -> (body s x r <-> r = f s x)) ->
  forall s r, py_for c body (py_iter it) s r <-> r = rfold f l s.
Proof. intros (st & Y & _). exact (for_yields _ _ _ Y). Qed.
Lemma for_breaks st l : breaks c st l -> (forall s x r, x ∈ l -> (body s x r <-> r = f s x)) ->
  (forall s x, x ∈ l -> exists s', f s x = Ok s') -> forall s r, py_for c body st s r <-> r = UB.
Proof.
  induction 1 as [st E|st x st' l E Y IH]; intros HB HF s r.
  - split; [intros H; inversion H; subst; solve [reflexivity|congruence]|]. intros ->. apply for_iter_ub, E.
  - assert (HX : forall s r, body s x r <-> r = f s x) by (intros; apply HB; left).
    destruct (HF s x) as [s1 Es]; [left|].
    assert (IH' : forall s r, py_for c body st' s r <-> r = UB) by (apply IH; [intros; apply HB; right; assumption|intros; apply HF; right; assumption]).
    split.
    + intros H. inversion H as [? ? ? E1|? ? E1|? ? E1|? ? y st1 ? ? E1 B1 F1|? ? y st1 E1 B1|? ? y st1 E1 B1]; subst; try congruence;
        assert (y = x) as -> by congruence; [|apply HX in B1; congruence].
      assert (st1 = st') as -> by congruence. eapply IH', F1.
    + intros ->. eapply for_step; [exact E|apply HX; symmetry; exact Es|apply IH'; reflexivity].
Qed.
End loops.
Lemma then_ok {S T} (P : result S -> Prop) (Q : S -> result T -> Prop) (p : result S) (q : S -> result T) :
  (forall r, P r <-> r = p) -> (forall s r, Q s r <-> r = q s) -> forall r, py_then P Q r <-> r = rbind p q.
Proof.
  intros HP HQ r. unfold py_then. split.
  - intros [(s & H1 & H2)|[[H1 H2]|[H1 H2]]].
    + apply HP in H1. subst p. cbn. apply HQ, H2.
    + apply HP in H1. subst p. exact H2.
    + apply HP in H1. subst p. exact H2.
  - intros ->. destruct p as [s| |]; cbn.
    + left. exists s. split; [apply HP; reflexivity|apply HQ; reflexivity].
    + right. left. split; [apply HP|]; reflexivity.
    + right. right. split; [apply HP|]; reflexivity.
Qed.

(** ** networkx *)
Inductive nxop (V : Type) := AddN (n : N) (d : dict V) | AddE (u v : N) (d : dict V).
Arguments AddN {V}. Arguments AddE {V}.
Section nx.
Context {V : Type} (cn : NodeAttrs -> dict V) (ce : EdgeAttrs -> dict V).
Definition nx_op (G : NxGraph V) (o : nxop V) : NxGraph V :=
  match o with AddN n d => nx_add_node G n d | AddE u v d => nx_add_edge G u v d end.
Definition nodes_ops (ns : list Node) : list (nxop V) := map (fun n => AddN (n_id n) (cn (n_attrs n))) ns.
Definition edges_ops (es : list Edge) : list (nxop V) := map (fun e => AddE (e_src e) (e_tgt e) (ce (e_info e))) es.

Lemma rfold_ok {S A} (f : S -> A -> S) l : forall s, rfold (fun s x => Ok (f s x)) l s = Ok (fold_left f l s).
Proof. induction l as [|x l IH]; intros s; cbn; [reflexivity|apply IH]. Qed.
Lemma fold_map {A B S} (f : S -> B -> S) (h : A -> B) l : forall s, fold_left f (map h l) s = fold_left (fun s x => f s (h x)) l s.
Proof. induction l as [|x l IH]; intros s; cbn; [reflexivity|apply IH]. Qed.
Lemma fold_concat {A B S} (f : S -> B -> S) (h : A -> list B) l : forall s, fold_left f (concat (map h l)) s = fold_left (fun s x => fold_left f (h x) s) l s.
Proof. induction l as [|x l IH]; intros s; cbn; [reflexivity|]. rewrite fold_left_app. apply IH. Qed.
Lemma put_edges c G r : py_for EdgeIter (nx_put_edge ce) (py_iter (edge_iter c)) G r <-> r = Ok (fold_left nx_op (edges_ops (map snd (edge_iter c))) G).
Proof.
  rewrite (for_visits EdgeIter (nx_put_edge ce) (fun G e => Ok (nx_add_edge G (e_src e) (e_tgt e) (ce (e_info e)))) _ _ (list_visits snd (edge_iter c))) by (intros; reflexivity).
  rewrite rfold_ok. unfold edges_ops. rewrite (fold_map nx_op). reflexivity.
Qed.
Definition layer_ops (L : SLayer) : list (nxop V) := nodes_ops (map snd (node_iter L)) ++ edges_ops (map snd (edge_iter (sl_edges L))).
Definition dl_live (d : DLayer) : list Node := omap id (dl_nodes d).
Definition dlayer_ops (d : DLayer) : list (nxop V) := nodes_ops (dl_live d) ++ edges_ops (map snd (edge_iter (dl_edges d))).
Lemma fill_ok G L r : nx_fill cn ce G L r <-> r = Ok (fold_left nx_op (layer_ops L) G).
Proof.
  unfold nx_fill. rewrite (then_ok _ _ (Ok (fold_left nx_op (nodes_ops (map snd (node_iter L))) G)) (fun G => Ok (fold_left nx_op (edges_ops (map snd (edge_iter (sl_edges L)))) G))).
  - cbn. unfold layer_ops. rewrite fold_left_app. reflexivity.
  - intros q. rewrite (for_visits NodeIter (nx_put_node cn) (fun G n => Ok (nx_add_node G (n_id n) (cn (n_attrs n)))) _ _ (list_visits snd (node_iter L))) by (intros; reflexivity).
    rewrite rfold_ok. unfold nodes_ops. rewrite (fold_map nx_op). reflexivity.
  - intros G1 q. apply put_edges.
Qed.
Lemma live_omap l : live l = map Some (omap id l).
Proof. induction l as [|[n|] l IH]; cbn; [reflexivity|rewrite IH; reflexivity|exact IH]. Qed.
Definition put_d (G : NxGraph V) (o : option Node) : result (NxGraph V) :=
  match o with Some n => Ok (nx_add_node G (n_id n) (cn (n_attrs n))) | None => Throw end.
Lemma rfold_put_d ns : forall G, rfold put_d (map Some ns) G = Ok (fold_left nx_op (nodes_ops ns) G).
Proof. induction ns as [|n ns IH]; intros G; cbn; [reflexivity|apply IH]. Qed.
Lemma fill_dynamic_ok b G d r : nx_fill_dynamic cn ce (Ok b) G d r <-> r = Ok (fold_left nx_op (dlayer_ops d) G).
Proof.
  unfold nx_fill_dynamic. rewrite (then_ok _ _ (Ok (fold_left nx_op (nodes_ops (dl_live d)) G)) (fun G => Ok (fold_left nx_op (edges_ops (map snd (edge_iter (dl_edges d)))) G))).
  - cbn. unfold dlayer_ops. rewrite fold_left_app. reflexivity.
  - intros q. destruct (dynamic_nodes_visited b d) as (it & E & Hv).
    assert (Q : forall q, py_for (DynamicNodeIter (Ok b)) (nx_put_dnode cn) (py_iter it) G q <-> q = Ok (fold_left nx_op (nodes_ops (dl_live d)) G)).
    { intros q'. rewrite (for_visits _ _ put_d _ _ Hv) by (intros s [n|] z _; reflexivity). rewrite live_omap, rfold_put_d. reflexivity. }
    unfold py_then. split.
    + intros [(s & H1 & H2)|[[H1 H2]|[H1 H2]]]; [|congruence|congruence]. assert (s = it) as -> by congruence. apply Q, H2.
    + intros H. left. exists it. split; [exact E|]. apply Q, H.
  - intros G1 q. apply put_edges.
Qed.
Definition graph_ops (g : Graph) (dyn : bool) : list (nxop V) :=
  concat (map layer_ops (map snd (layer_iter g))) ++ edges_ops (map snd (edge_iter (g_inter g))) ++
  if dyn then concat (map dlayer_ops (di_all (ascending (g_dlayers g)))) ++ edges_ops (map snd (edge_iter (g_dinter g))) else [].
Lemma static_ok g r : py_for LayerIter (nx_fill cn ce) (py_iter (layer_iter g)) nx_empty r <-> r = Ok (fold_left nx_op (concat (map layer_ops (map snd (layer_iter g)))) nx_empty).
Proof.
  rewrite (for_visits LayerIter (nx_fill cn ce) (fun G L => Ok (fold_left nx_op (layer_ops L) G)) _ _ (list_visits snd (layer_iter g))) by (intros; apply fill_ok).
  rewrite rfold_ok, fold_concat. reflexivity.
Qed.
Lemma graph_ok past g dyn r : (dyn = true -> exists b, past = Ok b) ->
  graph_to_networkx cn ce past g dyn r <-> r = Ok (fold_left nx_op (graph_ops g dyn) nx_empty).
Proof.
  intros Hp. unfold graph_to_networkx, graph_ops.
  rewrite (then_ok _ _ (Ok (fold_left nx_op (concat (map layer_ops (map snd (layer_iter g)))) nx_empty))
    (fun G => Ok (fold_left nx_op (edges_ops (map snd (edge_iter (g_inter g))) ++
      if dyn then concat (map dlayer_ops (di_all (ascending (g_dlayers g)))) ++ edges_ops (map snd (edge_iter (g_dinter g))) else []) G))).
  - cbn. rewrite <- fold_left_app. reflexivity.
  - intros q. apply static_ok.
  - intros G1 q. rewrite (then_ok _ _ (Ok (fold_left nx_op (edges_ops (map snd (edge_iter (g_inter g)))) G1))
      (fun G => Ok (fold_left nx_op (if dyn then concat (map dlayer_ops (di_all (ascending (g_dlayers g)))) ++ edges_ops (map snd (edge_iter (g_dinter g))) else []) G))).
    + cbn. rewrite <- fold_left_app. reflexivity.
    + intros z. apply put_edges.
    + intros G2 z. destruct dyn; [|cbn [fold_left]; split; congruence].
      destruct (Hp eq_refl) as [b ->].
      rewrite (then_ok _ _ (Ok (fold_left nx_op (concat (map dlayer_ops (di_all (ascending (g_dlayers g))))) G2)) (fun G => Ok (fold_left nx_op (edges_ops (map snd (edge_iter (g_dinter g)))) G))).
      * cbn. rewrite <- fold_left_app. reflexivity.
      * intros w. rewrite (for_visits DynamicLayerIter (nx_fill_dynamic cn ce (Ok b)) (fun G L => Ok (fold_left nx_op (dlayer_ops L) G)) _ _ (dynamic_layers_visited g)) by (intros; apply fill_dynamic_ok).
        rewrite rfold_ok, fold_concat. reflexivity.
      * intros G3 w. apply put_edges.
Qed.

(** ** What a list of operations builds *)
Section inv.
Context (F : N -> option (dict V)) (H : N -> N -> option (dict V)) (Hsym : forall u v, H u v = H v u).
Definition has_node (G : NxGraph V) (x : N) : Prop := nx_node G !! x <> None.
Definition has_edge (G : NxGraph V) (u v : N) : Prop := nx_adj G !! (u, v) <> None.
Definition Inv (G : NxGraph V) : Prop :=
  (forall x, has_node G x -> nx_node G !! x = F x) /\ (forall u v, has_edge G u v -> nx_adj G !! (u, v) = H u v).
Definition grows (G G' : NxGraph V) : Prop := (forall x, has_node G x -> has_node G' x) /\ (forall u v, has_edge G u v -> has_edge G' u v).
Lemma grows_refl G : grows G G. Proof. split; auto. Qed.
Lemma grows_trans G1 G2 G3 : grows G1 G2 -> grows G2 G3 -> grows G1 G3. Proof. intros [A B] [C D]. split; auto. Qed.
Lemma union_same (d : dict V) : dict_update d d = d. Proof. apply map_union_idemp. Qed.
Lemma union_empty (d : dict V) : dict_update ∅ d = d. Proof. unfold dict_update. apply (right_id_L ∅ (∪)). Qed.
Lemma add_node_inv G n d : Inv G -> F n = Some d -> Inv (nx_add_node G n d) /\ grows G (nx_add_node G n d) /\ has_node (nx_add_node G n d) n.
Proof.
  intros [I1 I2] E. unfold nx_add_node.
  assert (D : dict_update (default ∅ (nx_node G !! n)) d = d).
  { destruct (nx_node G !! n) as [d'|] eqn:En; cbn; [|apply union_empty]. pose proof (I1 n ltac:(unfold has_node; congruence)) as Q. assert (d' = d) as -> by congruence. apply union_same. }
  rewrite D. unfold Inv, grows, has_node, has_edge in *. cbn. split; [split; [|exact I2]|split; [split; [|auto]|]].
  - intros x. destruct (decide (x = n)) as [->|Hx]; [rewrite lookup_insert; intros _; symmetry; exact E|rewrite lookup_insert_ne by congruence; apply I1].
  - intros x Hx. destruct (decide (x = n)) as [->|Hne]; [rewrite lookup_insert; discriminate|rewrite lookup_insert_ne by congruence; exact Hx].
  - rewrite lookup_insert. discriminate.
Qed.
Lemma touch_known G n : has_node G n -> nx_touch G n = nx_node G.
Proof. unfold has_node, nx_touch. destruct (nx_node G !! n); congruence. Qed.
Lemma add_edge_inv G u v d : Inv G -> H u v = Some d -> has_node G u -> has_node G v ->
  Inv (nx_add_edge G u v d) /\ grows G (nx_add_edge G u v d) /\ has_edge (nx_add_edge G u v d) u v /\ has_edge (nx_add_edge G u v d) v u.
Proof using Hsym.
  intros [I1 I2] E Hu Hv. unfold nx_add_edge. cbv zeta.
  assert (D : dict_update (default ∅ (nx_adj G !! (u, v))) d = d).
  { destruct (nx_adj G !! (u, v)) as [d'|] eqn:En; cbn; [|apply union_empty]. pose proof (I2 u v ltac:(unfold has_edge; congruence)) as Q. assert (d' = d) as -> by congruence. apply union_same. }
  rewrite D. assert (T : nx_touch (mkNx (nx_touch G u) (nx_adj G)) v = nx_node G).
  { rewrite (touch_known G u Hu). rewrite touch_known; [reflexivity|exact Hv]. }
  rewrite T. unfold Inv, grows, has_node, has_edge in *. cbn.
  assert (L : forall x y, <[(v, u) := d]> (<[(u, v) := d]> (nx_adj G)) !! (x, y) = if decide ((x, y) = (u, v) \/ (x, y) = (v, u)) then Some d else nx_adj G !! (x, y)).
  { intros x y. destruct (decide ((x, y) = (v, u))) as [Q|Q]; [rewrite Q, lookup_insert, decide_True by auto; reflexivity|]. rewrite lookup_insert_ne by congruence.
    destruct (decide ((x, y) = (u, v))) as [Q'|Q']; [rewrite Q', lookup_insert, decide_True by auto; reflexivity|]. rewrite lookup_insert_ne by congruence. rewrite decide_False by tauto. reflexivity. }
  split; [split; [exact I1|]|split; [split; [auto|]|split]].
  - intros x y. rewrite L. destruct (decide _) as [Q|Q]; [intros _|apply I2]. destruct Q as [Q|Q]; injection Q as -> ->; [|rewrite Hsym]; symmetry; exact E.
  - intros x y Hxy. rewrite L. destruct (decide _); [discriminate|exact Hxy].
  - rewrite L, decide_True by auto. discriminate.
  - rewrite L, decide_True by auto. discriminate.
Qed.
Lemma nodes_inv ns : forall G, Inv G -> (forall n, n ∈ ns -> F (n_id n) = Some (cn (n_attrs n))) ->
  let G' := fold_left nx_op (nodes_ops ns) G in Inv G' /\ grows G G' /\ forall n, n ∈ ns -> has_node G' (n_id n).
Proof.
  induction ns as [|n ns IH]; intros G I HF; cbn; [split; [exact I|split; [apply grows_refl|intros n Hn; inversion Hn]]|].
  destruct (add_node_inv G (n_id n) (cn (n_attrs n)) I (HF n ltac:(left))) as (I1 & G1 & H1).
  destruct (IH _ I1 ltac:(intros; apply HF; right; assumption)) as (I2 & G2 & H2). split; [exact I2|]. split; [eapply grows_trans; eassumption|].
  intros m Hm. apply elem_of_cons in Hm as [->|Hm]; [apply G2, H1|apply H2, Hm].
Qed.
Lemma edges_inv es : forall G, Inv G -> (forall e, e ∈ es -> H (e_src e) (e_tgt e) = Some (ce (e_info e)) /\ has_node G (e_src e) /\ has_node G (e_tgt e)) ->
  let G' := fold_left nx_op (edges_ops es) G in Inv G' /\ grows G G' /\ forall e, e ∈ es -> has_edge G' (e_src e) (e_tgt e) /\ has_edge G' (e_tgt e) (e_src e).
Proof using Hsym.
  induction es as [|e es IH]; intros G I HF; cbn; [split; [exact I|split; [apply grows_refl|intros n Hn; inversion Hn]]|].
  destruct (HF e ltac:(left)) as (E & Hu & Hv).
  destruct (add_edge_inv G (e_src e) (e_tgt e) (ce (e_info e)) I E Hu Hv) as (I1 & G1 & H1 & H1').
  destruct (IH _ I1) as (I2 & G2 & H2).
  { intros f Hf. destruct (HF f ltac:(right; assumption)) as (Q1 & Q2 & Q3). split; [exact Q1|]. split; apply G1; assumption. }
  split; [exact I2|]. split; [eapply grows_trans; eassumption|].
  intros m Hm. apply elem_of_cons in Hm as [->|Hm]; [split; apply G2; assumption|apply H2, Hm].
Qed.
(** a layer, and a list of layers *)
Definition fills (ns : list Node) (es : list Edge) : Prop :=
  (forall n, n ∈ ns -> F (n_id n) = Some (cn (n_attrs n))) /\
  (forall e, e ∈ es -> H (e_src e) (e_tgt e) = Some (ce (e_info e)) /\ (exists n, n ∈ ns /\ n_id n = e_src e) /\ exists n, n ∈ ns /\ n_id n = e_tgt e).
Lemma layer_inv ns es G : Inv G -> fills ns es -> let G' := fold_left nx_op (nodes_ops ns ++ edges_ops es) G in
  Inv G' /\ grows G G' /\ (forall n, n ∈ ns -> has_node G' (n_id n)) /\ (forall e, e ∈ es -> has_edge G' (e_src e) (e_tgt e) /\ has_edge G' (e_tgt e) (e_src e)).
Proof using Hsym.
  intros I [HN HE]. cbv zeta. rewrite fold_left_app. destruct (nodes_inv ns G I HN) as (I1 & G1 & H1).
  destruct (edges_inv es _ I1) as (I2 & G2 & H2).
  { intros e He. destruct (HE e He) as (Q & (n & Q1 & E1) & (m & Q2 & E2)). split; [exact Q|]. rewrite <- E1, <- E2. split; apply H1; assumption. }
  split; [exact I2|]. split; [eapply grows_trans; eassumption|]. split; [intros n Hn; apply G2, H1, Hn|exact H2].
Qed.
Lemma layers_inv {X} (N_ : X -> list Node) (E_ : X -> list Edge) xs : forall G, Inv G -> (forall x, x ∈ xs -> fills (N_ x) (E_ x)) ->
  let G' := fold_left nx_op (concat (map (fun x => nodes_ops (N_ x) ++ edges_ops (E_ x)) xs)) G in
  Inv G' /\ grows G G' /\ (forall x n, x ∈ xs -> n ∈ N_ x -> has_node G' (n_id n)) /\ (forall x e, x ∈ xs -> e ∈ E_ x -> has_edge G' (e_src e) (e_tgt e) /\ has_edge G' (e_tgt e) (e_src e)).
Proof using Hsym.
  induction xs as [|x xs IH]; intros G I HF; cbn [map concat fold_left].
  - split; [exact I|]. split; [apply grows_refl|]. split; intros x y Hx; inversion Hx.
  - rewrite fold_left_app. destruct (layer_inv (N_ x) (E_ x) G I (HF x ltac:(left))) as (I1 & G1 & H1 & H1').
    destruct (IH _ I1 ltac:(intros; apply HF; right; assumption)) as (I2 & G2 & H2 & H2').
    split; [exact I2|]. split; [eapply grows_trans; eassumption|]. split.
    + intros y n Hy Hn. apply elem_of_cons in Hy as [->|Hy]; [apply G2, H1, Hn|eapply H2; eassumption].
    + intros y n Hy Hn. apply elem_of_cons in Hy as [->|Hy]; [destruct (H1' n Hn); split; apply G2; assumption|eapply H2'; eassumption].
Qed.
End inv.
End nx.
