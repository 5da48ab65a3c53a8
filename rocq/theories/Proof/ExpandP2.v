(** Proofs about expand_rooms, continued: the flood fill and the edges between rooms. *)
From Coq Require Import NArith Bool List Lia.
From stdpp Require Import base list gmap fin_sets.
From Verif.Model Require Import Types Attrs Node EdgeContainer SLayer DLayer Graph PyConvert Expand.
From Verif.Spec Require Import GraphObs ExpandSpec.
From Verif.Proof Require Import GraphProps ExpandP.
Local Open Scope N_scope.
Set Default Proof Using "Type".

Section flood.
Context (c : Graph) (Hc : reachable c).
Definition low (x : N) : Prop := exists k, layer_of c x = Some k /\ lk_layer k = PLACES.
Definition high (x : N) : Prop := exists k, layer_of c x = Some k /\ PLACES < lk_layer k.
Lemma low_high x : low x -> high x -> False.
Proof. intros (k & H1 & H2) (k' & H3 & H4). assert (k' = k) as -> by congruence. rewrite H2 in H4. apply N.lt_irrefl in H4. exact H4. Qed.
Lemma room_high x p : low x -> is_parent_of c p x -> high p.
Proof. intros (k & H1 & H2) (_ & kp & kc & H3 & H4 & H5). exists kp. split; [exact H3|]. assert (kc = k) as -> by congruence. rewrite H2 in H5. exact H5. Qed.
Lemma place_low x : is_place c x -> low x.
Proof. intros H. eexists. split; [exact H|reflexivity]. Qed.
Lemma sib_low x y : low x -> siblings c x y -> low y.
Proof. intros (k & H1 & H2) (_ & kx & ky & H3 & H4 & H5). exists ky. split; [exact H4|]. congruence. Qed.
Lemma spreads_facts r x : spreads c r x -> low x /\ high r /\ unassigned c x.
Proof.
  induction 1 as [p x Hp Hr Hs Hu|x y _ (IH1 & IH2 & _) Hs Hu].
  - split; [eapply sib_low; [apply place_low, Hp|exact Hs]|]. split; [|exact Hu]. eapply room_high; [apply place_low, Hp|apply Hr].
  - split; [eapply sib_low; eauto|]. split; [exact IH2|exact Hu].
Qed.
Lemma low_known h E x : ext c E h -> low x -> g_has_node h x = true.
Proof using Hc. intros HE (k & H & _). rewrite (ext_known c E h x Hc HE). apply known_node; eauto. Qed.
Lemma high_known h E x : ext c E h -> high x -> g_has_node h x = true.
Proof using Hc. intros HE (k & H & _). rewrite (ext_known c E h x Hc HE). apply known_node; eauto. Qed.

Lemma ext_parents h E x p : ext c E h -> (forall u v, E u v -> high v) -> low x -> (is_parent_of h p x <-> is_parent_of c p x \/ E x p).
Proof using Hc.
  intros HE HH Hx. unfold is_parent_of. rewrite (ext_adj _ _ _ HE), !(ext_layer c E h _ Hc HE). split.
  - intros [[H|[H|H]] K]; [left; auto| |right; exact H]. destruct (low_high x Hx (HH _ _ H)).
  - intros [[H K]|H]; [auto|]. split; [auto|]. destruct (HH _ _ H) as (kp & H1 & H2). destruct Hx as (kx & H3 & H4). exists kp, kx. rewrite H4. auto.
Qed.
Lemma ext_siblings h E x y : ext c E h -> (forall u v, E u v -> high v) -> low x -> (siblings h x y <-> siblings c x y).
Proof using Hc.
  intros HE HH Hx. unfold siblings. rewrite (ext_adj _ _ _ HE), !(ext_layer c E h _ Hc HE). split.
  - intros [[H|[H|H]] K]; [auto| |].
    + exfalso. apply (low_high y); [|eauto]. destruct K as (kx & ky & K1 & K2 & K3), Hx as (k & H1 & H2). exists ky. split; [exact K2|]. congruence.
    + destruct (low_high x Hx (HH _ _ H)).
  - tauto.
Qed.
Lemma ext_rooms h E x p : ext c E h -> (forall u v, E u v -> high v) -> low x ->
  (room_of h x p <-> (is_parent_of c p x \/ E x p) /\ forall q, is_parent_of c q x \/ E x q -> q = p).
Proof using Hc.
  intros HE HH Hx. unfold room_of. rewrite (ext_parents h E x p HE HH Hx). split; intros [H1 H2]; (split; [exact H1|]); intros q Hq; apply H2.
  - apply (ext_parents h E x q HE HH Hx), Hq.
  - apply (ext_parents h E x q HE HH Hx), Hq.
Qed.

(** *** The invariant *)
Definition assigns (m : gmap N N) (u v : N) : Prop := m !! u = Some v.
Record FInv (m : gmap N N) (f : list Entry) (h : Graph) : Prop := {
  fi_ext : ext c (assigns m) h;
  fi_new : forall x r, m !! x = Some r -> spreads c r x;
  fi_front : forall w x r, (w, x, r) ∈ f -> spreads c r x
}.
Lemma assigns_high m : (forall x r, m !! x = Some r -> spreads c r x) -> forall u v, assigns m u v -> high v.
Proof. intros H u v K. apply H in K. apply spreads_facts in K. tauto. Qed.
Definition pending (m : gmap N N) (f : list Entry) (x : N) : Prop := is_Some (m !! x) \/ exists w r, (w, x, r) ∈ f.

Lemma unassigned_low m f h x : FInv m f h -> low x -> m !! x = None -> (unassigned h x <-> unassigned c x).
Proof using Hc.
  intros HI Hx Hm. pose proof (ext_rooms h (assigns m) x) as R. unfold unassigned. split; intros H p Hp; apply (H p).
  - apply (R p (fi_ext _ _ _ HI) (assigns_high m (fi_new _ _ _ HI)) Hx). unfold assigns. rewrite Hm. destruct Hp as [H1 H2].
    split; [auto|]. intros q [Hq|Hq]; [auto|discriminate].
  - apply (R p (fi_ext _ _ _ HI) (assigns_high m (fi_new _ _ _ HI)) Hx) in Hp. unfold assigns in Hp. rewrite Hm in Hp. destruct Hp as [[H1|H1] H2]; [|discriminate].
    split; auto.
Qed.

Lemma expand_node_total m f h n x room :
  low x -> (forall s, siblings c x s -> unassigned c s -> spreads c room s) -> FInv m f h -> node_at h x = Some n -> n_id n = x ->
  total (expand_node n room (f, h)) (fun s => FInv m (fst s) (snd s) /\ (forall e, e ∈ f -> e ∈ fst s) /\
    forall s', siblings c x s' -> unassigned c s' -> pending m (fst s) s').
Proof using Hc.
  intros Hx HS HI Hn Hid. unfold expand_node.
  assert (SX : forall s, s ∈ elements (n_sib n) <-> siblings c x s).
  { intros s. rewrite elem_of_elements, (sib_shown h x n s (ext_reach _ _ _ (fi_ext _ _ _ HI)) Hn).
    apply (ext_siblings h _ x s (fi_ext _ _ _ HI) (assigns_high m (fi_new _ _ _ HI)) Hx). }
  eapply total_weaken.
  - apply (total_over _ (fun d s => FInv m (fst s) (snd s) /\ (forall e, e ∈ f -> e ∈ fst s) /\ forall y, y ∈ d -> unassigned c y -> pending m (fst s) y)).
    { split; [exact HI|]. split; [auto|]. intros y Hy. apply elem_of_nil in Hy. destruct Hy. }
    intros d [f1 h1] s Hs (I1 & I2 & I3). cbn [fst snd] in *. apply SX in Hs.
    pose proof (sib_low x s Hx Hs) as Ls. pose proof (ext_reach _ _ _ (fi_ext _ _ _ I1)) as Hr1.
    pose proof (low_known h1 _ s (fi_ext _ _ _ I1) Ls) as Ks.
    destruct (get_node h1 s Hr1 Ks) as (sn & Es & Hsn & _). unfold expand_one. cbn [fst snd].
    eapply total_then; [apply (total_eq _ sn (fun v => v = sn)); [exact Es|reflexivity]|]. intros ? ->.
    destruct (node_has_parent sn) eqn:Ep.
    + apply total_ret. cbn [fst snd]. split; [exact I1|]. split; [exact I2|]. intros y Hy Hu. apply elem_of_cons in Hy as [->|Hy]; [|auto].
      left. destruct (m !! s) as [r|] eqn:Em; [eauto|]. exfalso.
      apply (unassigned_low m f1 h1 s I1 Ls Em) in Hu. apply (has_parent_shown h1 s sn Hr1 Hsn) in Hu. congruence.
    + assert (Hu : unassigned c s).
      { destruct (m !! s) as [r|] eqn:Em; [apply (spreads_facts r s), (fi_new _ _ _ I1), Em|].
        apply (unassigned_low m f1 h1 s I1 Ls Em). apply (has_parent_shown h1 s sn Hr1 Hsn), Ep. }
      assert (Ha : adjacent h1 x s).
      { apply (ext_siblings h1 _ x s (fi_ext _ _ _ I1) (assigns_high m (fi_new _ _ _ I1)) Hx) in Hs. apply Hs. }
      destruct (get_edge_ext h1 x s Hr1 Ha) as (e & k & Ee & He).
      eapply total_then; [apply (total_eq _ (e, k) (fun v => v = (e, k))); [rewrite Hid; exact Ee|reflexivity]|]. intros ? ->.
      apply total_ret. cbn [fst snd]. split; [|split].
      * split; [|exact (fi_new _ _ _ I1)|].
        -- eapply ext_iff; [eapply ext_trans; [exact (fi_ext _ _ _ I1)|exact He]|]. intros u v. tauto.
        -- intros w y r Hy. apply elem_of_cons in Hy as [Hy|Hy]; [|eapply fi_front; eauto]. injection Hy as -> -> ->. apply HS; assumption.
      * intros e' He'. right. auto.
      * intros y Hy Hu'. apply elem_of_cons in Hy as [->|Hy]; [right; do 2 eexists; left|].
        destruct (I3 y Hy Hu') as [K|(w & r & K)]; [left; exact K|]. right. exists w, r. right. exact K.
  - intros s (d & (I1 & I2 & I3) & Hd). split; [exact I1|]. split; [exact I2|]. intros y Hy Hu. apply I3; [|exact Hu]. apply Hd, SX, Hy.
Qed.

(** *** The loop *)
Definition closed (m : gmap N N) (f : list Entry) : Prop :=
  (forall p r x, is_place c p -> room_of c p r -> siblings c p x -> unassigned c x -> pending m f x) /\
  (forall x y, is_Some (m !! x) -> siblings c x y -> unassigned c y -> pending m f y).
Definition LInv (s : Flood) : Prop := exists m, FInv m (fl_frontier s) (fl_graph s) /\ closed m (fl_frontier s) /\ forall x, x ∈ fl_visited s <-> is_Some (m !! x).
Definition left_ (vis : gset N) : nat := size (dom (g_lookup c) ∖ vis : gset N).
Definition less (s' s : Flood) : Prop :=
  (left_ (fl_visited s') < left_ (fl_visited s))%nat \/ (fl_visited s' = fl_visited s /\ (length (fl_frontier s') < length (fl_frontier s))%nat).

Lemma pending_pop m f f' w x room y : f ≡ₚ (w, x, room) :: f' -> pending m f y -> pending m f' y \/ y = x.
Proof.
  intros Hf [H|(w' & r & H)]; [left; left; exact H|]. rewrite Hf in H. apply elem_of_cons in H as [H|H]; [right; congruence|].
  left. right. eauto.
Qed.
Lemma skip_ok f f' w x room vis h : LInv (mkFlood f vis h) -> f ≡ₚ (w, x, room) :: f' -> x ∈ vis ->
  LInv (mkFlood f' vis h) /\ less (mkFlood f' vis h) (mkFlood f vis h).
Proof.
  intros (m & [I1 I2 I3] & (C1 & C2) & V) Hf Hx. cbn [fl_frontier fl_graph fl_visited] in *. split.
  - exists m. cbn [fl_frontier fl_graph fl_visited]. apply V in Hx. split; [|split; [split|exact V]].
    + split; [exact I1|exact I2|]. intros w' y r Hy. apply (I3 w' y r). rewrite Hf. right. exact Hy.
    + intros p r y H1 H2 H3 H4. destruct (pending_pop m f f' w x room y Hf (C1 p r y H1 H2 H3 H4)) as [K| ->]; [exact K|left; exact Hx].
    + intros z y H1 H2 H3. destruct (pending_pop m f f' w x room y Hf (C2 z y H1 H2 H3)) as [K| ->]; [exact K|left; exact Hx].
  - right. cbn. split; [reflexivity|]. rewrite Hf. cbn. lia.
Qed.
Lemma assign_ok f f' w x room vis h : LInv (mkFlood f vis h) -> f ≡ₚ (w, x, room) :: f' -> x ∉ vis ->
  total (py_then (eq (g_insert_edge h x room None)) (fun bg =>
      py_then (eq (g_get_node (snd bg) x)) (fun node =>
        py_then (expand_node node room (f', snd bg)) (fun s r =>
          r = Ok (mkFlood (fst s) ({[x]} ∪ vis) (snd s))))))
    (fun s' => LInv s' /\ less s' (mkFlood f vis h)).
Proof using Hc.
  intros (m & [I1 I2 I3] & (C1 & C2) & V) Hf Hx. cbn [fl_frontier fl_graph fl_visited] in *.
  assert (Sx : spreads c room x) by (apply (I3 w); rewrite Hf; left).
  destruct (spreads_facts room x Sx) as (Lx & Hroom & Ux).
  assert (Mx : m !! x = None). { destruct (m !! x) eqn:E; [|reflexivity]. destruct Hx. apply V. eauto. }
  assert (Hne : x <> room) by (intros ->; exact (low_high room Lx Hroom)).
  destruct (insert_ext h x room (ext_reach _ _ _ I1) Hne (low_known h _ x I1 Lx) (high_known h _ room I1 Hroom)) as (b & k & Ek & Xk).
  eapply total_then; [apply (total_eq _ (b, k) (fun v => v = (b, k))); [exact Ek|reflexivity]|]. intros ? ->. cbn [snd].
  set (m' := <[x := room]> m).
  assert (J1 : ext c (assigns m') k).
  { eapply ext_iff; [eapply ext_trans; [exact I1|exact Xk]|]. intros u v. unfold assigns, m'. rewrite !lookup_insert_Some.
    destruct (decide (x = u)) as [<-|], (decide (x = v)) as [<-|]; rewrite ?Mx; naive_solver. }
  assert (J2 : forall y r, m' !! y = Some r -> spreads c r y).
  { intros y r H. unfold m' in H. apply lookup_insert_Some in H as [[<- <-]|[_ H]]; auto. }
  assert (J3 : FInv m' f' k).
  { split; [exact J1|exact J2|]. intros w' y r Hy. apply (I3 w'). rewrite Hf. right. exact Hy. }
  destruct (get_node k x (ext_reach _ _ _ J1) (low_known k _ x J1 Lx)) as (n & En & Hn & Hid).
  eapply total_then; [apply (total_eq _ n (fun v => v = n)); [exact En|reflexivity]|]. intros ? ->.
  eapply total_then.
  { apply (expand_node_total m' f' k n x room Lx); [|exact J3|exact Hn|exact Hid]. intros s Hs Hu. eapply spreads_next; eauto. }
  intros [f2 h2] (K1 & K2 & K3). cbn [fst snd] in *. apply total_ret. split.
  - exists m'. cbn [fl_frontier fl_graph fl_visited].
    assert (P : forall y, pending m f y -> pending m' f2 y).
    { intros y Hy. destruct (pending_pop m f f' w x room y Hf Hy) as [[[r K]|(w' & r & K)]| ->].
      - left. unfold m'. destruct (decide (x = y)) as [<-|]; [rewrite lookup_insert; eauto|rewrite lookup_insert_ne by assumption; eauto].
      - right. eauto.
      - left. unfold m'. rewrite lookup_insert. eauto. }
    split; [exact K1|]. split; [split|].
    + intros p r y H1 H2 H3 H4. apply P. eauto.
    + intros z y [r Hz] H2 H3. unfold m' in Hz. apply lookup_insert_Some in Hz as [[<- _]|[_ Hz]]; [apply K3; assumption|]. apply P. apply (C2 z); eauto.
    + intros y. rewrite elem_of_union, elem_of_singleton, V. unfold m'. destruct (decide (x = y)) as [<-|].
      * rewrite lookup_insert. split; [intros _; eauto|auto].
      * rewrite lookup_insert_ne by assumption. split; [intros [->|H]; [congruence|exact H]|auto].
  - left. cbn [fl_visited]. unfold left_. apply subset_size. destruct Lx as (kx & Ex & _). split.
    + set_solver.
    + intros Hs. assert (Hin : x ∈ dom (g_lookup c) ∖ vis) by (apply elem_of_difference; split; [apply elem_of_dom; exists kx; exact Ex|exact Hx]).
      apply Hs in Hin. set_solver.
Qed.
Lemma step_ok s : LInv s -> (fl_frontier s <> [] -> exists r, flood_step s r) /\
  (forall r, flood_step s r -> exists s', r = Ok s' /\ LInv s' /\ less s' s).
Proof using Hc.
  intros HI. destruct s as [f vis h]. split.
  - cbn. intros Hf. destruct f as [|[[w x] room] f']; [congruence|]. destruct (decide (x ∈ vis)) as [Hx|Hx].
    + eexists. eapply flood_skip; [reflexivity|exact Hx].
    + destruct (assign_ok _ f' w x room vis h HI (Permutation_refl _) Hx) as [[r Hr] _]. exists r. eapply flood_assign; [reflexivity|exact Hx|exact Hr].
  - intros r Hr. inversion Hr as [? ? w x room ? ? Hf Hx|? f' w x room ? ? ? Hf Hx Hrun]; subst.
    + destruct (skip_ok f f' w x room vis h HI Hf Hx) as [H1 H2]. eauto.
    + destruct (assign_ok f f' w x room vis h HI Hf Hx) as [_ H]. apply H, Hrun.
Qed.
Lemma less_ind (P : Flood -> Prop) : (forall s, (forall s', less s' s -> P s') -> P s) -> forall s, P s.
Proof.
  intros HP. cut (forall n k s, left_ (fl_visited s) = n -> length (fl_frontier s) = k -> P s); [eauto|].
  induction n as [n IHn] using lt_wf_ind. induction k as [k IHk] using lt_wf_ind. intros s Hn Hk. apply HP.
  intros s' [H|[H1 H2]].
  - eapply IHn; [|reflexivity|reflexivity]. lia.
  - eapply IHk; [|rewrite H1; exact Hn|reflexivity]. lia.
Qed.
Lemma loop_ends s : LInv s -> Acc (fun s' s => flood_step s (Ok s')) s.
Proof using Hc.
  induction s as [s IH] using less_ind. intros HI. constructor. intros s' Hs'.
  destruct (proj2 (step_ok s HI) _ Hs') as (s1 & E & H1 & H2). injection E as <-. apply IH; assumption.
Qed.
Lemma loop_total s : LInv s -> total (flood_loop s) (fun h => exists m, FInv m [] h /\ closed m []).
Proof using Hc.
  induction s as [s IH] using less_ind. intros HI. destruct (step_ok s HI) as [HE HS]. split.
  - destruct s as [f vis h]. destruct f as [|e f]; [eexists; constructor|]. destruct HE as [r Hr]; [cbn; discriminate|].
    destruct (HS r Hr) as (s' & -> & H1 & H2). destruct (IH s' H2 H1) as [[r' Hr'] _]. exists r'. eapply loop_step; eauto.
  - intros r Hr. inversion Hr as [vis h|? s' ? H1 H2|? H1|? H1]; subst.
    + exists h. split; [reflexivity|]. destruct HI as (m & I1 & C & _). exists m. auto.
    + destruct (HS _ H1) as (s1 & E & H3 & H4). injection E as <-. apply (IH s' H4 H3). exact H2.
    + destruct (HS _ H1) as (s1 & E & _). discriminate.
    + destruct (HS _ H1) as (s1 & E & _). discriminate.
Qed.
Lemma closed_all m : closed m [] -> forall r x, spreads c r x -> is_Some (m !! x).
Proof.
  intros [C1 C2] r x H. assert (P : forall y, pending m [] y -> is_Some (m !! y)).
  { intros y [K|(w & r' & K)]; [exact K|]. apply elem_of_nil in K. destruct K. }
  induction H; apply P; eauto.
Qed.

(** *** The first loop *)
Lemma layer_nodes_ok h E l : ext c E h -> g_has_layer c l = true -> exists ids, layer_nodes h l = Ok ids /\ forall x, x ∈ ids <-> layer_of c x = Some (key_static l).
Proof using Hc.
  intros HE Hl. rewrite <- (ext_layers _ _ _ HE) in Hl. unfold g_has_layer in Hl. apply bool_decide_eq_true in Hl as [s Es].
  unfold layer_nodes. rewrite Es. cbn. eexists. split; [reflexivity|]. intros x.
  rewrite <- (ext_layer c E h x Hc HE), <- (proj2 (proj2 (node_storage h x (ext_reach _ _ _ HE))) (key_static l)).
  unfold stored_in. cbn. rewrite elem_of_list_fmap. split.
  - intros ([y n] & -> & H). apply elem_of_map_to_list in H. split; [reflexivity|]. exists s. split; [exact Es|]. unfold sl_has_node. apply bool_decide_eq_true. eauto.
  - intros (_ & s' & E1 & E2). assert (s' = s) as -> by congruence. unfold sl_has_node in E2. apply bool_decide_eq_true in E2 as [n Hn].
    exists (x, n). split; [reflexivity|]. apply elem_of_map_to_list. exact Hn.
Qed.
Lemma first_total ids : (forall x, x ∈ ids <-> is_place c x) -> total (py_over first_one ids ([], c)) (fun s => LInv (mkFlood (fst s) ∅ (snd s))).
Proof using Hc.
  intros Hids. eapply total_weaken.
  - apply (total_over _ (fun d s => FInv ∅ (fst s) (snd s) /\ forall p r x, p ∈ d -> room_of c p r -> siblings c p x -> unassigned c x -> pending ∅ (fst s) x)).
    { cbn. split; [split|].
      - eapply ext_iff; [apply ext_refl, Hc|]. intros u v. unfold assigns. rewrite !lookup_empty. naive_solver.
      - intros x r H. rewrite lookup_empty in H. discriminate.
      - intros w x r H. apply elem_of_nil in H. destruct H.
      - intros p r x H. apply elem_of_nil in H. destruct H. }
    intros d [f h] p Hp (I1 & I2). cbn [fst snd] in *. apply Hids in Hp. pose proof (place_low p Hp) as Lp.
    pose proof (ext_reach _ _ _ (fi_ext _ _ _ I1)) as Hr. unfold first_one. cbn [fst snd].
    destruct (get_node h p Hr (low_known h _ p (fi_ext _ _ _ I1) Lp)) as (n & En & Hn & Hid).
    eapply total_then; [apply (total_eq _ n (fun v => v = n)); [exact En|reflexivity]|]. intros ? ->.
    assert (RP : forall q, room_of h p q <-> room_of c p q).
    { intros q. rewrite (ext_rooms h _ p q (fi_ext _ _ _ I1) (assigns_high ∅ (fi_new _ _ _ I1)) Lp). unfold assigns, room_of. rewrite lookup_empty. naive_solver. }
    destruct (node_get_parent n) as [room|] eqn:Eg.
    + apply (parent_shown h p n room Hr Hn), RP in Eg. eapply total_weaken.
      * apply (expand_node_total ∅ f h n p room Lp); [|exact I1|exact Hn|exact Hid]. intros s Hs Hu. eapply spreads_first; eauto.
      * intros [f' h'] (J1 & J2 & J3). cbn [fst snd] in *. split; [exact J1|]. intros q r x Hq H1 H2 H3. apply elem_of_cons in Hq as [->|Hq]; [apply J3; assumption|].
        destruct (I2 q r x Hq H1 H2 H3) as [K|(w & r' & K)]; [left; exact K|]. right. eauto.
    + apply total_ret. cbn [fst snd]. split; [exact I1|]. intros q r x Hq H1 H2 H3. apply elem_of_cons in Hq as [->|Hq]; [|eauto].
      apply RP, (parent_shown h p n r Hr Hn) in H1. congruence.
  - intros [f h] (d & (I1 & I2) & Hd). exists ∅. cbn [fst snd fl_frontier fl_graph fl_visited] in *. split; [exact I1|]. split; [split|].
    + intros p r x H1 H2 H3 H4. eapply I2; eauto. apply Hd, Hids, H1.
    + intros x y [r H]. rewrite lookup_empty in H. discriminate.
    + intros x. rewrite lookup_empty, elem_of_empty. split; [intros []|intros [? ?]; discriminate].
Qed.
End flood.
