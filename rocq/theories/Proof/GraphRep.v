(** The representation relation between the modelled graph and the abstract graph. *)
From Coq Require Import NArith ZArith Bool List Lia.
From stdpp Require Import base list gmap fin_maps tactics.
From Verif.Model Require Import Types Mesh Attrs Node EdgeContainer SLayer DLayer Graph.
From Verif.Spec Require Import AbstractGraph GraphHistory.
From Verif.Proof Require Import Arith Keys SLayerP SLayerMerge DLayerP DLayerOps.
Local Open Scope N_scope.

(** *** Keys *)
Definition canon (k : LayerKey) : Prop := lk_dynamic k = false -> lk_prefix k = 0.
Lemma canon_static l : canon (key_static l). Proof. intros _. reflexivity. Qed.
Lemma canon_dynamic l p : canon (key_dynamic l p). Proof. intros H. discriminate. Qed.
#[global] Hint Resolve canon_static canon_dynamic : core.

Lemma key_eqb_true a b : canon a -> canon b -> (key_eqb a b = true <-> a = b).
Proof.
  intros Ha Hb. unfold key_eqb. destruct a as [la pa da], b as [lb pb db]; cbn in *.
  unfold canon in *; cbn in *.
  destruct da, db; cbn; try (split; [discriminate|intros [=]]).
  - rewrite andb_true_iff, !N.eqb_eq. split; [intros [-> ->]; reflexivity|intros [= -> ->]; auto].
  - rewrite Ha, Hb by reflexivity. destruct (N.eqb_spec la lb) as [->|Hne]; cbn; [tauto|].
    split; [discriminate|congruence].
Qed.
Lemma key_eqb_false a b : canon a -> canon b -> (key_eqb a b = false <-> a <> b).
Proof.
  intros Ha Hb. rewrite <- (key_eqb_true a b Ha Hb). destruct (key_eqb a b); split; congruence.
Qed.

Lemma rel_sym_sib k kv : rel k kv = RSib <-> lk_layer k = lk_layer kv.
Proof. unfold rel. destruct (N.ltb_spec (lk_layer kv) (lk_layer k)), (N.ltb_spec (lk_layer k) (lk_layer kv)); split; try discriminate; try lia. reflexivity. Qed.
Lemma rel_child k kv : rel k kv = RChild <-> lk_layer kv < lk_layer k.
Proof. unfold rel. destruct (N.ltb_spec (lk_layer kv) (lk_layer k)), (N.ltb_spec (lk_layer k) (lk_layer kv)); split; try discriminate; try lia; reflexivity. Qed.
Lemma rel_parent k kv : rel k kv = RParent <-> lk_layer k < lk_layer kv.
Proof. unfold rel. destruct (N.ltb_spec (lk_layer kv) (lk_layer k)), (N.ltb_spec (lk_layer k) (lk_layer kv)); split; try discriminate; try lia; reflexivity. Qed.
Lemma rel_refl k : rel k k = RSib.
Proof. apply rel_sym_sib. reflexivity. Qed.

(** *** Node links *)
Definition get_link (r : Rel) (n : Node) : gset N :=
  match r with RChild => n_chd n | RParent => n_par n | RSib => n_sib n end.
Definition add_link (r : Rel) (v : N) : Node -> Node :=
  match r with RChild => add_chd v | RParent => add_par v | RSib => add_sib v end.
Definition del_link (r : Rel) (v : N) : Node -> Node :=
  match r with RChild => del_chd v | RParent => del_par v | RSib => del_sib v end.
Lemma elem_add_link r r' v x n : x ∈ get_link r' (add_link r v n) <-> (r = r' /\ x = v) \/ x ∈ get_link r' n.
Proof.
  destruct r, r'; cbn; rewrite ?elem_of_union, ?elem_of_singleton; intuition discriminate.
Qed.
Lemma elem_del_link r r' v x n : x ∈ get_link r' (del_link r v n) <-> ~ (r = r' /\ x = v) /\ x ∈ get_link r' n.
Proof.
  destruct r, r'; cbn; rewrite ?elem_of_difference, ?elem_of_singleton; intuition discriminate.
Qed.
Lemma benign_add_link r v : benign (add_link r v). Proof. destruct r; cbn; auto. Qed.
Lemma benign_del_link r v : benign (del_link r v). Proof. destruct r; cbn; auto. Qed.
Lemma attrs_add_link r v n : n_attrs (add_link r v n) = n_attrs n. Proof. destruct r; reflexivity. Qed.
Lemma attrs_del_link r v n : n_attrs (del_link r v n) = n_attrs n. Proof. destruct r; reflexivity. Qed.

(** *** Partitions *)
Definition g_part (g : Graph) (k : LayerKey) : option SLayer :=
  if lk_dynamic k then dl_view <$> g_dlayer g (lk_layer k) (lk_prefix k) else g_layers g !! lk_layer k.

Definition map_part (F : N -> Node -> Node) (L : SLayer) : SLayer :=
  sl_with_nodes L (map_imap (fun x n => Some (F x n)) (sl_nodes L)).
Definition at_node (x : N) (f : Node -> Node) : N -> Node -> Node := fun y n => if decide (y = x) then f n else n.

Lemma lookup_map_part F L x : sl_nodes (map_part F L) !! x = F x <$> sl_nodes L !! x.
Proof. cbn. rewrite map_lookup_imap. destruct (sl_nodes L !! x); reflexivity. Qed.
Lemma map_part_comp F G L : map_part F (map_part G L) = map_part (fun x n => F x (G x n)) L.
Proof.
  unfold map_part, sl_with_nodes; cbn. f_equal. apply map_eq. intros x. rewrite !map_lookup_imap.
  destruct (sl_nodes L !! x); reflexivity.
Qed.
Lemma map_part_alter x f L : map_part (at_node x f) L = sl_with_nodes L (alter f x (sl_nodes L)).
Proof.
  unfold map_part, sl_with_nodes; f_equal. apply map_eq. intros y. rewrite map_lookup_imap.
  unfold at_node. destruct (decide (y = x)) as [->|Hne].
  - rewrite lookup_alter. destruct (sl_nodes L !! x); reflexivity.
  - rewrite lookup_alter_ne by congruence. destruct (sl_nodes L !! y); reflexivity.
Qed.
Lemma map_part_absent x f L : sl_nodes L !! x = None -> map_part (at_node x f) L = L.
Proof.
  intros H. destruct L as [a m b c]. unfold map_part, sl_with_nodes; cbn in *; f_equal.
  apply map_eq. intros y. rewrite map_lookup_imap. unfold at_node.
  destruct (decide (y = x)) as [->|Hne]; [rewrite H; reflexivity|]. destruct (m !! y); reflexivity.
Qed.
Lemma map_part_id L : map_part (fun _ n => n) L = L.
Proof.
  destruct L as [a m b c]. unfold map_part, sl_with_nodes; cbn; f_equal.
  apply map_eq. intros y. rewrite map_lookup_imap. destruct (m !! y); reflexivity.
Qed.

Lemma sl_wf_map_part F L : sl_wf L ->
  (forall x n, sl_nodes L !! x = Some n -> n_id (F x n) = n_id n /\ n_layer (F x n) = n_layer n /\
     forall v, is_Some (sl_nodes L !! v) -> (v ∈ n_sib (F x n) <-> v ∈ n_sib n)) ->
  sl_wf (map_part F L).
Proof.
  intros [H1 H2 H3 H4 H5 H6] HF. split.
  - intros x n. rewrite lookup_map_part. rewrite fmap_Some. intros (n0 & Hn0 & ->).
    destruct (HF _ _ Hn0) as (-> & -> & _). cbn. auto.
  - exact H2.
  - intros k e He. rewrite !lookup_map_part, !is_Some_fmap_iff. apply (H3 _ _ He).
  - intros u v nu. rewrite !lookup_map_part, is_Some_fmap_iff, fmap_Some. intros (n0 & Hn0 & ->) Hv.
    destruct (HF _ _ Hn0) as (_ & _ & HF'). rewrite (HF' _ Hv). apply H4; assumption.
  - intros x. rewrite lookup_map_part, is_Some_fmap_iff. apply H5.
  - exact H6.
Qed.

(** *** The inter-layer containers *)
Definition g_ec (g : Graph) (dyn : bool) : EC := if dyn then g_dinter g else g_inter g.
Definition pair_dyn (k k' : LayerKey) : bool := lk_dynamic k || lk_dynamic k'.
Lemma g_pair_ec_eq g k k' : g_pair_ec g k k' = g_ec g (pair_dyn k k').
Proof. reflexivity. Qed.
Lemma pair_dyn_comm k k' : pair_dyn k k' = pair_dyn k' k.
Proof. apply orb_comm. Qed.

(** Where the edge (u,v) is recorded, if it is. *)
Definition g_edge_at (g : Graph) (u v : N) : option Edge :=
  match g_lookup g !! u, g_lookup g !! v with
  | Some ku, Some kv =>
    if decide (ku = kv) then
      match g_part g ku with Some L => ec_edges (sl_edges L) !! edge_key u v | None => None end
    else ec_edges (g_ec g (pair_dyn ku kv)) !! edge_key u v
  | _, _ => None
  end.

Definition DInv (g : Graph) : Prop :=
  forall l p d, g_dlayer g l p = Some d -> dl_core d /\ dl_id d = l /\ dl_prefix d = p /\ prefix_sub p = 0.
Definition dinfo (g : Graph) (l : LayerId) (p : N) : option (N * N) :=
  (fun d => (dl_next d, dl_size d)) <$> g_dlayer g l p.

Record node_ok (a : AGraph) (g : Graph) (x : N) (k : LayerKey) (n : Node) : Prop := {
  no_abs : exists an, ag_nodes a !! x = Some an /\ an_key an = k /\ an_time an = n_time n /\ an_attrs an = n_attrs n;
  no_links : forall r v, v ∈ get_link r n <->
    a_linked a x v /\ exists kv, g_lookup g !! v = Some kv /\ rel k kv = r
}.

Record Rep (g : Graph) (a : AGraph) : Prop := {
  rp_layers : forall l, is_Some (g_layers g !! l) <-> l ∈ ag_layers a;
  rp_dyn : forall l p, ag_dyn a !! (l, p) = dinfo g l p;
  rp_dinv : DInv g;
  rp_part : forall k L, canon k -> g_part g k = Some L -> sl_wf L /\ sl_id L = lk_layer k /\ lk_layer k <> UNKNOWN_LAYER;
  rp_lookup : forall x, g_lookup g !! x = a_key a x;
  rp_canon : forall x k, g_lookup g !! x = Some k -> canon k;
  rp_home : forall x k, canon k ->
    (g_lookup g !! x = Some k <-> exists L, g_part g k = Some L /\ is_Some (sl_nodes L !! x));
  rp_node : forall x k L n, canon k -> g_part g k = Some L -> sl_nodes L !! x = Some n -> node_ok a g x k n;
  rp_norm : forall k e, ag_edges a !! k = Some e -> k = edge_key (e_src e) (e_tgt e) /\ e_src e <> e_tgt e;
  rp_edge : forall u v, ag_edges a !! edge_key u v = g_edge_at g u v;
  rp_ec : forall dyn, ec_wf (g_ec g dyn);
  rp_inter : forall dyn k e, ec_edges (g_ec g dyn) !! k = Some e ->
    exists ku kv, g_lookup g !! e_src e = Some ku /\ g_lookup g !! e_tgt e = Some kv /\ ku <> kv /\ pair_dyn ku kv = dyn
}.

(** Same everything except node contents, edges and containers. *)
Record g_frame (g g' : Graph) : Prop := {
  gf_ids : g_layer_ids g' = g_layer_ids g;
  gf_mesh : g_mesh g' = g_mesh g;
  gf_lookup : g_lookup g' = g_lookup g;
  gf_layers : forall l, is_Some (g_layers g' !! l) <-> is_Some (g_layers g !! l);
  gf_dinfo : forall l p, dinfo g' l p = dinfo g l p
}.
Lemma g_frame_refl g : g_frame g g. Proof. split; auto. Qed.
Lemma g_frame_trans a b c : g_frame a b -> g_frame b c -> g_frame a c.
Proof.
  intros [A1 A2 A3 A4 A5] [B1 B2 B3 B4 B5]. split; try congruence.
  - intros l. rewrite B4. apply A4.
Qed.

Definition parts_mapped (F : N -> Node -> Node) (g g' : Graph) : Prop :=
  forall k, canon k -> g_part g' k = map_part F <$> g_part g k.
Definition part_set (k : LayerKey) (L : SLayer) (g g' : Graph) : Prop :=
  forall k', canon k' -> g_part g' k' = if decide (k' = k) then Some L else g_part g k'.

Lemma parts_mapped_trans F G g g1 g2 : parts_mapped F g g1 -> parts_mapped G g1 g2 ->
  parts_mapped (fun x n => G x (F x n)) g g2.
Proof.
  intros H1 H2 k Hk. rewrite (H2 k Hk), (H1 k Hk). destruct (g_part g k) as [L|]; [|reflexivity]. cbn.
  rewrite map_part_comp. reflexivity.
Qed.

(** *** Lookups of layers *)
Lemma g_dlayer_set g l p d l' p' :
  g_dlayer (g_set_dlayer g l p d) l' p' = if decide (l' = l /\ p' = p) then Some d else g_dlayer g l' p'.
Proof.
  unfold g_dlayer, g_set_dlayer; cbn. destruct (decide (l' = l)) as [->|Hl].
  - rewrite lookup_insert. destruct (decide (p' = p)) as [->|Hp].
    + rewrite lookup_insert. destruct (decide _); [reflexivity|tauto].
    + rewrite lookup_insert_ne by congruence. destruct (decide _) as [[? ?]|_]; [contradiction|].
      destruct (g_dlayers g !! l); cbn; [reflexivity|]. apply lookup_empty.
  - rewrite lookup_insert_ne by congruence. destruct (decide _) as [[? ?]|_]; [contradiction|reflexivity].
Qed.

Lemma g_part_set_layer g l s : part_set (key_static l) s g (g_set_layer g l s).
Proof.
  intros k Hk. unfold g_part; cbn. destruct (lk_dynamic k) eqn:E.
  - destruct (decide (k = key_static l)) as [->|_]; [discriminate|reflexivity].
  - destruct (decide (k = key_static l)) as [->|Hne]; [apply lookup_insert|].
    apply lookup_insert_ne. intros Heq. apply Hne. destruct k; cbn in *. subst. unfold canon in Hk; cbn in Hk.
    rewrite Hk by reflexivity. reflexivity.
Qed.
Lemma g_part_set_dlayer g l p d : part_set (key_dynamic l p) (dl_view d) g (g_set_dlayer g l p d).
Proof.
  intros k Hk. unfold g_part. destruct (lk_dynamic k) eqn:E.
  - rewrite g_dlayer_set. destruct (decide (lk_layer k = l ∧ lk_prefix k = p)) as [[<- <-]|Hne].
    + destruct (decide _) as [_|Hn]; [reflexivity|]. exfalso. apply Hn. destruct k; cbn in *. subst. reflexivity.
    + destruct (decide _) as [->|_]; [|reflexivity]. exfalso. apply Hne. auto.
  - destruct (decide _) as [->|_]; [discriminate|reflexivity].
Qed.

(** A partition as a BaseLayer. *)
Definition bl_view (b : BLayer) : SLayer := match b with BS l => l | BD d => dl_view d end.
Lemma g_layer_at_part g k : 
  match g_part g k with
  | Some L => exists b, g_layer_at g k = Ok b /\ bl_view b = L /\
      match b with BS _ => lk_dynamic k = false /\ g_layers g !! lk_layer k = Some L
                 | BD d => lk_dynamic k = true /\ g_dlayer g (lk_layer k) (lk_prefix k) = Some d end
  | None => g_layer_at g k = Throw
  end.
Proof.
  unfold g_part, g_layer_at. destruct (lk_dynamic k) eqn:E.
  - destruct (g_dlayer g (lk_layer k) (lk_prefix k)) as [d|] eqn:Ed; cbn; [|reflexivity].
    exists (BD d). auto.
  - destruct (g_layers g !! lk_layer k) as [l|] eqn:El; cbn; [|reflexivity].
    exists (BS l). auto.
Qed.

(** Writing back a layer of the same kind. *)
Lemma g_put_layer_part g k b : canon k -> (match b with BS _ => lk_dynamic k = false | BD _ => lk_dynamic k = true end) ->
  part_set k (bl_view b) g (g_put_layer g k b).
Proof.
  intros Hk Hb. destruct b as [s|d]; cbn.
  - assert (k = key_static (lk_layer k)) as -> by (destruct k; unfold canon in *; cbn in *; subst; rewrite Hk; reflexivity).
    apply g_part_set_layer.
  - assert (k = key_dynamic (lk_layer k) (lk_prefix k)) as -> by (destruct k; cbn in *; subst; reflexivity).
    apply g_part_set_dlayer.
Qed.

(** *** g_upd_ptr *)
Lemma g_upd_ptr_ok g x k L n f :
  DInv g -> canon k -> g_part g k = Some L -> sl_nodes L !! x = Some n -> benign f ->
  exists g', g_upd_ptr g x k f = Ok g' /\ g_node_ptr g x k = Ok (Some n) /\
    part_set k (sl_with_nodes L (alter f x (sl_nodes L))) g g' /\ g_frame g g' /\ DInv g' /\
    (forall dyn, g_ec g' dyn = g_ec g dyn).
Proof.
  intros HD Hc HL Hn Hf. unfold g_upd_ptr, g_node_ptr, g_part in *. destruct (lk_dynamic k) eqn:Ek.
  - destruct (g_dlayer g (lk_layer k) (lk_prefix k)) as [d|] eqn:Ed; [|discriminate].
    cbn in HL. injection HL as <-. cbn in Hn. destruct (HD _ _ _ Ed) as (Hd & Hid & Hpre & Hsub).
    assert (Hsi : sym_index x = prefix_index x).
    { apply dl_nmap_slot in Hn as (_ & Hp & Hlt); [|assumption].
      rewrite <- (make_id_of_id (dl_prefix d) (dlc_prefix _ Hd) x) by assumption.
      rewrite make_id_sym_index, make_id_index; [reflexivity|apply Hd|apply prefix_index_lt|apply Hd|congruence|apply prefix_index_lt]. }
    cbn [at_ rbind]. rewrite Hsi, dl_slot_lookup.
    destruct (dl_nmap_slot _ _ _ Hd Hn) as (Hslot & _ & _). rewrite Hslot. cbn [at_ rbind].
    destruct (dl_upd_ok d x n f Hd Hn Hf) as (d' & -> & Hd' & Hm' & Hs' & He'). cbn [rbind].
    eexists. split; [reflexivity|]. split; [reflexivity|]. split; [|split; [|split]].
    + pose proof (g_part_set_dlayer g (lk_layer k) (lk_prefix k) d') as Hps.
      assert (Hk : k = key_dynamic (lk_layer k) (lk_prefix k)) by (destruct k; cbn in *; subst; reflexivity).
      rewrite <- Hk in Hps. intros k' Hk'. rewrite (Hps k' Hk').
      destruct (decide (k' = k)); [|reflexivity]. f_equal. apply dl_view_upd; assumption.
    + split; try reflexivity. intros l p. unfold dinfo. rewrite g_dlayer_set.
      destruct (decide (l = lk_layer k ∧ p = lk_prefix k)) as [[-> ->]|]; [|reflexivity].
      rewrite Ed. cbn. destruct Hs' as (_ & _ & _ & _ & -> & Hl). unfold dl_size. rewrite Hl. reflexivity.
    + intros l p d0. rewrite g_dlayer_set. destruct (decide (l = lk_layer k ∧ p = lk_prefix k)) as [[-> ->]|]; [|apply HD].
      intros [= <-]. split; [assumption|]. destruct Hs' as (-> & -> & _). auto.
    + intros [|]; reflexivity.
  - rewrite HL. cbn [at_ rbind]. rewrite Hn. cbn [at_ rbind]. rewrite (sl_upd_ok _ _ _ _ Hn). cbn [rbind].
    eexists. split; [reflexivity|]. split; [reflexivity|]. split; [|split; [|split]].
    + assert (Hk : k = key_static (lk_layer k)) by (destruct k; unfold canon in *; cbn in *; subst; rewrite Hc; reflexivity).
      rewrite Hk at 1. apply g_part_set_layer.
    + split; try reflexivity. intros l. cbn. destruct (decide (lk_layer k = l)) as [<-|Hne].
      * rewrite lookup_insert, HL. split; eauto.
      * rewrite lookup_insert_ne by assumption. reflexivity.
    + exact HD.
    + intros [|]; reflexivity.
Qed.

(** What is needed to find the partition of a node. *)
Record GLoc (g : Graph) : Prop := {
  gl_dinv : DInv g;
  gl_canon : forall x k, g_lookup g !! x = Some k -> canon k;
  gl_home : forall x k, canon k ->
    (g_lookup g !! x = Some k <-> exists L, g_part g k = Some L /\ is_Some (sl_nodes L !! x))
}.
Lemma Rep_GLoc g a : Rep g a -> GLoc g.
Proof. intros H. split; apply H. Qed.

Lemma parts_mapped_ext F G g g' : (forall x n, F x n = G x n) -> parts_mapped F g g' -> parts_mapped G g g'.
Proof.
  intros H HF k Hk. rewrite (HF k Hk). destruct (g_part g k) as [L|]; [|reflexivity]. cbn. f_equal.
  unfold map_part. f_equal. apply map_eq. intros x. rewrite !map_lookup_imap. destruct (sl_nodes L !! x); cbn; [|reflexivity].
  rewrite H. reflexivity.
Qed.

Lemma GLoc_mapped F g g' : GLoc g -> parts_mapped F g g' -> g_lookup g' = g_lookup g -> DInv g' -> GLoc g'.
Proof.
  intros [H1 H2 H3] HF Hl HD. split; [assumption|rewrite Hl; assumption|].
  intros x k Hk. rewrite Hl, (H3 x k Hk), (HF k Hk). split.
  - intros (L & HL & Hs). rewrite HL. exists (map_part F L). split; [reflexivity|].
    rewrite lookup_map_part. apply is_Some_fmap_iff. exact Hs.
  - intros (L' & HL' & Hs). destruct (g_part g k) as [L|]; [|discriminate]. injection HL' as <-.
    exists L. split; [reflexivity|]. rewrite lookup_map_part in Hs. apply is_Some_fmap_iff in Hs. exact Hs.
Qed.

(** Updating one node is a global map, because ids are unique. *)
Lemma g_upd_ptr_loc g x k f :
  GLoc g -> g_lookup g !! x = Some k -> benign f ->
  exists g', g_upd_ptr g x k f = Ok g' /\
    (exists L n, g_part g k = Some L /\ sl_nodes L !! x = Some n /\ g_node_ptr g x k = Ok (Some n)) /\
    parts_mapped (at_node x f) g g' /\ g_frame g g' /\ GLoc g' /\
    (forall dyn, g_ec g' dyn = g_ec g dyn).
Proof.
  intros HR Hx Hf. pose proof (gl_canon _ HR _ _ Hx) as Hc.
  destruct (proj1 (gl_home _ HR _ _ Hc) Hx) as (L & HL & n & Hn).
  destruct (g_upd_ptr_ok g x k L n f (gl_dinv _ HR) Hc HL Hn Hf) as (g' & Hg' & Hptr & Hps & Hfr & HD' & Hec).
  assert (Hm : parts_mapped (at_node x f) g g').
  { intros k' Hk'. rewrite (Hps k' Hk'). destruct (decide (k' = k)) as [->|Hne].
    - rewrite HL. cbn. rewrite map_part_alter. reflexivity.
    - destruct (g_part g k') as [L'|] eqn:E; [|reflexivity]. cbn. rewrite map_part_absent; [reflexivity|].
      destruct (sl_nodes L' !! x) eqn:E2; [|reflexivity]. exfalso. apply Hne.
      assert (g_lookup g !! x = Some k') by (apply (gl_home _ HR _ _ Hk'); eauto). congruence. }
  exists g'. split; [assumption|]. split; [exists L, n; auto|]. split; [assumption|]. split; [assumption|]. split; [|assumption].
  eapply GLoc_mapped; [eassumption|exact Hm|apply Hfr|assumption].
Qed.

(** *** Ancestry updates *)
Definition link2 (s t : N) (fs ft : Node -> Node) : N -> Node -> Node :=
  fun x n => if decide (x = s) then fs n else if decide (x = t) then ft n else n.

Lemma g_upd2 g s t sk tk fs ft :
  GLoc g -> g_lookup g !! s = Some sk -> g_lookup g !! t = Some tk -> s <> t -> benign fs -> benign ft ->
  exists g', (let! g1 := g_upd_ptr g s sk fs in g_upd_ptr g1 t tk ft) = Ok g' /\
    parts_mapped (link2 s t fs ft) g g' /\ g_frame g g' /\ GLoc g' /\ (forall dyn, g_ec g' dyn = g_ec g dyn).
Proof.
  intros HR Hs Ht Hne Hfs Hft.
  destruct (g_upd_ptr_loc g s sk fs HR Hs Hfs) as (g1 & -> & _ & M1 & F1 & R1 & E1). cbn [rbind].
  destruct (g_upd_ptr_loc g1 t tk ft R1) as (g2 & -> & _ & M2 & F2 & R2 & E2).
  { rewrite (gf_lookup _ _ F1). assumption. } { assumption. }
  exists g2. split; [reflexivity|]. split.
  - eapply parts_mapped_ext; [|eapply parts_mapped_trans; eassumption]. intros x n. cbn. unfold at_node, link2.
    destruct (decide (x = s)) as [->|]; [|reflexivity]. destruct (decide (s = t)); [contradiction|reflexivity].
  - split; [eapply g_frame_trans; eassumption|]. split; [assumption|]. intros dyn. rewrite E2. apply E1.
Qed.

Lemma link2_comm s t fs ft x n : s <> t -> link2 s t fs ft x n = link2 t s ft fs x n.
Proof.
  intros Hne. unfold link2. destruct (decide (x = s)) as [->|]; [|reflexivity].
  destruct (decide (s = t)); [contradiction|reflexivity].
Qed.

Lemma g_add_ancestry_loc g s t sk tk :
  GLoc g -> g_lookup g !! s = Some sk -> g_lookup g !! t = Some tk -> s <> t ->
  exists g', g_add_ancestry g s t sk tk = Ok g' /\
    parts_mapped (link2 s t (add_link (rel sk tk) t) (add_link (rel tk sk) s)) g g' /\
    g_frame g g' /\ GLoc g' /\ (forall dyn, g_ec g' dyn = g_ec g dyn).
Proof.
  intros HR Hs Ht Hne. unfold g_add_ancestry.
  destruct (g_upd_ptr_loc g s sk (fun n => n) HR Hs) as (_ & _ & (? & ? & _ & _ & ->) & _); [repeat split|]. cbn [rbind].
  destruct (g_upd_ptr_loc g t tk (fun n => n) HR Ht) as (_ & _ & (? & ? & _ & _ & ->) & _); [repeat split|]. cbn [rbind].
  unfold key_is_parent, rel.
  destruct (N.ltb_spec (lk_layer tk) (lk_layer sk)); destruct (N.ltb_spec (lk_layer sk) (lk_layer tk)); try lia.
  - cbn [add_link]. apply g_upd2; auto.
  - destruct (g_upd2 g t s tk sk (add_chd s) (add_par t)) as (g' & -> & M & F & R & E); auto.
    exists g'. split; [reflexivity|]. split; [|auto]. eapply parts_mapped_ext; [|exact M].
    intros. cbn. apply link2_comm. congruence.
  - cbn [add_link]. apply g_upd2; auto.
Qed.

Lemma g_remove_ancestry_loc g s t sk tk :
  GLoc g -> g_lookup g !! s = Some sk -> g_lookup g !! t = Some tk -> s <> t ->
  exists g', g_remove_ancestry g s t sk tk = Ok g' /\
    parts_mapped (link2 s t (del_link (rel sk tk) t) (del_link (rel tk sk) s)) g g' /\
    g_frame g g' /\ GLoc g' /\ (forall dyn, g_ec g' dyn = g_ec g dyn).
Proof.
  intros HR Hs Ht Hne. unfold g_remove_ancestry.
  destruct (g_upd_ptr_loc g s sk (fun n => n) HR Hs) as (_ & _ & (? & ? & _ & _ & ->) & _); [repeat split|]. cbn [rbind].
  destruct (g_upd_ptr_loc g t tk (fun n => n) HR Ht) as (_ & _ & (? & ? & _ & _ & ->) & _); [repeat split|]. cbn [rbind].
  unfold key_is_parent, rel.
  destruct (N.ltb_spec (lk_layer tk) (lk_layer sk)); destruct (N.ltb_spec (lk_layer sk) (lk_layer tk)); try lia.
  - cbn [del_link]. apply g_upd2; auto.
  - destruct (g_upd2 g t s tk sk (del_chd s) (del_par t)) as (g' & -> & M & F & R & E); auto.
    exists g'. split; [reflexivity|]. split; [|auto]. eapply parts_mapped_ext; [|exact M].
    intros. cbn. apply link2_comm. congruence.
  - cbn [del_link]. apply g_upd2; auto.
Qed.

(** *** Changing one edge *)
Lemma Rep_edge_change g g' a E' F :
  Rep g a -> g_frame g g' -> DInv g' ->
  (forall k, canon k -> match g_part g k, g_part g' k with
     | Some L, Some L' => sl_id L' = sl_id L /\ sl_nodes L' = sl_nodes (map_part F L) /\ sl_wf L'
     | None, None => True
     | _, _ => False end) ->
  (forall x n, n_time (F x n) = n_time n /\ n_attrs (F x n) = n_attrs n) ->
  (forall x k n, g_lookup g !! x = Some k -> node_ok a g x k n -> forall r v, v ∈ get_link r (F x n) <->
     is_Some (E' !! edge_key x v) /\ exists kv, g_lookup g !! v = Some kv /\ rel k kv = r) ->
  (forall k e, E' !! k = Some e -> k = edge_key (e_src e) (e_tgt e) /\ e_src e <> e_tgt e) ->
  (forall u v, E' !! edge_key u v = g_edge_at g' u v) ->
  (forall dyn, ec_wf (g_ec g' dyn)) ->
  (forall dyn k e, ec_edges (g_ec g' dyn) !! k = Some e ->
    exists ku kv, g_lookup g !! e_src e = Some ku /\ g_lookup g !! e_tgt e = Some kv /\ ku <> kv /\ pair_dyn ku kv = dyn) ->
  Rep g' (a_with_edges a E').
Proof.
  intros HR HF HD Hp Hta Hlink Hnorm Hedge Hec Hinter. split; cbn.
  - intros l. rewrite (gf_layers _ _ HF). apply HR.
  - intros l p. rewrite (gf_dinfo _ _ HF). apply HR.
  - exact HD.
  - intros k L' Hk HL'. specialize (Hp k Hk). rewrite HL' in Hp. destruct (g_part g k) as [L|] eqn:E; [|contradiction].
    destruct Hp as (H1 & H2 & H3). destruct (rp_part _ _ HR _ _ Hk E) as (_ & H4 & H5). split; [assumption|]. split; congruence.
  - intros x. rewrite (gf_lookup _ _ HF). apply HR.
  - rewrite (gf_lookup _ _ HF). apply HR.
  - intros x k Hk. rewrite (gf_lookup _ _ HF), (rp_home _ _ HR _ _ Hk). specialize (Hp k Hk).
    destruct (g_part g k) as [L|] eqn:E1, (g_part g' k) as [L'|] eqn:E2; try contradiction.
    + destruct Hp as (_ & H2 & _). split; intros (L0 & [= <-] & Hs); eexists; (split; [reflexivity|]).
      * rewrite H2, lookup_map_part. apply is_Some_fmap_iff. exact Hs.
      * rewrite H2, lookup_map_part in Hs. apply is_Some_fmap_iff in Hs. exact Hs.
    + split; intros (L0 & [=] & _).
  - intros x k L' n' Hk HL' Hn'. specialize (Hp k Hk). rewrite HL' in Hp.
    destruct (g_part g k) as [L|] eqn:E1; [|contradiction]. destruct Hp as (_ & H2 & _).
    rewrite H2, lookup_map_part in Hn'. apply fmap_Some in Hn' as (n & Hn & ->).
    pose proof (rp_node _ _ HR _ _ _ _ Hk E1 Hn) as Hok. destruct (Hta x n) as [Ht Ha]. split.
    + destruct (no_abs _ _ _ _ _ Hok) as (an & ? & ? & ? & ?). exists an. cbn. repeat split; congruence.
    + intros r v. rewrite (gf_lookup _ _ HF). apply Hlink; [|assumption].
      apply (rp_home _ _ HR _ _ Hk). eauto.
  - exact Hnorm.
  - exact Hedge.
  - exact Hec.
  - rewrite (gf_lookup _ _ HF). exact Hinter.
Qed.

Lemma Rep_known g a x : Rep g a -> (is_Some (g_lookup g !! x) <-> a_known a x).
Proof. intros HR. rewrite (rp_lookup _ _ HR). apply is_Some_fmap_iff. Qed.

Lemma Rep_linked_known g a u v : Rep g a -> a_linked a u v ->
  u <> v /\ exists ku kv, g_lookup g !! u = Some ku /\ g_lookup g !! v = Some kv.
Proof.
  intros HR [e He]. split.
  - destruct (rp_norm _ _ HR _ _ He) as [Hk Hne]. intros ->. symmetry in Hk. apply edge_key_self in Hk as [? ?]. congruence.
  - rewrite (rp_edge _ _ HR) in He. unfold g_edge_at in He.
    destruct (g_lookup g !! u); [|discriminate]. destruct (g_lookup g !! v); [|discriminate]. eauto.
Qed.

Lemma a_linked_comm a u v : a_linked a u v <-> a_linked a v u.
Proof. unfold a_linked. rewrite edge_key_comm. reflexivity. Qed.

(** In a partition, an edge is an abstract edge. *)
Lemma Rep_part_edge g a k L u v : Rep g a -> canon k -> g_part g k = Some L ->
  g_lookup g !! u = Some k -> g_lookup g !! v = Some k ->
  ag_edges a !! edge_key u v = ec_edges (sl_edges L) !! edge_key u v.
Proof.
  intros HR Hk HL Hu Hv. rewrite (rp_edge _ _ HR). unfold g_edge_at. rewrite Hu, Hv.
  destruct (decide (k = k)); [|contradiction]. rewrite HL. reflexivity.
Qed.
Lemma Rep_pair_edge g a u v ku kv : Rep g a ->
  g_lookup g !! u = Some ku -> g_lookup g !! v = Some kv -> ku <> kv ->
  ag_edges a !! edge_key u v = ec_edges (g_ec g (pair_dyn ku kv)) !! edge_key u v.
Proof.
  intros HR Hu Hv Hne. rewrite (rp_edge _ _ HR). unfold g_edge_at. rewrite Hu, Hv.
  destruct (decide (ku = kv)); [contradiction|]. reflexivity.
Qed.

(** Links after adding / removing one abstract edge. *)
Lemma links_add g a s t sk tk e : Rep g a ->
  g_lookup g !! s = Some sk -> g_lookup g !! t = Some tk -> s <> t ->
  forall x k n, g_lookup g !! x = Some k -> node_ok a g x k n -> forall r v,
    v ∈ get_link r (link2 s t (add_link (rel sk tk) t) (add_link (rel tk sk) s) x n) <->
    is_Some (<[edge_key s t := e]> (ag_edges a) !! edge_key x v) /\ exists kv, g_lookup g !! v = Some kv /\ rel k kv = r.
Proof.
  intros HR Hs Ht Hne x k n Hx Hok r v. rewrite is_Some_insert, edge_key_inj. unfold link2.
  pose proof (no_links _ _ _ _ _ Hok r v) as Hl. unfold a_linked in Hl.
  destruct (decide (x = s)) as [->|Hxs]; [|destruct (decide (x = t)) as [->|Hxt]].
  - assert (k = sk) as -> by congruence. rewrite elem_add_link, Hl. split.
    + intros [[<- ->]|[? ?]]; [|auto]. split; [auto|]. eauto.
    + intros [[[[_ <-]|[-> ->]]|?] (kv & Hkv & Hr)]; [|contradiction|eauto].
      left. split; [congruence|reflexivity].
  - assert (k = tk) as -> by congruence. rewrite elem_add_link, Hl. split.
    + intros [[<- ->]|[? ?]]; [|auto]. split; [auto|]. eauto.
    + intros [[[[? ?]|[? ?]]|?] (kv & Hkv & Hr)]; subst; try contradiction; [|eauto].
      left. split; [congruence|reflexivity].
  - rewrite Hl. split; [intros [? ?]; auto|]. intros [[[[? ?]|[? ?]]|?] ?]; subst; try contradiction. auto.
Qed.

Lemma links_del g a s t sk tk : Rep g a ->
  g_lookup g !! s = Some sk -> g_lookup g !! t = Some tk -> s <> t ->
  forall x k n, g_lookup g !! x = Some k -> node_ok a g x k n -> forall r v,
    v ∈ get_link r (link2 s t (del_link (rel sk tk) t) (del_link (rel tk sk) s) x n) <->
    is_Some (delete (edge_key s t) (ag_edges a) !! edge_key x v) /\ exists kv, g_lookup g !! v = Some kv /\ rel k kv = r.
Proof.
  intros HR Hs Ht Hne x k n Hx Hok r v. rewrite is_Some_delete, edge_key_inj. unfold link2.
  pose proof (no_links _ _ _ _ _ Hok r v) as Hl. unfold a_linked in Hl.
  destruct (decide (x = s)) as [->|Hxs]; [|destruct (decide (x = t)) as [->|Hxt]].
  - assert (k = sk) as -> by congruence. rewrite elem_del_link, Hl. split.
    + intros [Hn [? (kv & Hkv & Hr)]]. split; [|eauto]. split; [|assumption].
      intros [[_ <-]|[? ?]]; [|congruence]. apply Hn. split; [congruence|reflexivity].
    + intros [[Hn ?] ?]. split; [|auto]. intros [_ ->]. apply Hn. auto.
  - assert (k = tk) as -> by congruence. rewrite elem_del_link, Hl. split.
    + intros [Hn [? (kv & Hkv & Hr)]]. split; [|eauto]. split; [|assumption].
      intros [[? ?]|[? ?]]; [congruence|]. subst. apply Hn. split; [congruence|reflexivity].
    + intros [[Hn ?] ?]. split; [|auto]. intros [_ ->]. apply Hn. auto.
  - rewrite Hl. split; [|tauto]. intros [? ?]. split; [|assumption]. split; [|assumption].
    intros [[? ?]|[? ?]]; subst; contradiction.
Qed.

Lemma link2_benign s t fs ft : benign fs -> benign ft -> (forall n, n_attrs (fs n) = n_attrs n) -> (forall n, n_attrs (ft n) = n_attrs n) ->
  forall x n, n_time (link2 s t fs ft x n) = n_time n /\ n_attrs (link2 s t fs ft x n) = n_attrs n /\
    n_id (link2 s t fs ft x n) = n_id n /\ n_layer (link2 s t fs ft x n) = n_layer n.
Proof.
  intros H1 H2 H3 H4 x n. unfold link2. destruct (H1 n) as (? & ? & ?), (H2 n) as (? & ? & ?).
  destruct (decide (x = s)); [|destruct (decide (x = t))]; auto.
Qed.

(** Inter-layer link changes keep each partition well-formed. *)
Lemma sl_wf_link2_cross g s t sk tk fs ft k L : GLoc g ->
  g_lookup g !! s = Some sk -> g_lookup g !! t = Some tk -> sk <> tk -> canon k -> g_part g k = Some L -> sl_wf L ->
  benign fs -> benign ft ->
  (forall v n, v <> t -> (v ∈ n_sib (fs n) <-> v ∈ n_sib n)) ->
  (forall v n, v <> s -> (v ∈ n_sib (ft n) <-> v ∈ n_sib n)) ->
  sl_wf (map_part (link2 s t fs ft) L).
Proof.
  intros HR Hs Ht Hne Hk HL Hwf Hfs Hft H1 H2. apply sl_wf_map_part; [assumption|].
  intros x n Hn. assert (Hx : g_lookup g !! x = Some k) by (apply (gl_home _ HR _ _ Hk); eauto).
  unfold link2. destruct (Hfs n) as (? & ? & _), (Hft n) as (? & ? & _).
  destruct (decide (x = s)) as [->|]; [|destruct (decide (x = t)) as [->|]].
  - split; [assumption|]. split; [assumption|]. intros v Hv. apply H1. intros ->.
    assert (g_lookup g !! t = Some k) by (apply (gl_home _ HR _ _ Hk); eauto). congruence.
  - split; [assumption|]. split; [assumption|]. intros v Hv. apply H2. intros ->.
    assert (g_lookup g !! s = Some k) by (apply (gl_home _ HR _ _ Hk); eauto). congruence.
  - split; [reflexivity|]. split; [reflexivity|]. reflexivity.
Qed.

Lemma add_link_sib_other r v w n : v <> w -> (v ∈ n_sib (add_link r w n) <-> v ∈ n_sib n).
Proof. intros H. rewrite (elem_add_link r RSib w v n : v ∈ n_sib _ <-> _). cbn. split; [intros [[_ ?]|?]; [contradiction|assumption]|auto]. Qed.
Lemma del_link_sib_other r v w n : v <> w -> (v ∈ n_sib (del_link r w n) <-> v ∈ n_sib n).
Proof. intros H. rewrite (elem_del_link r RSib w v n : v ∈ n_sib _ <-> _). cbn. tauto. Qed.

Lemma Rep_add_inter g g' a s t sk tk i :
  Rep g a -> g_lookup g !! s = Some sk -> g_lookup g !! t = Some tk -> sk <> tk -> ~ a_linked a s t ->
  parts_mapped (link2 s t (add_link (rel sk tk) t) (add_link (rel tk sk) s)) g g' ->
  g_frame g g' -> DInv g' ->
  (forall dyn, g_ec g' dyn = if Bool.eqb dyn (pair_dyn sk tk) then ec_insert (g_ec g dyn) s t i else g_ec g dyn) ->
  Rep g' (a_add_edge a s t (default ea_default i)).
Proof.
  intros HR Hs Ht Hkne Hnl HM HF HD HE.
  assert (Hne : s <> t) by congruence.
  assert (Hno : ec_edges (g_ec g (pair_dyn sk tk)) !! edge_key s t = None).
  { rewrite <- (Rep_pair_edge g a s t sk tk HR Hs Ht Hkne). apply eq_None_not_Some. exact Hnl. }
  pose proof (link2_benign s t _ _ (benign_add_link (rel sk tk) t) (benign_add_link (rel tk sk) s)
     (attrs_add_link _ _) (attrs_add_link _ _)) as Hben.
  eapply Rep_edge_change with (F := link2 s t (add_link (rel sk tk) t) (add_link (rel tk sk) s)).
  - exact HR.
  - exact HF.
  - exact HD.
  - intros k Hk. rewrite (HM k Hk). destruct (g_part g k) as [L|] eqn:E; [|exact I]. cbn [fmap option_fmap option_map].
    split; [reflexivity|]. split; [reflexivity|]. destruct (rp_part _ _ HR _ _ Hk E) as (Hwf & _).
    eapply (sl_wf_link2_cross g); eauto using Rep_GLoc, benign_add_link, add_link_sib_other.
  - intros x n. destruct (Hben x n) as (? & ? & _). auto.
  - apply links_add; assumption.
  - intros k e. rewrite lookup_insert_Some. intros [[<- <-]|[_ He]]; [auto|]. apply (rp_norm _ _ HR _ _ He).
  - intros u v. unfold g_edge_at. rewrite (gf_lookup _ _ HF).
    destruct (decide (edge_key s t = edge_key u v)) as [Heq|Hneq].
    + rewrite <- Heq, lookup_insert. apply edge_key_inj in Heq as [[<- <-]|[<- <-]].
      * rewrite Hs, Ht. destruct (decide (sk = tk)); [contradiction|]. rewrite HE, eqb_reflx.
        rewrite ec_insert_edges_new by assumption. rewrite lookup_insert. reflexivity.
      * rewrite Hs, Ht. destruct (decide (tk = sk)); [congruence|]. rewrite (pair_dyn_comm tk sk), HE, eqb_reflx.
        rewrite ec_insert_edges_new by assumption. rewrite lookup_insert. reflexivity.
    + rewrite lookup_insert_ne by assumption. rewrite (rp_edge _ _ HR). unfold g_edge_at.
      destruct (g_lookup g !! u) as [ku|] eqn:Eu; [|reflexivity]. destruct (g_lookup g !! v) as [kv|] eqn:Ev; [|reflexivity].
      destruct (decide (ku = kv)) as [->|].
      * rewrite (HM kv (rp_canon _ _ HR _ _ Eu)). destruct (g_part g kv); reflexivity.
      * rewrite HE. destruct (Bool.eqb _ _) eqn:Eb; [|reflexivity]. apply eqb_prop in Eb. rewrite Eb.
        rewrite ec_insert_edges_new by assumption. rewrite lookup_insert_ne by assumption. reflexivity.
  - intros dyn. rewrite HE. destruct (Bool.eqb _ _); [apply ec_wf_insert|]; apply HR.
  - intros dyn k e. rewrite HE. destruct (Bool.eqb _ _) eqn:Eb; [|apply HR]. apply eqb_prop in Eb. subst dyn.
    rewrite ec_insert_edges_new by assumption. rewrite lookup_insert_Some.
    intros [[_ <-]|[_ He]]; [|eapply HR; eassumption]. cbn. exists sk, tk. auto.
Qed.

Lemma Rep_del_inter g g' a s t sk tk :
  Rep g a -> g_lookup g !! s = Some sk -> g_lookup g !! t = Some tk -> sk <> tk ->
  parts_mapped (link2 s t (del_link (rel sk tk) t) (del_link (rel tk sk) s)) g g' ->
  g_frame g g' -> DInv g' ->
  (forall dyn, ec_edges (g_ec g' dyn) = (if Bool.eqb dyn (pair_dyn sk tk) then delete (edge_key s t) (ec_edges (g_ec g dyn)) else ec_edges (g_ec g dyn))) ->
  (forall dyn, ec_wf (g_ec g' dyn)) ->
  Rep g' (a_del_edge a s t).
Proof.
  intros HR Hs Ht Hkne HM HF HD HE HW.
  assert (Hne : s <> t) by congruence.
  pose proof (link2_benign s t _ _ (benign_del_link (rel sk tk) t) (benign_del_link (rel tk sk) s)
     (attrs_del_link _ _) (attrs_del_link _ _)) as Hben.
  eapply Rep_edge_change with (F := link2 s t (del_link (rel sk tk) t) (del_link (rel tk sk) s)).
  - exact HR.
  - exact HF.
  - exact HD.
  - intros k Hk. rewrite (HM k Hk). destruct (g_part g k) as [L|] eqn:E; [|exact I]. cbn [fmap option_fmap option_map].
    split; [reflexivity|]. split; [reflexivity|]. destruct (rp_part _ _ HR _ _ Hk E) as (Hwf & _).
    eapply (sl_wf_link2_cross g); eauto using Rep_GLoc, benign_del_link, del_link_sib_other.
  - intros x n. destruct (Hben x n) as (? & ? & _). auto.
  - apply links_del; assumption.
  - intros k e. rewrite lookup_delete_Some. intros [_ He]. apply (rp_norm _ _ HR _ _ He).
  - intros u v. unfold g_edge_at. rewrite (gf_lookup _ _ HF).
    destruct (decide (edge_key s t = edge_key u v)) as [Heq|Hneq].
    + rewrite <- Heq, lookup_delete. apply edge_key_inj in Heq as [[<- <-]|[<- <-]].
      * rewrite Hs, Ht. destruct (decide (sk = tk)); [contradiction|]. rewrite HE, eqb_reflx, lookup_delete. reflexivity.
      * rewrite Hs, Ht. destruct (decide (tk = sk)); [congruence|]. rewrite (pair_dyn_comm tk sk), HE, eqb_reflx, lookup_delete. reflexivity.
    + rewrite lookup_delete_ne by assumption. rewrite (rp_edge _ _ HR). unfold g_edge_at.
      destruct (g_lookup g !! u) as [ku|] eqn:Eu; [|reflexivity]. destruct (g_lookup g !! v) as [kv|] eqn:Ev; [|reflexivity].
      destruct (decide (ku = kv)) as [->|].
      * rewrite (HM kv (rp_canon _ _ HR _ _ Eu)). destruct (g_part g kv); reflexivity.
      * rewrite HE. destruct (Bool.eqb _ _) eqn:Eb; [|reflexivity]. rewrite lookup_delete_ne by assumption. reflexivity.
  - exact HW.
  - intros dyn k e. rewrite HE. destruct (Bool.eqb _ _) eqn:Eb; [|apply HR].
    rewrite lookup_delete_Some. intros [_ He]. eapply HR; eassumption.
Qed.

(** Edges inside one partition. *)
Lemma Rep_add_intra g g' a s t k L i :
  Rep g a -> g_lookup g !! s = Some k -> g_lookup g !! t = Some k -> g_part g k = Some L -> sl_can_insert L s t ->
  part_set k (sl_inserted L s t i) g g' -> g_frame g g' -> DInv g' -> (forall dyn, g_ec g' dyn = g_ec g dyn) ->
  Rep g' (a_add_edge a s t (default ea_default i)).
Proof.
  intros HR Hs Ht HL Hc HM HF HD HE.
  pose proof (rp_canon _ _ HR _ _ Hs) as Hk.
  destruct (rp_part _ _ HR _ _ Hk HL) as (Hwf & _).
  pose proof (sl_wf_insert_edge L s t i Hwf Hc) as Hwf'.
  destruct Hc as (Hne & Hno & _).
  pose proof (link2_benign s t _ _ (benign_add_link RSib t) (benign_add_link RSib s)
     (attrs_add_link _ _) (attrs_add_link _ _)) as Hben.
  eapply Rep_edge_change with (F := link2 s t (add_link RSib t) (add_link RSib s)).
  - exact HR.
  - exact HF.
  - exact HD.
  - intros k' Hk'. rewrite (HM k' Hk'). destruct (decide (k' = k)) as [->|Hkne].
    + rewrite HL. split; [reflexivity|]. split; [|assumption]. apply map_eq. intros x.
      rewrite lookup_map_part. cbn. rewrite lookup_link_sib by assumption. reflexivity.
    + destruct (g_part g k') as [L'|] eqn:E; [|exact I]. destruct (rp_part _ _ HR _ _ Hk' E) as (Hwf0 & _).
      split; [reflexivity|]. split; [|assumption]. apply map_eq. intros x. rewrite lookup_map_part.
      destruct (sl_nodes L' !! x) as [n|] eqn:En; [|reflexivity]. cbn. f_equal. unfold link2.
      assert (g_lookup g !! x = Some k') by (apply (rp_home _ _ HR _ _ Hk'); eauto).
      destruct (decide (x = s)); [congruence|]. destruct (decide (x = t)); [congruence|]. reflexivity.
  - intros x n. destruct (Hben x n) as (? & ? & _). auto.
  - intros x kx n Hx Hok r v.
    pose proof (links_add g a s t k k (mkEdge s t (default ea_default i)) HR Hs Ht Hne x kx n Hx Hok r v) as Hl.
    rewrite !rel_refl in Hl. exact Hl.
  - intros k' e. rewrite lookup_insert_Some. intros [[<- <-]|[_ He]]; [auto|]. apply (rp_norm _ _ HR _ _ He).
  - intros u v. unfold g_edge_at. rewrite (gf_lookup _ _ HF).
    destruct (decide (edge_key s t = edge_key u v)) as [Heq|Hneq].
    + rewrite <- Heq, lookup_insert.
      assert (g_lookup g !! u = Some k /\ g_lookup g !! v = Some k) as [-> ->].
      { apply edge_key_inj in Heq as [[<- <-]|[<- <-]]; auto. }
      destruct (decide (k = k)); [|contradiction]. rewrite (HM k Hk). destruct (decide (k = k)); [|contradiction].
      cbn. rewrite ec_insert_edges_new by assumption. rewrite lookup_insert. reflexivity.
    + rewrite lookup_insert_ne by assumption. rewrite (rp_edge _ _ HR). unfold g_edge_at.
      destruct (g_lookup g !! u) as [ku|] eqn:Eu; [|reflexivity]. destruct (g_lookup g !! v) as [kv|] eqn:Ev; [|reflexivity].
      destruct (decide (ku = kv)) as [->|].
      * rewrite (HM kv (rp_canon _ _ HR _ _ Eu)). destruct (decide (kv = k)) as [->|]; [|reflexivity].
        rewrite HL. cbn. rewrite ec_insert_edges_new by assumption. rewrite lookup_insert_ne by assumption. reflexivity.
      * rewrite HE. reflexivity.
  - intros dyn. rewrite HE. apply HR.
  - intros dyn k' e. rewrite HE. apply HR.
Qed.

Lemma Rep_del_intra g g' a s t k L :
  Rep g a -> g_lookup g !! s = Some k -> g_lookup g !! t = Some k -> g_part g k = Some L ->
  is_Some (ec_edges (sl_edges L) !! edge_key s t) ->
  part_set k (sl_removed L s t) g g' -> g_frame g g' -> DInv g' -> (forall dyn, g_ec g' dyn = g_ec g dyn) ->
  Rep g' (a_del_edge a s t).
Proof.
  intros HR Hs Ht HL Hc HM HF HD HE.
  pose proof (rp_canon _ _ HR _ _ Hs) as Hk.
  destruct (rp_part _ _ HR _ _ Hk HL) as (Hwf & _).
  pose proof (sl_wf_remove_edge L s t Hwf Hc) as Hwf'.
  destruct (sl_edge_key _ _ _ Hwf Hc) as (Hne & _ & _).
  pose proof (link2_benign s t _ _ (benign_del_link RSib t) (benign_del_link RSib s)
     (attrs_del_link _ _) (attrs_del_link _ _)) as Hben.
  eapply Rep_edge_change with (F := link2 s t (del_link RSib t) (del_link RSib s)).
  - exact HR.
  - exact HF.
  - exact HD.
  - intros k' Hk'. rewrite (HM k' Hk'). destruct (decide (k' = k)) as [->|Hkne].
    + rewrite HL. split; [reflexivity|]. split; [|assumption]. apply map_eq. intros x.
      rewrite lookup_map_part. cbn. rewrite lookup_unlink_sib by assumption. reflexivity.
    + destruct (g_part g k') as [L'|] eqn:E; [|exact I]. destruct (rp_part _ _ HR _ _ Hk' E) as (Hwf0 & _).
      split; [reflexivity|]. split; [|assumption]. apply map_eq. intros x. rewrite lookup_map_part.
      destruct (sl_nodes L' !! x) as [n|] eqn:En; [|reflexivity]. cbn. f_equal. unfold link2.
      assert (g_lookup g !! x = Some k') by (apply (rp_home _ _ HR _ _ Hk'); eauto).
      destruct (decide (x = s)); [congruence|]. destruct (decide (x = t)); [congruence|]. reflexivity.
  - intros x n. destruct (Hben x n) as (? & ? & _). auto.
  - intros x kx n Hx Hok r v.
    pose proof (links_del g a s t k k HR Hs Ht Hne x kx n Hx Hok r v) as Hl.
    rewrite !rel_refl in Hl. exact Hl.
  - intros k' e. rewrite lookup_delete_Some. intros [_ He]. apply (rp_norm _ _ HR _ _ He).
  - intros u v. unfold g_edge_at. rewrite (gf_lookup _ _ HF).
    destruct (decide (edge_key s t = edge_key u v)) as [Heq|Hneq].
    + rewrite <- Heq, lookup_delete.
      assert (g_lookup g !! u = Some k /\ g_lookup g !! v = Some k) as [-> ->].
      { apply edge_key_inj in Heq as [[<- <-]|[<- <-]]; auto. }
      destruct (decide (k = k)); [|contradiction]. rewrite (HM k Hk). destruct (decide (k = k)); [|contradiction].
      cbn. rewrite lookup_delete. reflexivity.
    + rewrite lookup_delete_ne by assumption. rewrite (rp_edge _ _ HR). unfold g_edge_at.
      destruct (g_lookup g !! u) as [ku|] eqn:Eu; [|reflexivity]. destruct (g_lookup g !! v) as [kv|] eqn:Ev; [|reflexivity].
      destruct (decide (ku = kv)) as [->|].
      * rewrite (HM kv (rp_canon _ _ HR _ _ Eu)). destruct (decide (kv = k)) as [->|]; [|reflexivity].
        rewrite HL. cbn. rewrite lookup_delete_ne by assumption. reflexivity.
      * rewrite HE. reflexivity.
  - intros dyn. rewrite HE. apply HR.
  - intros dyn k' e. rewrite HE. apply HR.
Qed.
