(** Simulation of the edge operations of the graph by the abstract graph. *)
From Coq Require Import NArith ZArith Bool List Lia.
From stdpp Require Import base list gmap fin_maps tactics.
From Verif.Model Require Import Types Mesh Attrs Node EdgeContainer SLayer DLayer Graph.
From Verif.Spec Require Import AbstractGraph GraphHistory.
From Verif.Proof Require Import Arith Keys SLayerP SLayerMerge DLayerP DLayerOps GraphRep.
Local Open Scope N_scope.

(** One call of the model agrees with one call of the specification. *)
Definition sim (a : AGraph) (r : result (bool * Graph)) (o : AOut * AGraph) : Prop :=
  match r with
  | Ok (b, g') => fst o = ABool b /\ Rep g' (snd o)
  | Throw => fst o = AThrow /\ snd o = a
  | UB => False
  end.

(** *** Layers of the graph *)
Definition bl_compat (b b' : BLayer) : Prop :=
  match b, b' with
  | BS _, BS _ => True
  | BD d, BD d' => dl_core d' /\ dl_same d d'
  | _, _ => False
  end.

Lemma g_layer_at_inv g k b : canon k -> g_layer_at g k = Ok b ->
  g_part g k = Some (bl_view b) /\
  match b with BS _ => lk_dynamic k = false /\ g_layers g !! lk_layer k = Some (bl_view b)
             | BD d => lk_dynamic k = true /\ g_dlayer g (lk_layer k) (lk_prefix k) = Some d end.
Proof.
  intros Hk Hb. pose proof (g_layer_at_part g k) as H. destruct (g_part g k) as [L|] eqn:E.
  - destruct H as (b0 & H1 & H2 & H3). rewrite H1 in Hb. injection Hb as ->. rewrite H2. split; [reflexivity|].
    destruct b; [|assumption]. cbn in H2. subst. assumption.
  - congruence.
Qed.
Lemma g_layer_at_some g k L : g_part g k = Some L -> exists b, g_layer_at g k = Ok b /\ bl_view b = L.
Proof.
  intros E. pose proof (g_layer_at_part g k) as H. rewrite E in H. destruct H as (b & ? & ? & _). eauto.
Qed.

Lemma g_put_layer_same g k b : canon k -> g_layer_at g k = Ok b -> g_put_layer g k b = g.
Proof.
  intros Hk Hb. destruct (g_layer_at_inv g k b Hk Hb) as [_ H]. destruct b as [l|d]; cbn.
  - destruct H as [_ H]. cbn in H. unfold g_set_layer. rewrite insert_id by assumption. destruct g; reflexivity.
  - destruct H as [_ H]. unfold g_set_dlayer, g_dlayer in *. destruct (g_dlayers g !! lk_layer k) as [m|] eqn:E; [|discriminate].
    cbn. rewrite (insert_id m) by assumption. rewrite insert_id by assumption. destruct g; reflexivity.
Qed.

Lemma g_put_layer_ok g k b b' : DInv g -> canon k -> g_layer_at g k = Ok b -> bl_compat b b' ->
  let g' := g_put_layer g k b' in
  part_set k (bl_view b') g g' /\ g_frame g g' /\ DInv g' /\ (forall dyn, g_ec g' dyn = g_ec g dyn).
Proof.
  intros HD Hk Hb Hc. destruct (g_layer_at_inv g k b Hk Hb) as [_ H].
  cbv zeta. split; [|split; [|split]].
  - apply g_put_layer_part; [assumption|]. destruct b, b'; try contradiction; apply H.
  - destruct b as [l|d], b' as [l'|d']; try contradiction; cbn; split; try reflexivity.
    + destruct H as [_ H]. intros l0. cbn. destruct (decide (lk_layer k = l0)) as [<-|].
      * rewrite lookup_insert, H. split; eauto.
      * rewrite lookup_insert_ne by assumption. reflexivity.
    + destruct H as [_ H]. intros l0 p0. unfold dinfo. rewrite g_dlayer_set.
      destruct (decide _) as [[-> ->]|]; [|reflexivity]. rewrite H. cbn.
      destruct Hc as (_ & _ & _ & _ & _ & -> & Hl). unfold dl_size. rewrite Hl. reflexivity.
  - destruct b as [l|d], b' as [l'|d']; try contradiction; cbn; [exact HD|].
    intros l0 p0 d0. rewrite g_dlayer_set. destruct H as [_ H]. destruct (decide _) as [[-> ->]|]; [|apply HD].
    intros [= <-]. destruct Hc as (Hc & Hi & Hp & _). destruct (HD _ _ _ H) as (_ & ? & ? & ?).
    rewrite Hi, Hp. auto.
  - destruct b', b; try contradiction; cbn; intros [|]; reflexivity.
Qed.

Lemma g_ec_with_pair g k k' c dyn : g_ec (g_with_pair_ec g k k' c) dyn =
  if Bool.eqb dyn (pair_dyn k k') then c else g_ec g dyn.
Proof. unfold g_with_pair_ec, pair_dyn. destruct (lk_dynamic k || lk_dynamic k'), dyn; reflexivity. Qed.
Lemma g_part_with_pair g k k' c x : g_part (g_with_pair_ec g k k' c) x = g_part g x.
Proof. unfold g_with_pair_ec. destruct (lk_dynamic k || lk_dynamic k'); reflexivity. Qed.
Lemma g_frame_with_pair g k k' c : g_frame g (g_with_pair_ec g k k' c).
Proof. unfold g_with_pair_ec. destruct (lk_dynamic k || lk_dynamic k'); split; reflexivity. Qed.
Lemma DInv_with_pair g k k' c : DInv g -> DInv (g_with_pair_ec g k k' c).
Proof. unfold g_with_pair_ec. destruct (lk_dynamic k || lk_dynamic k'); auto. Qed.
Lemma g_lookup_with_pair g k k' c : g_lookup (g_with_pair_ec g k k' c) = g_lookup g.
Proof. unfold g_with_pair_ec. destruct (lk_dynamic k || lk_dynamic k'); auto. Qed.

(** *** Where nodes live *)
Lemma Rep_home g a x k : Rep g a -> g_lookup g !! x = Some k ->
  canon k /\ lk_layer k <> UNKNOWN_LAYER /\
  exists L n, g_part g k = Some L /\ sl_nodes L !! x = Some n /\ sl_wf L /\ sl_id L = lk_layer k /\ node_ok a g x k n.
Proof.
  intros HR Hx. pose proof (rp_canon _ _ HR _ _ Hx) as Hk. split; [assumption|].
  destruct (proj1 (rp_home _ _ HR _ _ Hk) Hx) as (L & HL & n & Hn).
  destruct (rp_part _ _ HR _ _ Hk HL) as (? & ? & ?). split; [assumption|].
  exists L, n. split; [assumption|]. split; [assumption|]. split; [assumption|]. split; [assumption|].
  eapply rp_node; eassumption.
Qed.
Lemma Rep_in_part g a x k L : Rep g a -> g_lookup g !! x = Some k -> g_part g k = Some L -> is_Some (sl_nodes L !! x).
Proof.
  intros HR Hx HL. destruct (Rep_home _ _ _ _ HR Hx) as (_ & _ & L' & n & HL' & Hn & _).
  rewrite HL in HL'. injection HL' as <-. eauto.
Qed.
Lemma Rep_valid g a x k : Rep g a -> g_lookup g !! x = Some k -> key_valid k = true.
Proof.
  intros HR Hx. destruct (Rep_home _ _ _ _ HR Hx) as (_ & H & _). unfold key_valid.
  destruct (N.eqb_spec (lk_layer k) UNKNOWN_LAYER); [contradiction|reflexivity].
Qed.
Lemma Rep_node_ptr g a x k : Rep g a -> g_lookup g !! x = Some k ->
  exists L n, g_part g k = Some L /\ sl_nodes L !! x = Some n /\ g_node_ptr g x k = Ok (Some n) /\ node_ok a g x k n.
Proof.
  intros HR Hx. destruct (Rep_home _ _ _ _ HR Hx) as (Hk & _ & L & n & HL & Hn & _ & _ & Hok).
  destruct (g_upd_ptr_ok g x k L n (fun n => n) (rp_dinv _ _ HR) Hk HL Hn) as (g' & _ & Hp & _); [repeat split|].
  exists L, n. auto.
Qed.

(** *** Queries *)
Lemma has_edge_keys_ok g a s t : Rep g a ->
  g_has_edge_keys g s t = Ok (bool_decide (a_linked a s t),
    match g_lookup g !! s, g_lookup g !! t with Some sk, Some tk => Some (sk, tk) | _, _ => None end).
Proof.
  intros HR. unfold g_has_edge_keys.
  assert (Hnl : g_lookup g !! s = None \/ g_lookup g !! t = None -> bool_decide (a_linked a s t) = false).
  { intros H. apply bool_decide_eq_false. intros Hl. destruct (Rep_linked_known _ _ _ _ HR Hl) as (_ & ? & ? & ? & ?).
    destruct H; congruence. }
  destruct (g_lookup g !! s) as [sk|] eqn:Es; [|rewrite Hnl by auto; reflexivity].
  destruct (g_lookup g !! t) as [tk|] eqn:Et; [|rewrite Hnl by auto; reflexivity].
  pose proof (rp_canon _ _ HR _ _ Es) as Hcs. pose proof (rp_canon _ _ HR _ _ Et) as Hct.
  destruct (key_eqb sk tk) eqn:Ek.
  - apply (key_eqb_true _ _ Hcs Hct) in Ek. subst tk.
    destruct (Rep_home _ _ _ _ HR Es) as (_ & _ & L & n & HL & _).
    destruct (g_layer_at_some g sk L HL) as (b & -> & Hb). cbn. f_equal. f_equal.
    assert (bl_has_edge b s t = ec_contains (sl_edges L) s t) as -> by (destruct b; cbn in *; subst; reflexivity).
    unfold ec_contains. apply bool_decide_ext. unfold a_linked.
    rewrite (Rep_part_edge g a sk L s t HR Hcs HL Es Et). reflexivity.
  - apply (key_eqb_false _ _ Hcs Hct) in Ek. f_equal. f_equal. rewrite g_pair_ec_eq.
    unfold ec_contains. apply bool_decide_ext. unfold a_linked.
    rewrite (Rep_pair_edge g a s t sk tk HR Es Et Ek). reflexivity.
Qed.

Lemma has_edge_ok g a s t : Rep g a -> g_has_edge g s t = Ok (bool_decide (a_linked a s t)).
Proof. intros HR. unfold g_has_edge. rewrite (has_edge_keys_ok _ _ _ _ HR). reflexivity. Qed.

Lemma Rep_id_small g a x k : Rep g a -> g_lookup g !! x = Some k -> lk_dynamic k = true -> x < two64.
Proof.
  intros HR Hx Hd. destruct (Rep_home _ _ _ _ HR Hx) as (Hk & _ & L & n & HL & Hn & _).
  unfold g_part in HL. rewrite Hd in HL. destruct (g_dlayer g (lk_layer k) (lk_prefix k)) as [d|] eqn:Ed; [|discriminate].
  injection HL as <-. destruct (rp_dinv _ _ HR _ _ _ Ed) as (Hc & _). eapply dl_nmap_slot; eassumption.
Qed.

(** *** insertEdge *)
Lemma bl_insert_sim g a k b s t i : Rep g a -> g_lookup g !! s = Some k -> g_lookup g !! t = Some k ->
  g_layer_at g k = Ok b ->
  exists r l b', sl_insert_edge (bl_view b) s t i = Ok (r, l) /\ bl_insert_edge b s t i = Ok (r, b') /\
    bl_view b' = l /\ bl_compat b b' /\ (r = false -> b' = b).
Proof.
  intros HR Hs Ht Hb. pose proof (rp_canon _ _ HR _ _ Hs) as Hk.
  destruct (g_layer_at_inv g k b Hk Hb) as [HL H]. destruct b as [l|d]; cbn [bl_view bl_insert_edge].
  - destruct (decide (sl_can_insert l s t)) as [Hc|Hc].
    + rewrite (sl_insert_edge_ok _ _ _ _ Hc). cbn. do 3 eexists. repeat split; eauto. discriminate.
    + rewrite (sl_insert_edge_noop _ _ _ _ Hc). cbn. do 3 eexists. repeat split; eauto.
  - destruct H as [Hd H]. destruct (rp_dinv _ _ HR _ _ _ H) as (Hc & _).
    destruct (dl_insert_edge_sim d s t i Hc) as (r & l & d' & H1 & H2 & H3 & H4 & H5 & H6).
    { eapply Rep_id_small; eassumption. } { eapply Rep_id_small; eassumption. }
    rewrite H2. cbn. exists r, l, (BD d'). split; [assumption|]. split; [reflexivity|]. split; [assumption|].
    split; [split; assumption|]. intros Hr. f_equal. apply H6, Hr.
Qed.

Lemma insert_inter_ok g a s t sk tk i : Rep g a -> g_lookup g !! s = Some sk -> g_lookup g !! t = Some tk ->
  sk <> tk -> ~ a_linked a s t ->
  exists g1, g_add_ancestry g s t sk tk = Ok g1 /\
    Rep (g_with_pair_ec g1 sk tk (ec_insert (g_pair_ec g1 sk tk) s t i)) (a_add_edge a s t (default ea_default i)).
Proof.
  intros HR Es Et Ek Hnl.
  assert (Hst : s <> t) by congruence.
  destruct (g_add_ancestry_loc g s t sk tk (Rep_GLoc _ _ HR) Es Et Hst) as (g1 & -> & HM & HF & HL & HE).
  exists g1. split; [reflexivity|].
  eapply (Rep_add_inter g _ a s t sk tk i HR Es Et Ek Hnl).
  - intros k Hk. rewrite g_part_with_pair. apply HM, Hk.
  - eapply g_frame_trans; [exact HF|apply g_frame_with_pair].
  - apply DInv_with_pair, HL.
  - intros dyn. rewrite g_ec_with_pair, HE, g_pair_ec_eq, HE.
    destruct (Bool.eqb dyn (pair_dyn sk tk)) eqn:Eb; [|reflexivity]. apply eqb_prop in Eb. subst. reflexivity.
Qed.

Lemma insert_edge_sim g a s t i : Rep g a -> sim a (g_insert_edge g s t i) (ab (a_insert_edge a s t i)).
Proof.
  intros HR. unfold g_insert_edge. rewrite (has_edge_keys_ok _ _ _ _ HR). cbn [rbind].
  unfold a_insert_edge. case_bool_decide as Hl.
  { rewrite decide_False by tauto. cbn. auto. }
  destruct (g_lookup g !! s) as [sk|] eqn:Es.
  2:{ rewrite decide_False; [cbn; auto|]. intros (_ & Hk & _). apply (Rep_known _ _ _ HR) in Hk as [? ?]. congruence. }
  destruct (g_lookup g !! t) as [tk|] eqn:Et.
  2:{ rewrite decide_False; [cbn; auto|]. intros (_ & _ & Hk & _). apply (Rep_known _ _ _ HR) in Hk as [? ?]. congruence. }
  rewrite (Rep_valid _ _ _ _ HR Es), (Rep_valid _ _ _ _ HR Et). cbn [negb orb].
  assert (Hks : a_known a s) by (apply (Rep_known _ _ _ HR); eauto).
  assert (Hkt : a_known a t) by (apply (Rep_known _ _ _ HR); eauto).
  pose proof (rp_canon _ _ HR _ _ Es) as Hcs. pose proof (rp_canon _ _ HR _ _ Et) as Hct.
  destruct (key_eqb sk tk) eqn:Ek.
  - apply (key_eqb_true _ _ Hcs Hct) in Ek. subst tk.
    destruct (Rep_home _ _ _ _ HR Es) as (_ & _ & L & n & HL & _).
    destruct (g_layer_at_some g sk L HL) as (b & Hb & HbL). rewrite Hb. cbn [rbind].
    destruct (bl_insert_sim g a sk b s t i HR Es Et Hb) as (r & l & b' & H1 & H2 & H3 & H4 & H5).
    rewrite H2. cbn [rbind]. rewrite HbL in H1.
    assert (Hno : ec_edges (sl_edges L) !! edge_key s t = None).
    { rewrite <- (Rep_part_edge g a sk L s t HR Hcs HL Es Et). apply eq_None_not_Some. exact Hl. }
    destruct (decide (s = t)) as [Heq|Hst].
    + rewrite decide_False by tauto. subst t.
      rewrite sl_insert_edge_noop in H1 by (intros [? _]; congruence). injection H1 as <- <-.
      rewrite H5 by reflexivity. rewrite (g_put_layer_same g sk b Hcs Hb). cbn. auto.
    + rewrite decide_True by tauto. cbn [ab fst snd].
      assert (Hc : sl_can_insert L s t) by (repeat split; eauto using Rep_in_part).
      rewrite (sl_insert_edge_ok _ _ _ _ Hc) in H1. injection H1 as <- <-.
      destruct (g_put_layer_ok g sk b b' (rp_dinv _ _ HR) Hcs Hb H4) as (P1 & P2 & P3 & P4).
      rewrite H3 in P1. split; [reflexivity|]. eapply Rep_add_intra; eassumption.
  - apply (key_eqb_false _ _ Hcs Hct) in Ek.
    assert (Hst : s <> t) by congruence.
    rewrite decide_True by tauto.
    destruct (insert_inter_ok g a s t sk tk i HR Es Et Ek Hl) as (g1 & -> & HR'). cbn. auto.
Qed.

(** *** removeEdge *)
Lemma bl_remove_sim g a k b s t : Rep g a -> canon k -> g_part g k = Some (bl_view b) ->
  g_layer_at g k = Ok b ->
  exists r l b', sl_remove_edge (bl_view b) s t = Ok (r, l) /\ bl_remove_edge b s t = Ok (r, b') /\
    bl_view b' = l /\ bl_compat b b' /\ (r = false -> b' = b).
Proof.
  intros HR Hk Hp Hb. destruct (rp_part _ _ HR _ _ Hk Hp) as (Hwf & _).
  destruct (g_layer_at_inv g k b Hk Hb) as [HL H]. destruct b as [l|d]; cbn [bl_view bl_remove_edge] in *.
  - destruct (decide (is_Some (ec_edges (sl_edges l) !! edge_key s t))) as [Hc|Hc].
    + rewrite (sl_remove_edge_ok _ _ _ Hwf Hc). cbn. do 3 eexists. repeat split; eauto. discriminate.
    + rewrite (sl_remove_edge_noop _ _ _ (proj2 (eq_None_not_Some _) Hc)). cbn. do 3 eexists. repeat split; eauto.
  - destruct H as [Hd H]. destruct (rp_dinv _ _ HR _ _ _ H) as (Hc & _).
    destruct (dl_remove_edge_sim d s t (conj Hc Hwf)) as (r & l & d' & H1 & H2 & H3 & H4 & H5 & H6).
    rewrite H2. cbn. exists r, l, (BD d'). split; [assumption|]. split; [reflexivity|]. split; [assumption|].
    split; [split; assumption|]. intros Hr. f_equal. apply H6, Hr.
Qed.

Lemma remove_interlayer_keys_ok g a s t sk tk : Rep g a -> g_lookup g !! s = Some sk -> g_lookup g !! t = Some tk ->
  sk <> tk -> a_linked a s t ->
  exists g', g_remove_interlayer_keys g s t sk tk = Ok g' /\ g_frame g g' /\ Rep g' (a_del_edge a s t).
Proof.
  intros HR Es Et Ek Hl. assert (Hst : s <> t) by congruence. unfold g_remove_interlayer_keys.
  destruct (g_remove_ancestry_loc g s t sk tk (Rep_GLoc _ _ HR) Es Et Hst) as (g1 & -> & HM & HF & HL & HE).
  cbn [rbind]. rewrite g_pair_ec_eq, HE.
  assert (Hin : is_Some (ec_edges (g_ec g (pair_dyn sk tk)) !! edge_key s t)).
  { rewrite <- (Rep_pair_edge g a s t sk tk HR Es Et Ek). exact Hl. }
  rewrite (ec_remove_ok _ _ _ (rp_ec _ _ HR _) Hin). cbn [rbind].
  eexists. split; [reflexivity|].
  assert (HF' : g_frame g (g_with_pair_ec g1 sk tk
    (mkEC (delete (edge_key s t) (ec_edges (g_ec g (pair_dyn sk tk))))
       (<[edge_key s t:=EDeleted]> (ec_status (g_ec g (pair_dyn sk tk)))) (ec_stale (g_ec g (pair_dyn sk tk)))))).
  { eapply g_frame_trans; [exact HF|apply g_frame_with_pair]. }
  split; [exact HF'|].
  eapply (Rep_del_inter g _ a s t sk tk HR Es Et Ek).
  - intros k Hk. rewrite g_part_with_pair. apply HM, Hk.
  - exact HF'.
  - apply DInv_with_pair, HL.
  - intros dyn. rewrite g_ec_with_pair, HE.
    destruct (Bool.eqb dyn (pair_dyn sk tk)) eqn:Eb; [|reflexivity]. apply eqb_prop in Eb. subst. reflexivity.
  - intros dyn. rewrite g_ec_with_pair, HE. destruct (Bool.eqb _ _); [apply ec_wf_remove; [apply HR|apply edge_key_norm]|apply HR].
Qed.

Lemma remove_edge_frame g a s t : Rep g a ->
  exists b g', g_remove_edge g s t = Ok (b, g') /\ (b, snd (a_remove_edge a s t)) = a_remove_edge a s t /\
    g_frame g g' /\ Rep g' (snd (a_remove_edge a s t)).
Proof.
  intros HR. unfold g_remove_edge. rewrite (has_edge_keys_ok _ _ _ _ HR). cbn [rbind].
  unfold a_remove_edge. case_bool_decide as Hl; cbn [negb].
  2:{ rewrite decide_False by assumption. exists false, g. auto using g_frame_refl. }
  rewrite decide_True by assumption. cbn [snd].
  destruct (Rep_linked_known _ _ _ _ HR Hl) as (Hst & sk & tk & Es & Et). rewrite Es, Et.
  rewrite (Rep_valid _ _ _ _ HR Es), (Rep_valid _ _ _ _ HR Et). cbn [negb orb].
  pose proof (rp_canon _ _ HR _ _ Es) as Hcs. pose proof (rp_canon _ _ HR _ _ Et) as Hct.
  destruct (key_eqb sk tk) eqn:Ek.
  - apply (key_eqb_true _ _ Hcs Hct) in Ek. subst tk.
    destruct (Rep_home _ _ _ _ HR Es) as (_ & _ & L & n & HL & _ & Hwf & _).
    destruct (g_layer_at_some g sk L HL) as (b & Hb & HbL). rewrite Hb. cbn [rbind].
    destruct (bl_remove_sim g a sk b s t HR Hcs) as (r & l & b' & H1 & H2 & H3 & H4 & H5); [congruence|assumption|].
    rewrite H2. cbn [rbind]. rewrite HbL in H1.
    assert (Hin : is_Some (ec_edges (sl_edges L) !! edge_key s t)).
    { rewrite <- (Rep_part_edge g a sk L s t HR Hcs HL Es Et). exact Hl. }
    rewrite (sl_remove_edge_ok _ _ _ Hwf Hin) in H1. injection H1 as <- <-.
    destruct (g_put_layer_ok g sk b b' (rp_dinv _ _ HR) Hcs Hb H4) as (P1 & P2 & P3 & P4).
    rewrite H3 in P1. exists true. eexists. split; [reflexivity|]. split; [reflexivity|]. split; [exact P2|].
    eapply Rep_del_intra; eassumption.
  - apply (key_eqb_false _ _ Hcs Hct) in Ek.
    destruct (remove_interlayer_keys_ok g a s t sk tk HR Es Et Ek Hl) as (g' & -> & HF & HR'). cbn.
    exists true, g'. auto.
Qed.
Lemma remove_edge_sim g a s t : Rep g a -> sim a (g_remove_edge g s t) (ab (a_remove_edge a s t)).
Proof.
  intros HR. destruct (remove_edge_frame g a s t HR) as (b & g' & -> & H & _ & HR'). rewrite <- H. cbn. auto.
Qed.

(** *** insertParentEdge *)
Lemma Rep_del_absent g a u v : Rep g a -> ~ a_linked a u v -> snd (a_remove_edge a u v) = a.
Proof. intros _ H. unfold a_remove_edge. rewrite decide_False by assumption. reflexivity. Qed.

Lemma a_with_edges_nodes a e : ag_nodes (a_with_edges a e) = ag_nodes a. Proof. reflexivity. Qed.

(** Removing one by one the edges to the nodes of a list. *)
Definition del_edges (c : N) (ts : list N) (m : gmap EdgeKey Edge) : gmap EdgeKey Edge :=
  foldl (fun m t => delete (edge_key c t) m) m ts.
Lemma lookup_del_edges c ts m k :
  del_edges c ts m !! k = if decide (Exists (fun t => k = edge_key c t) ts) then None else m !! k.
Proof.
  revert m. induction ts as [|t r IH]; intros m; cbn.
  - rewrite decide_False; [reflexivity|]. intros H. inversion H.
  - fold (del_edges c r (delete (edge_key c t) m)). rewrite IH. destruct (decide (k = edge_key c t)) as [->|Hne].
    + rewrite (decide_True (P := Exists _ (t :: r))) by (left; reflexivity).
      destruct (decide _); [reflexivity|]. apply lookup_delete.
    + rewrite lookup_delete_ne by congruence. apply decide_ext. rewrite Exists_cons. tauto.
Qed.

Lemma remove_edges_loop ts c : forall g a, Rep g a ->
  exists g', rfold (fun g p => let! (_, g') := g_remove_edge g c p in Ok g') ts g = Ok g' /\ g_frame g g' /\
    Rep g' (a_with_edges a (del_edges c ts (ag_edges a))).
Proof.
  induction ts as [|t r IH]; intros g a HR; cbn.
  - exists g. split; [reflexivity|]. split; [apply g_frame_refl|]. destruct a; exact HR.
  - destruct (remove_edge_frame g a c t HR) as (b & g1 & -> & _ & HF1 & HR1). cbn [rbind].
    destruct (IH _ _ HR1) as (g2 & Hg2 & HF2 & HR2). exists g2. split; [exact Hg2|].
    split; [eapply g_frame_trans; eassumption|].
    assert (Heq : a_with_edges (snd (a_remove_edge a c t)) (del_edges c r (ag_edges (snd (a_remove_edge a c t)))) =
      a_with_edges a (del_edges c r (delete (edge_key c t) (ag_edges a)))).
    { unfold a_remove_edge. destruct (decide (a_linked a c t)) as [Hl|Hl]; [reflexivity|]. cbn [snd].
      rewrite delete_notin; [reflexivity|]. apply eq_None_not_Some. exact Hl. }
    rewrite Heq in HR2. exact HR2.
Qed.

Lemma is_parent_edge_key g a c p : Rep g a -> a_linked a c p ->
  is_parent_edge a c (edge_key c p) =
  match g_lookup g !! c, g_lookup g !! p with
  | Some kc, Some kp => match rel kc kp with RParent => true | _ => false end
  | _, _ => false end.
Proof.
  intros HR Hl. unfold is_parent_edge. destruct (Rep_linked_known _ _ _ _ HR Hl) as (Hne & _).
  rewrite bool_decide_true by (apply (touches_edge_key c c p); auto). cbn [andb].
  assert (key_other c (edge_key c p) = p) as ->.
  { exact (other_end_key c p). }
  rewrite !(rp_lookup _ _ HR). reflexivity.
Qed.

Lemma edges_without_parents_eq g a c kc n : Rep g a -> g_lookup g !! c = Some kc -> node_ok a g c kc n ->
  del_edges c (elements (n_par n)) (ag_edges a) = edges_without_parents a c.
Proof.
  intros HR Hc Hok. apply map_eq. intros k. rewrite lookup_del_edges. unfold edges_without_parents.
  rewrite map_filter_lookup. destruct (ag_edges a !! k) as [e|] eqn:Ee; cbn; [|destruct (decide _); reflexivity].
  destruct (rp_norm _ _ HR _ _ Ee) as [Hk Hne].
  assert (Hiff : (exists t, t ∈ elements (n_par n) /\ k = edge_key c t) <-> is_parent_edge a c k = true).
  { split.
    - intros (t & Ht & ->). rewrite elem_of_elements in Ht.
      apply (no_links _ _ _ _ _ Hok RParent t) in Ht as (Hl & kt & Hkt & Hr).
      rewrite (is_parent_edge_key g a c t HR Hl), Hc, Hkt, Hr. reflexivity.
    - intros Hp. pose proof Hp as Hp'. unfold is_parent_edge in Hp. apply andb_true_iff in Hp as [Ht _]. apply bool_decide_eq_true in Ht.
      rewrite Hk in Ht. apply touches_other in Ht as (t & Ht & _).
      rewrite <- Hk in Ht. exists t. split; [|assumption]. rewrite elem_of_elements.
      assert (Hl : a_linked a c t) by (exists e; congruence).
      apply (no_links _ _ _ _ _ Hok RParent t). split; [assumption|].
      rewrite Ht, (is_parent_edge_key g a c t HR Hl), Hc in Hp'.
      destruct (g_lookup g !! t) as [kt|]; [|discriminate]. exists kt. split; [reflexivity|].
      destruct (rel kc kt); try discriminate. reflexivity. }
  rewrite <- (list.Exists_exists (fun t => k = edge_key c t)) in Hiff.
  destruct (decide (Exists (fun t => k = edge_key c t) (elements (n_par n)))) as [H|H].
  - apply Hiff in H. rewrite H. reflexivity.
  - destruct (is_parent_edge a c k); [|reflexivity]. exfalso. apply H, Hiff. reflexivity.
Qed.

Lemma insert_parent_edge_sim g a s t i : Rep g a -> clean a (GInsertParentEdge s t i) ->
  sim a (g_insert_parent_edge g s t i) (ab (a_insert_parent_edge a s t i)).
Proof.
  intros HR Hclean. unfold g_insert_parent_edge. rewrite (has_edge_keys_ok _ _ _ _ HR). cbn [rbind].
  unfold a_insert_parent_edge. cbn in Hclean. rewrite <- !(rp_lookup _ _ HR) in *.
  case_bool_decide as Hl.
  { destruct (Rep_linked_known _ _ _ _ HR Hl) as (_ & sk & tk & -> & ->). rewrite decide_True by assumption. cbn. auto. }
  destruct (g_lookup g !! s) as [sk|] eqn:Es; [|cbn; auto].
  destruct (g_lookup g !! t) as [tk|] eqn:Et; [|cbn; auto].
  rewrite (Rep_valid _ _ _ _ HR Es), (Rep_valid _ _ _ _ HR Et). cbn [negb orb].
  pose proof (rp_canon _ _ HR _ _ Es) as Hcs. pose proof (rp_canon _ _ HR _ _ Et) as Hct.
  specialize (Hclean _ _ eq_refl eq_refl).
  assert (Ek : sk <> tk) by (intros ->; apply Hclean, rel_refl).
  assert (Hst : s <> t) by congruence.
  rewrite (proj2 (key_eqb_false _ _ Hcs Hct) Ek). cbn [negb].
  unfold g_drop_all_parents.
  destruct (Rep_node_ptr g a s sk HR Es) as (Ls & ns & HLs & Hns & -> & Hoks). cbn [rbind].
  destruct (Rep_node_ptr g a t tk HR Et) as (Lt & nt & HLt & Hnt & -> & Hokt). cbn [rbind].
  set (child := match rel sk tk with RChild => t | _ => s end).
  assert (Hch : exists kc nc, g_lookup g !! child = Some kc /\ node_ok a g child kc nc /\
     (if key_is_parent sk tk then Some nt else Some ns) = Some nc /\ (if key_is_parent sk tk then t else s) = child /\
     rel kc (if key_is_parent sk tk then sk else tk) = RParent).
  { unfold child, key_is_parent. destruct (N.ltb_spec (lk_layer tk) (lk_layer sk)) as [Hlt|Hge].
    - assert (rel sk tk = RChild) as -> by (apply rel_child; assumption). exists tk, nt. split; [assumption|]. split; [assumption|]. split; [reflexivity|]. split; [reflexivity|]. apply rel_parent. assumption.
    - destruct (rel sk tk) eqn:Er.
      + apply rel_child in Er. lia.
      + exists sk, ns. auto.
      + congruence. }
  destruct Hch as (kc & nc & Hkc & Hokc & -> & Hchild & _). cbn [deref rbind]. rewrite Hchild.
  destruct (remove_edges_loop (elements (n_par nc)) child g a HR) as (g0 & -> & HF0 & HR0). cbn [rbind].
  rewrite (edges_without_parents_eq g a child kc nc HR Hkc Hokc) in HR0.
  destruct (insert_inter_ok g0 _ s t sk tk i HR0) as (g1 & -> & HR1).
  { rewrite (gf_lookup _ _ HF0). assumption. } { rewrite (gf_lookup _ _ HF0). assumption. } { assumption. }
  { unfold a_linked; cbn. unfold edges_without_parents. rewrite map_filter_lookup.
    intros [e He]. apply Hl. unfold a_linked. destruct (ag_edges a !! edge_key s t); [eauto|discriminate]. }
  cbn [rbind]. rewrite decide_False by assumption. cbn [ab sim fst snd]. auto.
Qed.
