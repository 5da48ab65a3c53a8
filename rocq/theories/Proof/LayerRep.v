(** Changing one static layer of a graph (and the node lookup) in place, keeping the
    representation relation.  Shared by updateFromLayer and mergeGraph. *)
From Coq Require Import NArith ZArith Bool List Lia.
From stdpp Require Import base list gmap fin_maps tactics.
From Verif.Model Require Import Types Mesh Attrs Node EdgeContainer SLayer DLayer Graph.
From Verif.Spec Require Import AbstractGraph GraphHistory.
From Verif.Proof Require Import Arith Keys SLayerP SLayerMerge DLayerP DLayerOps GraphRep GraphEdges GraphAttrs GraphNodes.
Local Open Scope N_scope.
#[local] Arguments edge_key : simpl never.

Definition put (g : Graph) (lid : LayerId) (L : SLayer) (lk : gmap N LayerKey) : Graph :=
  g_with_lookup (g_set_layer g lid L) lk.

Lemma put_put g lid L lk L' lk' : put (put g lid L lk) lid L' lk' = put g lid L' lk'.
Proof. unfold put, g_set_layer; cbn. rewrite insert_insert. reflexivity. Qed.
Lemma put_same g lid L : g_layers g !! lid = Some L -> put g lid L (g_lookup g) = g.
Proof. intros H. unfold put, g_set_layer. rewrite insert_id by assumption. destruct g; reflexivity. Qed.
Lemma put_layer g lid L lk : g_layers (put g lid L lk) !! lid = Some L.
Proof. cbn. apply lookup_insert. Qed.
Lemma put_layer_ne g lid L lk l : l <> lid -> g_layers (put g lid L lk) !! l = g_layers g !! l.
Proof. intros H. cbn. apply lookup_insert_ne. congruence. Qed.
Lemma put_lookup g lid L lk : g_lookup (put g lid L lk) = lk.
Proof. reflexivity. Qed.
Lemma put_frame g lid L lk : is_Some (g_layers g !! lid) -> lk = g_lookup g -> g_frame g (put g lid L lk).
Proof.
  intros HL ->. split; try reflexivity. intros l. destruct (decide (l = lid)) as [->|Hne].
  - rewrite put_layer. split; eauto.
  - rewrite put_layer_ne by assumption. reflexivity.
Qed.
Lemma put_part g lid L lk : part_set (key_static lid) L g (put g lid L lk).
Proof. exact (g_part_set_layer g lid L). Qed.

Section One.
  Context (g : Graph) (lid : LayerId).

  Lemma put_wf L lk a : Rep (put g lid L lk) a -> sl_wf L /\ sl_id L = lid.
  Proof.
    intros HR. destruct (rp_part _ _ HR (key_static lid) L (canon_static lid)) as (H1 & H2 & _); [|auto].
    apply (put_layer g lid L lk).
  Qed.
  Lemma put_home L lk a x : Rep (put g lid L lk) a -> (lk !! x = Some (key_static lid) <-> is_Some (sl_nodes L !! x)).
  Proof.
    intros HR. pose proof (rp_home _ _ HR x (key_static lid) (canon_static lid)) as H. cbn [put g_lookup g_with_lookup] in H.
    rewrite H. unfold g_part. cbn [lk_dynamic key_static lk_layer]. rewrite put_layer. split.
    - intros (L0 & [= <-] & Hs). exact Hs.
    - eauto.
  Qed.

  Lemma put_add L lk a x n : Rep (put g lid L lk) a -> lk !! x = None ->
    n_id n = x -> n_layer n = lid -> (forall r, get_link r n = ∅) ->
    Rep (put g lid (sl_added L x n NNew) (<[x := key_static lid]> lk))
        (a_add_node a x (mkAN (key_static lid) (n_time n) (n_attrs n))).
  Proof.
    intros HR Hx H1 H2 H3.
    pose proof (emplace_static_ok _ a lid x n L HR Hx (put_layer g lid L lk) H1 H2 H3) as H.
    rewrite <- (put_put g lid L lk). exact H.
  Qed.

  Lemma put_attrs L lk a x n at0 : Rep (put g lid L lk) a -> sl_nodes L !! x = Some n ->
    exists an, ag_nodes a !! x = Some an /\ an_key an = key_static lid /\
    Rep (put g lid (sl_with_nodes L (<[x := set_attrs at0 n]> (sl_nodes L))) lk)
        (a_add_node a x (mkAN (key_static lid) (an_time an) at0)).
  Proof.
    intros HR Hn.
    assert (Hx : lk !! x = Some (key_static lid)) by (eapply put_home; eauto).
    destruct (proj1 (Rep_known _ _ x HR)) as [an Han]; [rewrite put_lookup; eauto|].
    pose proof (rp_lookup _ _ HR x) as Hk. rewrite put_lookup, Hx in Hk. unfold a_key in Hk. rewrite Han in Hk. injection Hk as Hk.
    exists an. split; [exact Han|]. split; [congruence|]. rewrite Hk.
    set (L' := sl_with_nodes L (<[x := set_attrs at0 n]> (sl_nodes L))).
    assert (HL' : L' = map_part (GraphRep.at_node x (set_attrs at0)) L).
    { rewrite map_part_alter. unfold L'. f_equal. apply map_eq. intros y. destruct (decide (x = y)) as [<-|Hne].
      - rewrite lookup_insert, lookup_alter, Hn. reflexivity.
      - rewrite lookup_insert_ne, lookup_alter_ne by assumption. reflexivity. }
    eapply (Rep_set_attrs (put g lid L lk)); [exact HR|exact Hx|exact Han| |  | |].
    - intros k Hc. rewrite <- (put_put g lid L lk L' lk), (put_part _ lid L' lk k Hc). destruct (decide (k = key_static lid)) as [->|Hne].
      + unfold g_part. cbn [lk_dynamic key_static lk_layer]. rewrite put_layer. cbn. f_equal. exact HL'.
      + destruct (g_part (put g lid L lk) k) as [L0|] eqn:E; [|reflexivity]. cbn. f_equal. symmetry. apply map_part_absent.
        destruct (sl_nodes L0 !! x) eqn:E0; [|reflexivity]. exfalso. apply Hne.
        assert (g_lookup (put g lid L lk) !! x = Some k) as H by (apply (rp_home _ _ HR _ _ Hc); eauto).
        rewrite put_lookup in H. congruence.
    - rewrite <- (put_put g lid L lk L' lk). apply put_frame; [rewrite put_layer; eauto|reflexivity].
    - exact (rp_dinv _ _ HR).
    - intros []; reflexivity.
  Qed.

  Lemma put_insert L lk a s t i : Rep (put g lid L lk) a -> sl_can_insert L s t ->
    Rep (put g lid (sl_inserted L s t i) lk) (a_add_edge a s t (default ea_default i)).
  Proof.
    intros HR Hc. destruct Hc as (Hne & Hno & Hs & Ht).
    assert (HC : sl_can_insert L s t) by (repeat split; assumption).
    apply (put_home L lk a s HR) in Hs. apply (put_home L lk a t HR) in Ht.
    rewrite <- (put_put g lid L lk).
    eapply (Rep_add_intra (put g lid L lk) _ a s t (key_static lid) L i); [exact HR|exact Hs|exact Ht| |exact HC| | | |].
    - apply put_layer.
    - apply put_part.
    - apply put_frame; [rewrite put_layer; eauto|reflexivity].
    - exact (rp_dinv _ _ HR).
    - intros []; reflexivity.
  Qed.

  Lemma put_remove L lk a s t : Rep (put g lid L lk) a -> is_Some (ec_edges (sl_edges L) !! edge_key s t) ->
    Rep (put g lid (sl_removed L s t) lk) (a_del_edge a s t).
  Proof.
    intros HR He. destruct (put_wf L lk a HR) as [Hwf _].
    destruct (sl_edge_key _ _ _ Hwf He) as (Hne & Hs & Ht).
    apply (put_home L lk a s HR) in Hs. apply (put_home L lk a t HR) in Ht.
    rewrite <- (put_put g lid L lk).
    eapply (Rep_del_intra (put g lid L lk) _ a s t (key_static lid) L); [exact HR|exact Hs|exact Ht| |exact He| | | |].
    - apply put_layer.
    - apply put_part.
    - apply put_frame; [rewrite put_layer; eauto|reflexivity].
    - exact (rp_dinv _ _ HR).
    - intros []; reflexivity.
  Qed.

  (** The edges of the layer, abstractly. *)
  Lemma put_edges L lk a u v : Rep (put g lid L lk) a -> is_Some (sl_nodes L !! u) -> is_Some (sl_nodes L !! v) ->
    ag_edges a !! edge_key u v = ec_edges (sl_edges L) !! edge_key u v.
  Proof.
    intros HR Hu Hv. apply (put_home L lk a u HR) in Hu. apply (put_home L lk a v HR) in Hv.
    apply (Rep_part_edge (put g lid L lk) a (key_static lid) L u v HR (canon_static lid)); [apply put_layer|exact Hu|exact Hv].
  Qed.

  Lemma put_info L lk a k old i : Rep (put g lid L lk) a -> ec_edges (sl_edges L) !! k = Some old ->
    Rep (put g lid (sl_with_edges L (mkEC (<[k := mkEdge (e_src old) (e_tgt old) i]> (ec_edges (sl_edges L)))
                      (ec_status (sl_edges L)) (ec_stale (sl_edges L)))) lk)
        (a_with_edges a (<[k := mkEdge (e_src old) (e_tgt old) i]> (ag_edges a))).
  Proof.
    intros HR He. destruct (put_wf L lk a HR) as [Hwf Hid].
    pose proof (ecw_key _ (slw_ec _ Hwf) _ _ He) as Hk.
    destruct (slw_ends _ Hwf _ _ He) as (Hne & Hs & Ht).
    assert (Hae : ag_edges a !! k = Some old). { rewrite Hk, (put_edges L lk a _ _ HR Hs Ht), <- Hk. exact He. }
    rewrite <- (put_put g lid L lk).
    set (f := fun (k' : EdgeKey) (e : Edge) => if decide (k' = k) then mkEdge (e_src e) (e_tgt e) i else e).
    assert (Hins : forall m : gmap EdgeKey Edge, m !! k = Some old ->
        forall x, <[k := mkEdge (e_src old) (e_tgt old) i]> m !! x = f x <$> m !! x).
    { intros m Hm x. unfold f. destruct (decide (x = k)) as [->|Hx].
      - rewrite lookup_insert, Hm. reflexivity.
      - rewrite lookup_insert_ne by congruence. destruct (m !! x); reflexivity. }
    assert (Hwf' : sl_wf (sl_with_edges L (mkEC (<[k := mkEdge (e_src old) (e_tgt old) i]> (ec_edges (sl_edges L)))
                      (ec_status (sl_edges L)) (ec_stale (sl_edges L))))).
    { destruct Hwf as [W1 W2 W3 W4 W5 W6]. split; cbn.
      - exact W1.
      - destruct W2 as [V1 V2 V3 V4]. split; cbn [ec_edges ec_status].
        + intros k0 e0. rewrite lookup_insert_Some. intros [[<- <-]|[_ H]]; [exact Hk|apply V1, H].
        + intros k0. rewrite <- V2. destruct (decide (k0 = k)) as [->|Hx]; [rewrite lookup_insert, He; split; eauto|].
          rewrite lookup_insert_ne by congruence. reflexivity.
        + exact V3.
        + exact V4.
      - intros k0 e0. rewrite lookup_insert_Some. intros [[<- <-]|[_ H]]; [cbn; auto|apply (W3 _ _ H)].
      - intros u v nu Hu Hv. rewrite (W4 u v nu Hu Hv). rewrite (Hins _ He), is_Some_fmap_iff. reflexivity.
      - exact W5.
      - exact W6. }
    eapply (Rep_ec_change (put g lid L lk) _ a f).
    - exact HR.
    - apply put_frame; [rewrite put_layer; eauto|reflexivity].
    - exact (rp_dinv _ _ HR).
    - intros k0 e0. unfold f. destruct (decide _); auto.
    - apply Hins, Hae.
    - intros k0 Hc. rewrite (put_part (put g lid L lk) lid _ lk k0 Hc). destruct (decide (k0 = key_static lid)) as [->|Hne0].
      + unfold g_part. cbn [lk_dynamic key_static lk_layer]. rewrite put_layer.
        split; [reflexivity|]. split; [reflexivity|]. split; [exact Hwf'|]. apply Hins, He.
      + destruct (g_part (put g lid L lk) k0) as [L0|] eqn:E; [|exact I].
        split; [reflexivity|]. split; [reflexivity|]. split; [apply (rp_part _ _ HR k0 L0 Hc E)|].
        intros x. unfold f. destruct (decide (x = k)) as [->|]; [|destruct (ec_edges (sl_edges L0) !! x); reflexivity].
        destruct (ec_edges (sl_edges L0) !! k) as [e0|] eqn:E0; [|reflexivity]. exfalso.
        destruct (rp_part _ _ HR k0 L0 Hc E) as (Hwf0 & _). pose proof (ecw_key _ (slw_ec _ Hwf0) _ _ E0) as Hk0.
        destruct (slw_ends _ Hwf0 _ _ E0) as (_ & Hs0 & Ht0).
        assert (g_lookup (put g lid L lk) !! e_src e0 = Some k0) as Hs1 by (apply (rp_home _ _ HR _ _ Hc); eauto).
        assert (g_lookup (put g lid L lk) !! e_tgt e0 = Some k0) as Ht1 by (apply (rp_home _ _ HR _ _ Hc); eauto).
        rewrite put_lookup in *. apply (put_home L lk a _ HR) in Hs. apply (put_home L lk a _ HR) in Ht.
        rewrite Hk in Hk0. apply edge_key_inj in Hk0 as [[Ha Hb]|[Ha Hb]]; congruence.
    - intros dyn. split; [destruct dyn; [exact (rp_ec _ _ HR true)|exact (rp_ec _ _ HR false)]|].
      intros x. unfold f. destruct (decide (x = k)) as [->|].
      + destruct (ec_edges (g_ec (put (put g lid L lk) lid _ lk) dyn) !! k) as [e0|] eqn:E0.
        * exfalso. assert (E1 : ec_edges (g_ec (put g lid L lk) dyn) !! k = Some e0) by (destruct dyn; exact E0).
          destruct (rp_inter _ _ HR _ _ _ E1) as (ku & kv & Hu & Hv & Hkne & _).
          pose proof (ecw_key _ (rp_ec _ _ HR dyn) _ _ E1) as Hk0.
          rewrite put_lookup in *. apply (put_home L lk a _ HR) in Hs. apply (put_home L lk a _ HR) in Ht.
          rewrite Hk in Hk0. apply edge_key_inj in Hk0 as [[Ha Hb]|[Ha Hb]]; congruence.
        * assert (E1 : ec_edges (g_ec (put g lid L lk) dyn) !! k = None) by (destruct dyn; exact E0). rewrite E1. reflexivity.
      + assert (E1 : g_ec (put (put g lid L lk) lid (sl_with_edges L (mkEC (<[k := mkEdge (e_src old) (e_tgt old) i]> (ec_edges (sl_edges L)))
                      (ec_status (sl_edges L)) (ec_stale (sl_edges L)))) lk) dyn = g_ec (put g lid L lk) dyn) by (destruct dyn; reflexivity).
        rewrite E1. destruct (ec_edges (g_ec (put g lid L lk) dyn) !! x); reflexivity.
  Qed.
End One.
