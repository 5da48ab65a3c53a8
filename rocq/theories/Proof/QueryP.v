(** Queries on reachable graphs: status, position, change reports. *)
From Coq Require Import NArith ZArith Bool List Lia.
From stdpp Require Import base list gmap fin_maps tactics.
From Verif.Model Require Import Types Mesh Attrs Node EdgeContainer SLayer DLayer Graph.
From Verif.Spec Require Import AbstractGraph GraphHistory LayerLog GraphObs.
From Verif.Proof Require Import Arith Keys SLayerP DLayerP DLayerOps GraphRep GraphEdges GraphSim GraphObsP GraphProps.
Local Open Scope N_scope.

(** The layer of a known node. *)
Lemma known_layer g a x k : Rep g a -> layer_of g x = Some k ->
  (exists s n, k = key_static (lk_layer k) /\ g_layers g !! lk_layer k = Some s /\ sl_nodes s !! x = Some n /\
     g_layer_at g k = Ok (BS s) /\ node_at g x = Some n /\ sl_wf s /\ g_part g k = Some s) \/
  (exists d n, k = key_dynamic (lk_layer k) (lk_prefix k) /\ g_dlayer g (lk_layer k) (lk_prefix k) = Some d /\ dl_nmap d !! x = Some n /\
     g_layer_at g k = Ok (BD d) /\ node_at g x = Some n /\ dl_core d /\ dl_prefix d = lk_prefix k /\ g_part g k = Some (dl_view d)).
Proof.
  intros HR Hx. assert (E : g_lookup g !! x = Some k) by exact Hx.
  destruct (Rep_node_ptr _ _ _ _ HR E) as (L & n & HL & Hn & Hp & _).
  pose proof (rp_canon _ _ HR _ _ E) as Hc.
  assert (Hat : node_at g x = Some n). { unfold node_at, g_find_node. rewrite E, Hp. reflexivity. }
  pose proof HL as HL0. unfold g_part in HL. destruct (lk_dynamic k) eqn:Ek.
  - right. destruct (g_dlayer g (lk_layer k) (lk_prefix k)) as [d|] eqn:Ed; [|discriminate]. injection HL as <-.
    destruct (rp_dinv _ _ HR _ _ _ Ed) as (Hd & Hid & Hpre & _). exists d, n.
    split; [destruct k as [kl kp kd]; cbn in *; subst kd; reflexivity|]. split; [reflexivity|]. split; [exact Hn|].
    split; [unfold g_layer_at; rewrite Ek, Ed; reflexivity|]. auto.
  - left. exists L, n. destruct (rp_part _ _ HR k L Hc HL0) as (Hwf & _).
    split; [destruct k as [kl kp kd]; cbn in *; subst kd; specialize (Hc eq_refl); cbn in Hc; subst kp; reflexivity|].
    split; [exact HL|]. split; [exact Hn|]. split; [unfold g_layer_at; rewrite Ek, HL; reflexivity|]. auto.
Qed.

Lemma static_home g a l s x : Rep g a -> g_layers g !! l = Some s -> is_Some (sl_nodes s !! x) -> layer_of g x = Some (key_static l).
Proof.
  intros HR Hs Hn. apply (rp_home _ _ HR x (key_static l)); [intros _; reflexivity|]. exists s. split; [exact Hs|exact Hn].
Qed.
Lemma dyn_home g a l p d x : Rep g a -> g_dlayer g l p = Some d -> is_Some (dl_nmap d !! x) -> layer_of g x = Some (key_dynamic l p).
Proof.
  intros HR Hs Hn. apply (rp_home _ _ HR x (key_dynamic l p)); [intros ?; discriminate|]. exists (dl_view d). split; [|exact Hn].
  unfold g_part. cbn. rewrite Hs. reflexivity.
Qed.

(** The status of a live node is NEW or VISIBLE. *)
Lemma status_known g a x k : Rep g a -> layer_of g x = Some k ->
  g_check_node g x = Ok NNew \/ g_check_node g x = Ok NVisible.
Proof.
  intros HR Hx. unfold g_check_node. change (g_lookup g !! x) with (layer_of g x). rewrite Hx.
  destruct (known_layer g a x k HR Hx) as [(s & n & _ & Hs & Hn & Hat & _ & Hwf & _)|(d & n & _ & Hd & Hn & Hat & _ & Hc & Hp & _)]; rewrite Hat; cbn [rbind bl_check_node].
  - unfold sl_check_node. destruct (proj1 (slw_status _ Hwf x)) as (st & -> & Hl); [eauto|]. destruct Hl as [->| ->]; auto.
  - destruct (dl_nmap_slot d x n Hc Hn) as (Hsl & Hpf & Hlt). unfold dl_check_node.
    assert (Hm : prefix_matches (dl_prefix d) x = true) by (apply prefix_matches_from; symmetry; exact Hpf). rewrite Hm. cbn [negb].
    assert (Hi : dl_has_index d (prefix_index x) = true) by (apply (dlc_status _ Hc); eauto).
    unfold dl_has_index in Hi. destruct (dl_status d !! prefix_index x) as [[]|]; cbn; try discriminate; auto.
Qed.
Lemma status_unknown g x : layer_of g x = None -> g_check_node g x = Ok NNonexistent.
Proof. intros H. unfold g_check_node. change (g_lookup g !! x) with (layer_of g x). rewrite H. reflexivity. Qed.

Lemma position_query g a x : Rep g a ->
  g_get_position g x = match node_data g x with Some (_, _, b) => Ok (attrs_position b) | None => Throw end.
Proof.
  intros HR. unfold g_get_position. change (g_lookup g !! x) with (layer_of g x).
  destruct (layer_of g x) as [k|] eqn:Hx; unfold node_data; rewrite Hx; [|reflexivity]. cbn [at_ rbind].
  destruct (known_layer g a x k HR Hx) as [(s & n & _ & Hs & Hn & Hat & Hno & Hwf & _)|(d & n & _ & Hd & Hn & Hat & Hno & Hc & Hp & _)]; rewrite Hat, Hno; cbn [rbind].
  - unfold sl_get_position. rewrite Hn. reflexivity.
  - destruct (dl_nmap_slot d x n Hc Hn) as (Hsl & Hpf & Hlt). unfold dl_get_position.
    assert (Hh : dl_has_node d x = true) by (apply dl_has_node_true; eauto). rewrite Hh. cbn [negb]. rewrite dl_slot_lookup, Hsl. reflexivity.
Qed.

(** *** New-node reports *)
Lemma elem_visit_static {R} (f : SLayer -> list R * SLayer) m r :
  r ∈ fst (visit_static f m) <-> exists l s, m !! l = Some s /\ r ∈ fst (f s).
Proof.
  unfold visit_static. cbn. rewrite elem_of_list_In, in_concat. setoid_rewrite in_map_iff. split.
  - intros (y & ([l s] & <- & H) & Hr). apply elem_of_list_In, elem_of_map_to_list in H. exists l, s. rewrite elem_of_list_In. auto.
  - intros (l & s & H & Hr). exists (fst (f s)). rewrite <- elem_of_list_In. split; [|exact Hr]. exists (l, s). split; [reflexivity|].
    apply elem_of_list_In, elem_of_map_to_list, H.
Qed.
Lemma elem_visit_dynamic {R} (f : DLayer -> list R * DLayer) g r :
  r ∈ fst (visit_dynamic f (g_dlayers g)) <-> exists l p d, g_dlayer g l p = Some d /\ r ∈ fst (f d).
Proof.
  unfold visit_dynamic, g_dlayer. cbn. rewrite elem_of_list_In, in_concat. setoid_rewrite in_map_iff. split.
  - intros (y & ([l m] & <- & H) & Hr). apply elem_of_list_In, elem_of_map_to_list in H. cbn in Hr.
    apply in_concat in Hr as (z & Hz & Hr). apply in_map_iff in Hz as ([p d] & <- & Hd). apply elem_of_list_In, elem_of_map_to_list in Hd.
    exists l, p, d. rewrite H. cbn. rewrite elem_of_list_In. auto.
  - intros (l & p & d & H & Hr). destruct (g_dlayers g !! l) as [m|] eqn:E; [|discriminate]. cbn in H.
    exists (concat (map (fun y => fst (f (snd y))) (map_to_list m))). split.
    + exists (l, m). split; [reflexivity|]. apply elem_of_list_In, elem_of_map_to_list, E.
    + apply in_concat. exists (fst (f d)). split; [|apply elem_of_list_In, Hr]. apply in_map_iff. exists (p, d). split; [reflexivity|].
      apply elem_of_list_In, elem_of_map_to_list, H.
Qed.

Lemma fst_new_nodes g b : fst (g_get_new_nodes g b) =
  fst (visit_static (fun l => sl_get_new_nodes l b) (g_layers g)) ++ fst (visit_dynamic (fun d => dl_get_new_nodes d b) (g_dlayers g)).
Proof. reflexivity. Qed.

Lemma new_status_live_dyn d i : dl_core d -> dl_status d !! i = Some NNew -> exists n, dl_nodes d !! N.to_nat i = Some (Some n).
Proof. intros Hc H. apply (dlc_status _ Hc). unfold dl_has_index. rewrite H. reflexivity. Qed.
Lemma nmap_of_slot d i n : dl_core d -> dl_nodes d !! N.to_nat i = Some (Some n) -> dl_nmap d !! prefix_make_id (dl_prefix d) i = Some n.
Proof. intros Hc H. apply dl_nmap_Some; [exact Hc|]. exists (N.to_nat i). rewrite N2Nat.id. auto. Qed.

Lemma new_static_iff s x : x ∈ fst (sl_get_new_nodes s false) <-> sl_status s !! x = Some NNew.
Proof.
  cbn. rewrite elem_of_keys_with. split.
  - intros (st & H & Hn). destruct st; try discriminate. exact H.
  - intros H. exists NNew. auto.
Qed.
Lemma new_dyn_iff d x : x ∈ fst (dl_get_new_nodes d false) <-> exists i, x = prefix_make_id (dl_prefix d) i /\ dl_status d !! i = Some NNew.
Proof.
  cbn. rewrite elem_of_list_In, in_map_iff. split.
  - intros (i & <- & H). apply elem_of_list_In, elem_of_keys_with in H as (st & H & Hn). exists i. split; [reflexivity|]. destruct st; try discriminate. exact H.
  - intros (i & -> & H). exists i. split; [reflexivity|]. apply elem_of_list_In, elem_of_keys_with. exists NNew. auto.
Qed.

Lemma new_nodes_iff g a b x : Rep g a -> (x ∈ fst (g_get_new_nodes g b) <-> g_check_node g x = Ok NNew).
Proof.
  intros HR. rewrite fst_new_nodes, elem_of_app, elem_visit_static, elem_visit_dynamic. split.
  - intros [(l & s & Hs & Hx)|(l & p & d & Hd & Hx)].
    + apply (new_static_iff s x) in Hx. destruct (rp_part _ _ HR (key_static l) s) as (Hwf & _); [intros _; reflexivity|exact Hs|].
      pose proof (static_home g a l s x HR Hs) as Hh. rewrite (slw_status _ Hwf) in Hh. specialize (Hh (ex_intro _ NNew (conj Hx (or_introl eq_refl)))).
      unfold g_check_node. change (g_lookup g !! x) with (layer_of g x). rewrite Hh. unfold g_layer_at. cbn. rewrite Hs. cbn. unfold sl_check_node. rewrite Hx. reflexivity.
    + apply (new_dyn_iff d x) in Hx as (i & -> & Hi). destruct (rp_dinv _ _ HR _ _ _ Hd) as (Hc & Hid & Hpre & Hsub).
      destruct (new_status_live_dyn d i Hc Hi) as (n & Hn). pose proof (nmap_of_slot d i n Hc Hn) as Hm.
      pose proof (dyn_home g a l p d _ HR Hd (ex_intro _ n Hm)) as Hh.
      assert (Hlt : i < two32). { pose proof (dl_index_lt d (N.to_nat i) n Hc Hn). lia. }
      unfold g_check_node. change (g_lookup g !! prefix_make_id (dl_prefix d) i) with (layer_of g (prefix_make_id (dl_prefix d) i)). rewrite Hh. unfold g_layer_at. cbn. rewrite Hd. cbn. unfold dl_check_node.
      assert (Hpm : prefix_matches (dl_prefix d) (prefix_make_id (dl_prefix d) i) = true) by (apply prefix_matches_from; symmetry; apply make_id_from; [apply Hc|exact Hlt]).
      rewrite Hpm. cbn [negb]. rewrite make_id_index by (apply Hc || exact Hlt). rewrite Hi. reflexivity.
  - intros Hx. destruct (layer_of g x) as [k|] eqn:Hk; [|rewrite (status_unknown g x Hk) in Hx; discriminate].
    unfold g_check_node in Hx. change (g_lookup g !! x) with (layer_of g x) in Hx. rewrite Hk in Hx.
    destruct (known_layer g a x k HR Hk) as [(s & n & _ & Hs & Hn & Hat & _ & Hwf & _)|(d & n & _ & Hd & Hn & Hat & _ & Hc & Hp & _)]; rewrite Hat in Hx; cbn [rbind bl_check_node] in Hx.
    + left. exists (lk_layer k), s. split; [exact Hs|]. apply (new_static_iff s x). unfold sl_check_node in Hx. destruct (sl_status s !! x); [congruence|discriminate].
    + right. exists (lk_layer k), (lk_prefix k), d. split; [exact Hd|]. apply (new_dyn_iff d x).
      destruct (dl_nmap_slot d x n Hc Hn) as (Hsl & Hpf & Hlt). exists (prefix_index x). unfold dl_check_node in Hx.
      assert (Hm : prefix_matches (dl_prefix d) x = true) by (apply prefix_matches_from; symmetry; exact Hpf). rewrite Hm in Hx. cbn [negb] in Hx.
      split; [symmetry; apply make_id_of_id; [apply Hc|exact Hlt|exact Hpf]|]. destruct (dl_status d !! prefix_index x); cbn in Hx; congruence.
Qed.

Lemma NoDup_concat_map {A B} (f : A -> list B) l : NoDup l -> (forall x, x ∈ l -> NoDup (f x)) ->
  (forall x y b, x ∈ l -> y ∈ l -> b ∈ f x -> b ∈ f y -> x = y) -> NoDup (concat (map f l)).
Proof.
  induction l as [|x r IH]; intros Hd Hf Hi; [constructor|]. apply stdpp.list.NoDup_cons in Hd as [Hx Hd]. cbn. apply NoDup_app. split; [apply Hf; left|]. split.
  - intros b Hb Hc. apply elem_of_list_In, in_concat in Hc as (z & Hz & Hc). apply in_map_iff in Hz as (y & <- & Hy).
    assert (x = y); [|subst y; apply Hx, elem_of_list_In, Hy]. apply (Hi x y b); [left|right; apply elem_of_list_In, Hy|exact Hb|apply elem_of_list_In, Hc].
  - apply IH; [exact Hd|intros y Hy; apply Hf; right; exact Hy|]. intros y z b Hy Hz. apply Hi; right; assumption.
Qed.
