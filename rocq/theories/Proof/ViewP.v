(** Layer views and getAncestorsOfLayer. *)
From Coq Require Import NArith ZArith Bool List Lia.
From stdpp Require Import base list gmap fin_maps sorting relations.
From Verif.Model Require Import Types Attrs Node EdgeContainer SLayer DLayer Graph Search Views.
From Verif.Spec Require Import EdgeLog LayerLog AbstractGraph GraphHistory GraphObs Search Views.
From Verif.Proof Require Import Keys EdgeLogP SLayerP GraphRep GraphSim GraphObsP MatrixP.
Local Open Scope N_scope.
#[local] Arguments edge_key : simpl never.

Lemma elem_in_order s x : x ∈ in_order s <-> x ∈ s.
Proof. unfold in_order. rewrite (merge_sort_Permutation N.le). apply elem_of_elements. Qed.
Lemma in_order_nodup s : NoDup (in_order s).
Proof. unfold in_order. rewrite (merge_sort_Permutation N.le). apply NoDup_elements. Qed.

(** ** Views *)
Lemma view_loop_ok filt : forall it0 fuel seen, (length it0 <= fuel)%nat ->
  view_loop filt fuel (skip_invalid filt it0) seen = Some (seen ++ map snd (List.filter (fun x => filt (snd x)) it0)).
Proof.
  induction it0 as [|x r IH]; intros fuel seen Hf; cbn [skip_invalid List.filter].
  - destruct fuel; cbn; rewrite app_nil_r; reflexivity.
  - cbn [length] in Hf. destruct (filt (snd x)) eqn:E; [|apply IH; lia].
    destruct fuel as [|fuel]; [lia|]. cbn [view_loop view_next]. rewrite IH by lia. cbn [map]. rewrite <- app_assoc. reflexivity.
Qed.
Lemma view_begin_eq filt l : view_begin filt l = skip_invalid filt (ascending (sl_nodes l)).
Proof. unfold view_begin. destruct (ascending (sl_nodes l)) as [|x r]; [reflexivity|]. cbn. destruct (filt (snd x)); reflexivity. Qed.
Lemma view_nodes_ok filt l fuel : (length (ascending (sl_nodes l)) <= fuel)%nat ->
  view_nodes filt l fuel = Some (map snd (List.filter (fun x => filt (snd x)) (ascending (sl_nodes l)))).
Proof. intros H. unfold view_nodes. rewrite view_begin_eq, view_loop_ok by exact H. reflexivity. Qed.

Lemma filter_sorted {A} (R : A -> A -> Prop) p (xs : list A) : Sorting.Sorted.StronglySorted R xs -> Sorting.Sorted.StronglySorted R (List.filter p xs).
Proof.
  induction 1 as [|x r HS IH HF]; cbn; [constructor|]. destruct (p x); [|exact IH]. constructor; [exact IH|].
  rewrite List.Forall_forall in *. intros y Hy. apply List.filter_In in Hy as [Hy _]. exact (HF y Hy).
Qed.
Theorem view_spec filt l : sl_wf l -> exists vs,
  (exists n, forall fuel, (n <= fuel)%nat -> view_nodes filt l fuel = Some vs) /\
  (forall nd, nd ∈ vs <-> sl_nodes l !! n_id nd = Some nd /\ filt nd = true) /\
  Sorting.Sorted.StronglySorted (fun a b => n_id a < n_id b) vs.
Proof.
  intros Hwf. eexists. split; [|split].
  - eexists. intros fuel Hf. apply view_nodes_ok, Hf.
  - intros nd. rewrite elem_of_list_In, in_map_iff. split.
    + intros ([k n] & <- & Hx). apply List.filter_In in Hx as [Hx Hp]. cbn [snd] in *. apply elem_of_list_In, elem_ascending in Hx. cbn [fst snd] in Hx.
      split; [|exact Hp]. destruct (slw_node _ Hwf _ _ Hx) as [Hid _]. rewrite Hid. exact Hx.
    + intros [Hn Hp]. exists (n_id nd, nd). split; [reflexivity|]. apply List.filter_In. split; [|exact Hp].
      apply elem_of_list_In, elem_ascending. exact Hn.
  - pose proof (filter_sorted _ (fun x => filt (snd x)) _ (ascending_sorted (sl_nodes l))) as HS.
    assert (forall x, x ∈ List.filter (fun x => filt (snd x)) (ascending (sl_nodes l)) -> n_id (snd x) = fst x) as Hid.
    { intros x Hx. apply elem_of_list_In, List.filter_In in Hx as [Hx _]. apply elem_of_list_In, elem_ascending in Hx.
      destruct (slw_node _ Hwf _ _ Hx) as [Hid _]. exact Hid. }
    induction HS as [|x r HS IH HF]; [constructor|]. cbn [map]. constructor.
    + apply IH. intros y Hy. apply Hid, elem_of_cons. auto.
    + rewrite List.Forall_forall in *. intros n Hn. apply in_map_iff in Hn as (y & <- & Hy).
      rewrite (Hid x), (Hid y); [exact (HF y Hy)| |]; apply elem_of_cons; [right; apply elem_of_list_In, Hy|auto].
Qed.

(** ** Ancestors *)
Section Anc.
  Context (g : Graph) (a : AGraph).
  Hypothesis HR : Rep g a.
  Context (k : LayerKey).
  Hypothesis Hk : canon k.

  Definition anc_step (f : nat) (acc : fueled (list N)) (child : N) : fueled (list N) :=
    match acc with
    | Some (Ok vs) =>
      match g_layer_for_node g child with
      | None => Some UB
      | Some kc =>
        if key_eqb kc k then Some (Ok (vs ++ [child]))
        else match ancestors g k f child with
             | Some (Ok ws) => Some (Ok (vs ++ ws))
             | r => r
             end
      end
    | r => r
    end.
  Lemma ancestors_S f p : ancestors g k (S f) p =
    match g_find_node g p with
    | Throw => Some Throw | UB => Some UB | Ok None => Some (Ok [])
    | Ok (Some node) => if stops_at (n_layer node) k then Some (Ok []) else fold_left (anc_step f) (in_order (n_chd node)) (Some (Ok []))
    end.
  Proof. reflexivity. Qed.

  Lemma fold_anc n (cs : list N) (piece : N -> list N) :
    (forall c, c ∈ cs -> exists kc, g_layer_for_node g c = Some kc /\
       if key_eqb kc k then piece c = [c] else forall f, (n <= f)%nat -> ancestors g k f c = Some (Ok (piece c))) ->
    forall f acc, (n <= f)%nat -> fold_left (anc_step f) cs (Some (Ok acc)) = Some (Ok (acc ++ mjoin (map piece cs))).
  Proof.
    induction cs as [|c cs IH]; intros H f acc Hf; [cbn; rewrite app_nil_r; reflexivity|]. cbn [fold_left].
    destruct (H c) as (kc & Hkc & Hp); [apply elem_of_cons; auto|]. assert (anc_step f (Some (Ok acc)) c = Some (Ok (acc ++ piece c))) as ->.
    { unfold anc_step. rewrite Hkc. destruct (key_eqb kc k); [rewrite Hp; reflexivity|]. rewrite (Hp f Hf). reflexivity. }
    rewrite IH; [|intros c' Hc'; apply H, elem_of_cons; auto|exact Hf]. cbn. rewrite <- app_assoc. reflexivity.
  Qed.

  Lemma parent_lt p c kp kc : is_parent_of g p c -> layer_of g p = Some kp -> layer_of g c = Some kc -> lk_layer kc < lk_layer kp.
  Proof. intros (_ & kp' & kc' & Hp & Hc & H) Hp' Hc'. congruence. Qed.
  Lemma below_lt p d : below g p d -> exists kp kd, layer_of g p = Some kp /\ layer_of g d = Some kd /\ lk_layer kd < lk_layer kp.
  Proof.
    unfold below. induction 1 as [x y H|x y z H _ (ky & kz & Hy & Hz & IH)].
    - destruct H as (_ & kp & kc & Hp & Hc & H). eauto 6.
    - pose proof H as (_ & kx & ky' & Hx & Hy' & H'). exists kx, kz. split; [exact Hx|]. split; [exact Hz|].
      assert (ky' = ky) as -> by congruence. lia.
  Qed.
  Lemma children_elem p n c : node_at g p = Some n -> c ∈ in_order (n_chd n) <-> is_parent_of g p c.
  Proof using HR.
    intros Hn. rewrite elem_in_order, (obs_parent_of g a HR). change (n_chd n) with (get_link RChild n). rewrite (obs_link g a HR p n RChild c Hn).
    unfold a_related. split.
    - intros (Hl & k1 & k2 & H1 & H2 & H). apply rel_child in H. split; [rewrite a_linked_comm; exact Hl|]. exists k2, k1. rewrite rel_parent. auto.
    - intros (Hl & k1 & k2 & H1 & H2 & H). apply rel_parent in H. split; [rewrite a_linked_comm; exact Hl|]. exists k2, k1. rewrite rel_child. auto.
  Qed.

  (** The visited nodes are the children of [p] on the layer, and those of its other children. *)
  Definition anc_list (n : nat) (p : N) (vs : list N) : Prop :=
    (forall f, (n <= f)%nat -> ancestors g k f p = Some (Ok vs)) /\
    (forall d, d ∈ vs -> layer_of g d = Some k /\ below g p d) /\
    (1 <= lk_layer k -> forall d, layer_of g d = Some k -> below g p d -> d ∈ vs) /\
    (one_parent g -> NoDup vs).

  Lemma up_comparable d x y : one_parent g -> rtc (is_parent_of g) x d -> rtc (is_parent_of g) y d ->
    rtc (is_parent_of g) x y \/ rtc (is_parent_of g) y x.
  Proof.
    intros Ho Hx. revert y. induction Hx as [x|x z d Hxz Hzd IH]; intros y Hy; [right; exact Hy|].
    destruct (IH y Hy) as [H|H]; [left; eapply rtc_l; eassumption|].
    apply rtc_inv_r in H as [-> | (w & Hyw & Hwz)].
    - left. apply rtc_once. exact Hxz.
    - rewrite (Ho z x w Hxz Hwz) in *. right. exact Hyw.
  Qed.
  Lemma rtc_le x y kx ky : rtc (is_parent_of g) x y -> layer_of g x = Some kx -> layer_of g y = Some ky -> lk_layer ky <= lk_layer kx.
  Proof.
    intros H Hx Hy. destruct (proj1 (rtc_tc _ _) H) as [->|H']; [assert (kx = ky) by congruence; subst; lia|].
    destruct (below_lt x y H') as (k1 & k2 & E1 & E2 & Hlt). rewrite Hx in E1. rewrite Hy in E2. injection E1 as <-. injection E2 as <-. lia.
  Qed.
  Lemma siblings_disjoint p x y d : one_parent g -> is_parent_of g p x -> is_parent_of g p y ->
    rtc (is_parent_of g) x d -> rtc (is_parent_of g) y d -> x = y.
  Proof.
    intros Ho Hx Hy Hxd Hyd.
    assert (forall x y, is_parent_of g p x -> is_parent_of g p y -> rtc (is_parent_of g) x y -> x = y) as H.
    { intros u v Hu Hv H. apply rtc_inv_r in H as [->|(w & Huw & Hwv)]; [reflexivity|]. exfalso.
      rewrite <- (Ho v p w Hv Hwv) in Huw. pose proof Hu as (_ & kp & ku & Hp & Hku & Hlt).
      pose proof (rtc_le u p ku kp Huw Hku Hp). lia. }
    destruct (up_comparable d x y Ho Hxd Hyd) as [K|K]; [apply H|symmetry; apply H]; assumption.
  Qed.

  Lemma pieces_exist n (cs : list N) : (forall c, c ∈ cs -> exists kc, layer_of g c = Some kc /\ exists vs, anc_list n c vs) ->
    exists piece : N -> list N, forall c, c ∈ cs -> exists kc, layer_of g c = Some kc /\
      if key_eqb kc k then piece c = [c] else anc_list n c (piece c).
  Proof.
    induction cs as [|c cs IH]; intros H.
    - exists (fun _ => []). intros c K. apply elem_of_nil in K. contradiction.
    - destruct IH as [piece IH]; [intros c' Hc'; apply H, elem_of_cons; auto|].
      destruct (H c) as (kc & Hkc & vs & Hvs); [apply elem_of_cons; auto|].
      exists (fun x => if decide (x = c) then (if key_eqb kc k then [c] else vs) else piece x).
      intros x Hx. destruct (decide (x = c)) as [->|Hne].
      + exists kc. split; [exact Hkc|]. destruct (key_eqb kc k); auto.
      + apply elem_of_cons in Hx as [->|Hx]; [contradiction|]. apply IH, Hx.
  Qed.

  Lemma anc_unknown p n : layer_of g p = None -> anc_list (S n) p [].
  Proof using HR.
    intros E. split; [|split; [|split]].
    - intros f Hf. destruct f as [|f]; [lia|]. rewrite ancestors_S. destruct (obs_find_ok g a HR p) as [o Ho]. rewrite Ho.
      destruct o as [nd|]; [|reflexivity]. exfalso. pose proof (obs_node g a HR p) as Hn. unfold node_at in Hn. rewrite Ho in Hn.
      destruct Hn as (k1 & Hk1 & _). rewrite <- (obs_layer g a HR) in Hk1. congruence.
    - intros d K. apply elem_of_nil in K. contradiction.
    - intros _ d _ K. destruct (below_lt p d K) as (k1 & _ & E1 & _). congruence.
    - constructor.
  Qed.

  Lemma anc_all n : forall p, (forall kp, layer_of g p = Some kp -> (N.to_nat (lk_layer kp) < n)%nat) -> exists vs, anc_list (S n) p vs.
  Proof using HR Hk.
    induction n as [|n IHn]; intros p Hp.
    { destruct (layer_of g p) as [kp|] eqn:E; [specialize (Hp kp eq_refl); lia|]. exists []. apply anc_unknown, E. }
    destruct (layer_of g p) as [kp|] eqn:E; [|exists []; apply anc_unknown, E]. specialize (Hp kp eq_refl).
    destruct (obs_find_ok g a HR p) as [o Ho]. pose proof (obs_node g a HR p) as Hn. unfold node_at in Hn. rewrite Ho in Hn.
    destruct o as [nd|]; [|rewrite <- (obs_layer g a HR) in Hn; congruence].
    destruct Hn as (k1 & Hk1 & _ & _ & Hlay). rewrite <- (obs_layer g a HR), E in Hk1. injection Hk1 as <-.
    assert (node_at g p = Some nd) as Hnd by (unfold node_at; rewrite Ho; reflexivity).
    destruct (stops_at (n_layer nd) k) eqn:Est.
    - exists []. split; [|split; [|split]].
      + intros f Hf. destruct f as [|f]; [lia|]. rewrite ancestors_S, Ho, Est. reflexivity.
      + intros d K. apply elem_of_nil in K. contradiction.
      + intros Hk1 d Hd K. exfalso. destruct (below_lt p d K) as (k1 & k2 & E1 & E2 & Hlt). rewrite E in E1. rewrite Hd in E2. injection E1 as <-. injection E2 as <-.
        unfold stops_at in Est. rewrite Hlay in Est. apply N.leb_le in Est. destruct (key_valid k); lia.
      + constructor.
    - destruct (pieces_exist (S n) (in_order (n_chd nd))) as [piece HP].
      { intros c Hc. apply (children_elem p nd c Hnd) in Hc. pose proof Hc as (_ & kp' & kc & Hkp & Hkc & Hlt).
        assert (kp' = kp) as -> by congruence. exists kc. split; [exact Hkc|]. apply IHn. intros kc' Hkc'. assert (kc' = kc) as -> by congruence. lia. }
      exists (mjoin (map piece (in_order (n_chd nd)))).
      assert (forall c d, c ∈ in_order (n_chd nd) -> d ∈ piece c -> layer_of g d = Some k /\ rtc (is_parent_of g) c d) as Hpc.
      { intros c d Hc Hd. destruct (HP c Hc) as (kc & Hkc & K). destruct (key_eqb kc k) eqn:Ek.
        - rewrite K in Hd. apply elem_of_list_singleton in Hd. subst d. apply key_eqb_true in Ek; [|rewrite (obs_layer g a HR), <- (rp_lookup _ _ HR) in Hkc; exact (rp_canon _ _ HR _ _ Hkc)|exact Hk].
          subst kc. split; [exact Hkc|reflexivity].
        - destruct K as (_ & K & _). destruct (K d Hd) as [H1 H2]. split; [exact H1|]. apply tc_rtc, H2. }
      split; [|split; [|split]].
      + intros f Hf. destruct f as [|f]; [lia|]. rewrite ancestors_S, Ho, Est. apply (fold_anc (S n) (in_order (n_chd nd)) piece) with (acc := []); [|lia].
        intros c Hc. destruct (HP c Hc) as (kc & Hkc & K). exists kc. split; [exact Hkc|]. destruct (key_eqb kc k); [exact K|]. apply K.
      + intros d Hd. apply elem_of_list_join in Hd as (r & Hd & Hr). apply elem_of_list_In, in_map_iff in Hr as (c & <- & Hc). apply elem_of_list_In in Hc.
        destruct (Hpc c d Hc Hd) as [H1 H2]. split; [exact H1|]. apply (children_elem p nd c Hnd) in Hc. eapply tc_rtc_r; [apply tc_once; exact Hc|exact H2].
      + intros Hk1 d Hd Hb. apply elem_of_list_join. unfold below in Hb.
        assert (exists c, is_parent_of g p c /\ rtc (is_parent_of g) c d) as (c & Hc & Hcd).
        { inversion Hb as [x y K|x y z K1 K2]; subst; eauto using tc_rtc. exists d. split; [exact K|reflexivity]. }
        apply (children_elem p nd c Hnd) in Hc. exists (piece c). split; [|apply elem_of_list_In, in_map_iff; exists c; split; [reflexivity|apply elem_of_list_In, Hc]].
        destruct (HP c Hc) as (kc & Hkc & K).
        assert (canon kc) as Hcc by (rewrite (obs_layer g a HR), <- (rp_lookup _ _ HR) in Hkc; exact (rp_canon _ _ HR _ _ Hkc)).
        destruct (proj1 (rtc_tc _ _) Hcd) as [->|Hcd'].
        * assert (kc = k) as -> by congruence. rewrite (proj2 (key_eqb_true k k Hk Hk) eq_refl) in K. rewrite K. apply elem_of_list_singleton. reflexivity.
        * destruct (below_lt c d Hcd') as (k1 & k2 & E1 & E2 & Hlt). rewrite Hkc in E1. rewrite Hd in E2. injection E1 as <-. injection E2 as <-.
          rewrite (key_eqb_false kc k Hcc Hk) in K || (destruct (key_eqb kc k) eqn:Ek; [apply (key_eqb_true kc k Hcc Hk) in Ek; subst kc; lia|]).
          destruct K as (_ & _ & K & _). exact (K Hk1 d Hd Hcd').
      + intros Hone. pose proof (in_order_nodup (n_chd nd)) as HND.
        assert (forall c, c ∈ in_order (n_chd nd) -> is_parent_of g p c) as Hch by (intros c Hc; apply (children_elem p nd c Hnd), Hc).
        induction (in_order (n_chd nd)) as [|c cs IH]; [constructor|]. cbn. apply list.NoDup_cons in HND as [Hc1 Hc2]. apply NoDup_app. split; [|split].
        * destruct (HP c) as (kc & Hkc & K); [apply elem_of_cons; auto|]. destruct (key_eqb kc k); [rewrite K; apply NoDup_singleton|]. apply K, Hone.
        * intros d Hd Hd'. apply elem_of_list_join in Hd' as (r & Hd' & Hr). apply elem_of_list_In, in_map_iff in Hr as (c' & <- & Hc'). apply elem_of_list_In in Hc'.
          destruct (Hpc c d) as [_ H1]; [apply elem_of_cons; auto|exact Hd|]. destruct (Hpc c' d) as [_ H2]; [apply elem_of_cons; auto|exact Hd'|].
          assert (c = c') as ->; [|contradiction]. apply (siblings_disjoint p c c' d Hone); try assumption; apply Hch, elem_of_cons; auto.
        * apply IH; try assumption; intros; try apply HP; try (apply (Hpc c0)); try apply Hch; try apply elem_of_cons; auto.
  Qed.

  Theorem ancestors_ok p : exists vs, finishes (fun fuel => ancestors g k fuel p) vs /\
    (forall d, d ∈ vs -> layer_of g d = Some k /\ below g p d) /\
    (1 <= lk_layer k -> forall d, layer_of g d = Some k -> below g p d -> d ∈ vs) /\
    (one_parent g -> NoDup vs).
  Proof using HR Hk.
    destruct (layer_of g p) as [kp|] eqn:E.
    - destruct (anc_all (S (N.to_nat (lk_layer kp))) p) as (vs & H1 & H2).
      + intros kp' E'. assert (kp' = kp) as -> by congruence. lia.
      + exists vs. split; [eexists; exact H1|exact H2].
    - destruct (anc_unknown p 0 E) as (H1 & H2). exists []. split; [eexists; exact H1|exact H2].
  Qed.
End Anc.
