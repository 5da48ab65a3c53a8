(** Adjacency and Laplacian matrices of a layer. *)
From Coq Require Import NArith ZArith Bool List Lia.
From stdpp Require Import base list gmap fin_maps sorting.
From Verif.Model Require Import Types Attrs Node EdgeContainer SLayer DLayer Graph Search Views.
From Verif.Spec Require Import EdgeLog LayerLog Search.
From Verif.Proof Require Import Keys EdgeLogP SLayerP.
Local Open Scope N_scope.
#[local] Arguments edge_key : simpl never.

Lemma ascending_perm {A} (m : gmap N A) : ascending m ≡ₚ map_to_list m.
Proof. apply merge_sort_Permutation. Qed.
Lemma elem_ascending {A} (m : gmap N A) x : x ∈ ascending m <-> m !! fst x = Some (snd x).
Proof. rewrite (ascending_perm m). destruct x as [k v]. apply elem_of_map_to_list. Qed.
#[local] Instance key_le_trans {A} : Transitive (key_le (A := A)). Proof. intros x y z. unfold key_le. lia. Qed.
#[local] Instance key_le_total {A} : Total (key_le (A := A)). Proof. intros x y. unfold key_le. lia. Qed.
Lemma ascending_nodup {A} (m : gmap N A) : NoDup (map fst (ascending m)).
Proof. change (NoDup ((ascending m).*1)). rewrite (ascending_perm m). apply NoDup_fst_map_to_list. Qed.
Lemma ascending_sorted {A} (m : gmap N A) : Sorting.Sorted.StronglySorted (fun a b : N * A => fst a < fst b) (ascending m).
Proof.
  pose proof (StronglySorted_merge_sort (key_le (A := A)) (map_to_list m)) as HS. fold (ascending m) in HS.
  pose proof (ascending_nodup m) as HN. induction HS as [|x r HS IH HF]; constructor.
  - apply IH. cbn in HN. apply list.NoDup_cons in HN as [_ HN]. exact HN.
  - cbn in HN. apply list.NoDup_cons in HN as [Hx _]. rewrite List.Forall_forall in HF |- *. intros y Hy.
    specialize (HF y Hy). unfold key_le in HF. assert (fst x <> fst y); [|lia]. intros E. apply Hx. rewrite E.
    apply elem_of_list_fmap_1, elem_of_list_In, Hy.
Qed.

Section Mat.
  Context {W : Type} (zero : W) (add : W -> W -> W) (opp : W -> W).
  Context (l : SLayer) (ord : gmap N N) (weight : N -> N -> W).
  Hypothesis Hwf : sl_wf l.
  Hypothesis Hin : forall x, is_Some (ord !! x) -> is_Some (sl_nodes l !! x).
  Hypothesis Hinj : forall x y i, ord !! x = Some i -> ord !! y = Some i -> x = y.
  Hypothesis Hrange : forall x i, ord !! x = Some i -> i < N.of_nat (size ord).

  (** Neighbours of [u] that have an index, in the order of the loop. *)
  Definition used_nbrs (u : N) : list N :=
    match sl_nodes l !! u with
    | Some n => List.filter (fun s => bool_decide (is_Some (ord !! s))) (elements (n_sib n))
    | None => [] end.
  Lemma used_nbrs_nodup u : NoDup (used_nbrs u).
  Proof.
    unfold used_nbrs. destruct (sl_nodes l !! u) as [n|]; [|constructor]. pose proof (NoDup_elements (n_sib n)) as H.
    rewrite NoDup_ListNoDup in *. apply List.NoDup_filter, H.
  Qed.
  Lemma elem_used u v : is_Some (ord !! u) -> (v ∈ used_nbrs u <-> linked l u v /\ is_Some (ord !! v)).
  Proof.
    intros Hu. destruct (Hin u Hu) as [n Hn]. unfold used_nbrs. rewrite Hn.
    rewrite elem_of_list_In, List.filter_In, bool_decide_eq_true, <- elem_of_list_In, elem_of_elements.
    unfold linked, sl_has_edge. rewrite ec_contains_true. split; intros [H1 H2]; split; try assumption;
      apply (slw_adj _ Hwf u v n Hn (Hin v H2)); exact H1.
  Qed.
  Lemma used_irrefl u : is_Some (ord !! u) -> u ∉ used_nbrs u.
  Proof.
    intros Hu K. apply (elem_used u u Hu) in K as [K _]. unfold linked, sl_has_edge in K. rewrite ec_contains_true in K.
    destruct (sl_edge_key l u u Hwf K) as [? _]. contradiction.
  Qed.

  Lemma mat_set_ok (m : Mat W) u v i j w : mt_size m = size ord -> ord !! u = Some i -> ord !! v = Some j ->
    mat_set m i j w = Ok (mkMat (size ord) (<[(i, j) := w]> (mt_cells m))).
  Proof.
    intros Hs Hu Hv. unfold mat_set. rewrite Hs. apply Hrange in Hu, Hv.
    apply N.ltb_lt in Hu, Hv. rewrite Hu, Hv. reflexivity.
  Qed.

  (** Cells written by row [u]. *)
  Definition row_cells (f : W -> W) (u i : N) (ns : list N) (c c' : gmap (N * N) W) : Prop :=
    (forall v j, ord !! v = Some j -> v ∈ ns -> c' !! (i, j) = Some (f (weight u v)) /\ c' !! (j, i) = Some (f (weight u v))) /\
    (forall x y, ~ (exists v j, ord !! v = Some j /\ v ∈ ns /\ ((x, y) = (i, j) \/ (x, y) = (j, i))) -> c' !! (x, y) = c !! (x, y)).

  Lemma row_cells_cons f u i v j ns c c' : ord !! u = Some i -> ord !! v = Some j -> v <> u -> v ∉ ns ->
    row_cells f u i ns (<[(j, i) := f (weight u v)]> (<[(i, j) := f (weight u v)]> c)) c' ->
    row_cells f u i (v :: ns) c c'.
  Proof.
    intros Hu Hv Hne Hns [H1 H2].
    assert (i <> j) as Hij by (intros ->; apply Hne, (Hinj v u j Hv Hu)).
    assert (forall x y, (x, y) = (i, j) \/ (x, y) = (j, i) ->
      ~ (exists v0 j0, ord !! v0 = Some j0 /\ v0 ∈ ns /\ ((x, y) = (i, j0) \/ (x, y) = (j0, i)))) as Hno.
    { intros x y Hxy (v0 & j0 & Hv0 & Hin0 & K).
      assert (j0 = j) as ->.
      { destruct Hxy as [Hxy|Hxy], K as [K|K]; congruence. }
      assert (v0 = v) by (apply (Hinj v0 v j Hv0 Hv)). subst v0. contradiction. }
    split.
    - intros v0 j0 Hv0 K. apply elem_of_cons in K as [->|K]; [|auto].
      assert (j0 = j) as -> by congruence. rewrite !H2 by (apply Hno; auto). rewrite lookup_insert.
      rewrite lookup_insert_ne by congruence. rewrite lookup_insert. auto.
    - intros x y K. rewrite H2.
      + rewrite !lookup_insert_ne; [reflexivity| |]; intros E; apply K; exists v, j; rewrite elem_of_cons; auto.
      + intros (v0 & j0 & ? & ? & ?). apply K. exists v0, j0. rewrite elem_of_cons. auto.
  Qed.
  Lemma row_cells_nil f u i c : row_cells f u i [] c c.
  Proof. split; [intros v j _ K; apply elem_of_nil in K; contradiction|reflexivity]. Qed.

  Lemma adj_loop u i n ss : forall m : Mat W, sl_nodes l !! u = Some n -> ord !! u = Some i -> mt_size m = size ord ->
    NoDup ss -> u ∉ List.filter (fun s => bool_decide (is_Some (ord !! s))) ss ->
    exists m', rfold (adj_sibling zero ord weight n i) ss m = Ok m' /\ mt_size m' = size ord /\
      row_cells (fun w => w) u i (List.filter (fun s => bool_decide (is_Some (ord !! s))) ss) (mt_cells m) (mt_cells m').
  Proof.
    induction ss as [|s ss IH]; intros m Hn Hu Hs HN Hni.
    - exists m. split; [reflexivity|]. split; [exact Hs|]. apply row_cells_nil.
    - apply list.NoDup_cons in HN as [Hss HN]. cbn [rfold List.filter] in *. unfold adj_sibling at 1.
      destruct (ord !! s) as [j|] eqn:Ej.
      + rewrite bool_decide_true in Hni by eauto. rewrite elem_of_cons in Hni.
        rewrite (mat_set_ok m u s i j _ Hs Hu Ej). cbn [rbind].
        unfold mat_get at 1. cbn [mt_cells]. rewrite lookup_insert. cbn [default id].
        rewrite (mat_set_ok (mkMat (size ord) _) s u j i _ eq_refl Ej Hu). cbn [rbind].
        destruct (IH (mkMat (size ord) (<[(j, i) := weight (n_id n) s]> (<[(i, j) := weight (n_id n) s]> (mt_cells m)))))
          as (m' & E & Hs' & HR); try assumption; [reflexivity|tauto|].
        exists m'. split; [exact E|]. split; [exact Hs'|]. rewrite bool_decide_true by eauto.
        destruct (slw_node _ Hwf _ _ Hn) as [Hid _]. rewrite Hid in HR.
        apply row_cells_cons with (j := j); [exact Hu|exact Ej|intros ->; tauto| |exact HR].
        rewrite elem_of_list_In, List.filter_In, <- elem_of_list_In. tauto.
      + rewrite bool_decide_false in Hni by (intros [? ?]; discriminate). cbn [rbind].
        destruct (IH m Hn Hu Hs HN Hni) as (m' & E & Hs' & HR). exists m'. split; [exact E|]. split; [exact Hs'|].
        rewrite bool_decide_false by (intros [? ?]; discriminate). exact HR.
  Qed.

  Lemma lap_loop u i n ss : forall (m : Mat W) d, sl_nodes l !! u = Some n -> ord !! u = Some i -> mt_size m = size ord ->
    NoDup ss -> u ∉ List.filter (fun s => bool_decide (is_Some (ord !! s))) ss ->
    exists m', rfold (lap_sibling add opp ord weight n i) ss (m, d) =
        Ok (m', fold_left (fun d s => add d (weight u s)) (List.filter (fun s => bool_decide (is_Some (ord !! s))) ss) d) /\
      mt_size m' = size ord /\
      row_cells opp u i (List.filter (fun s => bool_decide (is_Some (ord !! s))) ss) (mt_cells m) (mt_cells m').
  Proof.
    induction ss as [|s ss IH]; intros m d Hn Hu Hs HN Hni.
    - exists m. split; [reflexivity|]. split; [exact Hs|]. apply row_cells_nil.
    - apply list.NoDup_cons in HN as [Hss HN]. cbn [rfold List.filter] in *. unfold lap_sibling at 1.
      destruct (ord !! s) as [j|] eqn:Ej.
      + rewrite bool_decide_true in Hni by eauto. rewrite elem_of_cons in Hni. cbn [fst snd].
        rewrite (mat_set_ok m u s i j _ Hs Hu Ej). cbn [rbind].
        rewrite (mat_set_ok (mkMat (size ord) _) s u j i _ eq_refl Ej Hu). cbn [rbind mt_cells].
        destruct (IH (mkMat (size ord) (<[(j, i) := opp (weight (n_id n) s)]> (<[(i, j) := opp (weight (n_id n) s)]> (mt_cells m)))) (add d (weight (n_id n) s)))
          as (m' & E & Hs' & HR); try assumption; [reflexivity|tauto|].
        destruct (slw_node _ Hwf _ _ Hn) as [Hid _].
        exists m'. rewrite bool_decide_true by eauto. split; [cbn [fold_left]; rewrite <- Hid; rewrite <- Hid in E; exact E|]. split; [exact Hs'|].
        rewrite Hid in HR.
        apply row_cells_cons with (j := j); [exact Hu|exact Ej|intros ->; tauto| |exact HR].
        rewrite elem_of_list_In, List.filter_In, <- elem_of_list_In. tauto.
      + rewrite bool_decide_false in Hni by (intros [? ?]; discriminate). cbn [rbind].
        destruct (IH m d Hn Hu Hs HN Hni) as (m' & E & Hs' & HR). exists m'. rewrite bool_decide_false by (intros [? ?]; discriminate).
        split; [exact E|]. split; [exact Hs'|]. exact HR.
  Qed.

  Definition degree (u : N) : W := fold_left (fun d s => add d (weight u s)) (used_nbrs u) zero.

  (** Off-diagonal value after the rows of [D] were processed (in ascending order). *)
  Definition partial_cell (f : W -> W) (D : list N) (u v : N) : option W :=
    if sl_has_edge l u v then
      if decide (u ∈ D) then
        if decide (v ∈ D) then Some (f (weight (N.max u v) (N.min u v))) else Some (f (weight u v))
      else if decide (v ∈ D) then Some (f (weight v u)) else None
    else None.

  (** [diag u]: the diagonal entry written by row [u], if any. *)
  Record MInv (f : W -> W) (diag : N -> option W) (D : list N) (c : gmap (N * N) W) : Prop := {
    mi_cell : forall u v i j, ord !! u = Some i -> ord !! v = Some j -> u <> v -> c !! (i, j) = partial_cell f D u v;
    mi_diag : forall u i, ord !! u = Some i -> c !! (i, i) = if decide (u ∈ D) then diag u else None;
    mi_only : forall i j, is_Some (c !! (i, j)) -> exists u v, ord !! u = Some i /\ ord !! v = Some j
  }.
  Lemma MInv_nil f diag : MInv f diag [] ∅.
  Proof.
    split.
    - intros u v i j _ _ _. rewrite lookup_empty. unfold partial_cell. destruct (sl_has_edge l u v); [|reflexivity].
      rewrite !decide_False by (intros K; apply elem_of_nil in K; exact K). reflexivity.
    - intros u i _. rewrite lookup_empty, decide_False by (intros K; apply elem_of_nil in K; exact K). reflexivity.
    - intros i j [w K]. rewrite lookup_empty in K. discriminate.
  Qed.

  Lemma MInv_row f diag D c u i c1 c2 : MInv f diag D c -> ord !! u = Some i ->
    (forall x, x ∈ D -> x < u) -> (forall x, x ∈ D -> is_Some (ord !! x)) ->
    row_cells f u i (used_nbrs u) c c1 ->
    (forall x y, (x, y) <> (i, i) -> c2 !! (x, y) = c1 !! (x, y)) -> c2 !! (i, i) = diag u ->
    MInv f diag (D ++ [u]) c2.
  Proof.
    intros H Hu HD HD' [R1 R2] H2 Hd.
    assert (u ∉ D) as HuD by (intros K; specialize (HD u K); lia).
    assert (forall x, x ∈ D ++ [u] <-> x ∈ D \/ x = u) as ED by (intros x; rewrite elem_of_app, elem_of_list_singleton; tauto).
    assert (forall v j, ord !! v = Some j -> v <> u -> sl_has_edge l u v = true -> c1 !! (i, j) = Some (f (weight u v)) /\ c1 !! (j, i) = Some (f (weight u v))) as Rl.
    { intros v j Hv Hne He. apply (R1 v j Hv), elem_used; [eauto|]. split; [exact He|eauto]. }
    assert (forall a b ia ib, ord !! a = Some ia -> ord !! b = Some ib -> ~ (a = u /\ sl_has_edge l u b = true) -> ~ (b = u /\ sl_has_edge l u a = true) ->
      c1 !! (ia, ib) = c !! (ia, ib)) as Rn.
    { intros a b ia ib Ha Hb N1 N2. apply R2. intros (v & j & Hv & Hvn & K). apply elem_used in Hvn as [Hl _]; [|eauto].
      destruct K as [K|K]; injection K as -> ->.
      - apply N1. rewrite (Hinj a u i Ha Hu), (Hinj b v j Hb Hv). auto.
      - apply N2. rewrite (Hinj b u i Hb Hu), (Hinj a v j Ha Hv). auto. }
    split.
    - intros a b ia ib Ha Hb Hne. rewrite H2.
      2: { intros [= -> ->]. apply Hne, (Hinj a b i Ha Hb). }
      unfold partial_cell. destruct (decide (a = u)) as [->|Hau].
      + assert (ia = i) as -> by congruence. rewrite (decide_True (P := u ∈ D ++ [u])) by (apply ED; auto).
        destruct (sl_has_edge l u b) eqn:E.
        * rewrite (proj1 (Rl b ib Hb ltac:(congruence) E)). destruct (decide (b ∈ D ++ [u])) as [K|K]; [|reflexivity].
          apply ED in K as [K| ->]; [|congruence]. specialize (HD b K). rewrite N.max_l, N.min_r by lia. reflexivity.
        * rewrite (Rn u b i ib Ha Hb) by (intros [? ?]; congruence). rewrite (mi_cell _ _ _ _ H u b i ib Ha Hb Hne).
          unfold partial_cell. rewrite E. reflexivity.
      + destruct (decide (b = u)) as [->|Hbu].
        * assert (ib = i) as -> by congruence. rewrite !(decide_True (P := u ∈ D ++ [u])) by (apply ED; auto).
          assert (sl_has_edge l a u = sl_has_edge l u a) as Hsym by (unfold sl_has_edge, ec_contains; rewrite (edge_key_comm a u); reflexivity).
          destruct (sl_has_edge l a u) eqn:E; symmetry in Hsym.
          -- rewrite (proj2 (Rl a ia Ha Hau Hsym)). destruct (decide (a ∈ D ++ [u])) as [K|K]; [|reflexivity].
             apply ED in K as [K| ->]; [|congruence]. specialize (HD a K). rewrite N.max_r, N.min_l by lia. reflexivity.
          -- rewrite (Rn a u ia i Ha Hb) by (intros [? ?]; congruence). rewrite (mi_cell _ _ _ _ H a u ia i Ha Hb Hne).
             unfold partial_cell. rewrite E. reflexivity.
        * rewrite (Rn a b ia ib Ha Hb) by (intros [? ?]; congruence). rewrite (mi_cell _ _ _ _ H a b ia ib Ha Hb Hne).
          unfold partial_cell. destruct (sl_has_edge l a b); [|reflexivity].
          destruct (decide (a ∈ D)) as [K1|K1], (decide (b ∈ D)) as [K2|K2], (decide (a ∈ D ++ [u])) as [K3|K3], (decide (b ∈ D ++ [u])) as [K4|K4];
            try reflexivity; rewrite ED in *; tauto.
    - intros a ia Ha. destruct (decide (a = u)) as [->|Hau].
      + assert (ia = i) as -> by congruence. rewrite decide_True by (apply ED; auto). exact Hd.
      + rewrite H2.
        2: { intros [= -> _]. apply Hau, (Hinj a u i Ha Hu). }
        rewrite (Rn a a ia ia Ha Ha) by (intros [? ?]; congruence). rewrite (mi_diag _ _ _ _ H a ia Ha).
        destruct (decide (a ∈ D)) as [K|K], (decide (a ∈ D ++ [u])) as [K'|K']; try reflexivity; rewrite ED in K'; tauto.
    - intros x y K. destruct (decide ((x, y) = (i, i))) as [[= -> ->]|Hne]; [eauto|]. rewrite (H2 x y Hne) in K.
      destruct (decide (is_Some (c !! (x, y)))) as [K'|K']; [exact (mi_only _ _ _ _ H x y K')|].
      (* written by the row *)
      destruct (decide (Exists (fun v => (x = i /\ ord !! v = Some y) \/ (y = i /\ ord !! v = Some x)) (used_nbrs u))) as [HE|HE].
      + apply list.Exists_exists in HE as (v & Hv & [[-> E]|[-> E]]); eauto.
      + exfalso. apply K'. rewrite <- (R2 x y); [exact K|]. intros (v & j & Hv & Hvn & E). apply HE, list.Exists_exists.
        exists v. split; [exact Hvn|]. destruct E as [E|E]; injection E as -> ->; auto.
  Qed.

  Definition rows_ok (xs : list (N * N)) : Prop := forall x, x ∈ xs -> ord !! fst x = Some (snd x).

  Lemma adj_rows xs : forall m D, mt_size m = size ord -> MInv (fun w => w) (fun _ => None) D (mt_cells m) ->
    rows_ok xs -> (forall x, x ∈ D -> is_Some (ord !! x)) ->
    Sorting.Sorted.StronglySorted (fun a b : N * N => fst a < fst b) xs -> (forall x y, x ∈ D -> y ∈ xs -> x < fst y) ->
    exists m', rfold (adj_row zero l ord weight) xs m = Ok m' /\ mt_size m' = size ord /\
      MInv (fun w => w) (fun _ => None) (D ++ map fst xs) (mt_cells m').
  Proof.
    induction xs as [|[u i] xs IH]; intros m D Hs HM Hok HD HS Hlt.
    - exists m. cbn. rewrite app_nil_r. auto.
    - inversion HS as [|a b HS' HF]; subst. rewrite List.Forall_forall in HF.
      assert (ord !! u = Some i) as Hu by (apply (Hok (u, i)), elem_of_cons; auto).
      destruct (Hin u ltac:(eauto)) as [n Hn]. cbn [rfold]. unfold adj_row at 1. cbn [fst snd].
      unfold sl_find_node. rewrite Hn. cbn [at_ rbind].
      pose proof (used_irrefl u ltac:(eauto)) as Hirr. pose proof (used_nbrs_nodup u) as Hnd. unfold used_nbrs in Hirr, Hnd. rewrite Hn in Hirr, Hnd.
      destruct (adj_loop u i n (elements (n_sib n)) m Hn Hu Hs (NoDup_elements _) Hirr) as (m1 & -> & Hs1 & HR). cbn [rbind].
      assert (MInv (fun w => w) (fun _ => None) (D ++ [u]) (mt_cells m1)) as HM1.
      { apply MInv_row with (c := mt_cells m) (i := i) (c1 := mt_cells m1); try assumption.
        - intros x Hx. apply (Hlt x (u, i) Hx), elem_of_cons. auto.
        - unfold used_nbrs. rewrite Hn. exact HR.
        - reflexivity.
        - destruct HR as [_ HR]. rewrite HR.
          + rewrite (mi_diag _ _ _ _ HM u i Hu). destruct (decide (u ∈ D)) as [K|]; [|reflexivity]. reflexivity.
          + intros (v & j & Hv & Hvn & E). assert (j = i) as -> by (destruct E; congruence).
            rewrite (Hinj v u i Hv Hu) in Hvn. contradiction. }
      destruct (IH m1 (D ++ [u]) Hs1 HM1) as (m' & E & Hs' & HM').
      + intros x Hx. apply Hok, elem_of_cons. auto.
      + intros x Hx. apply elem_of_app in Hx as [Hx|Hx]; [auto|]. apply elem_of_list_singleton in Hx. subst x. eauto.
      + exact HS'.
      + intros x y Hx Hy. apply elem_of_app in Hx as [Hx|Hx]; [apply (Hlt x y Hx), elem_of_cons; auto|].
        apply elem_of_list_singleton in Hx. subst x. apply (HF y), elem_of_list_In, Hy.
      + exists m'. split; [exact E|]. split; [exact Hs'|]. cbn [map fst]. rewrite <- app_assoc in HM'. exact HM'.
  Qed.

  Lemma lap_rows xs : forall m D, mt_size m = size ord -> MInv opp (fun u => Some (degree u)) D (mt_cells m) ->
    rows_ok xs -> (forall x, x ∈ D -> is_Some (ord !! x)) ->
    Sorting.Sorted.StronglySorted (fun a b : N * N => fst a < fst b) xs -> (forall x y, x ∈ D -> y ∈ xs -> x < fst y) ->
    exists m', rfold (lap_row zero add opp l ord weight) xs m = Ok m' /\ mt_size m' = size ord /\
      MInv opp (fun u => Some (degree u)) (D ++ map fst xs) (mt_cells m').
  Proof.
    induction xs as [|[u i] xs IH]; intros m D Hs HM Hok HD HS Hlt.
    - exists m. cbn. rewrite app_nil_r. auto.
    - inversion HS as [|a b HS' HF]; subst. rewrite List.Forall_forall in HF.
      assert (ord !! u = Some i) as Hu by (apply (Hok (u, i)), elem_of_cons; auto).
      destruct (Hin u ltac:(eauto)) as [n Hn]. cbn [rfold]. unfold lap_row at 1. cbn [fst snd].
      unfold sl_find_node. rewrite Hn. cbn [at_ rbind].
      pose proof (used_irrefl u ltac:(eauto)) as Hirr. unfold used_nbrs in Hirr. rewrite Hn in Hirr.
      destruct (lap_loop u i n (elements (n_sib n)) m zero Hn Hu Hs (NoDup_elements _) Hirr) as (m1 & -> & Hs1 & HR). cbn [rbind].
      rewrite (mat_set_ok m1 u u i i _ Hs1 Hu Hu). cbn [rbind].
      match goal with |- context [rfold _ xs ?mm] => set (m2 := mm) end.
      assert (MInv opp (fun u => Some (degree u)) (D ++ [u]) (mt_cells m2)) as HM1.
      { apply MInv_row with (c := mt_cells m) (i := i) (c1 := mt_cells m1); try assumption.
        - intros x Hx. apply (Hlt x (u, i) Hx), elem_of_cons. auto.
        - unfold used_nbrs. rewrite Hn. exact HR.
        - intros x y Hxy. subst m2. cbn [mt_cells]. apply lookup_insert_ne. congruence.
        - subst m2. cbn [mt_cells]. rewrite lookup_insert. unfold degree, used_nbrs. rewrite Hn. reflexivity. }
      destruct (IH m2 (D ++ [u]) eq_refl HM1) as (m' & E & Hs' & HM').
      + intros x Hx. apply Hok, elem_of_cons. auto.
      + intros x Hx. apply elem_of_app in Hx as [Hx|Hx]; [auto|]. apply elem_of_list_singleton in Hx. subst x. eauto.
      + exact HS'.
      + intros x y Hx Hy. apply elem_of_app in Hx as [Hx|Hx]; [apply (Hlt x y Hx), elem_of_cons; auto|].
        apply elem_of_list_singleton in Hx. subst x. apply (HF y), elem_of_list_In, Hy.
      + exists m'. split; [exact E|]. split; [exact Hs'|]. cbn [map fst]. rewrite <- app_assoc in HM'. exact HM'.
  Qed.

  Lemma asc_all u : u ∈ map fst (ascending ord) <-> is_Some (ord !! u).
  Proof.
    change (u ∈ (ascending ord).*1 <-> is_Some (ord !! u)). rewrite elem_of_list_fmap. split.
    - intros ([k v] & -> & H). apply elem_ascending in H. cbn in *. eauto.
    - intros [v Hv]. exists (u, v). split; [reflexivity|]. apply elem_ascending. exact Hv.
  Qed.

  Definition final_cell (f : W -> W) (u v : N) : option W :=
    if sl_has_edge l u v then Some (f (weight (N.max u v) (N.min u v))) else None.

  Lemma MInv_final f diag c : MInv f diag (map fst (ascending ord)) c ->
    (forall u v i j, ord !! u = Some i -> ord !! v = Some j -> u <> v -> c !! (i, j) = final_cell f u v) /\
    (forall u i, ord !! u = Some i -> c !! (i, i) = diag u) /\
    (forall i j, is_Some (c !! (i, j)) -> exists u v, ord !! u = Some i /\ ord !! v = Some j).
  Proof.
    intros [H1 H2 H3]. split; [|split; [|exact H3]].
    - intros u v i j Hu Hv Hne. rewrite (H1 u v i j Hu Hv Hne). unfold partial_cell, final_cell.
      rewrite !decide_True by (apply asc_all; eauto). reflexivity.
    - intros u i Hu. rewrite (H2 u i Hu), decide_True by (apply asc_all; eauto). reflexivity.
  Qed.

  Lemma rows_ok_asc : rows_ok (ascending ord).
  Proof. intros x Hx. apply elem_ascending, Hx. Qed.

  Theorem adjacency_ok : exists m, adjacency_matrix zero l ord weight = Ok m /\ mt_size m = size ord /\
    (forall u v i j, ord !! u = Some i -> ord !! v = Some j -> u <> v -> mt_cells m !! (i, j) = final_cell (fun w => w) u v) /\
    (forall u i, ord !! u = Some i -> mt_cells m !! (i, i) = None) /\
    (forall i j, is_Some (mt_cells m !! (i, j)) -> exists u v, ord !! u = Some i /\ ord !! v = Some j).
  Proof.
    destruct (adj_rows (ascending ord) (mkMat (size ord) ∅) [] eq_refl (MInv_nil _ _) rows_ok_asc) as (m & E & Hs & HM).
    - intros x K. apply elem_of_nil in K. contradiction.
    - apply ascending_sorted.
    - intros x y K. apply elem_of_nil in K. contradiction.
    - exists m. split; [exact E|]. split; [exact Hs|]. exact (MInv_final _ _ _ HM).
  Qed.
  Theorem laplacian_ok : exists m, laplacian zero add opp l ord weight = Ok m /\ mt_size m = size ord /\
    (forall u v i j, ord !! u = Some i -> ord !! v = Some j -> u <> v -> mt_cells m !! (i, j) = final_cell opp u v) /\
    (forall u i, ord !! u = Some i -> mt_cells m !! (i, i) = Some (degree u)) /\
    (forall i j, is_Some (mt_cells m !! (i, j)) -> exists u v, ord !! u = Some i /\ ord !! v = Some j).
  Proof.
    destruct (lap_rows (ascending ord) (mkMat (size ord) ∅) [] eq_refl (MInv_nil _ _) rows_ok_asc) as (m & E & Hs & HM).
    - intros x K. apply elem_of_nil in K. contradiction.
    - apply ascending_sorted.
    - intros x y K. apply elem_of_nil in K. contradiction.
    - exists m. split; [exact E|]. split; [exact Hs|]. exact (MInv_final _ _ _ HM).
  Qed.
End Mat.
