(** Sparse matrices and row sums. *)
From Coq Require Import NArith ZArith Bool List Lia.
From stdpp Require Import base list gmap fin_maps sorting.
From Verif.Model Require Import Types Attrs Node EdgeContainer SLayer DLayer Graph Search Views.
From Verif.Spec Require Import EdgeLog LayerLog Search Views.
From Verif.Proof Require Import Keys EdgeLogP SLayerP MatrixP.
Local Open Scope N_scope.
#[local] Arguments edge_key : simpl never.

Lemma triplets_ok {W} (add : W -> W -> W) n es : forall m : Mat W, mt_size m = n ->
  NoDup (map fst es) -> (forall i j w, (i, j, w) ∈ es -> i < N.of_nat n /\ j < N.of_nat n /\ mt_cells m !! (i, j) = None) ->
  exists m', rfold (add_triplet add) es m = Ok m' /\ mt_size m' = n /\
    (forall i j w, mt_cells m' !! (i, j) = Some w <-> (i, j, w) ∈ es \/ mt_cells m !! (i, j) = Some w).
Proof.
  induction es as [|[[i j] w] es IH]; intros m Hs HN Hr.
  - exists m. split; [reflexivity|]. split; [exact Hs|]. intros i j w. rewrite elem_of_nil. tauto.
  - cbn [map fst] in HN. apply list.NoDup_cons in HN as [Hn HN]. cbn [rfold].
    destruct (Hr i j w) as (Hi & Hj & Hm); [apply elem_of_cons; auto|].
    unfold add_triplet at 1, mat_set. rewrite Hs, Hm.
    rewrite (proj2 (N.ltb_lt _ _) Hi), (proj2 (N.ltb_lt _ _) Hj). cbn [andb rbind].
    destruct (IH (mkMat n (<[(i, j) := w]> (mt_cells m)))) as (m' & E & Hs' & HC); [reflexivity|exact HN| |].
    + intros a b c K. destruct (Hr a b c) as (Ha & Hb & Hc); [apply elem_of_cons; auto|]. split; [exact Ha|]. split; [exact Hb|].
      cbn [mt_cells]. rewrite lookup_insert_ne; [exact Hc|]. intros E. apply Hn. rewrite E.
      change (a, b) with (fst (a, b, c)). apply elem_of_list_fmap_1, K.
    + exists m'. split; [exact E|]. split; [exact Hs'|]. intros a b c. rewrite HC. cbn [mt_cells]. rewrite elem_of_cons.
      destruct (decide ((i, j) = (a, b))) as [Eq|Eq].
      * injection Eq as <- <-. rewrite lookup_insert. split; [intros [K|[= ->]]; auto|].
        intros [[[= ->]|K]|K]; auto. congruence.
      * rewrite lookup_insert_ne by exact Eq. split; [tauto|]. intros [[[= -> -> ->]|K]|K]; auto. congruence.
Qed.

Section Sparse.
  Context {W : Type} (zero : W) (add : W -> W -> W) (opp : W -> W).
  Context (l : SLayer) (ord : gmap N N) (weight : N -> N -> W).
  Hypothesis Hwf : sl_wf l.
  Hypothesis Hin : forall x, is_Some (ord !! x) -> is_Some (sl_nodes l !! x).
  Hypothesis Hinj : forall x y i, ord !! x = Some i -> ord !! y = Some i -> x = y.
  Hypothesis Hrange : forall x i, ord !! x = Some i -> i < N.of_nat (size ord).

  (** Entries of row [u] *)
  Definition row_entries (f : W -> W) (extra : N -> list W) (x : N * N) : list (N * N * W) :=
    omap (fun s => match ord !! s with None => None | Some j => Some (snd x, j, f (weight (fst x) s)) end) (used_nbrs l ord (fst x))
      ++ map (fun w => (snd x, snd x, w)) (extra (fst x)).

  Lemma omap_used {B} (h : N -> N -> B) ss :
    omap (fun s => match ord !! s with None => None | Some j => Some (h s j) end) (List.filter (fun s => bool_decide (is_Some (ord !! s))) ss)
    = omap (fun s => match ord !! s with None => None | Some j => Some (h s j) end) ss.
  Proof.
    induction ss as [|s ss IH]; [reflexivity|]. cbn [List.filter]. destruct (ord !! s) as [j|] eqn:E.
    - rewrite bool_decide_true by eauto. cbn. rewrite E. f_equal. exact IH.
    - rewrite bool_decide_false by (intros [? ?]; discriminate). cbn. rewrite E. exact IH.
  Qed.

  Lemma sp_adj_rows xs : forall es, rows_ok ord xs ->
    rfold (sp_adj_row l ord weight) xs es = Ok (es ++ mjoin (map (row_entries (fun w => w) (fun _ => [])) xs)).
  Proof.
    induction xs as [|[u i] xs IH]; intros es Hok; [cbn; rewrite app_nil_r; reflexivity|].
    assert (ord !! u = Some i) as Hu by (apply (Hok (u, i)), elem_of_cons; auto).
    destruct (Hin u ltac:(eauto)) as [n Hn]. cbn [rfold]. unfold sp_adj_row at 1. cbn [fst snd].
    unfold sl_find_node. rewrite Hn. cbn [at_ rbind]. rewrite IH by (intros x Hx; apply Hok, elem_of_cons; auto).
    cbn [map mjoin list_join]. rewrite <- app_assoc. do 3 f_equal. unfold row_entries, used_nbrs. cbn [fst snd map]. rewrite Hn, app_nil_r.
    rewrite omap_used. destruct (slw_node _ Hwf _ _ Hn) as [Hid _]. rewrite Hid. reflexivity.
  Qed.
  Lemma fold_omap ss u : forall d,
    fold_left (fun (d : W) (y : N * W) => add d (snd y)) (omap (fun s => match ord !! s with None => None | Some j => Some (j, weight u s) end) ss) d =
    fold_left (fun d s => add d (weight u s)) (List.filter (fun s => bool_decide (is_Some (ord !! s))) ss) d.
  Proof.
    induction ss as [|s ss IH]; intros d; [reflexivity|]. cbn [List.filter]. destruct (ord !! s) as [j|] eqn:E.
    - rewrite bool_decide_true by eauto. cbn. rewrite E. cbn. apply IH.
    - rewrite bool_decide_false by (intros [? ?]; discriminate). cbn. rewrite E. apply IH.
  Qed.
  Lemma map_omap {A B C} (g : B -> C) (h : A -> option B) (ss : list A) : map g (omap h ss) = omap (fun s => g <$> h s) ss.
  Proof. induction ss as [|s ss IH]; [reflexivity|]. cbn. destruct (h s); cbn; [f_equal|]; exact IH. Qed.
  Lemma sp_lap_rows xs : forall es, rows_ok ord xs ->
    rfold (sp_lap_row zero add opp l ord weight) xs es = Ok (es ++ mjoin (map (row_entries opp (fun u => [degree zero add l ord weight u])) xs)).
  Proof.
    induction xs as [|[u i] xs IH]; intros es Hok; [cbn; rewrite app_nil_r; reflexivity|].
    assert (ord !! u = Some i) as Hu by (apply (Hok (u, i)), elem_of_cons; auto).
    destruct (Hin u ltac:(eauto)) as [n Hn]. cbn [rfold]. unfold sp_lap_row at 1. cbn [fst snd].
    unfold sl_find_node. rewrite Hn. cbn [at_ rbind]. rewrite IH by (intros x Hx; apply Hok, elem_of_cons; auto).
    cbn [map mjoin list_join]. rewrite <- !app_assoc. do 2 f_equal. unfold row_entries, used_nbrs, degree, used_nbrs. cbn [fst snd map]. rewrite Hn.
    destruct (slw_node _ Hwf _ _ Hn) as [Hid _]. rewrite Hid. rewrite fold_omap, map_omap, (omap_used (fun s j => (i, j, opp (weight u s)))), <- app_assoc. f_equal.
    apply list_omap_ext, Forall_Forall2_diag, Forall_true. intros s. destruct (ord !! s); reflexivity.
  Qed.

  Lemma elem_entries f extra i j w : (i, j, w) ∈ mjoin (map (row_entries f extra) (ascending ord)) <->
    exists u, ord !! u = Some i /\ ((exists v, ord !! v = Some j /\ v ∈ used_nbrs l ord u /\ w = f (weight u v)) \/ (i = j /\ w ∈ extra u)).
  Proof.
    rewrite elem_of_list_join. split.
    - intros (r & Hw & Hr). apply elem_of_list_In, in_map_iff in Hr as ([u i'] & <- & Hx). apply elem_of_list_In, elem_ascending in Hx. cbn [fst snd] in Hx.
      unfold row_entries in Hw. cbn [fst snd] in Hw. apply elem_of_app in Hw as [Hw|Hw].
      + apply elem_of_list_omap in Hw as (v & Hv & E). destruct (ord !! v) as [j'|] eqn:Ej; [|discriminate]. injection E as -> -> <-.
        exists u. split; [exact Hx|]. left. exists v. auto.
      + apply elem_of_list_In, in_map_iff in Hw as (w' & E & Hw'). injection E as -> <- <-. exists u. split; [exact Hx|]. right. split; [reflexivity|].
        apply elem_of_list_In, Hw'.
    - intros (u & Hu & K). exists (row_entries f extra (u, i)). split.
      + unfold row_entries. cbn [fst snd]. apply elem_of_app. destruct K as [(v & Hv & Hvn & ->)|[-> K]].
        * left. apply elem_of_list_omap. exists v. rewrite Hv. auto.
        * right. apply elem_of_list_In, in_map_iff. exists w. split; [reflexivity|]. apply elem_of_list_In, K.
      + apply elem_of_list_In, in_map_iff. exists (u, i). split; [reflexivity|]. apply elem_of_list_In, elem_ascending. exact Hu.
  Qed.

  Lemma entries_nodup f extra : (forall u, (length (extra u) <= 1)%nat) -> NoDup (map fst (mjoin (map (row_entries f extra) (ascending ord)))).
  Proof.
    intros Hex.
    assert (forall x p, rows_ok ord [x] -> p ∈ map fst (row_entries f extra x) -> fst p = snd x) as Hrow.
    { intros [u i] p _ Hp. apply elem_of_list_In, in_map_iff in Hp as ([[a b] w] & <- & Hp). apply elem_of_list_In, elem_of_app in Hp as [Hp|Hp].
      - apply elem_of_list_omap in Hp as (v & _ & E). destruct (ord !! v); [|discriminate]. injection E as <- _ _. reflexivity.
      - apply elem_of_list_In, in_map_iff in Hp as (w' & E & _). injection E as <- _ _. reflexivity. }
    assert (forall x, rows_ok ord [x] -> NoDup (map fst (row_entries f extra x))) as Hone.
    { intros [u i] Hx. assert (ord !! u = Some i) as Hu by (apply (Hx (u, i)), elem_of_cons; auto).
      unfold row_entries. cbn [fst snd]. rewrite map_app, map_omap, map_map. cbn [fst]. apply NoDup_app.
      pose proof (used_irrefl l ord Hwf Hin u ltac:(eauto)) as Hirr. pose proof (used_nbrs_nodup l ord u) as Hnd.
      split; [|split].
      - clear Hirr. induction (used_nbrs l ord u) as [|s ss IH]; [constructor|]. apply list.NoDup_cons in Hnd as [H1 H2].
        cbn. destruct (ord !! s) as [j|] eqn:Ej; cbn; [|exact (IH H2)]. apply list.NoDup_cons. split; [|exact (IH H2)].
        intros K. apply elem_of_list_omap in K as (v & Hv & E). destruct (ord !! v) as [j'|] eqn:Ej'; [|discriminate]. cbn in E. injection E as ->.
        rewrite (Hinj v s j Ej' Ej) in Hv. contradiction.
      - intros p Hp K. apply elem_of_list_omap in Hp as (v & Hv & E). destruct (ord !! v) as [j'|] eqn:Ej'; [|discriminate]. cbn in E. injection E as <-.
        apply elem_of_list_In, in_map_iff in K as (w' & E & _). injection E as <-. rewrite (Hinj v u i Ej' Hu) in Hv. contradiction.
      - specialize (Hex u). destruct (extra u) as [|a [|b r]]; cbn in *; [constructor| |lia]. apply NoDup_singleton. }
    pose proof (rows_ok_asc ord) as Hok. pose proof (ascending_nodup ord) as HN. induction (ascending ord) as [|x xs IH]; [constructor|].
    cbn [map mjoin list_join]. rewrite map_app. apply NoDup_app. cbn [map] in HN. apply list.NoDup_cons in HN as [HN1 HN2].
    assert (rows_ok ord [x]) as Hx1 by (intros y Hy; apply elem_of_list_singleton in Hy; subst y; apply Hok, elem_of_cons; auto).
    split; [apply Hone; exact Hx1|]. split.
    - intros p Hp K. apply (Hrow x p Hx1) in Hp. apply elem_of_list_In, in_map_iff in K as (e & <- & K). apply elem_of_list_In, elem_of_list_join in K as (r & He & Hr).
      apply elem_of_list_In, in_map_iff in Hr as (y & <- & Hy).
      assert (rows_ok ord [y]) as Hy1 by (intros z Hz; apply elem_of_list_singleton in Hz; subst z; apply Hok, elem_of_cons; right; apply elem_of_list_In, Hy).
      assert (fst (fst e) = snd y) as Hy2.
      { apply (Hrow y _ Hy1). apply elem_of_list_fmap_1, He. }
      apply HN1. assert (fst x = fst y) as ->.
      { apply (Hinj (fst x) (fst y) (snd x)); [apply Hx1, elem_of_list_singleton; reflexivity|]. rewrite <- Hp, Hy2. apply Hy1, elem_of_list_singleton; reflexivity. }
      apply elem_of_list_fmap_1, elem_of_list_In, Hy.
    - apply IH; [|exact HN2]. intros y Hy. apply Hok, elem_of_cons. auto.
  Qed.

  Lemma entries_matrix f extra : (forall u, (length (extra u) <= 1)%nat) ->
    exists m, from_triplets add (size ord) (mjoin (map (row_entries f extra) (ascending ord))) = Ok m /\ mt_size m = size ord /\
    (forall u v i j, ord !! u = Some i -> ord !! v = Some j -> u <> v -> mt_cells m !! (i, j) = if sl_has_edge l u v then Some (f (weight u v)) else None) /\
    (forall u i, ord !! u = Some i -> mt_cells m !! (i, i) = head (extra u)) /\
    (forall i j, is_Some (mt_cells m !! (i, j)) -> exists u v, ord !! u = Some i /\ ord !! v = Some j).
  Proof.
    intros Hex. unfold from_triplets. destruct (triplets_ok add (size ord) (mjoin (map (row_entries f extra) (ascending ord))) (mkMat (size ord) ∅)) as (m & E & Hs & HC).
    - reflexivity.
    - apply entries_nodup, Hex.
    - intros i j w K. apply elem_entries in K as (u & Hu & K). split; [exact (Hrange u i Hu)|]. split; [|apply lookup_empty].
      destruct K as [(v & Hv & _ & _)|[-> _]]; [exact (Hrange v j Hv)|exact (Hrange u j Hu)].
    - exists m. split; [exact E|]. split; [exact Hs|]. cbn [mt_cells] in HC.
      assert (forall i j w, mt_cells m !! (i, j) = Some w <-> (i, j, w) ∈ mjoin (map (row_entries f extra) (ascending ord))) as HC'.
      { intros i j w. rewrite HC, lookup_empty. split; [intros [K|K]; [exact K|discriminate]|auto]. }
      split; [|split].
      + intros u v i j Hu Hv Hne. apply option_eq. intros w. rewrite HC', elem_entries. split.
        * intros (u' & Hu' & K). rewrite (Hinj u' u i Hu' Hu) in *. destruct K as [(v' & Hv' & K & ->)|[-> _]].
          -- rewrite (Hinj v' v j Hv' Hv) in *. apply (elem_used l ord Hwf Hin) in K as [K _]; [|eauto]. unfold linked in K. rewrite K. reflexivity.
          -- exfalso. apply Hne, (Hinj u v j Hu Hv).
        * intros K. destruct (sl_has_edge l u v) eqn:El; [|discriminate]. injection K as <-. exists u. split; [exact Hu|]. left. exists v.
          split; [exact Hv|]. split; [|reflexivity]. apply (elem_used l ord Hwf Hin); [eauto|]. split; [exact El|eauto].
      + intros u i Hu. apply option_eq. intros w. rewrite HC', elem_entries. split.
        * intros (u' & Hu' & K). rewrite (Hinj u' u i Hu' Hu) in *. destruct K as [(v' & Hv' & K & ->)|[_ K]].
          -- rewrite (Hinj v' u i Hv' Hu) in K. exfalso. apply (used_irrefl l ord Hwf Hin u); [eauto|exact K].
          -- specialize (Hex u). destruct (extra u) as [|a [|b r]]; cbn in *; [apply elem_of_nil in K; contradiction| |lia].
             apply elem_of_list_singleton in K. subst a. reflexivity.
        * intros K. exists u. split; [exact Hu|]. right. split; [reflexivity|]. destruct (extra u) as [|a r]; [discriminate|]. injection K as ->. apply elem_of_cons. auto.
      + intros i j [w K]. apply HC', elem_entries in K as (u & Hu & K). destruct K as [(v & Hv & _)|[-> _]]; eauto.
  Qed.

  Theorem sparse_adjacency_ok : exists m, sparse_adjacency add l ord weight = Ok m /\ mt_size m = size ord /\
    (forall u v i j, ord !! u = Some i -> ord !! v = Some j -> u <> v -> mt_cells m !! (i, j) = if sl_has_edge l u v then Some (weight u v) else None) /\
    (forall u i, ord !! u = Some i -> mt_cells m !! (i, i) = None) /\
    (forall i j, is_Some (mt_cells m !! (i, j)) -> exists u v, ord !! u = Some i /\ ord !! v = Some j).
  Proof.
    unfold sparse_adjacency. rewrite sp_adj_rows by apply rows_ok_asc. cbn [rbind app].
    apply (entries_matrix (fun w => w) (fun _ => [])). cbn. lia.
  Qed.
  Theorem sparse_laplacian_ok : exists m, sparse_laplacian zero add opp l ord weight = Ok m /\ mt_size m = size ord /\
    (forall u v i j, ord !! u = Some i -> ord !! v = Some j -> u <> v -> mt_cells m !! (i, j) = if sl_has_edge l u v then Some (opp (weight u v)) else None) /\
    (forall u i, ord !! u = Some i -> mt_cells m !! (i, i) = Some (degree zero add l ord weight u)) /\
    (forall i j, is_Some (mt_cells m !! (i, j)) -> exists u v, ord !! u = Some i /\ ord !! v = Some j).
  Proof.
    unfold sparse_laplacian. rewrite sp_lap_rows by apply rows_ok_asc. cbn [rbind app].
    apply (entries_matrix opp (fun u => [degree zero add l ord weight u])). cbn. lia.
  Qed.

  (** ** Row sums *)
  Hypothesis HG : abelian_group zero add opp.
  Definition gsum (ws : list W) : W := foldr add zero ws.
  Lemma gsum_perm a b : a ≡ₚ b -> gsum a = gsum b.
  Proof.
    destruct HG as (Ha & Hc & _). induction 1 as [|x a b _ IH|x y a|a b c _ IH1 _ IH2]; cbn; [reflexivity|f_equal; exact IH| |congruence].
    rewrite !Ha. f_equal. apply Hc.
  Qed.
  Lemma fold_gsum {A} (h : A -> W) xs : forall d, fold_left (fun d s => add d (h s)) xs d = add d (gsum (map h xs)).
  Proof.
    destruct HG as (Ha & Hc & H0 & _). induction xs as [|x xs IH]; intros d; cbn; [rewrite Hc, H0; reflexivity|]. rewrite IH. symmetry. apply Ha.
  Qed.
  Lemma gsum_opp {A} (h : A -> W) xs : add (gsum (map (fun s => opp (h s)) xs)) (gsum (map h xs)) = zero.
  Proof.
    destruct HG as (Ha & Hc & H0 & Ho). induction xs as [|x xs IH]; [cbn; apply H0|].
    change (add (add (opp (h x)) (gsum (map (fun s => opp (h s)) xs))) (add (h x) (gsum (map h xs))) = zero).
    revert IH. generalize (gsum (map (fun s => opp (h s)) xs)), (gsum (map h xs)). intros A' B' IH.
    rewrite <- (Ha (opp (h x))), (Ha A' (h x)), (Hc A' (h x)), <- (Ha (h x)), IH, (Hc (h x)), H0. apply Ho.
  Qed.
  Definition keys : list N := map fst (ascending ord).
  Lemma keys_nodup : NoDup keys. Proof. apply ascending_nodup. Qed.
  Lemma indices_perm : map N.of_nat (seq 0 (size ord)) ≡ₚ omap (fun v => ord !! v) keys.
  Proof.
    symmetry. apply submseteq_Permutation_length_eq.
    - rewrite map_length, seq_length. assert (size ord = length (ascending ord)) as -> by (rewrite (ascending_perm ord); reflexivity).
      unfold keys.
      assert (forall x, x ∈ ascending ord -> ord !! fst x = Some (snd x)) as H by (intros x; apply elem_ascending).
      induction (ascending ord) as [|x xs IH]; [reflexivity|]. cbn. rewrite (H x) by (apply elem_of_cons; auto). cbn. f_equal. apply IH.
      intros y Hy. apply H, elem_of_cons. auto.
    - apply NoDup_submseteq.
      + pose proof keys_nodup as HN. induction keys as [|k ks IH]; [constructor|]. apply list.NoDup_cons in HN as [H1 H2]. cbn.
        destruct (ord !! k) as [j|] eqn:Ej; cbn; [|exact (IH H2)]. apply list.NoDup_cons. split; [|exact (IH H2)].
        intros K. apply elem_of_list_omap in K as (v & Hv & E). rewrite (Hinj v k j E Ej) in Hv. contradiction.
      + intros i K. apply elem_of_list_omap in K as (v & _ & E). apply Hrange in E. apply elem_of_list_In, in_map_iff. exists (N.to_nat i).
        split; [lia|]. apply in_seq. lia.
  Qed.
  Lemma map_via_omap (h : N -> W) ks : (forall v, v ∈ ks -> is_Some (ord !! v)) ->
    map h (omap (fun v => ord !! v) ks) = map (fun v => h (default 0 (ord !! v))) ks.
  Proof.
    induction ks as [|k ks IH]; intros H; [reflexivity|]. destruct (H k) as [j Hj]; [apply elem_of_cons; auto|]. cbn. rewrite Hj. cbn. f_equal.
    apply IH. intros v Hv. apply H, elem_of_cons. auto.
  Qed.
  Lemma gsum_ext {A} (h h' : A -> W) xs : (forall x, x ∈ xs -> h x = h' x) -> gsum (map h xs) = gsum (map h' xs).
  Proof. intros H. f_equal. apply map_ext_in. intros x Hx. apply H, elem_of_list_In, Hx. Qed.
  Lemma gsum_filter (p : N -> bool) (h : N -> W) ks : (forall v, v ∈ ks -> p v = false -> h v = zero) ->
    gsum (map h ks) = gsum (map h (List.filter p ks)).
  Proof.
    destruct HG as (_ & _ & H0 & _). induction ks as [|k ks IH]; intros H; [reflexivity|]. cbn. destruct (p k) eqn:Ep; cbn.
    - f_equal. apply IH. intros v Hv. apply H, elem_of_cons. auto.
    - rewrite (H k) by (try apply elem_of_cons; auto). rewrite H0. apply IH. intros v Hv. apply H, elem_of_cons. auto.
  Qed.

  (** Any matrix whose row [u] is minus the weights off the diagonal and the degree on it. *)
  Lemma row_sum_zero (m : Mat W) u i : mt_size m = size ord -> ord !! u = Some i ->
    (forall v j, ord !! v = Some j -> u <> v -> mt_cells m !! (i, j) = if sl_has_edge l u v then Some (opp (weight u v)) else None) ->
    mt_cells m !! (i, i) = Some (degree zero add l ord weight u) -> row_sum zero add m i = zero.
  Proof.
    intros Hs Hu Hoff Hdiag. pose proof HG as (Ha & Hc & H0 & Ho).
    assert (row_sum zero add m i = gsum (map (fun j => mat_get zero m i j) (map N.of_nat (seq 0 (size ord))))) as ->.
    { unfold row_sum. rewrite Hs. induction (seq 0 (size ord)) as [|x xs IH]; [reflexivity|]. cbn. f_equal. exact IH. }
    rewrite (gsum_perm _ (map (fun j => mat_get zero m i j) (omap (fun v => ord !! v) keys))) by (apply Permutation_map, indices_perm).
    rewrite map_via_omap by (intros v Hv; apply asc_all, Hv).
    assert (u ∈ keys) as Huk by (apply asc_all; eauto).
    apply elem_of_Permutation in Huk as [ks Hks].
    pose proof keys_nodup as HN. rewrite Hks in HN. apply list.NoDup_cons in HN as [Hnu HN].
    rewrite (gsum_perm _ (map (fun v => mat_get zero m i (default 0 (ord !! v))) (u :: ks))) by (apply Permutation_map, Hks).
    cbn [map gsum foldr]. rewrite Hu. cbn [default id]. unfold mat_get at 1. rewrite Hdiag. cbn [default id].
    assert (forall v, v ∈ ks -> is_Some (ord !! v)) as Hkso.
    { intros v Hv. apply asc_all. fold keys. rewrite Hks. apply elem_of_cons. auto. }
    assert (gsum (map (fun v => mat_get zero m i (default 0 (ord !! v))) ks) = gsum (map (fun v => opp (weight u v)) (used_nbrs l ord u))) as E.
    { rewrite (gsum_filter (fun v => sl_has_edge l u v)).
      - rewrite (gsum_ext _ (fun v => opp (weight u v))).
        + apply gsum_perm, Permutation_map, NoDup_Permutation.
          * rewrite NoDup_ListNoDup in *. apply List.NoDup_filter, HN.
          * apply used_nbrs_nodup.
          * intros v. rewrite (elem_used l ord Hwf Hin) by eauto. rewrite elem_of_list_In, List.filter_In, <- elem_of_list_In. unfold linked. split.
            -- intros [K1 K2]. split; [exact K2|]. apply Hkso, K1.
            -- intros [K1 K2]. split; [|exact K1]. apply asc_all in K2. fold keys in K2. rewrite Hks in K2. apply elem_of_cons in K2 as [->|K2]; [|exact K2].
               exfalso. apply (used_irrefl l ord Hwf Hin u); [eauto|]. apply (elem_used l ord Hwf Hin); [eauto|]. split; [exact K1|eauto].
        + intros v Hv. apply elem_of_list_In, List.filter_In in Hv as [Hv K]. apply elem_of_list_In in Hv. destruct (Hkso v Hv) as [j Hj].
          rewrite Hj. cbn [default id]. unfold mat_get. rewrite (Hoff v j Hj), K; [reflexivity|]. intros ->. contradiction.
      - intros v Hv K. destruct (Hkso v Hv) as [j Hj]. rewrite Hj. cbn [default id]. unfold mat_get. rewrite (Hoff v j Hj), K; [reflexivity|]. intros ->. contradiction. }
    unfold gsum in E at 1. rewrite E. unfold degree. rewrite fold_gsum, H0, Hc. apply gsum_opp.
  Qed.
End Sparse.
