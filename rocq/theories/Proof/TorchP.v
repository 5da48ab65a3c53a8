(** Proofs about the conversion to pytorch geometric. *)
From Coq Require Import NArith Bool List Lia.
From stdpp Require Import base list gmap fin_maps sorting.
From Verif.Model Require Import Types Mesh Attrs Node EdgeContainer SLayer DLayer Graph Views Iterators PyConvert Torch.
From Verif.Spec Require Import GraphObs IterSpec ConvertSpec TorchSpec.
From Verif.Proof Require Import IterP ConvertP.
Local Open Scope N_scope.
Local Open Scope list_scope.
Set Default Proof Using "Type".

(** ** to_undirected *)
Lemma undirected_in cols c : c ∈ to_undirected cols <-> c ∈ cols \/ swap_column c ∈ cols.
Proof.
  unfold to_undirected. rewrite merge_sort_Permutation, elem_of_remove_dups, elem_of_app, (elem_of_list_In (map swap_column cols) c), in_map_iff. split.
  - intros [H|(x & <- & H)]; [auto|right]. destruct x. apply elem_of_list_In, H.
  - intros [H|H]; [auto|right]. exists (swap_column c). split; [destruct c; reflexivity|apply elem_of_list_In, H].
Qed.
Lemma undirected_nodup cols : NoDup (to_undirected cols).
Proof. unfold to_undirected. rewrite merge_sort_Permutation. apply NoDup_remove_dups. Qed.
Lemma filter_one {K V} `{EqDecision K} (l : list (K * V)) k v : NoDup (map fst l) -> (k, v) ∈ l -> filter (fun x => x.1 = k) l = [(k, v)].
Proof.
  induction l as [|[k' v'] l IH]; intros HN Hin; [inversion Hin|]. cbn in HN. apply NoDup_cons in HN as [Hk HN]. rewrite filter_cons. cbn. apply elem_of_cons in Hin as [[= <- <-]|Hin].
  - rewrite decide_True by reflexivity. f_equal. destruct (filter (fun x => x.1 = k) l) as [|[q w] r] eqn:E; [reflexivity|]. exfalso. apply Hk.
    assert (Q : (q, w) ∈ filter (fun x => x.1 = k) l) by (rewrite E; left). apply elem_of_list_filter in Q as [Q1 Q2]. cbn in Q1. subst q. apply elem_of_list_In, in_map_iff. exists (k, w). split; [reflexivity|apply elem_of_list_In, Q2].
  - rewrite decide_False; [apply IH; assumption|]. intros ->. apply Hk. apply elem_of_list_In, in_map_iff. exists (k, v). split; [reflexivity|apply elem_of_list_In, Hin].
Qed.
Lemma omap_total {A B} (h : A -> option B) l : (forall x, x ∈ l -> is_Some (h x)) -> length (omap h l) = length l /\ forall i x, l !! i = Some x -> omap h l !! i = h x.
Proof.
  induction l as [|x l IH]; intros H; [split; [reflexivity|discriminate]|]. destruct (H x ltac:(left)) as [y Hy]. destruct IH as [I1 I2]; [intros; apply H; right; assumption|].
  cbn. rewrite Hy. cbn. split; [congruence|]. intros [|i] z; cbn; [intros [= <-]; symmetry; exact Hy|apply I2].
Qed.
Lemma map_fst_zip {A B} (l : list A) : forall k : list B, length l = length k -> map fst (zip l k) = l.
Proof. induction l as [|x l IH]; intros [|y k] H; cbn in *; try discriminate; [reflexivity|]. f_equal. apply IH. congruence. Qed.
Lemma zip_in {A B} (l : list A) (k : list B) i x y : l !! i = Some x -> k !! i = Some y -> (x, y) ∈ zip l k.
Proof. revert k i. induction l as [|a l IH]; intros [|b k] [|i]; cbn; try discriminate; [intros [= ->] [= ->]; left|intros H1 H2; right; eapply IH; eassumption]. Qed.
Lemma undirected_with {E} (add : E -> E -> E) cols feats : NoDup cols -> (forall c, c ∈ cols -> swap_column c ∉ cols) -> length feats = length cols ->
  (to_undirected_with add cols feats).1 = to_undirected cols /\
  length (to_undirected_with add cols feats).2 = length (to_undirected cols) /\
  forall k c f j, to_undirected cols !! k = Some c -> (cols !! j = Some c \/ cols !! j = Some (swap_column c)) -> feats !! j = Some f -> (to_undirected_with add cols feats).2 !! k = Some f.
Proof.
  intros HN HS HL. unfold to_undirected_with. cbn [fst snd]. split; [reflexivity|].
  set (all := zip cols feats ++ zip (map swap_column cols) feats).
  assert (HA : NoDup (map fst all)).
  { unfold all. rewrite map_app, !map_fst_zip by (rewrite ?map_length; symmetry; exact HL). apply NoDup_app. split; [exact HN|]. split.
    - intros c Hc Hin. apply elem_of_list_In, in_map_iff in Hin as (d & <- & Hd). apply elem_of_list_In in Hd. apply (HS d Hd Hc).
    - apply (NoDup_fmap_2_strong swap_column); [|exact HN]. intros [a b] [c d] _ _ [= -> ->]. reflexivity. }
  set (h := fun k => match map snd (filter (fun x : nat * nat * E => x.1 = k) all) with [] => None | f :: r => Some (fold_left add r f) end).
  assert (Hh : forall c f j, (cols !! j = Some c \/ cols !! j = Some (swap_column c)) -> feats !! j = Some f -> h c = Some f).
  { intros c f j Hc Hf. unfold h. rewrite (filter_one all c f HA); [reflexivity|]. unfold all. apply elem_of_app. destruct Hc as [Hc|Hc]; [left; eapply zip_in; eassumption|right].
    apply (zip_in _ _ j); [|exact Hf]. change (map swap_column cols) with (swap_column <$> cols). rewrite list_lookup_fmap, Hc. destruct c. reflexivity. }
  destruct (omap_total h (to_undirected cols)) as [O1 O2].
  { intros c Hc. apply undirected_in in Hc. assert (exists j, cols !! j = Some c \/ cols !! j = Some (swap_column c)) as [j Hj].
    { destruct Hc as [Hc|Hc]; apply elem_of_list_lookup in Hc as [j Hj]; exists j; auto. }
    assert (exists f, feats !! j = Some f) as [f Hf].
    { apply lookup_lt_is_Some. rewrite HL. destruct Hj as [Hj|Hj]; apply lookup_lt_Some in Hj; exact Hj. }
    rewrite (Hh c f j Hj Hf). eauto. }
  split; [exact O1|]. intros k c f j Hk Hc Hf. rewrite (O2 k c Hk). apply (Hh c f j Hc Hf).
Qed.

Lemma assign_ok {A} (l : list A) i x : (i < length l)%nat -> assign l i x = Ok (<[i := x]> l).
Proof. intros H. unfold assign. destruct (Nat.ltb_spec i (length l)); [reflexivity|lia]. Qed.
Lemma lookup_snoc {A} (l : list A) x i y : (l ++ [x]) !! i = Some y <-> l !! i = Some y \/ (i = length l /\ x = y).
Proof.
  rewrite lookup_app_Some. split.
  - intros [H|[H1 H2]]; [auto|]. right. destruct (i - length l)%nat as [|m] eqn:E; cbn in H2; [|destruct m; discriminate]. split; [lia|congruence].
  - intros [H|[-> ->]]; [auto|right]. split; [lia|]. rewrite Nat.sub_diag. reflexivity.
Qed.

Section torch.
Context {F E : Type} (nc : Graph -> Node -> result F) (ec : option (Graph -> Edge -> result E))
        (precision : Vec3 -> Vec3) (add : E -> E -> E) (g : Graph).

Record TInv (M : nat) (done : list Node) (s : TState (F := F)) : Prop := {
  ti_ids : t_ids s = map n_id done;
  ti_feat : Forall2 (fun n f => nc g n = Ok f) done (t_feat s);
  ti_label : Forall2 (fun n l => semantic_label (n_attrs n) = Ok l) done (t_labels s);
  ti_poslen : length (t_pos s) = M;
  ti_pos : forall i n, done !! i = Some n -> t_pos s !! i = Some (precision (attrs_position (n_attrs n)));
  ti_mask : forall l m, t_masks s !! l = Some m -> length m = M /\ forall i, (i < M)%nat -> m !! i = Some (match done !! i with Some n => n_layer n =? l | None => false end);
  ti_layers : forall l, is_Some (t_masks s !! l) <-> is_Some (g_layers g !! l);
  ti_map : forall x i, t_map s !! x = Some i <-> exists n, done !! i = Some n /\ n_id n = x }.
Lemma row_step M done s n : TInv M done s -> (length done < M)%nat -> is_Some (g_layers g !! n_layer n) -> ~ In (n_id n) (map n_id done) ->
  (exists f, nc g n = Ok f) -> (exists l, semantic_label (n_attrs n) = Ok l) -> exists s', put_row nc precision g s n = Ok s' /\ TInv M (done ++ [n]) s'.
Proof.
  intros I HM HL HD [f Hf] [lb Hlb]. pose proof (Forall2_length _ _ _ (ti_feat _ _ _ I)) as LF. apply (ti_layers _ _ _ I) in HL as [mask Hmask].
  destruct (ti_mask _ _ _ I _ _ Hmask) as [Lm Hm]. unfold put_row. cbv zeta. rewrite Hmask. cbn [at_ rbind]. rewrite <- LF.
  rewrite assign_ok by lia. cbn [rbind]. rewrite assign_ok by (rewrite (ti_poslen _ _ _ I); exact HM). cbn [rbind]. rewrite Hf. cbn [rbind]. rewrite Hlb. cbn [rbind].
  eexists. split; [reflexivity|]. split; cbn.
  - rewrite (ti_ids _ _ _ I), map_app. reflexivity.
  - apply Forall2_app; [apply (ti_feat _ _ _ I)|]. constructor; [exact Hf|constructor].
  - apply Forall2_app; [apply (ti_label _ _ _ I)|]. constructor; [exact Hlb|constructor].
  - rewrite insert_length. apply (ti_poslen _ _ _ I).
  - intros i m. rewrite lookup_snoc. intros [H|[-> <-]].
    + rewrite list_lookup_insert_ne; [apply (ti_pos _ _ _ I), H|]. apply lookup_lt_Some in H. lia.
    + apply list_lookup_insert. rewrite (ti_poslen _ _ _ I). exact HM.
  - intros l m. destruct (decide (l = n_layer n)) as [->|Hl].
    + rewrite lookup_insert. intros [= <-]. rewrite insert_length. split; [exact Lm|]. intros i Hi. destruct (decide (i = length done)) as [->|Hne].
      * rewrite list_lookup_insert by lia. rewrite (proj2 (lookup_snoc done n (length done) n)) by auto. rewrite N.eqb_refl. reflexivity.
      * rewrite list_lookup_insert_ne by congruence. rewrite Hm by exact Hi. f_equal.
        destruct ((done ++ [n]) !! i) as [y|] eqn:Ey; [apply lookup_snoc in Ey as [Ey|[? _]]; [rewrite Ey; reflexivity|congruence]|].
        apply lookup_ge_None in Ey. rewrite app_length in Ey. cbn in Ey. rewrite lookup_ge_None_2 by lia. reflexivity.
    + rewrite lookup_insert_ne by congruence. intros Hl'. destruct (ti_mask _ _ _ I _ _ Hl') as [L2 H2]. split; [exact L2|]. intros i Hi. rewrite (H2 i Hi). f_equal.
      destruct ((done ++ [n]) !! i) as [y|] eqn:Ey.
      * apply lookup_snoc in Ey as [Ey|[-> <-]]; [rewrite Ey; reflexivity|]. rewrite lookup_ge_None_2 by lia. symmetry. apply N.eqb_neq. congruence.
      * apply lookup_ge_None in Ey. rewrite app_length in Ey. cbn in Ey. rewrite lookup_ge_None_2 by lia. reflexivity.
  - intros l. destruct (decide (l = n_layer n)) as [->|Hl].
    + rewrite lookup_insert. split; [intros _; apply (ti_layers _ _ _ I); eauto|eauto].
    + rewrite lookup_insert_ne by congruence. apply (ti_layers _ _ _ I).
  - intros x i. destruct (decide (x = n_id n)) as [->|Hx].
    + rewrite lookup_insert. split.
      * intros [= <-]. exists n. split; [apply lookup_snoc; auto|reflexivity].
      * intros (m & Hm' & Ex). apply lookup_snoc in Hm' as [Hm'|[-> <-]]; [|reflexivity]. exfalso. apply HD. rewrite <- Ex. apply in_map, elem_of_list_In. eapply elem_of_list_lookup_2, Hm'.
    + rewrite lookup_insert_ne by congruence. rewrite (ti_map _ _ _ I). split.
      * intros (m & Hm' & Ex). exists m. split; [apply lookup_snoc; auto|exact Ex].
      * intros (m & Hm' & Ex). apply lookup_snoc in Hm' as [Hm'|[-> <-]]; [eauto|congruence].
Qed.
Lemma rows_fold M todo : forall done s, TInv M done s -> (length done + length todo <= M)%nat -> NoDup (map n_id (done ++ todo)) ->
  (forall n, n ∈ todo -> is_Some (g_layers g !! n_layer n) /\ (exists f, nc g n = Ok f) /\ exists l, semantic_label (n_attrs n) = Ok l) ->
  exists s', rfold (put_row nc precision g) todo s = Ok s' /\ TInv M (done ++ todo) s'.
Proof.
  induction todo as [|n todo IH]; intros done s I HM HN HT; cbn [rfold].
  - exists s. rewrite app_nil_r. auto.
  - cbn in HM. destruct (HT n ltac:(left)) as (H1 & H2 & H3). destruct (row_step M done s n I) as (s1 & E1 & I1); [lia|exact H1| |exact H2|exact H3|].
    { rewrite map_app in HN. cbn in HN. apply NoDup_app in HN as (_ & HN & _). intros Hin. apply elem_of_list_In in Hin. apply (HN _ Hin). left. }
    rewrite E1. cbn [rbind]. destruct (IH (done ++ [n]) s1 I1) as (s2 & E2 & I2).
    { rewrite app_length. cbn. lia. }
    { rewrite <- app_assoc. exact HN. }
    { intros m Hm. apply HT. right. exact Hm. }
    exists s2. split; [exact E2|]. rewrite <- app_assoc in I2. exact I2.
Qed.

End torch.
Section tedges.
Context {E : Type} (ec : option (Graph -> Edge -> result E)) (g : Graph).
Record EInv (id_map : gmap N nat) (M : nat) (done : list Edge) (s : nat * list (nat * nat) * list E) : Prop := {
  ei_idx : s.1.1 = length done;
  ei_len : length s.1.2 = M;
  ei_col : forall i e, done !! i = Some e -> exists c, s.1.2 !! i = Some c /\ directed_edge g id_map e = Ok c;
  ei_feat : match ec with None => s.2 = [] | Some f => Forall2 (fun e x => f g e = Ok x) done s.2 end }.
Lemma edges_fold id_map M todo : forall done s, EInv id_map M done s -> (length done + length todo <= M)%nat ->
  (forall e, e ∈ todo -> (exists c, directed_edge g id_map e = Ok c) /\ match ec with None => True | Some f => exists x, f g e = Ok x end) ->
  exists s', rfold (put_column ec g id_map) todo s = Ok s' /\ EInv id_map M (done ++ todo) s'.
Proof.
  induction todo as [|e todo IH]; intros done s I HM HT; cbn [rfold].
  - exists s. rewrite app_nil_r. auto.
  - cbn in HM. destruct (HT e ltac:(left)) as ([c Hc] & Hx). destruct I as [I1 I2 I3 I4]. destruct s as [[idx cols] feats]. cbn in *.
    assert (exists feats', put_column ec g id_map (idx, cols, feats) e = Ok (S idx, <[idx := c]> cols, feats') /\ match ec with None => feats' = [] | Some f => Forall2 (fun e x => f g e = Ok x) (done ++ [e]) feats' end) as (feats' & E1 & E2).
    { unfold put_column. rewrite Hc. cbn [rbind fst snd]. rewrite assign_ok by lia. cbn [rbind]. destruct ec as [f|].
      - destruct Hx as [x Hx]. rewrite Hx. cbn [rbind]. eexists. split; [reflexivity|]. apply Forall2_app; [exact I4|]. constructor; [exact Hx|constructor].
      - exists feats. auto. }
    rewrite E1. cbn [rbind]. destruct (IH (done ++ [e]) (S idx, <[idx := c]> cols, feats')) as (s2 & E3 & J).
    { split; cbn.
      - rewrite app_length. cbn. lia.
      - rewrite insert_length. exact I2.
      - intros i e'. rewrite lookup_snoc. intros [H|[-> <-]].
        + destruct (I3 i e' H) as (c' & Q1 & Q2). exists c'. split; [|exact Q2]. rewrite list_lookup_insert_ne; [exact Q1|]. apply lookup_lt_Some in H. lia.
        + exists c. split; [|exact Hc]. rewrite <- I1. apply list_lookup_insert. lia.
      - exact E2. }
    { rewrite app_length. cbn. lia. }
    { intros m Hm. apply HT. right. exact Hm. }
    exists s2. split; [exact E3|]. rewrite <- app_assoc in J. exact J.
Qed.
End tedges.
