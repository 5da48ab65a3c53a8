(** Collections of layers: slices, what save writes, what open reads. *)
From Coq Require Import NArith ZArith Bool List Lia.
From stdpp Require Import base list gmap.
From Verif.Model Require Import Types Versioning Collection.
From Verif.Spec Require Import FileSpec CollectionSpec.
Local Open Scope Z_scope.
Local Open Scope list_scope.
Set Default Proof Using "Type".

(** ** Slices *)
Lemma count_lt x st i : 0 < st -> i < (x + st - 1) / st <-> i * st < x.
Proof.
  intros H. pose proof (Z.div_mod (x + st - 1) st ltac:(lia)) as E. pose proof (Z.mod_pos_bound (x + st - 1) st H) as M.
  split; intros K; nia.
Qed.
Lemma progression_in a st cnt p : In p (map (fun i => a + i * st) (seqZ 0 cnt)) <-> exists i, 0 <= i < cnt /\ p = a + i * st.
Proof.
  rewrite in_map_iff. split; intros (i & A & B); exists i.
  - apply elem_of_list_In, elem_of_seqZ in B. split; [lia|congruence].
  - split; [congruence|]. apply elem_of_list_In, elem_of_seqZ. lia.
Qed.
Lemma progression_step a st cnt i j p q :
  map (fun i => a + i * st) (seqZ 0 cnt) !! i = Some p -> map (fun i => a + i * st) (seqZ 0 cnt) !! j = Some q ->
  q - p = (Z.of_nat j - Z.of_nat i) * st.
Proof.
  intros A B. apply list_lookup_fmap_Some in A as (x & X & ->), B as (y & Y & ->).
  apply lookup_seqZ in X as [-> _], Y as [-> _]. lia.
Qed.
Lemma positions_ok n s ps : 0 <= n -> positions n s = Some ps -> sliced n s ps.
Proof.
  intros Hn. unfold positions, sliced. set (st := default 1 (s_step s)).
  destruct (Z.eqb_spec st 0) as [|N0]; [discriminate|].
  destruct (Z.ltb_spec 0 st) as [Hp|Hp]; intros E; injection E as <-.
  - split; [intros; eapply progression_step; eauto|]. intros p. rewrite progression_in.
    set (a := default 0 (clip n 0 n <$> s_start s)). set (b := default n (clip n 0 n <$> s_stop s)).
    set (f := Z.max 0 (default 0 (from_end n <$> s_start s))).
    assert (Ha : 0 <= a <= n /\ (a = f \/ (a = n /\ n <= f))).
    { unfold a, f. destruct (s_start s) as [x|]; cbn; unfold clip, from_end; [destruct (Z.ltb_spec x 0)|]; lia. }
    assert (Hb : forall p, 0 <= p < n -> (p < b <-> forall x, s_stop s = Some x -> p < from_end n x)).
    { intros q Hq. unfold b. destruct (s_stop s) as [x|]; cbn.
      - unfold clip, from_end. split; [intros H y E; injection E as <-|intros H; specialize (H x eq_refl)]; destruct (Z.ltb_spec x 0); lia.
      - split; [discriminate|lia]. }
    assert (Hbn : b <= n) by (unfold b; destruct (s_stop s) as [x|]; cbn; unfold clip; [destruct (Z.ltb_spec x 0)|]; lia).
    split.
    + intros (i & Hi & ->). assert (i * st < b - a) by (apply count_lt; [exact Hp|lia]).
      assert (0 <= a + i * st < n) by nia. split; [assumption|]. destruct Ha as [_ [->|[-> ?]]]; [|nia].
      split; [nia|]. split; [apply Hb; lia|]. exists i. lia.
    + intros (Hq & F & S & [i D]). apply Hb in S; [|exact Hq]. destruct Ha as [_ [Ea|[Ea ?]]]; [|lia]. exists i.
      split; [|lia]. split; [nia|]. apply count_lt; [exact Hp|]. lia.
  - split; [intros; eapply progression_step; eauto|]. intros p. rewrite progression_in.
    set (a := default (n - 1) (clip n (-1) (n - 1) <$> s_start s)). set (b := default (-1) (clip n (-1) (n - 1) <$> s_stop s)).
    set (f := Z.min (n - 1) (default (n - 1) (from_end n <$> s_start s))).
    assert (Ha : -1 <= a <= n - 1 /\ (a = f \/ (a = -1 /\ f <= -1))).
    { unfold a, f. destruct (s_start s) as [x|]; cbn; unfold clip, from_end; [destruct (Z.ltb_spec x 0)|]; lia. }
    assert (Hb : forall p, 0 <= p < n -> (b < p <-> forall x, s_stop s = Some x -> from_end n x < p)).
    { intros q Hq. unfold b. destruct (s_stop s) as [x|]; cbn.
      - unfold clip, from_end. split; [intros H y E; injection E as <-|intros H; specialize (H x eq_refl)]; destruct (Z.ltb_spec x 0); lia.
      - split; [discriminate|lia]. }
    assert (Hbn : -1 <= b) by (unfold b; destruct (s_stop s) as [x|]; cbn; unfold clip; [destruct (Z.ltb_spec x 0)|]; lia).
    assert (Hc : forall i, i < (a - b - st - 1) / - st <-> i * - st < a - b).
    { intros i. replace (a - b - st - 1) with (a - b + - st - 1) by lia. apply count_lt. lia. }
    split.
    + intros (i & Hi & ->). assert (i * - st < a - b) by (apply Hc; lia).
      assert (0 <= a + i * st < n) by nia. split; [assumption|]. destruct Ha as [_ [->|[-> ?]]]; [|nia].
      split; [nia|]. split; [apply Hb; lia|]. exists i. lia.
    + intros (Hq & F & S & [i D]). apply Hb in S; [|exact Hq]. destruct Ha as [_ [Ea|[Ea ?]]]; [|lia]. exists i.
      split; [|lia]. split; [nia|]. apply Hc. lia.
Qed.
Lemma positions_some n s : (default 1 (s_step s) = 0 /\ positions n s = None) \/ exists ps, positions n s = Some ps.
Proof.
  unfold positions. destruct (Z.eqb_spec (default 1 (s_step s)) 0) as [E|E]; [left; auto|right].
  destruct (0 <? _); eauto.
Qed.

(** ** The index *)
Lemma put_new (i : Info) l : ~ In (i_index i) (map fst l) -> put i l = l ++ [(i_index i, i)].
Proof.
  induction l as [|[k j] l IH]; cbn; intros H; [reflexivity|]. destruct (Z.eqb_spec k (i_index i)) as [->|]; [tauto|].
  rewrite IH by tauto. reflexivity.
Qed.
Definition entry (i : Info) : Z * Info := (i_index i, i).
Lemma fold_put infos l : List.NoDup (map fst l ++ map i_index infos) -> fold_left (fun l i => put i l) infos l = l ++ map entry infos.
Proof.
  revert l. induction infos as [|i r IH]; cbn; intros l H; [symmetry; apply app_nil_r|].
  rewrite put_new by (apply NoDup_remove_2 in H; intros X; apply H, in_or_app; left; exact X). rewrite IH.
  - rewrite <- app_assoc. reflexivity.
  - rewrite map_app. cbn. rewrite <- app_assoc. exact H.
Qed.
Lemma find_in l k i : List.NoDup (map fst l) -> In (k, i) l -> find l k = Some i.
Proof.
  unfold find. induction l as [|[k' j] l IH]; cbn; intros ND H; [destruct H|]. apply NoDup_cons_iff in ND as [N1 N2].
  destruct H as [H|H].
  - injection H as -> ->. rewrite Z.eqb_refl. reflexivity.
  - destruct (Z.eqb_spec k' k) as [->|]; [|apply IH; assumption]. destruct N1. change k with (fst (k, i)). apply in_map, H.
Qed.
Lemma find_out l k : ~ In k (map fst l) -> find l k = None.
Proof.
  unfold find. induction l as [|[k' j] l IH]; cbn; intros H; [reflexivity|].
  destruct (Z.eqb_spec k' k) as [->|]; [tauto|]. apply IH. tauto.
Qed.

(** Whatever the record is: the last entry of an index counts. *)
Lemma find_put i l k : find (put i l) k = if i_index i =? k then Some i else find l k.
Proof.
  unfold find. induction l as [|[k' j] l IH]; cbn.
  - destruct (i_index i =? k); reflexivity.
  - destruct (Z.eqb_spec k' (i_index i)) as [->|N1]; cbn; [destruct (i_index i =? k); reflexivity|].
    destruct (Z.eqb_spec k' k) as [->|N2]; [|exact IH]. destruct (Z.eqb_spec (i_index i) k); [congruence|reflexivity].
Qed.
Lemma find_fold infos k : find (fold_left (fun l i => put i l) infos []) k = List.find (fun i => i_index i =? k) (rev infos).
Proof.
  induction infos as [|i infos IH] using rev_ind; [reflexivity|]. rewrite fold_left_app, rev_app_distr. cbn [fold_left rev app List.find]. rewrite find_put, IH. reflexivity.
Qed.

Section layers.
Context {L : Type} (enc : L -> option (list N)) (dec : list N -> option L) (nodes edges : L -> nat).
Local Notation write := (write enc nodes edges).

(** ** What save writes *)
Lemma write_ok : forall (c : list (Z * L)) out offs, (forall k l, In (k, l) c -> is_Some (enc l)) ->
  exists bs infos, write c (length out) out offs = (out ++ bs, Some (offs ++ infos)) /\ map i_index infos = map fst c /\
    (forall k l b, In (k, l) c -> enc l = Some b -> b <> [] -> bs <> []) /\
    (forall k l, In (k, l) c -> exists i, In i infos /\ i_index i = k /\ i_nodes i = nodes l /\ i_edges i = edges l /\
       Some (take (i_size i) (drop (i_offset i) (out ++ bs))) = enc l).
Proof.
  induction c as [|[k l] r IH]; intros out offs H.
  - exists [], []. cbn. rewrite !app_nil_r. split; [reflexivity|]. split; [reflexivity|]. split; intros; contradiction.
  - destruct (H k l (or_introl eq_refl)) as [b Eb]. cbn [Collection.write]. rewrite Eb.
    replace (length out + length b)%nat with (length (out ++ b)) by apply app_length.
    destruct (IH (out ++ b) (offs ++ [mkInfo k (length out) (length b) (nodes l) (edges l)])) as (bs & infos & W & I & B & R).
    { intros k' l' H'. apply (H k' l'). right. exact H'. }
    exists (b ++ bs), (mkInfo k (length out) (length b) (nodes l) (edges l) :: infos).
    rewrite W, !app_assoc. split; [rewrite <- (app_assoc offs); reflexivity|]. split; [cbn; f_equal; exact I|]. split.
    + intros k' l' b' [Hin|Hin] E N.
      * injection Hin as -> ->. rewrite Eb in E. injection E as ->. destruct b'; [contradiction|discriminate].
      * specialize (B k' l' b' Hin E N). destruct bs; [contradiction|]. destruct b; discriminate.
    + intros k' l' [Hin|Hin].
      * injection Hin as -> ->. eexists. split; [left; reflexivity|]. cbn. rewrite <- app_assoc, drop_app, take_app. repeat split. symmetry. exact Eb.
      * destruct (R k' l' Hin) as (i & A1 & A2). exists i. split; [right; exact A1|exact A2].
Qed.

(** ** What an open object reads *)
Definition reads (c : list (Z * L)) (idx : list (Z * Info)) (m : list N) : Prop :=
  map fst idx = map fst c /\ (forall k l, In (k, l) c -> get_graph dec idx m k = Some (Some l)) /\
  (forall k, ~ In k (map fst c) -> get_graph dec idx m k = None).
Lemma in_keys k (c : list (Z * L)) : In k (map fst c) <-> exists l, In (k, l) c.
Proof.
  rewrite in_map_iff. split; [intros ((k', l) & E & H); cbn in E; subst; eauto|intros [l H]; exists (k, l); auto].
Qed.
Lemma known_or (c : list (Z * L)) k : (exists l, In (k, l) c) \/ ~ In k (map fst c).
Proof. destruct (in_dec Z.eq_dec k (map fst c)) as [H|H]; [left; apply in_keys, H|right; exact H]. Qed.
Lemma reads_len c idx m : reads c idx m -> length idx = length c.
Proof. intros [H _]. rewrite <- (map_length fst idx), H. apply map_length. Qed.
Lemma get_ok c idx m k : reads c idx m ->
  (exists l, In (k, l) c /\ from_option' (get_graph dec idx m k) = Ok l) \/ (~ In k (map fst c) /\ from_option' (get_graph dec idx m k) = Throw).
Proof.
  intros (_ & R1 & R2). destruct (known_or c k) as [[l H]|H]; [left; exists l; split; [exact H|]; rewrite (R1 _ _ H); reflexivity|].
  right. split; [exact H|]. rewrite (R2 _ H). reflexivity.
Qed.
Lemma each_ok c idx m ps : reads c idx m ->
  (exists ls, each (fun k => from_option' (get_graph dec idx m k)) ps = Ok ls /\ Forall2 (fun k l => In (k, l) c) ps ls) \/
  (each (fun k => from_option' (get_graph dec idx m k)) ps = Throw /\ exists k, In k ps /\ ~ In k (map fst c)).
Proof.
  intros R. induction ps as [|k ps IH]; cbn; [left; exists []; auto|].
  destruct (get_ok c idx m k R) as [(l & H & E)|[H E]]; rewrite E; cbn [rbind].
  - destruct IH as [(ls & E2 & F)|(E2 & k' & A & B)]; rewrite E2; cbn [rbind].
    + left. exists (l :: ls). auto.
    + right. split; [reflexivity|]. eauto.
  - right. split; [reflexivity|]. eauto.
Qed.
Lemma iterate_ok c idx m : reads c idx m -> List.NoDup (map fst c) -> forall n j,
  (forall i, 0 <= i < Z.of_nat j -> In i (map fst c)) -> (length c < n + j)%nat ->
  exists ls, iterate dec n idx m (Z.of_nat j) = Ok ls /\ (forall i l, ls !! i = Some l -> In (Z.of_nat (j + i), l) c) /\
    ~ In (Z.of_nat (j + length ls)) (map fst c).
Proof.
  intros R ND. induction n as [|n IH]; intros j Hj Hl.
  - assert (Hle : (j <= length (map fst c))%nat).
    { rewrite <- (Nat2Z.id j), <- (seqZ_length 0 (Z.of_nat j)). apply NoDup_incl_length; [apply NoDup_ListNoDup, NoDup_seqZ|].
      intros i Hi. apply elem_of_list_In, elem_of_seqZ in Hi. apply Hj. lia. }
    rewrite map_length in Hle. lia.
  - cbn. destruct R as (R0 & R1 & R2). destruct (known_or c (Z.of_nat j)) as [[l H]|H].
    + rewrite (R1 _ _ H). replace (Z.of_nat j + 1) with (Z.of_nat (S j)) by lia.
      destruct (IH (S j)) as (ls & E & A & B).
      { intros i Hi. destruct (Z.eq_dec i (Z.of_nat j)) as [->|]; [apply in_keys; eauto|apply Hj; lia]. } { lia. }
      rewrite E. cbn [rbind]. exists (l :: ls). split; [reflexivity|]. split.
      * intros [|i] x Hx; cbn in Hx; [injection Hx as <-; rewrite Nat.add_0_r; exact H|]. replace (j + S i)%nat with (S j + i)%nat by lia. apply A, Hx.
      * cbn. replace (j + S (length ls))%nat with (S j + length ls)%nat by lia. exact B.
    + rewrite (R2 _ H). exists []. split; [reflexivity|]. split; [intros i l Hx; rewrite lookup_nil in Hx; discriminate|]. rewrite Nat.add_0_r. exact H.
Qed.

Definition holds (c : list (Z * L)) (b : bool) (o : Coll) : Prop :=
  if b then exists idx m, o = mkColl (Some idx) (Some m) /\ reads c idx m else c_mmap o = None.
Lemma op_right c b o d path s o' op : List.NoDup (map fst c) ->
  (forall x, exists idx m, open d path x = (Ok tt, mkColl (Some idx) (Some m)) /\ reads c idx m) ->
  holds c b o -> do_op dec d path op o = (s, o') ->
  right c b op s /\ holds c (match op with OpOpen => true | OpClose => false | _ => b end) o'.
Proof.
  intros ND HO H E. assert (HC : b = false -> opened o = Throw).
  { intros ->. unfold holds in H. unfold opened. rewrite H. destruct (c_index o); reflexivity. }
  destruct op; cbn in E.
  - destruct (HO o) as (idx & m & E2 & R). rewrite E2 in E. injection E as <- <-. cbn. eauto.
  - injection E as <- <-. cbn. auto.
  - injection E as <- <-. split; [|exact H]. cbn. destruct b; [|unfold item; rewrite HC; reflexivity].
    destruct H as (idx & m & -> & R). unfold item. cbn [opened c_index c_mmap rbind]. rewrite (reads_len _ _ _ R). apply get_ok, R.
  - injection E as <- <-. split; [|exact H]. cbn. destruct b; [|unfold items; rewrite HC; reflexivity].
    destruct H as (idx & m & -> & R). unfold items. cbn [opened c_index c_mmap rbind]. rewrite (reads_len _ _ _ R).
    destruct (positions_some (Z.of_nat (length c)) s0) as [[A B]|[ps B]]; rewrite B; [left; auto|right].
    exists ps. split; [apply positions_ok; [lia|exact B]|]. apply each_ok, R.
  - injection E as <- <-. split; [|exact H]. cbn. destruct b; [|unfold len; rewrite HC; reflexivity].
    destruct H as (idx & m & -> & R). unfold len. cbn [opened c_index c_mmap rbind]. rewrite (reads_len _ _ _ R). reflexivity.
  - injection E as <- <-. split; [|exact H]. cbn. destruct b; [|unfold indices; rewrite HC; reflexivity].
    destruct H as (idx & m & -> & R). unfold indices. cbn [opened c_index c_mmap rbind]. destruct R as [-> _]. reflexivity.
  - injection E as <- <-. split; [|exact H]. cbn. destruct b; [|unfold iter; rewrite HC; reflexivity].
    destruct H as (idx & m & -> & R). unfold iter. cbn [opened c_index c_mmap rbind].
    destruct (iterate_ok c idx m R ND (S (length idx)) 0) as (ls & A & B & C); [intros; lia|rewrite (reads_len _ _ _ R); lia|].
    exists ls. split; [exact A|]. split; [exact B|exact C].
Qed.
Lemma ops_right c d path : List.NoDup (map fst c) ->
  (forall x, exists idx m, open d path x = (Ok tt, mkColl (Some idx) (Some m)) /\ reads c idx m) ->
  forall ops b o, holds c b o -> all_right c b ops (do_ops dec d path ops o).
Proof.
  intros ND HO. induction ops as [|op ops IH]; intros b o H; cbn; [exact I|].
  destruct (do_op dec d path op o) as [s o'] eqn:E. destruct (op_right c b o d path s o' op ND HO H E) as [A B].
  split; [exact A|]. apply IH, B.
Qed.

(** What open finds where save has been. *)
Lemma save_ok (d : Files) (c : list (Z * L)) path :
  List.NoDup (map fst c) -> c <> [] -> (forall k l, In (k, l) c -> exists b, enc l = Some b /\ b <> [] /\ dec b = Some l) ->
  exists d', save enc nodes edges d c path = (Ok tt, d') /\ other_files d d' path /\
    forall d2, f_records d2 !! record_path path = f_records d' !! record_path path -> f_graphs d2 !! graph_path path = f_graphs d' !! graph_path path ->
    forall x, exists idx m, open d2 path x = (Ok tt, mkColl (Some idx) (Some m)) /\ reads c idx m.
Proof.
  intros ND NE HE. destruct (write_ok c [] []) as (bs & infos & W & I & B & R).
  { intros k l H. destruct (HE k l H) as (b & E & _). rewrite E. eauto. }
  unfold save. change 0%nat with (@length N []). rewrite W. cbn [app]. eexists. split; [reflexivity|]. split.
  { split; intros f Hf; cbn; rewrite lookup_insert_ne by congruence; reflexivity. }
  cbn. intros d2 E1 E2 x. rewrite lookup_insert in E1. rewrite lookup_insert in E2. unfold open. rewrite E1, E2.
  assert (F : fold_left (fun l i => put i l) infos [] = map entry infos) by (apply fold_put; cbn; rewrite I; exact ND).
  assert (K : map fst (map entry infos) = map i_index infos) by (rewrite map_map; reflexivity).
  destruct bs as [|b0 bs].
  - destruct c as [|[k l] r]; [contradiction|]. destruct (HE k l (or_introl eq_refl)) as (b & E & N & _).
    destruct (B k l b (or_introl eq_refl) E N). reflexivity.
  - exists (map entry infos), (b0 :: bs). rewrite F. split; [reflexivity|]. unfold reads. split; [rewrite K; exact I|]. split.
    + intros k l H. destruct (R k l H) as (i & A1 & A2 & _ & _ & A3). destruct (HE k l H) as (b & E & _ & D).
      unfold get_graph. rewrite (find_in _ k i); cbn [mbind option_bind].
      * rewrite E in A3. injection A3 as A3. rewrite A3, D. reflexivity.
      * rewrite K, I. exact ND.
      * rewrite <- A2. apply (in_map entry), A1.
    + intros k H. unfold get_graph. rewrite find_out; [reflexivity|]. rewrite K, I. exact H.
Qed.
End layers.
