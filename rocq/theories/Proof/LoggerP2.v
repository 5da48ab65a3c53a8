(** The logger: rows and files. *)
From Coq Require Import NArith Bool List String Ascii Lia.
From stdpp Require Import base list gmap fin_maps strings.
From Verif.Model Require Import Types Mesh Attrs Node EdgeContainer SLayer DLayer Graph Views Names Logger.
From Verif.Spec Require Import AbstractGraph GraphHistory GraphObs LoggerSpec.
From Verif.Proof Require Import MatrixP NamesP LoggerP.
Local Open Scope string_scope.
Local Open Scope list_scope.
Local Open Scope N_scope.
#[local] Arguments append : simpl nomatch.
#[local] Infix "+++" := append (at level 60, right associativity).

Lemma show_cancel a b r s : no_digit r -> no_digit s -> show_N a +++ r = show_N b +++ s -> a = b /\ r = s.
Proof.
  intros Hr Hs H. assert (E : a = b) by (rewrite <- (read_show a r Hr), <- (read_show b s Hs), H; reflexivity).
  split; [exact E|]. subst b. exact (append_cancel _ _ _ H).
Qed.
Lemma row_cancel s t r q : csv_row s +++ r = csv_row t +++ q -> s = t /\ r = q.
Proof.
  intros H. destruct s as [s1 s2 s3 s4 s5 s6], t as [t1 t2 t3 t4 t5 t6]. unfold csv_row in H. cbn [st_active st_removed st_merged st_parents st_children st_edges] in H.
  rewrite !append_assoc in H.
  do 5 (apply show_cancel in H as [-> H]; [|reflexivity|reflexivity]; apply (f_equal tail) in H; cbn [append tail] in H; rewrite ?append_assoc in H).
  apply show_cancel in H as [-> H]; [|reflexivity|reflexivity]. apply (f_equal tail) in H. split; [reflexivity|exact H].
Qed.
Lemma append_cancel_r (a b c : string) : a +++ c = b +++ c -> a = b.
Proof.
  revert b. induction a as [|x a IH]; intros [|y b] H; [reflexivity|exfalso..|].
  - apply (f_equal String.length) in H. cbn in H. assert (L : forall s t, String.length (s +++ t) = (String.length s + String.length t)%nat) by (clear; induction s; intros t; cbn; [reflexivity|f_equal; auto]). rewrite L in H. lia.
  - apply (f_equal String.length) in H. cbn in H. assert (L : forall s t, String.length (s +++ t) = (String.length s + String.length t)%nat) by (clear; induction s; intros t; cbn; [reflexivity|f_equal; auto]). rewrite L in H. lia.
  - cbn in H. injection H as -> H. f_equal. apply IH, H.
Qed.
Lemma path_inj d a b : csv_path d a = csv_path d b -> a = b.
Proof. unfold csv_path. intros H. apply append_cancel in H. apply (f_equal tail) in H. cbn [append tail] in H. apply append_cancel_r in H. exact H. Qed.

Definition row_written (lg : Logger) (L : SLayer) : Prop := lg_header lg = true \/ sl_num_nodes L <> 0%nat.
Lemma row_skip lg L : (Nat.eqb (sl_num_nodes L) 0 && negb (lg_header lg)) = true <-> ~ row_written lg L.
Proof. unfold row_written. rewrite andb_true_iff, Nat.eqb_eq, negb_true_iff. destruct (lg_header lg), (Nat.eq_dec (sl_num_nodes L) 0%nat); intuition congruence. Qed.

Lemma write_other s p q h (fs : Files) : p <> q -> write_stats s p h fs !! q = fs !! q.
Proof. exact (lookup_insert_ne (M := gmap string) fs p q _). Qed.
Section Log.
  Context (lg : Logger) (g : Graph) (Hr : reachable g).
  Definition before (fs : Files) (p : string) : string := if lg_header lg then csv_header else match fs !! p with Some t => t | None => "" end.
  Lemma log_fold xs : NoDup (map fst xs) -> (forall x, x ∈ xs -> g_layers g !! fst x = Some (snd x)) ->
    (forall x y n, x ∈ xs -> y ∈ xs -> lg_names lg !! fst x = Some n -> lg_names lg !! fst y = Some n -> fst x = fst y) ->
    forall fs, exists fs', rfold (log_layer lg g) xs fs = Ok fs' /\
      (forall l L n, (l, L) ∈ xs -> lg_names lg !! l = Some n -> row_written lg L ->
         exists s, describes g l L s /\ fs' !! csv_path (lg_dir lg) n = Some (before fs (csv_path (lg_dir lg) n) +++ csv_row s)) /\
      (forall p, (forall l L n, (l, L) ∈ xs -> lg_names lg !! l = Some n -> row_written lg L -> p <> csv_path (lg_dir lg) n) -> fs' !! p = fs !! p).
  Proof using Hr.
    induction xs as [|[l L] xs IH]; intros Hn Hx Hd fs.
    - exists fs. split; [reflexivity|]. split; [|reflexivity]. intros ? ? ? H. apply elem_of_nil in H. contradiction.
    - cbn [map fst] in Hn. apply stdpp.list.NoDup_cons in Hn as [Hl Hn].
      pose proof (Hx _ (elem_of_list_here _ _)) as HL. cbn [fst snd] in HL.
      assert (IH' := IH Hn (fun x H => Hx x (elem_of_list_further _ _ _ H)) (fun x y n H1 H2 => Hd x y n (elem_of_list_further _ _ _ H1) (elem_of_list_further _ _ _ H2))).
      assert (Hne : forall l' L', (l', L') ∈ xs -> l' <> l).
      { intros l' L' H ->. apply Hl. apply elem_of_list_In, in_map_iff. exists (l, L'). split; [reflexivity|apply elem_of_list_In, H]. }
      cbn [rfold]. unfold log_layer at 1. cbn [fst snd]. destruct (lg_names lg !! l) as [name|] eqn:En.
      + destruct (Nat.eqb (sl_num_nodes L) 0 && negb (lg_header lg)) eqn:Es.
        * apply row_skip in Es. cbn [rbind]. destruct (IH' fs) as (fs' & E & H1 & H2). exists fs'. split; [exact E|]. split.
          -- intros l' L' n' Hin Hn' Hw. apply elem_of_cons in Hin as [K|Hin]; [injection K as -> ->; contradiction|]. exact (H1 l' L' n' Hin Hn' Hw).
          -- intros p Hp. apply H2. intros l' L' n' Hin. apply (Hp l' L' n'). apply elem_of_list_further, Hin.
        * assert (Hw : row_written lg L) by (destruct (lg_header lg) eqn:Eh; [left; exact Eh|right]; rewrite ?andb_true_r in Es; apply Nat.eqb_neq in Es; exact Es).
          destruct (stats_ok g l L Hr HL) as (s & Es' & Hs). rewrite Es'. cbn [rbind].
          destruct (IH' (write_stats s (csv_path (lg_dir lg) name) (lg_header lg) fs)) as (fs' & E & H1 & H2). exists fs'. split; [exact E|].
          assert (Hp : forall l' L' n', (l', L') ∈ xs -> lg_names lg !! l' = Some n' -> csv_path (lg_dir lg) name <> csv_path (lg_dir lg) n').
          { intros l' L' n' Hin Hn' K. apply path_inj in K. subst n'. apply (Hne l' L' Hin). symmetry.
            exact (Hd (l, L) (l', L') name (elem_of_list_here _ _) (elem_of_list_further _ _ _ Hin) En Hn'). }
          split.
          -- intros l' L' n' Hin Hn' Hw'. apply elem_of_cons in Hin as [K|Hin].
             ++ injection K as -> ->. rewrite En in Hn'. injection Hn' as <-. exists s. split; [exact Hs|].
                rewrite H2 by (intros l' L' n' Hin Hn' _; exact (Hp l' L' n' Hin Hn')). unfold write_stats; cbv zeta. exact (lookup_insert (M := gmap string) fs _ _).
             ++ destruct (H1 l' L' n' Hin Hn' Hw') as (s' & D & F). exists s'. split; [exact D|]. rewrite F. unfold before.
                rewrite write_other by (apply (Hp l' L' n' Hin Hn')). reflexivity.
          -- intros p Hp'. rewrite H2 by (intros l' L' n' Hin; apply (Hp' l' L' n'), elem_of_list_further, Hin).
             apply write_other. intros K. apply (Hp' l L name (elem_of_list_here _ _) En Hw). symmetry. exact K.
      + cbn [rbind]. destruct (IH' fs) as (fs' & E & H1 & H2). exists fs'. split; [exact E|]. split.
        * intros l' L' n' Hin Hn' Hw. apply elem_of_cons in Hin as [K|Hin]; [injection K as -> ->; congruence|]. exact (H1 l' L' n' Hin Hn' Hw).
        * intros p Hp. apply H2. intros l' L' n' Hin. apply (Hp l' L' n'). apply elem_of_list_further, Hin.
  Qed.
  Lemma log_ok fs : (forall l l' L L' n, g_layers g !! l = Some L -> g_layers g !! l' = Some L' -> lg_names lg !! l = Some n -> lg_names lg !! l' = Some n -> l = l') ->
    exists fs', log_graph lg g fs = Ok (mkLogger (lg_dir lg) (lg_names lg) false, fs') /\
      (forall l L n, g_layers g !! l = Some L -> lg_names lg !! l = Some n -> row_written lg L ->
         exists s, describes g l L s /\ fs' !! csv_path (lg_dir lg) n = Some (before fs (csv_path (lg_dir lg) n) +++ csv_row s)) /\
      (forall p, (forall l L n, g_layers g !! l = Some L -> lg_names lg !! l = Some n -> row_written lg L -> p <> csv_path (lg_dir lg) n) -> fs' !! p = fs !! p).
  Proof using Hr.
    intros Hd. destruct (log_fold (ascending (g_layers g))) with (fs := fs) as (fs' & E & H1 & H2).
    - apply ascending_nodup.
    - intros x Hx. apply elem_ascending, Hx.
    - intros x y n Hx Hy. apply elem_ascending in Hx, Hy. exact (Hd _ _ _ _ n Hx Hy).
    - exists fs'. unfold log_graph. rewrite E. split; [reflexivity|]. split.
      + intros l L n HL. apply (H1 l L n). apply elem_ascending. exact HL.
      + intros p Hp. apply H2. intros l L n Hin. apply (Hp l L n). apply elem_ascending in Hin. exact Hin.
  Qed.
End Log.
