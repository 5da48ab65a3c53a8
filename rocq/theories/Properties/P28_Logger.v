(** C58: the CSV files of SceneGraphLogger. *)
From Coq Require Import NArith Bool List String Ascii Lia.
From stdpp Require Import base list gmap fin_maps strings.
From Verif.Model Require Import Types Mesh Attrs Node EdgeContainer SLayer DLayer Graph Views Names Logger.
From Verif.Spec Require Import AbstractGraph GraphHistory GraphObs LoggerSpec.
From Verif.Proof Require Import NamesP LoggerP LoggerP2.
From Verif.Properties Require Import ExGraph P20_Limits P21_Queries.
Local Open Scope string_scope.
Local Open Scope list_scope.
Local Open Scope N_scope.
#[local] Arguments append : simpl nomatch.

(** No two layers of the graph log under the same name. *)
Definition distinct_names (lg : Logger) (g : Graph) : Prop :=
  forall l l' L L' n, g_layers g !! l = Some L -> g_layers g !! l' = Some L' -> lg_names lg !! l = Some n -> lg_names lg !! l' = Some n -> l = l'.

(** One call: every static layer with a name gets one row with its true counts, after the header
    on the first call of the logger and at the end of the file later, where a layer without nodes
    is skipped; no other file changes; the call never fails. *)
Theorem C58_log_graph : forall lg g fs, reachable g -> distinct_names lg g ->
  exists fs', log_graph lg g fs = Ok (mkLogger (lg_dir lg) (lg_names lg) false, fs') /\
    (forall l L n, g_layers g !! l = Some L -> lg_names lg !! l = Some n ->
       let path := append (lg_dir lg) (append "/" (append n "_layer.csv")) in
       if negb (lg_header lg) && bool_decide (sl_num_nodes L = 0%nat) then fs' !! path = fs !! path
       else exists s, describes g l L s /\
         fs' !! path = Some (append (if lg_header lg then csv_header else match fs !! path with Some t => t | None => "" end) (csv_row s))) /\
    (forall p, (forall l L n, g_layers g !! l = Some L -> lg_names lg !! l = Some n -> p <> append (lg_dir lg) (append "/" (append n "_layer.csv"))) -> fs' !! p = fs !! p).
Proof.
  intros lg g fs Hr Hd. destruct (log_ok lg g Hr fs Hd) as (fs' & E & H1 & H2). exists fs'. split; [exact E|]. split.
  - intros l L n HL Hn path. destruct (lg_header lg) eqn:Eh; cbn [negb andb].
    + destruct (H1 l L n HL Hn (or_introl Eh)) as (s & D & F). exists s. split; [exact D|]. unfold before in F. rewrite Eh in F. exact F.
    + case_bool_decide as Ez.
      * apply H2. intros l' L' n' HL' Hn' Hw K. apply path_inj in K. subst n'. assert (l = l') by exact (Hd _ _ _ _ _ HL HL' Hn Hn'). subst l'.
        assert (L' = L) by congruence. subst L'. destruct Hw as [Hw|Hw]; [congruence|contradiction].
      * destruct (H1 l L n HL Hn (or_intror Ez)) as (s & D & F). exists s. split; [exact D|]. unfold before in F. rewrite Eh in F. exact F.
  - intros p Hp. apply H2. intros l L n HL Hn _. exact (Hp l L n HL Hn).
Qed.
Print Assumptions C58_log_graph.

(** A series of calls. *)
Fixpoint log_all (lg : Logger) (gs : list Graph) (fs : Files) : result (Logger * Files) :=
  match gs with
  | [] => Ok (lg, fs)
  | g :: r => let! x := log_graph lg g fs in log_all (fst x) r (snd x)
  end.
Fixpoint join (rows : list string) : string := match rows with [] => "" | r :: q => append r (join q) end.
Lemma log_later l n gs : forall lg fs old, lg_header lg = false -> lg_names lg !! l = Some n ->
  Forall (fun g => reachable g /\ distinct_names lg g /\ is_Some (g_layers g !! l)) gs ->
  fs !! csv_path (lg_dir lg) n = Some old ->
  exists rows fs', log_all lg gs fs = Ok (lg, fs') /\ rows_of l false gs rows /\ fs' !! csv_path (lg_dir lg) n = Some (append old (join rows)).
Proof.
  induction gs as [|g gs IH]; intros lg fs old Eh En HF Ho.
  - exists [], fs. split; [reflexivity|]. split; [constructor|]. cbn [join]. rewrite append_nil. exact Ho.
  - inversion HF as [|? ? (Hr & Hd & L & HL) HF']; subst. destruct (C58_log_graph lg g fs Hr Hd) as (fs1 & E & H1 & _).
    cbn [log_all]. rewrite E. cbn [rbind fst snd]. assert (El : mkLogger (lg_dir lg) (lg_names lg) false = lg) by (destruct lg as [d m h]; cbn in *; subst h; reflexivity). rewrite El.
    specialize (H1 l L n HL En). cbv zeta in H1. rewrite Eh in H1. cbn [negb andb] in H1. fold (csv_path (lg_dir lg) n) in H1. case_bool_decide as Ez.
    + destruct (IH lg fs1 old Eh En HF') as (rows & fs' & E' & HR & F); [rewrite H1; exact Ho|]. exists rows, fs'. split; [exact E'|]. split; [|exact F]. exact (rows_skip l g L gs rows HL Ez HR).
    + destruct H1 as (s & D & F1). rewrite Ho in F1. destruct (IH lg fs1 _ Eh En HF' F1) as (rows & fs' & E' & HR & F). exists (csv_row s :: rows), fs'. split; [exact E'|].
      split; [exact (rows_row l false g L s gs rows HL (or_intror Ez) D HR)|]. cbn [join]. rewrite <- append_assoc. exact F.
Qed.
(** Whatever the file held before, after a new logger has logged the graphs one after the other
    it holds the header, a row for the first graph, and one row for each later graph in which the
    layer has nodes. *)
Theorem C58_series : forall l n g gs lg fs, lg_header lg = true -> lg_names lg !! l = Some n ->
  Forall (fun g => reachable g /\ distinct_names lg g /\ is_Some (g_layers g !! l)) (g :: gs) ->
  exists lg' rows fs', log_all lg (g :: gs) fs = Ok (lg', fs') /\ rows_of l true (g :: gs) rows /\
    fs' !! csv_path (lg_dir lg) n = Some (append csv_header (join rows)).
Proof.
  intros l n g gs lg fs Eh En HF. inversion HF as [|? ? (Hr & Hd & L & HL) HF']; subst. destruct (C58_log_graph lg g fs Hr Hd) as (fs1 & E & H1 & _).
  cbn [log_all]. rewrite E. cbn [rbind fst snd]. specialize (H1 l L n HL En). cbv zeta in H1. rewrite Eh in H1. cbn [negb andb] in H1. destruct H1 as (s & D & F1).
  destruct (log_later l n gs (mkLogger (lg_dir lg) (lg_names lg) false) fs1 _ eq_refl En HF' F1) as (rows & fs' & E' & HR & F).
  eexists _, (csv_row s :: rows), fs'. split; [exact E'|]. split; [exact (rows_row l true g L s gs rows HL (or_introl eq_refl) D HR)|]. cbn [join]. rewrite <- append_assoc. exact F.
Qed.
Print Assumptions C58_series.
Lemma row_nonempty s r : append (csv_row s) r <> "".
Proof. unfold csv_row. rewrite append_assoc. match goal with |- append (show_N ?a) ?q <> _ => destruct (show_starts a q) as (c & t & -> & _) end. discriminate. Qed.
(** The rows can be read back: a file determines the rows it is made of. *)
Theorem C58_rows_readable : forall ss ts, join (map csv_row ss) = join (map csv_row ts) -> ss = ts.
Proof.
  induction ss as [|s ss IH]; intros [|t ts] H; [reflexivity|..].
  - exfalso. symmetry in H. exact (row_nonempty _ _ H).
  - exfalso. exact (row_nonempty _ _ H).
  - cbn [map join] in H. apply row_cancel in H as [-> H]. f_equal. apply IH, H.
Qed.
Print Assumptions C58_rows_readable.
(** Every value stands under the name of what it counts. *)
Fixpoint commas (l : list string) : string :=
  match l with [] => "" | [x] => x | x :: r => append x (append "," (commas r)) end.
Theorem C58_columns : forall s,
  let columns := [("nodes_active", st_active s); ("nodes_removed", st_removed s); ("nodes_merged", st_merged s);
                  ("nodes_w_parents", st_parents s); ("nodes_w_children", st_children s); ("edges", st_edges s)] in
  csv_header = append (commas (map fst columns)) newline /\
  csv_row s = append (commas (map (fun c => show_N (snd c)) columns)) newline.
Proof.
  intros s columns. split; [vm_compute; reflexivity|]. unfold csv_row, columns. cbn [map fst snd commas].
  rewrite !append_assoc. reflexivity.
Qed.
Print Assumptions C58_columns.
(** The counts are unique. *)
Theorem C58_counts_unique : forall {A} (P : A -> Prop) n m, is_count P n -> is_count P m -> n = m.
Proof.
  intros A P n m (xs & Nx & Hx & <-) (ys & Ny & Hy & <-). f_equal. apply Permutation_length. apply NoDup_Permutation; [assumption|assumption|]. intros x. rewrite Hx, Hy. reflexivity.
Qed.
Print Assumptions C58_counts_unique.

(** Setting a name again keeps the first one, and setting names or the folder changes nothing else. *)
Theorem C58_settings : forall lg l n l',
  lg_names (lg_set_name lg l n) !! l' = (if decide (l = l') then match lg_names lg !! l with Some old => Some old | None => Some n end else lg_names lg !! l') /\
  lg_dir (lg_set_name lg l n) = lg_dir lg /\ lg_header (lg_set_name lg l n) = lg_header lg /\
  (forall d, lg_dir (lg_set_path lg d) = d /\ lg_names (lg_set_path lg d) = lg_names lg /\ lg_header (lg_set_path lg d) = lg_header lg) /\
  lg_header logger_new = true /\ lg_names logger_new !! l = None.
Proof.
  intros lg l n l'. repeat split.
  - unfold lg_set_name. destruct (lg_names lg !! l) as [o|] eqn:E; case_decide as D.
    + subst l'. exact E.
    + reflexivity.
    + subst l'. cbn [lg_names]. apply lookup_insert.
    + cbn [lg_names]. apply lookup_insert_ne. exact D.
  - unfold lg_set_name. destruct (lg_names lg !! l); reflexivity.
  - unfold lg_set_name. destruct (lg_names lg !! l); reflexivity.
Qed.
Print Assumptions C58_settings.

(** Cases. *)
Definition ex_logger : Logger := lg_set_name (lg_set_name (lg_set_path logger_new "out") PLACES "places") ROOMS "rooms".
Definition logged (lg : Logger) (gs : list Graph) (p : string) : option string :=
  match log_all lg gs ∅ with Ok (_, fs) => fs !! p | _ => None end.
Definition pruned : Graph := match run_b ex_start (ex_ops ++ [GRemoveNode 12; GInsertEdge 10 11 None]) with Some g => g | None => ex_start end.
Definition line (s : string) : string := append s newline.
Example C58_log_case : reachable ex_graph /\ distinct_names ex_logger ex_graph /\
  logged ex_logger [ex_start; ex_start; ex_graph; pruned] "out/places_layer.csv" =
    Some (append csv_header (append (line "0,0,0,0,0,0") (append (line "3,0,0,3,1,2") (line "2,1,0,2,1,1")))).
Proof.
  split; [exact ex_reachable|]. split; [|vm_compute; reflexivity].
  intros l l' L L' n _ _ H H'. unfold ex_logger, lg_set_path, logger_new in H, H'.
  assert (K : forall l n, lg_names ex_logger !! l = Some n -> (l = PLACES /\ n = "places") \/ (l = ROOMS /\ n = "rooms")).
  { intros k m Hk. change (lg_names ex_logger) with (<[ROOMS := "rooms"]> (<[PLACES := "places"]> (∅ : gmap LayerId string))) in Hk.
    destruct (decide (ROOMS = k)) as [<-|N1]; [rewrite lookup_insert in Hk; injection Hk as <-; auto|]. rewrite lookup_insert_ne in Hk by exact N1.
    destruct (decide (PLACES = k)) as [<-|N2]; [rewrite lookup_insert in Hk; injection Hk as <-; auto|]. rewrite lookup_insert_ne, lookup_empty in Hk by exact N2. discriminate. }
  destruct (K _ _ H) as [[-> ->]|[-> ->]], (K _ _ H') as [[-> ?]|[-> ?]]; try reflexivity; discriminate.
Qed.

(** Deviations.  A node with two parents is not counted among the nodes with parents. *)
Theorem C58_two_parents_refuted : exists s, is_parent_of two_parents 20 10 /\ is_parent_of two_parents 21 10 /\
  (exists L, g_layers two_parents !! PLACES = Some L /\ layer_stats two_parents L = Ok s) /\ st_active s = 3 /\ st_parents s = 2.
Proof.
  exists (mkStats 3 0 0 2 1 2). split; [|split; [|split; [|split; reflexivity]]].
  - split; [apply adj_b_ok; vm_compute; reflexivity|]. exists (key_static ROOMS), (key_static PLACES). split; [vm_compute; reflexivity|]. split; [vm_compute; reflexivity|]. reflexivity.
  - split; [apply adj_b_ok; vm_compute; reflexivity|]. exists (key_static ROOMS), (key_static PLACES). split; [vm_compute; reflexivity|]. split; [vm_compute; reflexivity|]. reflexivity.
  - assert (K : match g_layers two_parents !! PLACES with Some L => match layer_stats two_parents L with
      | Ok (mkStats a b c d e f) => (a =? 3) && (b =? 0) && (c =? 0) && (d =? 2) && (e =? 1) && (f =? 2) | _ => false end | None => false end = true) by (vm_compute; reflexivity).
    destruct (g_layers two_parents !! PLACES) as [L|]; [|discriminate]. exists L. split; [reflexivity|]. destruct (layer_stats two_parents L) as [[a b c d e f]| |]; try discriminate.
    repeat (apply andb_true_iff in K as [K ?%N.eqb_eq]). apply N.eqb_eq in K. subst. reflexivity.
Qed.
Print Assumptions C58_two_parents_refuted.
(** Two layers of the same name share a file: on the first call the second one erases the row of
    the first. *)
Theorem C58_shared_name_refuted :
  logged (lg_set_name (lg_set_name (lg_set_path logger_new "out") PLACES "x") ROOMS "x") [ex_graph] "out/x_layer.csv" = Some (append csv_header (line "2,0,0,0,2,0")).
Proof. vm_compute. reflexivity. Qed.
(** The file of a layer named after the first call has no header. *)
Theorem C58_late_name : forall lg g fs l L n, reachable g -> distinct_names lg g -> lg_header lg = false -> g_layers g !! l = Some L -> lg_names lg !! l = Some n ->
  sl_num_nodes L <> 0%nat -> fs !! csv_path (lg_dir lg) n = None ->
  exists s lg' fs', describes g l L s /\ log_graph lg g fs = Ok (lg', fs') /\ fs' !! csv_path (lg_dir lg) n = Some (csv_row s).
Proof.
  intros lg g fs l L n Hr Hd Eh HL Hn Hz Hf. destruct (C58_log_graph lg g fs Hr Hd) as (fs' & E & H1 & _). specialize (H1 l L n HL Hn). cbv zeta in H1.
  rewrite Eh in H1. cbn [negb andb] in H1. rewrite bool_decide_false in H1 by exact Hz. destruct H1 as (s & D & F). fold (csv_path (lg_dir lg) n) in F. rewrite Hf in F. eauto 6.
Qed.
Print Assumptions C58_late_name.
