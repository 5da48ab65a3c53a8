(** C69 what was loaded before, or is being loaded by another thread, has no influence on a call. *)
From Coq Require Import NArith ZArith Bool List Lia String.
From stdpp Require Import base list gmap functions.
From Verif.Model Require Import Types Mesh Attrs Node EdgeContainer SLayer DLayer Graph Binary Versioning AttrCodec Registry GraphCodec Json Rotation JsonCodec GraphJson Session.
From Verif.Spec Require Import BinarySpec AttrSpec RegistrySpec ProgramSpec AbstractGraph GraphHistory GraphObs GraphFileSpec JsonSpec SessionSpec.
From Verif.Proof Require Import SessionP.
From Verif.Properties Require Import P12_Files P13_Registry P14_GraphFiles P24_Json P29_OldJson ExGraph.
Local Open Scope N_scope.

(** Any number of threads, each with its own list of calls, in any interleaving: the answers a
    thread has got are those of the same calls made alone, in order; seven steps per call are
    enough for all of them; and between calls the header is the current one. *)
Theorem C69_every_schedule : forall fsub p work schedule t,
  let s := pr_run fsub p (pr_start work) schedule in
  (exists n, th_got (pr_threads s t) = map (alone fsub p) (take n (work t))) /\
  (7 * length (work t) <= turns schedule t -> th_got (pr_threads s t) = map (alone fsub p) (work t))%nat /\
  (th_now (pr_threads s t) = None -> pr_cells s (cell_of t) = header_current).
Proof.
  intros fsub p work schedule t s. pose proof (good_run fsub p work schedule t) as H. fold s in H. unfold view in H. destruct H as (done & Hg & H). split; [|split].
  - exists (length done). rewrite Hg. f_equal. destruct (th_now _) as [q|].
    + destruct H as (c & n & -> & _). rewrite take_app. reflexivity.
    + destruct H as (-> & _). rewrite take_app. reflexivity.
  - intros Hl. rewrite Hg. f_equal. destruct (th_now _) as [q|].
    + destruct H as (c & n & _ & _ & Hn & Hk). exfalso. assert (0 < n)%nat by (inversion Hn; lia). lia.
    + destruct H as (Ew & _ & Hk). rewrite Ew. revert Hk. destruct (th_todo _) as [|c r]; intros Hk; [rewrite app_nil_r; reflexivity|]. cbn [length] in Hk. lia.
  - intros E. rewrite E in H. tauto.
Qed.
Print Assumptions C69_every_schedule.
(** At every moment the header a thread sees, its pending call and its answers are those of a
    run in which no other thread did anything. *)
Theorem C69_no_interference : forall fsub p work schedule t,
  let s := pr_run fsub p (pr_start work) schedule in
  let s' := pr_run fsub p (pr_start work) (filter (fun u => u = t) schedule) in
  pr_threads s t = pr_threads s' t /\ pr_cells s (cell_of t) = pr_cells s' (cell_of t).
Proof.
  intros fsub p work schedule t s s'.
  assert (E : view s t = view s' t).
  { unfold s, s'. rewrite !view_run. f_equal. unfold turns. rewrite list_filter_filter_l; [reflexivity|auto]. }
  unfold view in E. injection E as E1 E2. auto.
Qed.
Print Assumptions C69_no_interference.
(** So graphs sent as bytes without a header (to_binary, from_binary) arrive, whatever files any
    thread has loaded or is loading. *)
Theorem C69_messages : forall fsub ks p h im work schedule t i,
  program_of ks p -> all_classes ks -> (length ks <= 256)%nat -> reachable h -> saveable h -> work t !! i = Some (ToBinary h im) ->
  forall a, th_got (pr_threads (pr_run fsub p (pr_start work) schedule) t) !! i = Some a ->
  exists bs g', a = RBytes (Ok bs) /\ reachable g' /\ loaded_from h g' /\ (g_mesh g' = if im then g_mesh h else None) /\
    (len bs < max_object -> forall work' schedule' t' i' a', work' t' !! i' = Some (FromBinary bs) ->
       th_got (pr_threads (pr_run fsub p (pr_start work') schedule') t') !! i' = Some a' -> exists n, a' = RGraph (Val g' n)).
Proof.
  intros fsub ks p h im work schedule t i Hp Hks Hlen Hh HS Hw a Ha.
  set (env := mkEnv (h_version header_current) fsub).
  destruct (C41_graph_round_trip env ks ks p p h im eq_refl Hp Hp Hks Hks Hlen Hh HS) as (bs & g' & W & B & R & Hr & HL & HM).
  assert (K : forall work schedule t i c a, work t !! i = Some c -> th_got (pr_threads (pr_run fsub p (pr_start work) schedule) t) !! i = Some a -> a = alone fsub p c).
  { clear. intros work schedule t i c a Hw Ha. destruct (C69_every_schedule fsub p work schedule t) as ((n & E) & _). rewrite E in Ha.
    change (map (alone fsub p) (take n (work t))) with (alone fsub p <$> take n (work t)) in Ha. rewrite list_lookup_fmap in Ha.
    destruct (take n (work t) !! i) as [c'|] eqn:E1; [|discriminate]. cbn in Ha. injection Ha as <-.
    destruct (decide (i < n)%nat) as [L|L]; [rewrite lookup_take in E1 by exact L; congruence|rewrite lookup_take_ge in E1 by lia; discriminate]. }
  exists bs, g'. split.
  { rewrite (K work schedule t i _ _ Hw Ha). cbn [alone]. fold env. rewrite W. reflexivity. }
  split; [exact Hr|]. split; [exact HL|]. split; [exact HM|].
  intros Hl work' schedule' t' i' a' Hw' Ha'. rewrite (K _ _ _ _ _ _ Hw' Ha'). cbn [alone]. fold env.
  specialize (R [] []). cbn [app] in R. rewrite app_nil_r in R. change (len []) with 0 in R. eexists. rewrite (R Hl). reflexivity.
Qed.
Print Assumptions C69_messages.

(** A schedule in which thread 1 reads a message while thread 0 is in the middle of an old file:
    the header of thread 0 is then the one of the file, by which the message could not be read. *)
Definition message_bytes : list N := match write_graph (env_of fsub_ex header_current) lib ex_receiver false with Ok bs => bs | _ => [] end.
Definition ex_work (t : nat) : list Call :=
  match t with O => [LoadJson (JObject doc_100); FromBinary message_bytes] | S O => [FromBinary message_bytes; LoadJson (JObject doc_102)] | _ => [] end.
Definition ex_schedule : list nat := [0; 0; 1; 1; 1]%nat.
Definition count_nodes (a : Answer) : option nat :=
  match a with RGraph (Val g _) => Some (g_num_nodes g true) | RGraphJ (Ok g) => Some (g_num_nodes g true) | _ => None end.
Example C69_ex :
  let s := pr_run fsub_ex lib (pr_start ex_work) ex_schedule in
  pr_cells s (cell_of 0) = header_legacy /\ pr_cells s (cell_of 1) = header_current /\
  map count_nodes (th_got (pr_threads s 1%nat)) = [Some 5%nat] /\
  read_graph (env_of fsub_ex header_legacy) lib message_bytes 0 = Fail Exception.
Proof. vm_compute. repeat split; reflexivity. Qed.
Example C69_ex_all : let s := pr_run fsub_ex lib (pr_start ex_work) (ex_schedule ++ repeat 0 20 ++ repeat 1 20)%nat in
  map count_nodes (th_got (pr_threads s 0%nat)) = [Some 5; Some 5]%nat /\ map count_nodes (th_got (pr_threads s 1%nat)) = [Some 5; Some 5]%nat.
Proof. vm_compute. repeat split; reflexivity. Qed.
