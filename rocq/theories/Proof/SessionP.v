(** Calls in a process with several threads. *)
From Coq Require Import NArith ZArith Bool List Lia String.
From stdpp Require Import base list gmap functions.
From Verif.Model Require Import Types Mesh Attrs Node EdgeContainer SLayer DLayer Graph Binary Versioning AttrCodec Registry GraphCodec Json Rotation JsonCodec GraphJson Session.
From Verif.Spec Require Import SessionSpec.
Local Open Scope N_scope.

(** the answer of a program and the header it leaves, when nothing interferes *)
Fixpoint run_alone {A} (p : Prog A) (cell : Header) : A * Header :=
  match p with
  | Done a => (a, cell)
  | Enter h k => run_alone k h
  | Leave k => run_alone k header_current
  | Seen k => run_alone (k cell) cell
  end.
Lemma run_bind {A B} (p : Prog A) (f : A -> Prog B) cell :
  run_alone (prog_bind p f) cell = run_alone (f (run_alone p cell).1) (run_alone p cell).2.
Proof. revert cell. induction p as [a|h k IH|k IH|k IH]; intros cell; cbn; [reflexivity|apply IH|apply IH|apply IH]. Qed.
Lemma run_scoped {A} h (p : Prog A) cell : run_alone (scoped h p) cell = ((run_alone p h).1, header_current).
Proof. unfold scoped. cbn. rewrite run_bind. reflexivity. Qed.

Lemma mesh_alone j : run_alone (mesh_json_prog j) header_current = (mesh_from_text j, header_current).
Proof.
  unfold mesh_json_prog, mesh_from_text. destruct (if j_contains j (str "header") then _ else _) as [h| |]; [|reflexivity..].
  rewrite run_scoped. reflexivity.
Qed.
Lemma mesh_answer j cell : (run_alone (mesh_json_prog j) cell).1 = mesh_from_text j.
Proof.
  unfold mesh_json_prog, mesh_from_text. destruct (if j_contains j (str "header") then _ else _) as [h| |]; [|reflexivity..].
  rewrite run_scoped. reflexivity.
Qed.
Lemma json_alone fsub p j : run_alone (load_json_prog fsub p j) header_current = (read_graph_json fsub p j, header_current).
Proof.
  unfold load_json_prog, read_graph_json. destruct (if j_contains j header_field then _ else _) as [h| |]; [|reflexivity..].
  rewrite run_scoped. f_equal. cbn [run_alone rbind]. unfold read_body, env_of.
  destruct (j_at j (str "layer_ids")) as [jl| |]; [|reflexivity..]. cbn [rbind].
  destruct (jc_from jc_u64s jl) as [ids| |]; [|reflexivity..]. cbn [rbind].
  destruct (g_new ids) as [g0| |]; [|reflexivity..]. cbn [rbind].
  destruct (j_at j (str "nodes")) as [jn| |]; [|reflexivity..]. cbn [rbind].
  destruct (rfold _ (j_items jn) g0) as [g1| |]; [|reflexivity..]. cbn [rbind].
  destruct (j_at j (str "edges")) as [je| |]; [|reflexivity..]. cbn [rbind].
  destruct (rfold _ (j_items je) g1) as [g2| |]; [|reflexivity..]. cbn [rbind].
  destruct (j_contains j (str "mesh")); [|reflexivity].
  destruct (j_at j (str "mesh")) as [jm| |]; [|reflexivity..]. cbn [rbind].
  destruct (dump jm) as [t| |]; [|reflexivity..]. cbn [rbind].
  rewrite run_bind. cbn [run_alone fst]. rewrite mesh_answer. reflexivity.
Qed.
Lemma binary_alone fsub p file : run_alone (load_binary_prog fsub p file) header_current = (load_binary fsub p file, header_current).
Proof.
  unfold load_binary_prog, load_binary. destruct (load_prologue file) as [[h o]| |]; [|reflexivity..]. rewrite run_scoped. reflexivity.
Qed.
Lemma call_alone fsub p c : run_alone (call_prog fsub p c) header_current = (alone fsub p c, header_current).
Proof.
  destruct c; cbn [call_prog alone]; try reflexivity; rewrite run_bind.
  - rewrite binary_alone. reflexivity.
  - rewrite json_alone. reflexivity.
  - rewrite mesh_alone. reflexivity.
Qed.

(** at most [n] steps until the answer *)
Inductive within {A} : nat -> Prog A -> Prop :=
| w_done n a : within (S n) (Done a)
| w_enter n h k : within n k -> within (S n) (Enter h k)
| w_leave n k : within n k -> within (S n) (Leave k)
| w_seen n k : (forall h, within n (k h)) -> within (S n) (Seen k).
Lemma within_mono {A} n m (p : Prog A) : within n p -> (n <= m)%nat -> within m p.
Proof.
  intros H. revert m. induction H as [n a|n h k _ IH|n k _ IH|n k _ IH]; intros [|m] L; try lia; constructor; intros; apply IH; lia.
Qed.
Lemma within_bind {A B} n m (p : Prog A) (f : A -> Prog B) : within (S n) p -> (forall a, within m (f a)) -> within (n + m) (prog_bind p f).
Proof.
  intros H Hf. remember (S n) as n' eqn:E. revert n E.
  induction H as [n0 a|n0 h k H IH|n0 k H IH|n0 k H IH]; intros n [= <-]; cbn [prog_bind].
  - eapply within_mono; [apply Hf|lia].
  - destruct n0 as [|n0]; [inversion H|]. cbn. constructor. apply IH; reflexivity.
  - destruct n0 as [|n0]; [inversion H|]. cbn. constructor. apply IH; reflexivity.
  - destruct n0 as [|n0]; [specialize (H header_current); inversion H|]. cbn. constructor. intros h. apply IH; reflexivity.
Qed.
Lemma within_scoped {A} n h (p : Prog A) : within (S n) p -> within (3 + n) (scoped h p).
Proof.
  intros H. unfold scoped. replace (3 + n)%nat with (S (n + 2)) by lia. constructor. apply within_bind; [exact H|]. intros a. repeat constructor.
Qed.
Lemma within_mesh j : within 3 (mesh_json_prog j).
Proof.
  unfold mesh_json_prog. destruct (if j_contains j (str "header") then _ else _) as [h| |]; [|constructor..]. apply (within_scoped 0). constructor.
Qed.
Lemma within_json fsub p j : within 6 (load_json_prog fsub p j).
Proof.
  unfold load_json_prog. destruct (if j_contains j header_field then _ else _) as [h| |]; [|constructor..].
  apply (within_scoped 3). constructor. intros h'. destruct (read_body _ _ _) as [g| |]; [|constructor..].
  destruct (j_contains j (str "mesh")); [|constructor]. destruct (let! jm := _ in _) as [t| |]; [|constructor..].
  apply (within_bind 2 1); [apply within_mesh|]. intros a. constructor.
Qed.
Lemma within_binary fsub p f : within 4 (load_binary_prog fsub p f).
Proof.
  unfold load_binary_prog. destruct (load_prologue f) as [[h o]| |]; [|constructor..]. apply (within_scoped 1). repeat constructor.
Qed.
Lemma within_call fsub p c : within 6 (call_prog fsub p c).
Proof.
  destruct c; cbn [call_prog]; try (repeat constructor; fail).
  - eapply within_mono; [apply (within_bind 3 1); [apply within_binary|intros; constructor]|lia].
  - apply (within_bind 5 1); [apply within_json|intros; constructor].
  - eapply within_mono; [apply (within_bind 2 1); [apply within_mesh|intros; constructor]|lia].
Qed.

(* ------------------------------------------------------------------ *)
(** What one thread sees of the process. *)
Definition view (s : Process) (t : nat) : Thread * Header := (pr_threads s t, pr_cells s (cell_of t)).
Definition view_step (fsub : N -> N -> N) (p : Program) (v : Thread * Header) : Thread * Header :=
  let '(th, h) := v in
  match th_now th with
  | None => match th_todo th with [] => v | c :: r => (mkThread (Some (call_prog fsub p c)) r (th_got th), h) end
  | Some (Done a) => (mkThread None (th_todo th) (th_got th ++ [a]), h)
  | Some (Enter h' k) => (mkThread (Some k) (th_todo th) (th_got th), h')
  | Some (Leave k) => (mkThread (Some k) (th_todo th) (th_got th), header_current)
  | Some (Seen k) => (mkThread (Some (k h)) (th_todo th) (th_got th), h)
  end.
Lemma cell_inj t u : cell_of t = cell_of u -> t = u. Proof. unfold cell_of. auto. Qed.
Lemma view_own fsub p s t : view (pr_step fsub p s t) t = view_step fsub p (view s t).
Proof.
  unfold view, view_step, pr_step. destruct (th_now (pr_threads s t)) as [[a|h k|k|k]|].
  - cbn. rewrite fn_lookup_insert. reflexivity.
  - cbn. rewrite !fn_lookup_insert. reflexivity.
  - cbn. rewrite !fn_lookup_insert. reflexivity.
  - cbn. rewrite fn_lookup_insert. reflexivity.
  - destruct (th_todo (pr_threads s t)) as [|c r] eqn:E; [reflexivity|]. cbn. rewrite fn_lookup_insert. reflexivity.
Qed.
Lemma view_other fsub p s t u : u <> t -> view (pr_step fsub p s u) t = view s t.
Proof.
  intros Hn. assert (Hc : cell_of u <> cell_of t) by (intros E; apply Hn, cell_inj, E).
  unfold view, pr_step. destruct (th_now (pr_threads s u)) as [[a|h k|k|k]|].
  - cbn. rewrite fn_lookup_insert_ne by exact Hn. reflexivity.
  - cbn. rewrite !fn_lookup_insert_ne by assumption. reflexivity.
  - cbn. rewrite !fn_lookup_insert_ne by assumption. reflexivity.
  - cbn. rewrite fn_lookup_insert_ne by exact Hn. reflexivity.
  - destruct (th_todo (pr_threads s u)) as [|c r]; [reflexivity|]. cbn. rewrite fn_lookup_insert_ne by exact Hn. reflexivity.
Qed.
Lemma view_run fsub p t : forall sched s, view (pr_run fsub p s sched) t = Nat.iter (turns sched t) (view_step fsub p) (view s t).
Proof.
  assert (Hi : forall n v, Nat.iter n (view_step fsub p) (view_step fsub p v) = view_step fsub p (Nat.iter n (view_step fsub p) v)).
  { intros n v. rewrite <- Nat.iter_succ_r. apply Nat.iter_succ. }
  unfold pr_run, turns. induction sched as [|u sched IH]; intros s; [reflexivity|]. cbn [fold_left]. rewrite IH. destruct (decide (u = t)) as [->|Hn].
  - rewrite view_own, filter_cons_True by reflexivity. cbn [length]. rewrite Hi. reflexivity.
  - rewrite view_other, filter_cons_False by exact Hn. reflexivity.
Qed.

(** The invariant of a thread with [n] steps left at most for [k] answers. *)
Definition good (fsub : N -> N -> N) (p : Program) (work : list Call) (left : nat) (v : Thread * Header) : Prop :=
  let '(th, h) := v in exists done,
    th_got th = map (alone fsub p) done /\
    match th_now th with
    | None => work = done ++ th_todo th /\ h = header_current /\ (7 * length (th_todo th) <= left)%nat
    | Some q => exists c n, work = done ++ c :: th_todo th /\ run_alone q h = (alone fsub p c, header_current) /\
                  within n q /\ (n + 7 * length (th_todo th) <= left)%nat
    end.
Lemma good_step fsub p work left v : good fsub p work left v -> good fsub p work (left - 1) (view_step fsub p v).
Proof.
  destruct v as [[now todo got] h]. unfold good, view_step. cbn. intros (done & Hg & H). destruct now as [q|].
  - destruct H as (c & n & Hw & Hr & Hn & Hl). destruct q as [a|h' k|k|k]; cbn in *.
    + exists (done ++ [c]). rewrite map_app, Hg. injection Hr as -> ->. split; [reflexivity|]. split; [rewrite <- app_assoc; exact Hw|].
      split; [reflexivity|]. inversion Hn; subst. lia.
    + exists done. split; [exact Hg|]. inversion Hn; subst. exists c, n0. repeat split; try assumption. lia.
    + exists done. split; [exact Hg|]. inversion Hn; subst. exists c, n0. repeat split; try assumption. lia.
    + exists done. split; [exact Hg|]. inversion Hn; subst. exists c, n0. repeat split; try assumption; [auto|lia].
  - destruct H as (Hw & -> & Hl). destruct todo as [|c todo]; cbn in *.
    + exists done. repeat split; try assumption. lia.
    + exists done. split; [exact Hg|]. exists c, 6%nat. split; [exact Hw|]. split; [apply call_alone|]. split; [apply within_call|]. lia.
Qed.
Lemma good_iter fsub p work left k v : good fsub p work left v -> good fsub p work (left - k) (Nat.iter k (view_step fsub p) v).
Proof.
  intros H. induction k as [|k IH]; [rewrite Nat.sub_0_r; exact H|]. rewrite Nat.iter_succ. replace (left - S k)%nat with (left - k - 1)%nat by lia. apply good_step, IH.
Qed.
Lemma good_run fsub p work sched t : good fsub p (work t) (7 * length (work t) - turns sched t) (view (pr_run fsub p (pr_start work) sched) t).
Proof.
  rewrite view_run. apply good_iter. exists []. cbn. auto.
Qed.
