(** Collections of layers as a user sees them, stated independently of the code. *)
From Coq Require Import NArith ZArith Bool List.
From stdpp Require Import base list gmap.
From Verif.Model Require Import Types Versioning Collection.
From Verif.Spec Require Import FileSpec.
Local Open Scope Z_scope.
Set Default Proof Using "Type".

(** A negative number counts from the end. *)
Definition from_end (n x : Z) : Z := if x <? 0 then n + x else x.
(** The slice of 0, ..., n - 1: every step-th number from the first on (the given one, or the
    nearest there is) and before the last, in the direction of the step. *)
Definition sliced (n : Z) (s : Slice) (ps : list Z) : Prop :=
  let step := default 1 (s_step s) in
  (forall i j p q, ps !! i = Some p -> ps !! j = Some q -> q - p = (Z.of_nat j - Z.of_nat i) * step) /\
  forall p, In p ps <-> 0 <= p < n /\
    (if 0 <? step then
      let first := Z.max 0 (default 0 (from_end n <$> s_start s)) in
      first <= p /\ (forall b, s_stop s = Some b -> p < from_end n b) /\ (step | p - first)
    else
      let first := Z.min (n - 1) (default (n - 1) (from_end n <$> s_start s)) in
      p <= first /\ (forall b, s_stop s = Some b -> from_end n b < p) /\ (step | p - first)).

(** A dictionary: no key twice.  [numbered c ls]: the keys are 0, 1, ..., for the layers of [ls]. *)
Definition dict {L} (c : list (Z * L)) : Prop := List.NoDup (map fst c).
Definition numbered {L} (c : list (Z * L)) (ls : list L) : Prop :=
  forall k l, In (k, l) c <-> 0 <= k /\ ls !! Z.to_nat k = Some l.
(** Only the files of [path] differ. *)
Definition other_files (d d' : Files) (path : list N) : Prop :=
  (forall f, f <> record_path path -> f_records d' !! f = f_records d !! f) /\
  (forall f, f <> graph_path path -> f_graphs d' !! f = f_graphs d !! f).

(** What the user does with an object, and what he sees. *)
Inductive Op := OpOpen | OpClose | OpItem (k : Z) | OpItems (s : Slice) | OpLen | OpIndices | OpIter.
Inductive Seen (L : Type) := Done (r : result unit) | SawItem (r : result L) | SawItems (r : result (list L))
  | SawLen (r : result Z) | SawIndices (r : result (list Z)).
Arguments Done {L}. Arguments SawItem {L}. Arguments SawItems {L}. Arguments SawLen {L}. Arguments SawIndices {L}.
Definition do_op {L} (dec : list N -> option L) (d : Files) (path : list N) (o : Op) (c : Coll) : Seen L * Coll :=
  match o with
  | OpOpen => let (r, c') := open d path c in (Done r, c')
  | OpClose => (Done (Ok tt), close c)
  | OpItem k => (SawItem (item dec c k), c)
  | OpItems s => (SawItems (items dec c s), c)
  | OpLen => (SawLen (len c), c)
  | OpIndices => (SawIndices (indices c), c)
  | OpIter => (SawItems (iter dec c), c)
  end.
Fixpoint do_ops {L} (dec : list N -> option L) (d : Files) (path : list N) (l : list Op) (c : Coll) : list (Seen L) :=
  match l with [] => [] | o :: r => let (s, c') := do_op dec d path o c in s :: do_ops dec d path r c' end.
(** What he should see: [b] is whether the collection is open. *)
Definition right {L} (c : list (Z * L)) (b : bool) (o : Op) (s : Seen L) : Prop :=
  match o, s with
  | OpOpen, Done r | OpClose, Done r => r = Ok tt
  | OpItem k, SawItem r =>
      if b then let k' := if k <? 0 then Z.of_nat (length c) + k else k in
                (exists l, In (k', l) c /\ r = Ok l) \/ (~ In k' (map fst c) /\ r = Throw)
      else r = Throw
  | OpItems s, SawItems r =>
      if b then
        (default 1 (s_step s) = 0 /\ r = Throw) \/
        exists ps, sliced (Z.of_nat (length c)) s ps /\
          ((exists ls, r = Ok ls /\ Forall2 (fun k l => In (k, l) c) ps ls) \/
           (r = Throw /\ exists k, In k ps /\ ~ In k (map fst c)))
      else r = Throw
  | OpLen, SawLen r => r = if b then Ok (Z.of_nat (length c)) else Throw
  | OpIndices, SawIndices r => r = if b then Ok (map fst c) else Throw
  | OpIter, SawItems r =>
      if b then exists ls, r = Ok ls /\ (forall i l, ls !! i = Some l -> In (Z.of_nat i, l) c) /\ ~ In (Z.of_nat (length ls)) (map fst c)
      else r = Throw
  | _, _ => False
  end.
Fixpoint all_right {L} (c : list (Z * L)) (b : bool) (os : list Op) (ss : list (Seen L)) : Prop :=
  match os, ss with
  | [], [] => True
  | o :: os, s :: ss => right c b o s /\ all_right c (match o with OpOpen => true | OpClose => false | _ => b end) os ss
  | _, _ => False
  end.
