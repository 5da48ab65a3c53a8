(** C52: what operator== on node and edge attributes means ([plain], [seen_as]: Spec/EqSpec.v). *)
From Coq Require Import NArith ZArith Bool List Lia.
From stdpp Require Import base list gmap.
From Verif.Model Require Import Types Mesh Attrs AttrCodec.
From Verif.Spec Require Import BinarySpec AttrSpec EqSpec.
From Verif.Proof Require Import AttrP EqP.
Local Open Scope N_scope.

(** [a == b] iff [b] can be seen as an object of [a]'s class, no compared member of [a] outside
    the position is NaN, and the two agree after [plain]. *)
Theorem C52_equality : forall a b, attrs_eqb a b = true <->
  exists c, seen_as (kind_of a) b = Some c /\ numbers (plain a) /\ plain a = plain c.
Proof. exact attrs_cmp. Qed.
Print Assumptions C52_equality.
Lemma seen_same a b : kind_of a = kind_of b -> seen_as (kind_of a) b = Some b.
Proof. intros ->. destruct b; reflexivity. Qed.
Lemma kind_plain a : kind_of (plain a) = kind_of a.
Proof. destruct a; reflexivity. Qed.
(** Among objects of one class it is symmetric and transitive, and reflexive for NaN-free ones. *)
Theorem C52_equivalence : forall a b c, kind_of a = kind_of b -> kind_of b = kind_of c ->
  (attrs_eqb a a = true <-> numbers (plain a)) /\
  (attrs_eqb a b = true -> attrs_eqb b a = true) /\
  (attrs_eqb a b = true -> attrs_eqb b c = true -> attrs_eqb a c = true).
Proof.
  intros a b c Kab Kbc. assert (S : forall x y, kind_of x = kind_of y -> attrs_eqb x y = true <-> numbers (plain x) /\ plain x = plain y).
  { intros x y K. rewrite attrs_cmp, (seen_same x y K). split; [intros (d & [= <-] & H); exact H|]. intros H. exists y. auto. }
  split; [rewrite (S a a eq_refl); tauto|]. split.
  - rewrite (S a b Kab), (S b a (eq_sym Kab)). intros [H E]. rewrite <- E. auto.
  - rewrite (S a b Kab), (S b c Kbc), (S a c (eq_trans Kab Kbc)). intros [H E] [_ E']. split; [exact H|congruence].
Qed.
Print Assumptions C52_equivalence.
Theorem C52_edge_equality : forall a b, edge_attrs_eqb a b = true <-> number64 (ea_weight a) /\ plain_edge a = plain_edge b.
Proof.
  intros [aw av] [bw bv]. unfold edge_attrs_eqb, plain_edge. cbn [ea_weighted ea_weight].
  rewrite andb_true_iff, eqb_true_iff, (f64_cmp av bv). assert (N : number64 (plain_float 64 av) <-> number64 av).
  { unfold number64. rewrite <- !f_nan_spec. unfold plain_float. destruct (N.eqb_spec (av mod 2 ^ (64 - 1)) 0) as [E|E]; [|tauto].
    apply (zero_spec 11 52) in E. unfold f_zero in E. apply andb_true_iff in E as [_ E]. assert (E1 : f_nan 11 52 av = false) by (unfold f_nan; rewrite E; cbn [negb]; apply andb_false_r). rewrite E1. change (f_nan 11 52 0) with false. tauto. }
  rewrite N. split; [intros [-> [H E]]; rewrite E; auto|]. intros [H [= -> E]]. auto.
Qed.
Print Assumptions C52_edge_equality.

(** Across classes it is not symmetric: only the left operand's members are compared. *)
Theorem C52_symmetry_refuted : exists a b, attrs_eqb a b = true /\ attrs_eqb b a = false.
Proof.
  exists (base_at 1 2 3), (AAgent (mkAgent (mkBase (mkVec3 1 2 3) 0 false false) (mkQuat double_one 0 0 0) 5 (mkMatrix 0 1 []) (mkMatrix 0 1 []))).
  vm_compute. auto.
Qed.
(** The probabilities of a room, the limits of a 2D place and the trajectory times of a Khronos
    object do not take part; a changed feature vector does. *)
Definition eq_sem (f : N) : SemAttrs :=
  mkSem (mkBase (mkVec3 1 2 9221120237041090561) 7 true false) [97] (mkColor 1 2 3 4)
    (mkBBox 1 (mkVec3 0 0 2147483648) (mkVec3 1 1 1) (mkMatrix 3 3 [1;0;0;0;1;0;0;0;1])) 5 (mkMatrix 2 1 [f; 0]).
Example C52_case : attrs_eqb (ARoom (mkRoom (eq_sem 3) ∅)) (ARoom (mkRoom (eq_sem 3) {[ [97] := 1 ]})) = true /\
  attrs_eqb (ARoom (mkRoom (eq_sem 3) ∅)) (ARoom (mkRoom (eq_sem 4) ∅)) = false /\
  attrs_eqb (ASem (eq_sem 9221120237041090561)) (ASem (eq_sem 9221120237041090561)) = false /\
  s_bbox (plain_sem (eq_sem 3)) = mkBBox 1 (mkVec3 0 0 0) (mkVec3 1 1 1) no_matrix.
Proof. vm_compute. auto. Qed.
