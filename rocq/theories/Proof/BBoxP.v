From Coq Require Import List QArith Qabs Lqa Bool Setoid.
From Verif.Model Require Import Numbers BBox.
From Verif.Spec Require Import BoxSpec.
Import ListNotations.
Local Open Scope Q_scope.
Set Default Proof Using "All".

Section proofs.
Context (sq : Q -> Q).
Notation E := (exact sq).

(** ** Scalars *)
Lemma lt_E (x y : Q) : a_lt E x y = true <-> x < y.
Proof.
  cbn. rewrite negb_true_iff. split; intros H.
  - destruct (Qlt_le_dec x y) as [L|L]; [assumption|].
    apply Qle_bool_iff in L. congruence.
  - destruct (Qle_bool y x) eqn:B; [|reflexivity].
    apply Qle_bool_iff in B. lra.
Qed.
Lemma nlt_E (x y : Q) : a_lt E x y = false <-> y <= x.
Proof.
  destruct (a_lt E x y) eqn:B; split; intros H; try discriminate; try reflexivity.
  - apply lt_E in B. lra.
  - destruct (Qlt_le_dec x y) as [L|L]; [|assumption]. apply lt_E in L. congruence.
Qed.
Lemma le_E (x y : Q) : a_le E x y = true <-> x <= y.
Proof. apply Qle_bool_iff. Qed.
Lemma eq_E (x y : Q) : a_eq E x y = true <-> x == y.
Proof. apply Qeq_bool_iff. Qed.

Lemma max_E (x y : Q) :
  (x < y /\ a_max E x y = y) \/ (y <= x /\ a_max E x y = x).
Proof.
  unfold a_max. destruct (a_lt E x y) eqn:B.
  - apply lt_E in B. now left.
  - apply nlt_E in B. now right.
Qed.
Lemma min_E (x y : Q) :
  (y < x /\ a_min E x y = y) \/ (x <= y /\ a_min E x y = x).
Proof.
  unfold a_min. destruct (a_lt E y x) eqn:B.
  - apply lt_E in B. now left.
  - apply nlt_E in B. now right.
Qed.
Lemma half_E (x : Q) : a_div E x (a_of_Z E 2) == x * (1 # 2).
Proof. cbn. unfold Qdiv. change (/ inject_Z 2) with (1 # 2). reflexivity. Qed.
Lemma half_2 (x : Q) : x / 2 == x * (1 # 2).
Proof. unfold Qdiv. change (/ 2) with (1 # 2). reflexivity. Qed.

Lemma abs_le (x k : Q) : Qabs x <= k <-> - k <= x /\ x <= k.
Proof. apply Qabs_Qle_condition. Qed.
Lemma abs_lt (x k : Q) : Qabs x < k <-> - k < x /\ x < k.
Proof. apply Qabs_Qlt_condition. Qed.

(** The linear forms of the model's operations. *)
Ltac nums := cbn [a_add a_sub a_mul a_opp a_abs exact num a_of_Z] in *;
             change (inject_Z 0) with 0 in *; change (inject_Z 1) with 1 in *.

Lemma positive_E (d : V3 Q) : v_lt E (v_zero E) d = true <-> positive d.
Proof.
  unfold v_lt, v_zero, positive. rewrite !andb_true_iff. cbn [vx vy vz].
  rewrite !lt_E. nums. tauto.
Qed.

Lemma valid_E (b : box sq) :
  box_valid E b = true <-> b_type E b <> INVALID /\ positive (dims sq b).
Proof.
  unfold box_valid, dims. destruct (b_type E b); try rewrite positive_E;
    intuition congruence.
Qed.

Lemma aligned_valid (b : box sq) :
  aligned sq b <-> b_type E b = AABB /\ box_valid E b = true.
Proof. unfold aligned. rewrite valid_E. intuition congruence. Qed.

Lemma lo_E (c d : Q) : a_sub E c (a_div E d (a_of_Z E 2)) == c - d * (1 # 2).
Proof. rewrite <- half_E. reflexivity. Qed.
Lemma hi_E (c d : Q) : a_add E c (a_div E d (a_of_Z E 2)) == c + d * (1 # 2).
Proof. rewrite <- half_E. reflexivity. Qed.

(** ** Aligned boxes by coordinates *)
Definition rng (c d p : Q) : Prop := c - d * (1 # 2) <= p /\ p <= c + d * (1 # 2).
Definition rng3 (b : box sq) (p : V3 Q) : Prop :=
  rng (vx (middle sq b)) (vx (dims sq b)) (vx p) /\
  rng (vy (middle sq b)) (vy (dims sq b)) (vy p) /\
  rng (vz (middle sq b)) (vz (dims sq b)) (vz p).
Definition srng (c d p : Q) : Prop := c - d * (1 # 2) < p /\ p < c + d * (1 # 2).
Definition srng3 (b : box sq) (p : V3 Q) : Prop :=
  srng (vx (middle sq b)) (vx (dims sq b)) (vx p) /\
  srng (vy (middle sq b)) (vy (dims sq b)) (vy p) /\
  srng (vz (middle sq b)) (vz (dims sq b)) (vz p).

Lemma inside_rng (b : box sq) p :
  b_type E b = AABB -> inside sq b p <-> rng3 b p.
Proof.
  intros T. unfold inside, rng3, rng, offset. rewrite T.
  unfold same_point, shift. cbn [vx vy vz]. split.
  - intros (q & A1 & A2 & A3 & B1 & B2 & B3).
    rewrite half_2, abs_le in A1, A2, A3. lra.
  - intros (A1 & A2 & A3).
    exists (mkV3 (vx p - vx (middle sq b)) (vy p - vy (middle sq b)) (vz p - vz (middle sq b))).
    cbn [vx vy vz]. rewrite !half_2, !abs_le. repeat split; lra.
Qed.
Lemma inner_rng (b : box sq) p :
  b_type E b = AABB -> inner sq b p <-> srng3 b p.
Proof.
  intros T. unfold inner, srng3, srng, offset. rewrite T.
  unfold same_point, shift. cbn [vx vy vz]. split.
  - intros (q & A1 & A2 & A3 & B1 & B2 & B3).
    rewrite half_2, abs_lt in A1, A2, A3. lra.
  - intros (A1 & A2 & A3).
    exists (mkV3 (vx p - vx (middle sq b)) (vy p - vy (middle sq b)) (vz p - vz (middle sq b))).
    cbn [vx vy vz]. rewrite !half_2, !abs_lt. repeat split; lra.
Qed.

Lemma is_inside_E (b : box sq) (q : V3 Q) :
  box_is_inside E b q = true <->
  Qabs (vx q) <= vx (dims sq b) * (1 # 2) /\ Qabs (vy q) <= vy (dims sq b) * (1 # 2) /\
  Qabs (vz q) <= vz (dims sq b) * (1 # 2).
Proof.
  unfold box_is_inside. rewrite le_E. unfold v_sub, v_abs, v_half. cbn [vx vy vz].
  change (b_dim E b) with (dims sq b).
  set (ex := a_sub E _ _). set (ey := a_sub E _ (a_div E (vy _) _)).
  set (ez := a_sub E _ (a_div E (vz _) _)).
  assert (Hx : ex == Qabs (vx q) - vx (dims sq b) * (1 # 2)) by apply lo_E.
  assert (Hy : ey == Qabs (vy q) - vy (dims sq b) * (1 # 2)) by apply lo_E.
  assert (Hz : ez == Qabs (vz q) - vz (dims sq b) * (1 # 2)) by apply lo_E.
  clearbody ex ey ez. nums.
  destruct (max_E ex ey) as [[A B]|[A B]]; rewrite B;
    [destruct (max_E ey ez) as [[C D]|[C D]]|destruct (max_E ex ez) as [[C D]|[C D]]];
    rewrite D; lra.
Qed.

(** ** Frames *)
Lemma m_eq_E (m n : M3 Q) :
  m_eq E m n = true <->
  same_point (mx m) (mx n) /\ same_point (my m) (my n) /\ same_point (mz m) (mz n).
Proof.
  unfold m_eq, v_eq, same_point. rewrite !andb_true_iff, !eq_E. tauto.
Qed.

Lemma no_rotation (b : box sq) q :
  box_has_rotation E b = false -> same_point (offset sq b q) q.
Proof.
  unfold box_has_rotation, offset, same_point. destruct (b_type E b) eqn:T;
    intros H; try (repeat split; reflexivity).
  all: apply negb_false_iff in H; apply m_eq_E in H;
    destruct H as ((A1 & A2 & A3) & (B1 & B2 & B3) & (C1 & C2 & C3));
    cbn [mx my mz m_id vx vy vz] in *; nums;
    unfold rotate, dot, turn; cbn [vx vy vz];
    rewrite A1, A2, A3, B1, B2, B3, C1, C2, C3; repeat split; ring.
Qed.

Lemma rotated_type (b : box sq) :
  box_has_rotation E b = true -> b_type E b <> INVALID /\ b_type E b <> AABB.
Proof. unfold box_has_rotation. destruct (b_type E b); intuition congruence. Qed.

Lemma has_rotation_offset (b : box sq) q :
  box_has_rotation E b = true -> offset sq b q = rotate (turn sq b) q.
Proof.
  unfold box_has_rotation, offset. destruct (b_type E b); congruence.
Qed.

Lemma to_world_E (b : box sq) q :
  same_point (box_to_world E b q) (shift (offset sq b q) (middle sq b)).
Proof.
  unfold box_to_world. destruct (box_has_rotation E b) eqn:R.
  - rewrite (has_rotation_offset _ _ R). unfold same_point. repeat split; reflexivity.
  - pose proof (no_rotation b q R) as (A & B & C).
    unfold same_point, shift, v_add. cbn [vx vy vz]. nums.
    rewrite A, B, C. repeat split; reflexivity.
Qed.

Lemma rot_inverse (m : M3 Q) (v : V3 Q) :
  orthonormal (mx m) (my m) (mz m) ->
  same_point (rotate m (rotate (m_transpose E m) v)) v.
Proof.
  destruct m as [[a b c] [d e f] [g h i]], v as [x y z].
  unfold orthonormal, same_point, rotate, dot, m_transpose. cbn.
  intros (A & B & C & D & F & G).
  repeat split; [
    transitivity ((a*a+b*b+c*c)*x + (a*d+b*e+c*f)*y + (a*g+b*h+c*i)*z)
  | transitivity ((a*d+b*e+c*f)*x + (d*d+e*e+f*f)*y + (d*g+e*h+f*i)*z)
  | transitivity ((a*g+b*h+c*i)*x + (d*g+e*h+f*i)*y + (g*g+h*h+i*i)*z) ];
  try ring; rewrite ?A, ?B, ?C, ?D, ?F, ?G; ring.
Qed.
Lemma rot_inverse' (m : M3 Q) (v : V3 Q) :
  orthonormal (column m vx) (column m vy) (column m vz) ->
  same_point (rotate (m_transpose E m) (rotate m v)) v.
Proof.
  intros H.
  assert (K : m_transpose E (m_transpose E m) = m) by (destruct m as [[] [] []]; reflexivity).
  rewrite <- K at 2. apply rot_inverse. exact H.
Qed.

Lemma proper_rot (b : box sq) :
  proper sq b -> box_has_rotation E b = true -> rotation (turn sq b).
Proof.
  intros (_ & _ & [T|R]) H; [|assumption]. apply rotated_type in H. tauto.
Qed.

Lemma same_sym p q : same_point p q -> same_point q p.
Proof using Type. unfold same_point. intros (A & B & C). rewrite A, B, C. repeat split; reflexivity. Qed.
Lemma same_trans p q r : same_point p q -> same_point q r -> same_point p r.
Proof using Type. unfold same_point. intros (A & B & C) (D & F & G). rewrite A, B, C. auto. Qed.
Lemma same_refl p : same_point p p.
Proof using Type. unfold same_point. repeat split; reflexivity. Qed.

Lemma rotate_proper m u v : same_point u v -> same_point (rotate m u) (rotate m v).
Proof.
  unfold same_point, rotate, dot. cbn [vx vy vz]. intros (A & B & C).
  rewrite A, B, C. repeat split; reflexivity.
Qed.

Lemma m_apply_E m v : m_apply E m v = rotate m v.
Proof. reflexivity. Qed.

(** world -> box -> world and back. *)
Lemma box_world (b : box sq) p :
  proper sq b -> same_point (box_to_world E b (box_to_box E b p)) p.
Proof.
  intros P. unfold box_to_world, box_to_box.
  destruct (box_has_rotation E b) eqn:R.
  - pose proof (proper_rot b P R) as (O & _). rewrite !m_apply_E.
    pose proof (rot_inverse (turn sq b) (v_sub E p (b_center E b)) O) as (A & B & C).
    unfold turn in *. unfold same_point, v_add. cbn [vx vy vz]. nums.
    rewrite A, B, C. unfold v_sub. cbn [vx vy vz]. nums. repeat split; ring.
  - unfold same_point, v_add, v_sub. cbn [vx vy vz]. nums. repeat split; ring.
Qed.
Lemma world_box (b : box sq) p :
  proper sq b -> same_point (box_to_box E b (box_to_world E b p)) p.
Proof.
  intros P. unfold box_to_world, box_to_box.
  destruct (box_has_rotation E b) eqn:R.
  - pose proof (proper_rot b P R) as (_ & O). rewrite !m_apply_E.
    eapply same_trans; [|exact (rot_inverse' (turn sq b) p O)].
    apply rotate_proper. change (m_apply E) with rotate. unfold same_point, v_add, v_sub, turn. cbn [vx vy vz]. nums.
    repeat split; ring.
  - unfold same_point, v_add, v_sub. cbn [vx vy vz]. nums. repeat split; ring.
Qed.

Lemma to_box_proper (b : box sq) p q :
  same_point p q -> same_point (box_to_box E b p) (box_to_box E b q).
Proof.
  intros (A & B & C). unfold box_to_box. destruct (box_has_rotation E b).
  - rewrite !m_apply_E. apply rotate_proper. unfold same_point, v_sub. cbn [vx vy vz]. nums.
    rewrite A, B, C. repeat split; reflexivity.
  - unfold same_point, v_sub. cbn [vx vy vz]. nums.
    rewrite A, B, C. repeat split; reflexivity.
Qed.

Lemma proper_valid (b : box sq) : proper sq b -> box_valid E b = true.
Proof. intros (A & B & _). apply valid_E. auto. Qed.
Lemma aligned_proper (b : box sq) : aligned sq b -> proper sq b.
Proof. intros (A & B). split; [congruence|]. split; [assumption|]. now left. Qed.

(** ** contains *)
Lemma contains_E (b : box sq) p :
  proper sq b -> box_contains E b p = true <-> inside sq b p.
Proof.
  intros P. unfold box_contains. rewrite (proper_valid b P), is_inside_E.
  unfold inside. split.
  - intros (A & B & C). exists (box_to_box E b p). rewrite !half_2.
    repeat (split; [assumption|]).
    apply same_sym. eapply same_trans; [|exact (box_world b p P)].
    apply same_sym, to_world_E.
  - intros (q & A & B & C & S). rewrite !half_2 in *.
    assert (K : same_point (box_to_box E b p) q).
    { eapply same_trans; [apply to_box_proper, S|].
      eapply same_trans; [|exact (world_box b q P)].
      apply to_box_proper, same_sym, to_world_E. }
    destruct K as (K1 & K2 & K3). rewrite K1, K2, K3. auto.
Qed.

(** ** Corners *)
Definition signs : list (Q * Q * Q) :=
  [(-1,-1,-1); (1,-1,-1); (1,1,-1); (-1,1,-1); (-1,-1,1); (1,-1,1); (1,1,1); (-1,1,1)].
Definition corner_at (b : box sq) (s : Q * Q * Q) : V3 Q :=
  shift (offset sq b (mkV3 (fst (fst s) * (vx (dims sq b) * (1#2)))
                           (snd (fst s) * (vy (dims sq b) * (1#2)))
                           (snd s * (vz (dims sq b) * (1#2))))) (middle sq b).

Lemma offset_proper (b : box sq) u v :
  same_point u v -> same_point (offset sq b u) (offset sq b v).
Proof. unfold offset. destruct (b_type E b); auto using rotate_proper. Qed.
Lemma shift_proper u v c : same_point u v -> same_point (shift u c) (shift v c).
Proof.
  unfold same_point, shift. cbn [vx vy vz]. intros (A & B & C). rewrite A, B, C.
  repeat split; reflexivity.
Qed.

Lemma corners_E (b : box sq) :
  Forall2 same_point (box_corners E b) (map (corner_at b) signs).
Proof.
  unfold box_corners.
  set (lo := v_half E (v_opp E (b_dim E b))). set (hi := v_half E (b_dim E b)).
  assert (Lx : vx lo == -1 * (vx (dims sq b) * (1#2))).
  { unfold lo, v_half, v_opp, dims. cbn [vx]. rewrite half_E. nums. ring. }
  assert (Ly : vy lo == -1 * (vy (dims sq b) * (1#2))).
  { unfold lo, v_half, v_opp, dims. cbn [vy]. rewrite half_E. nums. ring. }
  assert (Lz : vz lo == -1 * (vz (dims sq b) * (1#2))).
  { unfold lo, v_half, v_opp, dims. cbn [vz]. rewrite half_E. nums. ring. }
  assert (Hx : vx hi == 1 * (vx (dims sq b) * (1#2))).
  { unfold hi, v_half, dims. cbn [vx]. rewrite half_E. nums. ring. }
  assert (Hy : vy hi == 1 * (vy (dims sq b) * (1#2))).
  { unfold hi, v_half, dims. cbn [vy]. rewrite half_E. nums. ring. }
  assert (Hz : vz hi == 1 * (vz (dims sq b) * (1#2))).
  { unfold hi, v_half, dims. cbn [vz]. rewrite half_E. nums. ring. }
  clearbody lo hi.
  assert (K : forall q : V3 Q, 
    same_point (if box_has_rotation E b then v_add E (m_apply E (b_rot E b) q) (b_center E b)
                else v_add E q (b_center E b)) (shift (offset sq b q) (middle sq b))).
  { intros q. apply (to_world_E b q). }
  unfold signs. cbn [map].
  destruct (box_has_rotation E b); cbn [map];
  repeat (apply Forall2_cons;
          [eapply same_trans; [apply K|]; unfold corner_at; apply shift_proper, offset_proper;
           unfold same_point; cbn [vx vy vz fst snd]; repeat split; assumption|]);
  apply Forall2_nil.
Qed.

Lemma Forall2_in {X Y} (R : X -> Y -> Prop) l m y :
  Forall2 R l m -> In y m -> exists x, In x l /\ R x y.
Proof.
  induction 1 as [|x y' l m H F IH]; intros I; [destruct I|].
  destruct I as [->|I]; [exists x; split; [now left|assumption]|].
  destruct (IH I) as (z & A & B). exists z. split; [now right|assumption].
Qed.
Lemma Forall2_in_l {X Y} (R : X -> Y -> Prop) l m x :
  Forall2 R l m -> In x l -> exists y, In y m /\ R x y.
Proof.
  induction 1 as [|x' y l m H F IH]; intros I; [destruct I|].
  destruct I as [->|I]; [exists y; split; [now left|assumption]|].
  destruct (IH I) as (z & A & B). exists z. split; [now right|assumption].
Qed.

Lemma corner_inside (b : box sq) s :
  positive (dims sq b) -> In s signs -> inside sq b (corner_at b s).
Proof.
  intros (A & B & C) I. unfold inside.
  exists (mkV3 (fst (fst s) * (vx (dims sq b) * (1#2)))
               (snd (fst s) * (vy (dims sq b) * (1#2)))
               (snd s * (vz (dims sq b) * (1#2)))).
  cbn [vx vy vz]. rewrite !half_2, !abs_le.
  split; [|split; [|split]]; [| | |apply same_refl];
  unfold signs in I; cbn [In] in I;
    repeat (destruct I as [<-|I]; [cbn [fst snd]; lra|]); destruct I.
Qed.

(** A linear bound that holds at the corners holds everywhere in the box. *)
Lemma lin1 (a d q k : Q) :
  0 < d -> Qabs q <= d * (1#2) ->
  a * (-1 * (d * (1#2))) + k <= 0 -> a * (1 * (d * (1#2))) + k <= 0 -> a * q + k <= 0.
Proof. intros D H A B. apply abs_le in H. nra. Qed.

Lemma lin3 (d : V3 Q) (a1 a2 a3 k : Q) (q : V3 Q) :
  positive d ->
  (forall s, In s signs ->
     a1 * (fst (fst s) * (vx d * (1#2))) + a2 * (snd (fst s) * (vy d * (1#2))) +
     a3 * (snd s * (vz d * (1#2))) + k <= 0) ->
  Qabs (vx q) <= vx d * (1#2) -> Qabs (vy q) <= vy d * (1#2) -> Qabs (vz q) <= vz d * (1#2) ->
  a1 * vx q + a2 * vy q + a3 * vz q + k <= 0.
Proof using sq.
  intros (A & B & C) H X Y Z.
  assert (H8 : forall s1 s2 s3, (s1 = -1 \/ s1 = 1) -> (s2 = -1 \/ s2 = 1) -> (s3 = -1 \/ s3 = 1) ->
    a1 * (s1 * (vx d * (1#2))) + a2 * (s2 * (vy d * (1#2))) + a3 * (s3 * (vz d * (1#2))) + k <= 0).
  { intros s1 s2 s3 [->| ->] [->| ->] [->| ->];
    match goal with |- a1 * (?u * _) + a2 * (?v * _) + a3 * (?w * _) + _ <= _ =>
      apply (H (u, v, w)) end; cbn; tauto. }
  setoid_replace (a1 * vx q + a2 * vy q + a3 * vz q + k)
    with (a1 * vx q + (a2 * vy q + a3 * vz q + k)) by ring.
  apply (lin1 _ (vx d)); try assumption.
  - setoid_replace (a1 * (-1 * (vx d * (1#2))) + (a2 * vy q + a3 * vz q + k))
      with (a2 * vy q + (a1 * (-1 * (vx d * (1#2))) + a3 * vz q + k)) by ring.
    apply (lin1 _ (vy d)); try assumption;
    match goal with |- ?x * ?y + (?z + ?u + ?w) <= 0 =>
      setoid_replace (x * y + (z + u + w)) with (u + (z + x * y + w)) by ring end;
    apply (lin1 _ (vz d)); try assumption;
    match goal with |- a3 * (?u * _) + (a1 * (?v * _) + a2 * (?w * _) + _) <= _ =>
      pose proof (H8 v w u ltac:(tauto) ltac:(tauto) ltac:(tauto)) end; lra.
  - setoid_replace (a1 * (1 * (vx d * (1#2))) + (a2 * vy q + a3 * vz q + k))
      with (a2 * vy q + (a1 * (1 * (vx d * (1#2))) + a3 * vz q + k)) by ring.
    apply (lin1 _ (vy d)); try assumption;
    match goal with |- ?x * ?y + (?z + ?u + ?w) <= 0 =>
      setoid_replace (x * y + (z + u + w)) with (u + (z + x * y + w)) by ring end;
    apply (lin1 _ (vz d)); try assumption;
    match goal with |- a3 * (?u * _) + (a1 * (?v * _) + a2 * (?w * _) + _) <= _ =>
      pose proof (H8 v w u ltac:(tauto) ltac:(tauto) ltac:(tauto)) end; lra.
Qed.

(** Half spaces a.p <= k. *)
Lemma half_space (b : box sq) (a : V3 Q) (k : Q) :
  positive (dims sq b) ->
  (forall c, In c (box_corners E b) -> dot a c <= k) ->
  forall p, inside sq b p -> dot a p <= k.
Proof.
  intros P H p (q & A & B & C & S1 & S2 & S3). rewrite half_2 in A, B, C.
  assert (H' : forall s, In s signs -> dot a (corner_at b s) <= k).
  { intros s I. destruct (Forall2_in _ _ _ (corner_at b s) (corners_E b)) as (c & Ic & (X & Y & Z)).
    - apply in_map, I.
    - unfold dot. rewrite <- X, <- Y, <- Z. apply (H c Ic). }
  unfold dot. rewrite S1, S2, S3.
  unfold corner_at, offset in *.
  destruct (b_type E b); unfold shift, rotate, dot in *; cbn [vx vy vz] in *.
  - assert (G : vx a * vx q + vy a * vy q + vz a * vz q +
      (vx a * vx (middle sq b) + vy a * vy (middle sq b) + vz a * vz (middle sq b) - k) <= 0);
      [|lra].
    apply (lin3 (dims sq b)); try assumption; intros s I; specialize (H' s I); lra.
  - assert (G : vx a * vx q + vy a * vy q + vz a * vz q +
      (vx a * vx (middle sq b) + vy a * vy (middle sq b) + vz a * vz (middle sq b) - k) <= 0);
      [|lra].
    apply (lin3 (dims sq b)); try assumption; intros s I; specialize (H' s I); lra.
  - set (m := turn sq b) in *.
    set (a1 := vx a * vx (mx m) + vy a * vx (my m) + vz a * vx (mz m)).
    set (a2 := vx a * vy (mx m) + vy a * vy (my m) + vz a * vy (mz m)).
    set (a3 := vx a * vz (mx m) + vy a * vz (my m) + vz a * vz (mz m)).
    assert (G : a1 * vx q + a2 * vy q + a3 * vz q +
      (vx a * vx (middle sq b) + vy a * vy (middle sq b) + vz a * vz (middle sq b) - k) <= 0);
     [|unfold a1, a2, a3 in G; lra].
    apply (lin3 (dims sq b)); try assumption; intros s I; specialize (H' s I);
    unfold a1, a2, a3; lra.
  - set (m := turn sq b) in *.
    set (a1 := vx a * vx (mx m) + vy a * vx (my m) + vz a * vx (mz m)).
    set (a2 := vx a * vy (mx m) + vy a * vy (my m) + vz a * vy (mz m)).
    set (a3 := vx a * vz (mx m) + vy a * vz (my m) + vz a * vz (mz m)).
    assert (G : a1 * vx q + a2 * vy q + a3 * vz q +
      (vx a * vx (middle sq b) + vy a * vy (middle sq b) + vz a * vz (middle sq b) - k) <= 0);
     [|unfold a1, a2, a3 in G; lra].
    apply (lin3 (dims sq b)); try assumption; intros s I; specialize (H' s I);
    unfold a1, a2, a3; lra.
Qed.

(** An aligned box containing the corners contains the box. *)
Lemma corners_cover (b x : box sq) :
  positive (dims sq b) -> b_type E x = AABB ->
  (forall c, In c (box_corners E b) -> inside sq x c) -> covers sq x (inside sq b).
Proof.
  intros P T H p I. apply inside_rng; [assumption|].
  assert (H' : forall c, In c (box_corners E b) -> rng3 x c).
  { intros c Ic. apply inside_rng; auto. }
  assert (K : forall a k, (forall c, rng3 x c -> dot a c <= k) -> dot a p <= k).
  { intros a k G. apply (half_space b a k P); [|assumption]. auto. }
  pose proof (K (mkV3 1 0 0) (vx (middle sq x) + vx (dims sq x) * (1#2))) as K1.
  pose proof (K (mkV3 (-1) 0 0) (- (vx (middle sq x) - vx (dims sq x) * (1#2)))) as K2.
  pose proof (K (mkV3 0 1 0) (vy (middle sq x) + vy (dims sq x) * (1#2))) as K3.
  pose proof (K (mkV3 0 (-1) 0) (- (vy (middle sq x) - vy (dims sq x) * (1#2)))) as K4.
  pose proof (K (mkV3 0 0 1) (vz (middle sq x) + vz (dims sq x) * (1#2))) as K5.
  pose proof (K (mkV3 0 0 (-1)) (- (vz (middle sq x) - vz (dims sq x) * (1#2)))) as K6.
  unfold dot, rng3, rng in *. cbn [vx vy vz] in *.
  repeat split.
  - assert (G : forall c, rng3 x c -> -1 * vx c + 0 * vy c + 0 * vz c <= - (vx (middle sq x) - vx (dims sq x) * (1#2)))
      by (unfold rng3, rng; intros; lra). specialize (K2 G). lra.
  - assert (G : forall c, rng3 x c -> 1 * vx c + 0 * vy c + 0 * vz c <= vx (middle sq x) + vx (dims sq x) * (1#2))
      by (unfold rng3, rng; intros; lra). specialize (K1 G). lra.
  - assert (G : forall c, rng3 x c -> 0 * vx c + -1 * vy c + 0 * vz c <= - (vy (middle sq x) - vy (dims sq x) * (1#2)))
      by (unfold rng3, rng; intros; lra). specialize (K4 G). lra.
  - assert (G : forall c, rng3 x c -> 0 * vx c + 1 * vy c + 0 * vz c <= vy (middle sq x) + vy (dims sq x) * (1#2))
      by (unfold rng3, rng; intros; lra). specialize (K3 G). lra.
  - assert (G : forall c, rng3 x c -> 0 * vx c + 0 * vy c + -1 * vz c <= - (vz (middle sq x) - vz (dims sq x) * (1#2)))
      by (unfold rng3, rng; intros; lra). specialize (K6 G). lra.
  - assert (G : forall c, rng3 x c -> 0 * vx c + 0 * vy c + 1 * vz c <= vz (middle sq x) + vz (dims sq x) * (1#2))
      by (unfold rng3, rng; intros; lra). specialize (K5 G). lra.
Qed.

Notation bmin b := (box_min E b : V3 Q).
Notation bmax b := (box_max E b : V3 Q).

(** ** Boxes given by two corners *)
Definition between (lo hi p : V3 Q) : Prop :=
  (vx lo <= vx p /\ vx p <= vx hi) /\ (vy lo <= vy p /\ vy p <= vy hi) /\
  (vz lo <= vz p /\ vz p <= vz hi).

Definition spanned (lo hi : V3 Q) (r : M3 Q) : box sq :=
  mkBox E AABB (v_sub E hi lo) (v_half E (v_add E lo hi)) r.

Lemma spanned_rng lo hi r p : inside sq (spanned lo hi r) p <-> between lo hi p.
Proof.
  rewrite inside_rng by reflexivity.
  unfold rng3, rng, between, middle, dims, spanned. cbn [b_center b_dim].
  unfold v_half, v_add, v_sub. cbn [vx vy vz]. rewrite !half_E. nums. lra.
Qed.
Lemma spanned_aligned lo hi r :
  aligned sq (spanned lo hi r) <-> vx lo < vx hi /\ vy lo < vy hi /\ vz lo < vz hi.
Proof.
  unfold aligned, positive, dims, spanned. cbn [b_type b_dim].
  unfold v_sub. cbn [vx vy vz]. nums.
  split; [intros (_ & H); lra|intros H; split; [reflexivity|lra]].
Qed.

Lemma box_min_E (b : box sq) :
  vx (bmin b) == vx (middle sq b) - vx (dims sq b) * (1#2) /\
  vy (bmin b) == vy (middle sq b) - vy (dims sq b) * (1#2) /\
  vz (bmin b) == vz (middle sq b) - vz (dims sq b) * (1#2).
Proof.
  unfold box_min, v_sub, v_half. cbn [vx vy vz]. rewrite !lo_E. repeat split; reflexivity.
Qed.
Lemma box_max_E (b : box sq) :
  vx (bmax b) == vx (middle sq b) + vx (dims sq b) * (1#2) /\
  vy (bmax b) == vy (middle sq b) + vy (dims sq b) * (1#2) /\
  vz (bmax b) == vz (middle sq b) + vz (dims sq b) * (1#2).
Proof.
  unfold box_max, v_add, v_half. cbn [vx vy vz]. rewrite !hi_E. repeat split; reflexivity.
Qed.

Lemma aligned_between (b : box sq) p :
  b_type E b = AABB -> inside sq b p <-> between (bmin b) (bmax b) p.
Proof.
  intros T. rewrite (inside_rng b p T). unfold rng3, rng, between.
  pose proof (box_min_E b) as (A & B & C). pose proof (box_max_E b) as (D & F & G).
  rewrite A, B, C, D, F, G. tauto.
Qed.
Lemma aligned_lt (b : box sq) :
  aligned sq b -> vx (bmin b) < vx (bmax b) /\
  vy (bmin b) < vy (bmax b) /\ vz (bmin b) < vz (bmax b).
Proof.
  intros (_ & P & Q & R).
  pose proof (box_min_E b) as (A & B & C). pose proof (box_max_E b) as (D & F & G).
  rewrite A, B, C, D, F, G. lra.
Qed.

Lemma min_le (x y : Q) : a_min E x y <= x /\ a_min E x y <= y.
Proof. destruct (min_E x y) as [[A ->]|[A ->]]; lra. Qed.
Lemma max_ge (x y : Q) : x <= a_max E x y /\ y <= a_max E x y.
Proof. destruct (max_E x y) as [[A ->]|[A ->]]; lra. Qed.
Lemma min_case (x y : Q) : a_min E x y = x \/ a_min E x y = y.
Proof. destruct (min_E x y) as [[A ->]|[A ->]]; auto. Qed.
Lemma max_case (x y : Q) : a_max E x y = x \/ a_max E x y = y.
Proof. destruct (max_E x y) as [[A ->]|[A ->]]; auto. Qed.

Ltac qra := nums; lra.

(** ** Merging aligned boxes *)
Lemma merge_aligned_eq (a b : box sq) :
  aligned sq a -> aligned sq b ->
  box_merge E a b = spanned (v_min E (bmin a) (bmin b))
                            (v_max E (bmax a) (bmax b)) (b_rot E a).
Proof.
  intros A B. pose proof (proj1 (aligned_valid a) A) as (TA & VA).
  pose proof (proj1 (aligned_valid b) B) as (TB & VB).
  unfold box_merge. rewrite VA, VB, TA, TB. cbn [negb].
  unfold box_merge_aabb, spanned. rewrite TA. reflexivity.
Qed.

Lemma between_self lo hi : vx lo <= vx hi -> vy lo <= vy hi -> vz lo <= vz hi ->
  between lo hi lo /\ between lo hi hi.
Proof. unfold between. qra. Qed.

Lemma merge_smallest (a b : box sq) :
  aligned sq a -> aligned sq b -> smallest_aligned sq (box_merge E a b) (either sq a b).
Proof.
  intros HA HB. rewrite merge_aligned_eq by assumption.
  pose proof (aligned_lt a HA) as (A1 & A2 & A3).
  pose proof (aligned_lt b HB) as (B1 & B2 & B3).
  set (la := bmin a) in *. set (ha := bmax a) in *.
  set (lb := bmin b) in *. set (hb := bmax b) in *.
  pose proof (min_le (vx la) (vx lb)) as N1. pose proof (min_le (vy la) (vy lb)) as N2.
  pose proof (min_le (vz la) (vz lb)) as N3.
  pose proof (max_ge (vx ha) (vx hb)) as M1. pose proof (max_ge (vy ha) (vy hb)) as M2.
  pose proof (max_ge (vz ha) (vz hb)) as M3.
  split; [|split].
  - apply spanned_aligned. unfold v_min, v_max. cbn [vx vy vz]. qra.
  - intros p [I|I]; apply spanned_rng; unfold v_min, v_max, between; cbn [vx vy vz];
      apply aligned_between in I; try apply HA; try apply HB; unfold between in I; fold la ha lb hb in I;
      qra.
  - intros x HX C p I. apply spanned_rng in I.
    assert (CA : between (bmin x) (bmax x) la /\ between (bmin x) (bmax x) ha).
    { split; apply aligned_between; try apply HX; apply C; left;
      apply aligned_between; try apply HA; fold la ha; unfold between; qra. }
    assert (CB : between (bmin x) (bmax x) lb /\ between (bmin x) (bmax x) hb).
    { split; apply aligned_between; try apply HX; apply C; right;
      apply aligned_between; try apply HB; fold lb hb; unfold between; qra. }
    apply aligned_between; [apply HX|].
    unfold between, v_min, v_max in *. cbn [vx vy vz] in *.
    nums.
    assert (Gx : vx (bmin x) <= a_min E (vx la) (vx lb)) by (destruct (min_case (vx la) (vx lb)) as [->| ->]; lra).
    assert (Kx : a_max E (vx ha) (vx hb) <= vx (bmax x)) by (destruct (max_case (vx ha) (vx hb)) as [->| ->]; lra).
    assert (Gy : vy (bmin x) <= a_min E (vy la) (vy lb)) by (destruct (min_case (vy la) (vy lb)) as [->| ->]; lra).
    assert (Ky : a_max E (vy ha) (vy hb) <= vy (bmax x)) by (destruct (max_case (vy ha) (vy hb)) as [->| ->]; lra).
    assert (Gz : vz (bmin x) <= a_min E (vz la) (vz lb)) by (destruct (min_case (vz la) (vz lb)) as [->| ->]; lra).
    assert (Kz : a_max E (vz ha) (vz hb) <= vz (bmax x)) by (destruct (max_case (vz ha) (vz hb)) as [->| ->]; lra).
    lra.
Qed.

(** ** Extraction of the smallest aligned box of points *)
Lemma fold_min1 (f : V3 Q -> Q) (Hf : forall u v, f (v_min E u v) = a_min E (f u) (f v))
    (l : list (V3 Q)) : forall x,
  (forall p, In p (x :: l) -> f (fold_left (v_min E) l x) <= f p) /\
  exists p, In p (x :: l) /\ f (fold_left (v_min E) l x) = f p.
Proof.
  induction l as [|y l IH]; intros x.
  - split; [|exists x; split; [now left|reflexivity]].
    intros p [<-|[]]. cbn. qra.
  - cbn [fold_left]. destruct (IH (v_min E x y)) as (L & q & Iq & Eq).
    pose proof (min_le (f x) (f y)) as (M1 & M2).
    assert (B : f (fold_left (v_min E) l (v_min E x y)) <= a_min E (f x) (f y)).
    { rewrite <- Hf. apply L. now left. }
    split.
    + intros p [<-|[<-|I]]; [qra|qra|]. apply L. now right.
    + destruct Iq as [<-|Iq].
      * rewrite Hf in Eq. destruct (min_case (f x) (f y)) as [K|K]; rewrite K in Eq.
        -- exists x. split; [now left|assumption].
        -- exists y. split; [right; now left|assumption].
      * exists q. split; [right; now right|assumption].
Qed.
Lemma fold_max1 (f : V3 Q -> Q) (Hf : forall u v, f (v_max E u v) = a_max E (f u) (f v))
    (l : list (V3 Q)) : forall x,
  (forall p, In p (x :: l) -> f p <= f (fold_left (v_max E) l x)) /\
  exists p, In p (x :: l) /\ f (fold_left (v_max E) l x) = f p.
Proof.
  induction l as [|y l IH]; intros x.
  - split; [|exists x; split; [now left|reflexivity]].
    intros p [<-|[]]. cbn. qra.
  - cbn [fold_left]. destruct (IH (v_max E x y)) as (L & q & Iq & Eq).
    pose proof (max_ge (f x) (f y)) as (M1 & M2).
    assert (B : a_max E (f x) (f y) <= f (fold_left (v_max E) l (v_max E x y))).
    { rewrite <- Hf. apply L. now left. }
    split.
    + intros p [<-|[<-|I]]; [qra|qra|]. apply L. now right.
    + destruct Iq as [<-|Iq].
      * rewrite Hf in Eq. destruct (max_case (f x) (f y)) as [K|K]; rewrite K in Eq.
        -- exists x. split; [now left|assumption].
        -- exists y. split; [right; now left|assumption].
      * exists q. split; [right; now right|assumption].
Qed.

Definition not_flat (ps : list (V3 Q)) : Prop :=
  (exists p q, In p ps /\ In q ps /\ vx p < vx q) /\
  (exists p q, In p ps /\ In q ps /\ vy p < vy q) /\
  (exists p q, In p ps /\ In q ps /\ vz p < vz q).

Lemma extract_span (f : V3 Q) (l : list (V3 Q)) :
  box_extract E (f :: l) AABB =
  spanned (fold_left (v_min E) l f) (fold_left (v_max E) l f) (m_id E).
Proof. reflexivity. Qed.

Lemma extract_points (f : V3 Q) (l : list (V3 Q)) p :
  In p (f :: l) -> inside sq (box_extract E (f :: l) AABB) p.
Proof.
  intros I. rewrite extract_span, spanned_rng. unfold between.
  pose proof (proj1 (fold_min1 vx (fun u v => eq_refl) l f) p I).
  pose proof (proj1 (fold_min1 vy (fun u v => eq_refl) l f) p I).
  pose proof (proj1 (fold_min1 vz (fun u v => eq_refl) l f) p I).
  pose proof (proj1 (fold_max1 vx (fun u v => eq_refl) l f) p I).
  pose proof (proj1 (fold_max1 vy (fun u v => eq_refl) l f) p I).
  pose proof (proj1 (fold_max1 vz (fun u v => eq_refl) l f) p I).
  auto.
Qed.

Lemma extract_least (f : V3 Q) (l : list (V3 Q)) (x : box sq) :
  b_type E x = AABB -> (forall p, In p (f :: l) -> inside sq x p) ->
  covers sq x (inside sq (box_extract E (f :: l) AABB)).
Proof.
  intros T H p I. rewrite extract_span in I. apply spanned_rng in I.
  apply (aligned_between x p T).
  assert (H' : forall p, In p (f :: l) -> between (bmin x) (bmax x) p).
  { intros q Iq. apply aligned_between; auto. }
  destruct (proj2 (fold_min1 vx (fun u v => eq_refl) l f)) as (q1 & I1 & E1).
  destruct (proj2 (fold_min1 vy (fun u v => eq_refl) l f)) as (q2 & I2 & E2).
  destruct (proj2 (fold_min1 vz (fun u v => eq_refl) l f)) as (q3 & I3 & E3).
  destruct (proj2 (fold_max1 vx (fun u v => eq_refl) l f)) as (q4 & I4 & E4).
  destruct (proj2 (fold_max1 vy (fun u v => eq_refl) l f)) as (q5 & I5 & E5).
  destruct (proj2 (fold_max1 vz (fun u v => eq_refl) l f)) as (q6 & I6 & E6).
  apply H' in I1, I2, I3, I4, I5, I6. unfold between in *.
  rewrite E1, E2, E3, E4, E5, E6 in I. qra.
Qed.

Lemma extract_aligned (f : V3 Q) (l : list (V3 Q)) :
  aligned sq (box_extract E (f :: l) AABB) <-> not_flat (f :: l).
Proof.
  rewrite extract_span, spanned_aligned. unfold not_flat.
  destruct (fold_min1 vx (fun u v => eq_refl) l f) as (L1 & q1 & I1 & E1).
  destruct (fold_min1 vy (fun u v => eq_refl) l f) as (L2 & q2 & I2 & E2).
  destruct (fold_min1 vz (fun u v => eq_refl) l f) as (L3 & q3 & I3 & E3).
  destruct (fold_max1 vx (fun u v => eq_refl) l f) as (L4 & q4 & I4 & E4).
  destruct (fold_max1 vy (fun u v => eq_refl) l f) as (L5 & q5 & I5 & E5).
  destruct (fold_max1 vz (fun u v => eq_refl) l f) as (L6 & q6 & I6 & E6).
  split.
  - intros (A & B & C). rewrite E1, E4 in A. rewrite E2, E5 in B. rewrite E3, E6 in C.
    split; [|split]; eauto 6.
  - intros ((u1 & v1 & U1 & V1 & W1) & (u2 & v2 & U2 & V2 & W2) & (u3 & v3 & U3 & V3 & W3)).
    specialize (L1 _ U1). specialize (L2 _ U2). specialize (L3 _ U3).
    specialize (L4 _ V1). specialize (L5 _ V2). specialize (L6 _ V3). qra.
Qed.

(** ** Merging an aligned box with any other box *)
Lemma corners_inside (b : box sq) c :
  positive (dims sq b) -> In c (box_corners E b) -> inside sq b c.
Proof.
  intros P I. destruct (Forall2_in_l _ _ _ _ (corners_E b) I) as (d & J & S).
  apply in_map_iff in J. destruct J as (s & <- & Js).
  destruct (corner_inside b s P Js) as (q & A & B & C & D).
  exists q. repeat (split; [assumption|]). eapply same_trans; eassumption.
Qed.

Lemma corners_nonempty (b o : box sq) :
  exists f l, box_corners E b ++ box_corners E o = f :: l.
Proof.
  unfold box_corners. destruct (box_has_rotation E b); cbn [map app]; eauto.
Qed.

Lemma aligned_corner_signs (b : box sq) s :
  b_type E b = AABB -> In s signs -> exists c, In c (box_corners E b) /\
  vx c == fst (fst s) * (vx (dims sq b) * (1#2)) + vx (middle sq b) /\
  vy c == snd (fst s) * (vy (dims sq b) * (1#2)) + vy (middle sq b) /\
  vz c == snd s * (vz (dims sq b) * (1#2)) + vz (middle sq b).
Proof.
  intros T I. destruct (Forall2_in _ _ _ (corner_at b s) (corners_E b) (in_map _ _ _ I))
    as (c & Ic & S). exists c. split; [assumption|].
  unfold corner_at, offset in S. rewrite T in S. exact S.
Qed.

Lemma merge_general_smallest (a b : box sq) :
  aligned sq a -> proper sq b -> b_type E b <> AABB ->
  smallest_aligned sq (box_merge E a b) (either sq a b).
Proof.
  intros HA HB TB. pose proof (proj1 (aligned_valid a) HA) as (TA & VA).
  assert (K : box_merge E a b = box_extract E (box_corners E a ++ box_corners E b) AABB).
  { unfold box_merge. rewrite VA, (proper_valid b HB), TA. cbn [negb].
    destruct (b_type E b) eqn:T; try congruence;
    unfold box_merge_general; rewrite TA; reflexivity. }
  rewrite K. destruct (corners_nonempty a b) as (f & l & L). rewrite L.
  assert (PA : positive (dims sq a)) by apply HA.
  assert (PB : positive (dims sq b)) by apply HB.
  assert (IA : forall c, In c (box_corners E a) -> In c (f :: l)).
  { intros c I. rewrite <- L. apply in_or_app. now left. }
  assert (IB : forall c, In c (box_corners E b) -> In c (f :: l)).
  { intros c I. rewrite <- L. apply in_or_app. now right. }
  split; [|split].
  - apply extract_aligned.
    destruct (aligned_corner_signs a (-1,-1,-1) TA ltac:(cbn; tauto)) as (c & Ic & X & Y & Z).
    destruct (aligned_corner_signs a (1,1,1) TA ltac:(cbn; tauto)) as (d & Id & X' & Y' & Z').
    cbn [fst snd] in *. destruct PA as (P1 & P2 & P3).
    unfold not_flat. repeat split; exists c, d; repeat split; auto; qra.
  - intros p [I|I].
    + revert p I. apply corners_cover; [assumption|reflexivity|].
      intros c Ic. apply extract_points. auto.
    + revert p I. apply corners_cover; [assumption|reflexivity|].
      intros c Ic. apply extract_points. auto.
  - intros x HX C. apply extract_least; [apply HX|].
    intros p I. apply C. change (@In (V3 E) p (f :: l)) in I. rewrite <- L in I. apply in_app_or in I.
    destruct I as [I|I]; [left|right]; apply corners_inside; assumption.
Qed.

(** ** intersects *)
Lemma intersects_E (a b : box sq) :
  aligned sq a -> aligned sq b ->
  box_intersects E a b = true <->
  (vx (bmin a) < vx (bmax b) /\ vy (bmin a) < vy (bmax b) /\
   vz (bmin a) < vz (bmax b)) /\
  (vx (bmin b) < vx (bmax a) /\ vy (bmin b) < vy (bmax a) /\
   vz (bmin b) < vz (bmax a)).
Proof.
  intros A B. pose proof (proj1 (aligned_valid a) A) as (TA & VA).
  pose proof (proj1 (aligned_valid b) B) as (TB & VB).
  unfold box_intersects. rewrite VA, VB, TA, TB. cbn [negb andb].
  unfold v_lt. rewrite !andb_true_iff, !lt_E. nums. tauto.
Qed.

Lemma inner_between (b : box sq) p :
  b_type E b = AABB -> inner sq b p <->
  (vx (bmin b) < vx p /\ vx p < vx (bmax b)) /\
  (vy (bmin b) < vy p /\ vy p < vy (bmax b)) /\
  (vz (bmin b) < vz p /\ vz p < vz (bmax b)).
Proof.
  intros T. rewrite (inner_rng b p T). unfold srng3, srng.
  pose proof (box_min_E b) as (A & B & C). pose proof (box_max_E b) as (D & F & G).
  rewrite A, B, C, D, F, G. tauto.
Qed.

Lemma mid_lt (l1 h1 l2 h2 : Q) :
  l1 < h1 -> l2 < h2 -> l1 < h2 -> l2 < h1 ->
  exists m, l1 < m /\ m < h1 /\ l2 < m /\ m < h2.
Proof.
  intros A B C D.
  exists ((a_max E l1 l2 + a_min E h1 h2) * (1#2)).
  destruct (max_E l1 l2) as [[X ->]|[X ->]], (min_E h1 h2) as [[Y ->]|[Y ->]]; qra.
Qed.

Lemma intersects_common (a b : box sq) :
  aligned sq a -> aligned sq b ->
  box_intersects E a b = true <-> exists p, inner sq a p /\ inner sq b p.
Proof.
  intros A B. rewrite intersects_E by assumption.
  pose proof (aligned_lt a A) as (A1 & A2 & A3).
  pose proof (aligned_lt b B) as (B1 & B2 & B3).
  split.
  - intros ((C1 & C2 & C3) & (D1 & D2 & D3)).
    destruct (mid_lt _ _ _ _ A1 B1 C1 D1) as (x & X).
    destruct (mid_lt _ _ _ _ A2 B2 C2 D2) as (y & Y).
    destruct (mid_lt _ _ _ _ A3 B3 C3 D3) as (z & Z).
    exists (mkV3 x y z). rewrite !inner_between by (apply A || apply B). cbn [vx vy vz]. tauto.
  - intros (p & IA & IB). apply inner_between in IA; [|apply A].
    apply inner_between in IB; [|apply B]. qra.
Qed.

(** ** Intersection over union *)
Definition common_lo (a b : box sq) : V3 Q := v_max E (bmin a) (bmin b).
Definition common_hi (a b : box sq) : V3 Q := v_min E (bmax a) (bmax b).
Definition common (a b : box sq) : box sq := spanned (common_lo a b) (common_hi a b) (m_id E).
Definition common_size (a b : box sq) : Q :=
  v_prod E (v_max E (v_sub E (common_hi a b) (common_lo a b)) (v_zero E)).

Lemma common_both (a b : box sq) p :
  aligned sq a -> aligned sq b -> inside sq (common a b) p <-> both sq a b p.
Proof.
  intros A B. unfold common, both. rewrite spanned_rng.
  rewrite !aligned_between by (apply A || apply B).
  unfold between, common_lo, common_hi, v_max, v_min. cbn [vx vy vz].
  assert (K : forall l1 l2 h1 h2 q : Q, (a_max E l1 l2 <= q /\ q <= a_min E h1 h2) <->
     (l1 <= q /\ q <= h1) /\ (l2 <= q /\ q <= h2)).
  { intros. destruct (max_E l1 l2) as [[X ->]|[X ->]], (min_E h1 h2) as [[Y ->]|[Y ->]]; qra. }
  rewrite !K. tauto.
Qed.

Lemma ext1 (l1 h1 l2 h2 d1 d2 : Q) :
  l1 < h1 -> l2 < h2 -> h1 - l1 == d1 -> h2 - l2 == d2 ->
  let s := a_max E (a_min E h1 h2 - a_max E l1 l2) 0 in
  0 <= s /\ s <= d1 /\ s <= d2 /\
  (0 < s <-> l1 < h2 /\ l2 < h1) /\
  (s == d1 -> s == d2 -> l1 == l2 /\ h1 == h2) /\
  (l1 < h2 -> l2 < h1 -> s == a_min E h1 h2 - a_max E l1 l2).
Proof.
  intros A B C D s. unfold s. clear s.
  destruct (max_E l1 l2) as [[X ->]|[X ->]], (min_E h1 h2) as [[Y ->]|[Y ->]];
  match goal with |- context [a_max E ?u 0] =>
    destruct (max_E u 0) as [[Z ->]|[Z ->]] end;
  repeat split; try qra; intros; qra.
Qed.

Lemma iou_value (a b : box sq) :
  aligned sq a -> aligned sq b ->
  box_iou E a b = common_size a b / (size sq a + size sq b - common_size a b).
Proof.
  intros A B. pose proof (proj1 (aligned_valid a) A) as (TA & VA).
  pose proof (proj1 (aligned_valid b) B) as (TB & VB).
  unfold box_iou, box_volume. rewrite VA, VB, TA, TB. reflexivity.
Qed.

Lemma mul3_le (x y z a b c : Q) :
  0 <= x -> 0 <= y -> 0 <= z -> x <= a -> y <= b -> z <= c ->
  0 <= x * y * z /\ x * y * z <= a * b * c.
Proof.
  intros X Y Z A B C.
  assert (K1 : 0 <= x * y) by nra. assert (K2 : x * y <= a * b) by nra.
  split; [nra|]. nra.
Qed.

Lemma mul3_eq (x y z a b c : Q) :
  0 <= x -> 0 <= y -> 0 <= z -> x <= a -> y <= b -> z <= c ->
  0 < a -> 0 < b -> 0 < c -> x * y * z == a * b * c -> x == a /\ y == b /\ z == c.
Proof.
  intros X Y Z A B C PA PB PC H.
  assert (P : 0 < a * b * c).
  { assert (0 < a * b) by nra. nra. }
  assert (K1 : 0 <= x * y) by nra. assert (K2 : x * y <= a * b) by nra.
  assert (Zc : z == c).
  { destruct (Qlt_le_dec z c) as [L|L]; [|qra].
    assert (x * y * z <= a * b * z) by nra. assert (0 < a * b) by nra.
    assert (a * b * z < a * b * c) by nra. qra. }
  assert (XY : x * y == a * b).
  { rewrite Zc in H. destruct (Qlt_le_dec (x * y) (a * b)) as [L|L]; [|qra].
    assert (x * y * c < a * b * c) by nra. qra. }
  assert (Yb : y == b).
  { destruct (Qlt_le_dec y b) as [L|L]; [|qra].
    assert (x * y <= a * y) by nra. assert (a * y < a * b) by nra. qra. }
  assert (Xa : x == a).
  { rewrite Yb in XY. destruct (Qlt_le_dec x a) as [L|L]; [|qra].
    assert (x * b < a * b) by nra. qra. }
  auto.
Qed.

Lemma extents (a b : box sq) :
  aligned sq a -> aligned sq b ->
  exists sx sy sz,
    common_size a b = sx * sy * sz /\
    (0 <= sx /\ 0 <= sy /\ 0 <= sz) /\
    (sx <= vx (dims sq a) /\ sy <= vy (dims sq a) /\ sz <= vz (dims sq a)) /\
    (sx <= vx (dims sq b) /\ sy <= vy (dims sq b) /\ sz <= vz (dims sq b)) /\
    (box_intersects E a b = true <-> 0 < sx /\ 0 < sy /\ 0 < sz) /\
    (sx == vx (dims sq a) -> sy == vy (dims sq a) -> sz == vz (dims sq a) ->
     sx == vx (dims sq b) -> sy == vy (dims sq b) -> sz == vz (dims sq b) ->
     same_point (bmin a) (bmin b) /\ same_point (bmax a) (bmax b)) /\
    (box_intersects E a b = true ->
     sx == vx (dims sq (common a b)) /\ sy == vy (dims sq (common a b)) /\
     sz == vz (dims sq (common a b))).
Proof.
  intros A B.
  pose proof (aligned_lt a A) as (A1 & A2 & A3).
  pose proof (aligned_lt b B) as (B1 & B2 & B3).
  pose proof (box_min_E a) as (M1 & M2 & M3). pose proof (box_max_E a) as (N1 & N2 & N3).
  pose proof (box_min_E b) as (O1 & O2 & O3). pose proof (box_max_E b) as (P1 & P2 & P3).
  assert (DA1 : vx (bmax a) - vx (bmin a) == vx (dims sq a)) by (rewrite M1, N1; ring).
  assert (DA2 : vy (bmax a) - vy (bmin a) == vy (dims sq a)) by (rewrite M2, N2; ring).
  assert (DA3 : vz (bmax a) - vz (bmin a) == vz (dims sq a)) by (rewrite M3, N3; ring).
  assert (DB1 : vx (bmax b) - vx (bmin b) == vx (dims sq b)) by (rewrite O1, P1; ring).
  assert (DB2 : vy (bmax b) - vy (bmin b) == vy (dims sq b)) by (rewrite O2, P2; ring).
  assert (DB3 : vz (bmax b) - vz (bmin b) == vz (dims sq b)) by (rewrite O3, P3; ring).
  pose proof (intersects_E a b A B) as IE.
  clear M1 M2 M3 N1 N2 N3 O1 O2 O3 P1 P2 P3.
  pose proof (ext1 _ _ _ _ _ _ A1 B1 DA1 DB1) as X.
  pose proof (ext1 _ _ _ _ _ _ A2 B2 DA2 DB2) as Y.
  pose proof (ext1 _ _ _ _ _ _ A3 B3 DA3 DB3) as Z.
  cbv zeta in X, Y, Z.
  eexists _, _, _. split.
  { unfold common_size, v_prod, v_max, v_sub, common_hi, common_lo, v_zero.
    cbn [vx vy vz v_min v_max]. reflexivity. }
  destruct X as (X1 & X2 & X3 & X4 & X5 & X6), Y as (Y1 & Y2 & Y3 & Y4 & Y5 & Y6),
    Z as (Z1 & Z2 & Z3 & Z4 & Z5 & Z6).
  split; [exact (conj X1 (conj Y1 Z1))|].
  split; [exact (conj X2 (conj Y2 Z2))|].
  split; [exact (conj X3 (conj Y3 Z3))|].
  split.
  { rewrite IE. split.
    - intros ((C1 & C2 & C3) & (D1 & D2 & D3)).
      exact (conj (proj2 X4 (conj C1 D1)) (conj (proj2 Y4 (conj C2 D2)) (proj2 Z4 (conj C3 D3)))).
    - intros (K1 & K2 & K3). apply X4 in K1. apply Y4 in K2. apply Z4 in K3. tauto. }
  split.
  { intros U1 U2 U3 V1 V2 V3. specialize (X5 U1 V1). specialize (Y5 U2 V2). specialize (Z5 U3 V3).
    unfold same_point. tauto. }
  intros I. apply IE in I. destruct I as ((C1 & C2 & C3) & (D1 & D2 & D3)).
  exact (conj (X6 C1 D1) (conj (Y6 C2 D2) (Z6 C3 D3))).
Qed.

Lemma size_pos (b : box sq) : aligned sq b -> 0 < size sq b.
Proof.
  intros (_ & A & B & C). unfold size.
  assert (0 < vx (dims sq b) * vy (dims sq b)) by nra. nra.
Qed.

Lemma common_le (a b : box sq) :
  aligned sq a -> aligned sq b ->
  0 <= common_size a b /\ common_size a b <= size sq a /\ common_size a b <= size sq b.
Proof.
  intros A B. destruct (extents a b A B) as (x & y & z & -> & (X & Y & Z) & (U & V & W) & (R & S & T) & _).
  unfold size. split; [apply (mul3_le x y z x y z); qra|].
  split; apply mul3_le; assumption.
Qed.

Lemma div_1 (x y : Q) : 0 < y -> x / y == 1 <-> x == y.
Proof.
  intros P. split; intros H.
  - apply (Qmult_inj_r _ _ (/ y)); [intros K; apply Qinv_lt_0_compat in P; qra|].
    change (x / y == y / y). rewrite H. unfold Qdiv. rewrite Qmult_inv_r; [reflexivity|qra].
  - rewrite H. unfold Qdiv. apply Qmult_inv_r. qra.
Qed.

Lemma iou_range (a b : box sq) :
  aligned sq a -> aligned sq b -> 0 <= box_iou E a b /\ box_iou E a b <= 1.
Proof.
  intros A B. rewrite iou_value by assumption.
  pose proof (common_le a b A B) as (C & D & F).
  pose proof (size_pos a A). pose proof (size_pos b B).
  set (s := common_size a b) in *.
  assert (P : 0 < size sq a + size sq b - s) by qra.
  split.
  - apply Qle_shift_div_l; [assumption|]. qra.
  - apply Qle_shift_div_r; [assumption|]. qra.
Qed.

Lemma same_corners (a b : box sq) :
  aligned sq a -> aligned sq b ->
  same_set sq a b <-> same_point (bmin a) (bmin b) /\ same_point (bmax a) (bmax b).
Proof.
  intros A B. unfold same_set.
  pose proof (aligned_lt a A) as (A1 & A2 & A3).
  pose proof (aligned_lt b B) as (B1 & B2 & B3).
  split.
  - intros H.
    assert (K : forall p, between (bmin a) (bmax a) p <-> between (bmin b) (bmax b) p).
    { intros p. rewrite <- !aligned_between by (apply A || apply B). apply H. }
    pose proof (proj1 (K (bmin a)) ltac:(unfold between; qra)) as K1.
    pose proof (proj1 (K (bmax a)) ltac:(unfold between; qra)) as K2.
    pose proof (proj2 (K (bmin b)) ltac:(unfold between; qra)) as K3.
    pose proof (proj2 (K (bmax b)) ltac:(unfold between; qra)) as K4.
    unfold between, same_point in *. qra.
  - intros (M & N) p. rewrite !aligned_between by (apply A || apply B).
    unfold between, same_point in *. qra.
Qed.

Lemma iou_one (a b : box sq) :
  aligned sq a -> aligned sq b -> box_iou E a b == 1 <-> same_set sq a b.
Proof.
  intros A B. rewrite iou_value by assumption.
  pose proof (common_le a b A B) as (C & D & F).
  pose proof (size_pos a A) as SA. pose proof (size_pos b B) as SB.
  rewrite div_1 by qra. rewrite same_corners by assumption.
  destruct (extents a b A B) as (x & y & z & CS & (X & Y & Z) & (U & V & W) & (R & S & T) & _ & QQ & _).
  pose proof A as (_ & PA1 & PA2 & PA3). pose proof B as (_ & PB1 & PB2 & PB3).
  split.
  - intros H. rewrite CS in *. unfold size in *.
    assert (Ea : x * y * z == vx (dims sq a) * vy (dims sq a) * vz (dims sq a)) by qra.
    assert (Eb : x * y * z == vx (dims sq b) * vy (dims sq b) * vz (dims sq b)) by qra.
    apply mul3_eq in Ea; try assumption. apply mul3_eq in Eb; try assumption. tauto.
  - intros H. apply same_corners in H; [|assumption..].
    assert (Sab : size sq a == size sq b /\ common_size a b == size sq a); [|qra].
    apply same_corners in H; [|assumption..].
    pose proof (box_min_E a) as M. pose proof (box_max_E a) as N.
    pose proof (box_min_E b) as O. pose proof (box_max_E b) as P.
    destruct H as ((H1 & H2 & H3) & (H4 & H5 & H6)).
    assert (D1 : vx (dims sq a) == vx (dims sq b)) by qra.
    assert (D2 : vy (dims sq a) == vy (dims sq b)) by qra.
    assert (D3 : vz (dims sq a) == vz (dims sq b)) by qra.
    split; [unfold size; rewrite D1, D2, D3; reflexivity|].
    unfold common_size, v_prod, v_max, v_sub, common_hi, common_lo, v_zero, size.
    cbn [vx vy vz v_min v_max]. nums.
    assert (K : forall l1 l2 h1 h2 d : Q, l1 == l2 -> h1 == h2 -> h1 - l1 == d -> 0 < d ->
       a_max E (a_min E h1 h2 - a_max E l1 l2) 0 == d).
    { intros l1 l2 h1 h2 d G1 G2 G3 G4.
      destruct (max_E l1 l2) as [[? ->]|[? ->]], (min_E h1 h2) as [[? ->]|[? ->]];
      match goal with |- context [a_max E ?u 0] =>
        destruct (max_E u 0) as [[Z' ->]|[Z' ->]] end; qra. }
    rewrite (K _ _ _ _ (vx (dims sq a))), (K _ _ _ _ (vy (dims sq a))), (K _ _ _ _ (vz (dims sq a)));
      try assumption; try reflexivity; qra.
Qed.

Lemma iou_zero (a b : box sq) :
  aligned sq a -> aligned sq b -> box_iou E a b == 0 <-> box_intersects E a b = false.
Proof.
  intros A B. rewrite iou_value by assumption.
  pose proof (common_le a b A B) as (C & D & F).
  pose proof (size_pos a A) as SA. pose proof (size_pos b B) as SB.
  destruct (extents a b A B) as (x & y & z & CS & (X & Y & Z) & _ & _ & I & _).
  assert (K : common_size a b == 0 <-> box_intersects E a b = false).
  { rewrite CS. destruct (box_intersects E a b).
    - split; [|discriminate]. intros H. destruct (proj1 I eq_refl) as (P & Q & R).
      assert (0 < x * y) by nra. assert (0 < x * y * z) by nra. qra.
    - split; [reflexivity|]. intros _.
      destruct (Qlt_le_dec 0 x) as [P|P];
        [|assert (G : x == 0) by qra; rewrite G; ring].
      destruct (Qlt_le_dec 0 y) as [Q|Q];
        [|assert (G : y == 0) by qra; rewrite G; ring].
      destruct (Qlt_le_dec 0 z) as [R|R];
        [|assert (G : z == 0) by qra; rewrite G; ring].
      pose proof (proj2 I (conj P (conj Q R))). discriminate. }
  rewrite <- K. split; intros H.
  - assert (G : common_size a b == common_size a b / (size sq a + size sq b - common_size a b)
                 * (size sq a + size sq b - common_size a b)) by (field; qra).
    rewrite G, H. ring.
  - rewrite H. unfold Qdiv. ring.
Qed.

Lemma min_comm_E (x y : Q) : a_min E x y == a_min E y x.
Proof. destruct (min_E x y) as [[? ->]|[? ->]], (min_E y x) as [[? ->]|[? ->]]; qra. Qed.
Lemma max_comm_E (x y : Q) : a_max E x y == a_max E y x.
Proof. destruct (max_E x y) as [[? ->]|[? ->]], (max_E y x) as [[? ->]|[? ->]]; qra. Qed.
Lemma max_proper_E (x x' y : Q) : x == x' -> a_max E x y == a_max E x' y.
Proof. intros H. destruct (max_E x y) as [[? ->]|[? ->]], (max_E x' y) as [[? ->]|[? ->]]; qra. Qed.

Lemma common_comm (a b : box sq) : common_size a b == common_size b a.
Proof.
  unfold common_size, v_prod, v_max, v_sub, common_hi, common_lo, v_zero.
  cbn [vx vy vz v_min v_max]. nums.
  assert (K : forall l1 l2 h1 h2 : Q,
    a_max E (a_min E h1 h2 - a_max E l1 l2) 0 == a_max E (a_min E h2 h1 - a_max E l2 l1) 0).
  { intros. apply max_proper_E. rewrite (min_comm_E h1 h2), (max_comm_E l1 l2). reflexivity. }
  rewrite (K (vx (bmin a))), (K (vy (bmin a))), (K (vz (bmin a))). reflexivity.
Qed.

Lemma iou_sym (a b : box sq) : box_iou E a b == box_iou E b a.
Proof.
  unfold box_iou. rewrite (andb_comm (box_valid E b)).
  destruct (box_valid E a && box_valid E b)%bool eqn:V; [|reflexivity]. cbn [negb].
  apply andb_true_iff in V. destruct V as (VA & VB).
  destruct (b_type E a) eqn:TA, (b_type E b) eqn:TB; try reflexivity.
  assert (A : aligned sq a) by (apply aligned_valid; auto).
  assert (B : aligned sq b) by (apply aligned_valid; auto).
  pose proof (iou_value a b A B) as I. pose proof (iou_value b a B A) as J.
  unfold box_iou in I, J. rewrite VA, VB, TA, TB in I, J. cbn [negb andb] in I, J.
  rewrite I, J. rewrite (common_comm a b).
  setoid_replace (size sq a + size sq b - common_size b a)
    with (size sq b + size sq a - common_size b a) by ring. reflexivity.
Qed.

Lemma intersects_sym (a b : box sq) : box_intersects E a b = box_intersects E b a.
Proof.
  unfold box_intersects. rewrite (andb_comm (box_valid E b)).
  destruct (negb _); [reflexivity|].
  destruct (b_type E a), (b_type E b); try reflexivity. apply andb_comm.
Qed.

(** ** operator== *)
Lemma v_eq_E (u v : V3 Q) : v_eq E u v = true <-> same_point u v.
Proof. unfold v_eq, same_point. rewrite !andb_true_iff, !eq_E. tauto. Qed.

Definition same_rot (m n : M3 Q) : Prop :=
  same_point (mx m) (mx n) /\ same_point (my m) (my n) /\ same_point (mz m) (mz n).

Lemma box_eq_E (a b : box sq) :
  box_eq E a b = true <->
  b_type E a = b_type E b /\
  (b_type E a <> INVALID ->
   same_point (dims sq a) (dims sq b) /\ same_point (middle sq a) (middle sq b) /\
   (b_type E a <> AABB -> same_rot (turn sq a) (turn sq b))).
Proof.
  unfold box_eq, dims, middle, turn.
  destruct (b_type E a), (b_type E b); cbn [box_type_eqb negb];
    try (split; [discriminate|intros (K & _); discriminate]);
    rewrite ?andb_true_iff, ?v_eq_E, ?m_eq_E.
  - split; [|reflexivity]. intros _. split; [reflexivity|congruence].
  - split.
    + intros (A & B). split; [reflexivity|]. intros _. split; [exact A|]. split; [exact B|congruence].
    + intros (_ & H). destruct (H ltac:(congruence)) as (A & B & _). exact (conj A B).
  - split.
    + intros ((A & B) & C). split; [reflexivity|]. intros _. split; [exact A|].
      split; [exact B|]. intros _. exact C.
    + intros (_ & H). destruct (H ltac:(congruence)) as (A & B & C).
      exact (conj (conj A B) (C ltac:(congruence))).
  - split.
    + intros ((A & B) & C). split; [reflexivity|]. intros _. split; [exact A|].
      split; [exact B|]. intros _. exact C.
    + intros (_ & H). destruct (H ltac:(congruence)) as (A & B & C).
      exact (conj (conj A B) (C ltac:(congruence))).
Qed.

Lemma eq_same_set (a b : box sq) :
  proper sq a -> box_eq E a b = true -> proper sq b /\ same_set sq a b.
Proof.
  intros (T & P & R) H. apply box_eq_E in H. destruct H as (TT & H).
  destruct (H T) as ((D1 & D2 & D3) & (C1 & C2 & C3) & RR).
  split.
  - split; [congruence|]. split.
    + unfold positive in *. qra.
    + destruct (b_type E a) eqn:TA; [congruence|left; congruence| |].
      all: right; destruct R as [R|R]; [congruence|];
        destruct (RR ltac:(congruence)) as ((R1 & R2 & R3) & (R4 & R5 & R6) & (R7 & R8 & R9));
        revert R; unfold rotation, orthonormal, dot, column; cbn [vx vy vz];
        rewrite R1, R2, R3, R4, R5, R6, R7, R8, R9; tauto.
  - assert (O : forall q, same_point (shift (offset sq a q) (middle sq a))
                                     (shift (offset sq b q) (middle sq b))).
    { intros q. unfold offset, same_point, shift. rewrite <- TT.
      destruct (b_type E a) eqn:TA; [congruence| | |];
        unfold rotate, dot; cbn [vx vy vz]; try (rewrite C1, C2, C3; repeat split; reflexivity).
      all: destruct (RR ltac:(congruence)) as ((R1 & R2 & R3) & (R4 & R5 & R6) & (R7 & R8 & R9));
        rewrite C1, C2, C3, R1, R2, R3, R4, R5, R6, R7, R8, R9; repeat split; reflexivity. }
    intros p; split; intros (q & A & B & C & S); exists q; rewrite ?half_2 in *.
    + rewrite <- D1, <- D2, <- D3. repeat (split; [assumption|]). eapply same_trans; eauto.
    + rewrite D1, D2, D3. repeat (split; [assumption|]). eapply same_trans; [eassumption|].
      apply same_sym, O.
Qed.
End proofs.
