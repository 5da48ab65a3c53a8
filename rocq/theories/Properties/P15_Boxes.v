(** * C48: bounding boxes

    Exact rational arithmetic ([exact sq], for every square-root function [sq],
    which the axis-aligned operations never call); the deviations of the actual
    binary32 arithmetic and of the non-aligned box types are the theorems named
    [_refuted]. *)
From Coq Require Import List QArith Qabs Lqa Bool ZArith.
From Verif.Model Require Import Numbers BBox.
From Verif.Spec Require Import BoxSpec.
From Verif.Proof Require Import BBoxP.
Import ListNotations.
Local Open Scope Q_scope.
Set Default Proof Using "Type".

Section exact.
Context (sq : Q -> Q).
Notation E := (exact sq).

(** contains(p) is true exactly for the points of the box (of any type), and
    never for a box that is not valid. *)
Theorem C48_contains_is_membership (b : box sq) (p : V3 Q) :
  (proper sq b -> box_contains E b p = true <-> inside sq b p) /\
  (box_valid E b = false -> box_contains E b p = false).
Proof.
  split; [apply contains_E|]. unfold box_contains. intros ->. reflexivity.
Qed.

(** BoundingBox(dimensions) is the box from the origin to the point [dimensions];
    BoundingBox(dimensions, center) has that centre. *)
Theorem C48_constructors (d c : V3 Q) (p : V3 Q) : 0 < vx d -> 0 < vy d -> 0 < vz d ->
  (box_contains E (box_from_origin E d) p = true <->
     (0 <= vx p <= vx d) /\ (0 <= vy p <= vy d) /\ (0 <= vz p <= vz d)) /\
  (box_contains E (box_aabb E d c) p = true <->
     Qabs (vx p - vx c) <= vx d / 2 /\ Qabs (vy p - vy c) <= vy d / 2 /\ Qabs (vz p - vz c) <= vz d / 2).
Proof.
  intros H1 H2 H3.
  assert (K : forall m, box_contains E (box_aabb E d m) p = true <->
     Qabs (vx p - vx m) <= vx d / 2 /\ Qabs (vy p - vy m) <= vy d / 2 /\ Qabs (vz p - vz m) <= vz d / 2).
  { intros m. destruct (C48_contains_is_membership (box_aabb E d m) p) as [K _]. rewrite K by (repeat split; cbn; auto; discriminate).
    unfold inside. cbn -[Qeq Qplus Qabs Qle Qdiv Qminus same_point]. unfold same_point. cbn -[Qeq Qplus Qabs Qle Qdiv Qminus]. split.
    - intros (q & A1 & A2 & A3 & B1 & B2 & B3). rewrite B1, B2, B3. repeat split.
      + setoid_replace (vx q + vx m - vx m) with (vx q) by ring. exact A1.
      + setoid_replace (vy q + vy m - vy m) with (vy q) by ring. exact A2.
      + setoid_replace (vz q + vz m - vz m) with (vz q) by ring. exact A3.
    - intros (A1 & A2 & A3). exists (mkV3 (vx p - vx m) (vy p - vy m) (vz p - vz m)). cbn -[Qeq Qplus Qabs Qle Qdiv Qminus]. repeat split; auto; ring. }
  split; [|apply K]. change (box_from_origin E d) with (box_aabb E d (v_half E d)). rewrite K. cbn -[Qeq Qplus Qabs Qle Qdiv Qminus]. rewrite !Qabs_Qle_condition.
  assert (X : forall a b : Q, (- (b / 2) <= a - b / 2 /\ a - b / 2 <= b / 2) <-> (0 <= a <= b)).
  { intros a b. assert (b == b / 2 + b / 2) by field. split; intros [? ?]; split; lra. }
  assert (Y : forall a b c e f k : Prop, (a <-> c) -> (b <-> e) -> (f <-> k) -> (a /\ b /\ f <-> c /\ e /\ k)) by tauto.
  apply Y; apply X.
Qed.

(** pointToWorldFrame and pointToBoxFrame are inverse to each other. *)
Theorem C48_frames_are_inverse (b : box sq) (p : V3 Q) :
  proper sq b ->
  same_point (box_to_world E b (box_to_box E b p)) p /\
  same_point (box_to_box E b (box_to_world E b p)) p.
Proof. intros P. split; [now apply box_world|now apply world_box]. Qed.

(** The eight corners belong to the box, and every half space containing them
    contains the whole box: the box is the convex hull of its corners. *)
Theorem C48_corners_span_the_box (b : box sq) :
  proper sq b ->
  length (box_corners E b) = 8%nat /\
  (forall c, In c (box_corners E b) -> inside sq b c) /\
  (forall (n : V3 Q) (k : Q), (forall c, In c (box_corners E b) -> dot n c <= k) ->
     forall p, inside sq b p -> dot n p <= k).
Proof.
  intros (T & P & _). split; [|split].
  - unfold box_corners. destruct (box_has_rotation E b); reflexivity.
  - intros c. now apply corners_inside.
  - intros n k. now apply half_space.
Qed.

(** Merging any usable box into an axis-aligned one gives the smallest
    axis-aligned box containing both. *)
Theorem C48_merge_is_smallest (a b : box sq) :
  aligned sq a -> proper sq b ->
  smallest_aligned sq (box_merge E a b) (either sq a b).
Proof.
  intros A B. destruct (b_type E b) eqn:T.
  - destruct B. congruence.
  - apply merge_smallest; [assumption|]. split; [assumption|apply B].
  - apply merge_general_smallest; congruence || assumption.
  - apply merge_general_smallest; congruence || assumption.
Qed.

(** Merging a box that is not valid changes nothing; merging into a box that is
    not valid gives the other box. *)
Theorem C48_merge_with_invalid (a b : box sq) :
  (box_valid E b = false -> box_merge E a b = a) /\
  (box_valid E b = true -> box_valid E a = false -> box_merge E a b = b).
Proof.
  unfold box_merge. split; [intros ->; reflexivity|intros -> ->; reflexivity].
Qed.

(** Fitting an axis-aligned box to points: the smallest box containing them all;
    it is valid exactly if the points differ along every axis. *)
Definition listed (ps : list (V3 Q)) : V3 Q -> Prop :=
  fun p => exists q, In q ps /\ same_point p q.
Definition differ (ps : list (V3 Q)) (f : V3 Q -> Q) : Prop :=
  exists p q, In p ps /\ In q ps /\ f p < f q.
Theorem C48_fit_is_smallest (ps : list (V3 Q)) :
  (box_valid E (box_extract E ps AABB) = true <-> differ ps vx /\ differ ps vy /\ differ ps vz) /\
  (box_valid E (box_extract E ps AABB) = true ->
   smallest_aligned sq (box_extract E ps AABB) (listed ps)).
Proof.
  destruct ps as [|f l].
  { split; [|discriminate]. split; [discriminate|]. intros ((p & q & I & _) & _). destruct I. }
  assert (K : box_valid E (box_extract E (f :: l) AABB) = true <->
              aligned sq (box_extract E (f :: l) AABB)).
  { rewrite aligned_valid. split; [intros H; split; [reflexivity|assumption]|tauto]. }
  split.
  - rewrite K, extract_aligned. reflexivity.
  - intros V. apply K in V. split; [assumption|]. split.
    + intros p (q & I & S). pose proof (extract_points sq f l q I) as (r & A & B & C & D).
      exists r. repeat (split; [assumption|]). eapply same_trans; eassumption.
    + intros x X C. apply extract_least; [apply X|].
      intros p I. apply C. exists p. split; [assumption|apply same_refl].
Qed.

(** intersects is symmetric; for axis-aligned boxes it says that the interiors
    share a point; it is false if one box is not valid or not axis aligned. *)
Theorem C48_intersects_is_overlap (a b : box sq) :
  box_intersects E a b = box_intersects E b a /\
  (aligned sq a -> aligned sq b ->
   box_intersects E a b = true <-> exists p, inner sq a p /\ inner sq b p) /\
  (box_intersects E a b = true -> aligned sq a /\ aligned sq b).
Proof.
  split; [apply intersects_sym|]. split; [apply intersects_common|].
  unfold box_intersects. rewrite !aligned_valid.
  destruct (box_valid E a), (box_valid E b); try discriminate. cbn [negb andb].
  destruct (b_type E a), (b_type E b); try discriminate. auto.
Qed.

(** volume is the product of the dimensions of a valid box and 0 otherwise. *)
Theorem C48_volume (b : box sq) :
  (proper sq b -> box_volume E b == size sq b /\ 0 < box_volume E b) /\
  (box_valid E b = false -> box_volume E b == 0).
Proof.
  unfold box_volume. split.
  - intros P. rewrite (proper_valid sq b P). split; [reflexivity|].
    destruct P as (_ & (A & B & C) & _). change (0 < size sq b). unfold size.
    assert (0 < vx (dims sq b) * vy (dims sq b)) by nra. nra.
  - intros ->. reflexivity.
Qed.

(** computeIoU: symmetric, between 0 and 1, 1 exactly for the same set of
    points, 0 exactly if the interiors are disjoint, and otherwise the volume of
    the intersection (which is a box, no larger than either) divided by the
    volume of the union. *)
Theorem C48_iou_is_overlap_ratio (a b : box sq) :
  box_iou E a b == box_iou E b a /\
  (aligned sq a -> aligned sq b ->
   (0 <= box_iou E a b /\ box_iou E a b <= 1) /\
   (box_iou E a b == 1 <-> same_set sq a b) /\
   (box_iou E a b == 0 <-> ~ exists p, inner sq a p /\ inner sq b p) /\
   ((exists p, inner sq a p /\ inner sq b p) ->
    exists i : box sq, aligned sq i /\ (forall p, inside sq i p <-> both sq a b p) /\
      size sq i <= size sq a /\ size sq i <= size sq b /\
      box_iou E a b == size sq i / (size sq a + size sq b - size sq i))).
Proof.
  split; [apply iou_sym|]. intros A B.
  split; [now apply iou_range|]. split; [now apply iou_one|].
  pose proof (intersects_common sq a b A B) as IC.
  split.
  - rewrite (iou_zero sq a b A B), <- IC. destruct (box_intersects E a b); intuition congruence.
  - intros H. apply IC in H. exists (common sq a b).
    destruct (extents sq a b A B) as (x & y & z & CS & _ & _ & _ & I & _ & SZ).
    destruct (SZ H) as (S1 & S2 & S3).
    assert (K : common_size sq a b == size sq (common sq a b)).
    { rewrite CS. unfold size. rewrite S1, S2, S3. reflexivity. }
    split; [|split; [intros p; now apply common_both|]].
    + apply I in H. rewrite S1, S2, S3 in H. split; [reflexivity|exact H].
    + rewrite <- K. pose proof (common_le sq a b A B) as (_ & L1 & L2).
      split; [assumption|]. split; [assumption|].
      rewrite iou_value by assumption. reflexivity.
Qed.

(** operator== is an equivalence relation, and equal boxes have the same points. *)
Theorem C48_equality (a b c : box sq) :
  box_eq E a a = true /\
  (box_eq E a b = true -> box_eq E b a = true) /\
  (box_eq E a b = true -> box_eq E b c = true -> box_eq E a c = true) /\
  (proper sq a -> box_eq E a b = true -> proper sq b /\ same_set sq a b).
Proof.
  rewrite !box_eq_E. unfold same_rot. split; [|split; [|split]].
  - split; [reflexivity|]. intros _. repeat (split; try apply same_refl).
  - intros (T & H). split; [congruence|]. intros N. rewrite <- T in *.
    destruct (H N) as (D & C & R). split; [now apply same_sym|]. split; [now apply same_sym|].
    intros M. destruct (R M) as (R1 & R2 & R3).
    split; [now apply same_sym|split; now apply same_sym].
  - intros (T & H) (T' & H'). split; [congruence|]. intros N.
    destruct (H N) as (D & C & R). rewrite T in N. destruct (H' N) as (D' & C' & R').
    split; [eapply same_trans; eassumption|]. split; [eapply same_trans; eassumption|].
    intros M. destruct (R M) as (R1 & R2 & R3). rewrite T in M. destruct (R' M) as (Q1 & Q2 & Q3).
    split; [eapply same_trans; eassumption|split; eapply same_trans; eassumption].
  - intros P H. apply (eq_same_set sq a b P). apply box_eq_E. exact H.
Qed.

(** ** Where the code deviates *)

(** Merging into an OBB destroys it: the result is an invalid box, which
    contains nothing (fitting an OBB is not implemented, but merge uses it). *)
Theorem C48_merge_into_obb_refuted (a b : box sq) :
  b_type E a = OBB -> box_valid E a = true -> box_valid E b = true ->
  forall p, box_contains E (box_merge E a b) p = false.
Proof.
  intros T VA VB p. unfold box_merge. rewrite VA, VB, T. cbn [negb].
  assert (K : box_merge_general E a b = box_default E).
  { unfold box_merge_general. rewrite T.
    unfold box_corners. destruct (box_has_rotation E a); reflexivity. }
  rewrite K. reflexivity.
Qed.

(** A box fitted to points of one plane contains none of them. *)
Theorem C48_flat_fit_refuted (ps : list (V3 Q)) (z : Q) :
  (forall p, In p ps -> vz p == z) ->
  forall p, box_contains E (box_extract E ps AABB) p = false.
Proof.
  intros H p. apply (proj2 (C48_contains_is_membership _ p)).
  destruct (box_valid E (box_extract E ps AABB)) eqn:V; [|reflexivity].
  apply (proj1 (C48_fit_is_smallest ps)) in V. destruct V as (_ & _ & q & r & Iq & Ir & L).
  apply H in Iq. apply H in Ir. lra.
Qed.
End exact.

(** Concrete cases. *)
Notation X := (exact q_sqrt).
Definition pt (x y z : Q) : V3 Q := mkV3 x y z.
Definition cube (x : Q) : box q_sqrt := box_aabb X (pt 2 2 2) (pt x 0 0).
Definition tilted : box q_sqrt := box_raabb X (pt 3 4 2) (pt 0 0 0) (3#5) (4#5).

Example C48_boxes_example :
  aligned q_sqrt (cube 0) /\ aligned q_sqrt (cube 1) /\ proper q_sqrt tilted /\
  box_has_rotation X tilted = true /\
  (exists p, inner q_sqrt (cube 0) p /\ inner q_sqrt (cube 1) p) /\
  box_iou X (cube 0) (cube 1) == 1#3 /\
  box_contains X (box_merge X (cube 0) (cube 1)) (pt 2 1 (-1)) = true /\
  differ [pt 0 0 0; pt 1 2 3] vx /\ differ [pt 0 0 0; pt 1 2 3] vy /\
  differ [pt 0 0 0; pt 1 2 3] vz.
Proof.
  assert (A0 : aligned q_sqrt (cube 0)) by (apply aligned_valid; vm_compute; auto).
  assert (A1 : aligned q_sqrt (cube 1)) by (apply aligned_valid; vm_compute; auto).
  split; [assumption|]. split; [assumption|]. split.
  { split; [discriminate|]. split; [repeat split; vm_compute; reflexivity|].
    right. repeat split; vm_compute; reflexivity. }
  split; [vm_compute; reflexivity|].
  split; [apply (intersects_common q_sqrt _ _ A0 A1); vm_compute; reflexivity|].
  split; [vm_compute; reflexivity|]. split; [vm_compute; reflexivity|].
  split; [|split]; exists (pt 0 0 0), (pt 1 2 3); repeat split; cbn; tauto || vm_compute; auto.
Qed.

(** The square root used in these examples is exact on the values that occur:
    squares of rationals. *)
Example q_sqrt_squares :
  q_sqrt ((3#5) * (3#5)) == 3#5 /\ q_sqrt (9 + 16) == 5 /\ q_sqrt ((7#5)*(7#5) + (24#5)*(24#5)) == 5.
Proof. vm_compute. auto. Qed.

(** Merging an RAABB with itself can lose its own corners, even in exact
    arithmetic: the hull of the corners drops the only corner to the right of
    the lowest one, because the lowest corner occurs twice (top and bottom). *)
Theorem C48_merge_raabb_refuted :
  exists (b : box q_sqrt) (c : V3 Q),
    proper q_sqrt b /\ b_type X b = RAABB /\ In c (box_corners X b) /\
    box_contains X b c = true /\ box_valid X (box_merge X b b) = true /\
    box_contains X (box_merge X b b) c = false.
Proof.
  exists tilted, (nth 1 (box_corners X tilted) (pt 0 0 0)).
  split; [apply C48_boxes_example|]. split; [reflexivity|].
  split; [apply nth_In; vm_compute; auto with arith|].
  vm_compute. auto.
Qed.

(** Fitting an RAABB to points two of which are on a vertical line below the
    others can give a box without volume, although the points span one. *)
Theorem C48_fit_raabb_refuted :
  exists ps : list (V3 Q),
    differ ps vx /\ differ ps vy /\ differ ps vz /\
    box_valid X (box_extract X ps AABB) = true /\
    box_valid X (box_extract X ps RAABB) = false.
Proof.
  exists [pt 0 0 0; pt 0 0 1; pt 1 0 0; pt (-3) 4 0].
  split; [|split; [|split]].
  - exists (pt 0 0 0), (pt 1 0 0). repeat split; cbn; tauto || vm_compute; auto.
  - exists (pt 0 0 0), (pt (-3) 4 0). repeat split; cbn; tauto || vm_compute; auto.
  - exists (pt 0 0 0), (pt 0 0 1). repeat split; cbn; tauto || vm_compute; auto.
  - vm_compute. auto.
Qed.

(** In binary32: the IoU of a box with itself need not be 1, not even
    non-negative; a corner of a box need not be contained in it; and a point
    contained in a box need not be contained in its merge with a smaller box
    inside it. *)
Notation F := binary32.
Definition f (z : Z) : F := f32_of_Z z.
Definition fbox (d c : F) : Box F := box_aabb F (mkV3 d d d) (mkV3 c c c).
Definition far : Box F := fbox (f 3) (f (2 ^ 24)).

Theorem C48_float_iou_refuted :
  box_valid F far = true /\ box_eq F far far = true /\
  a_lt F (box_iou F far far) (f 0) = true.
Proof. vm_compute. auto. Qed.

Theorem C48_float_corners_refuted :
  exists c, In c (box_corners F far) /\ box_contains F far c = false.
Proof.
  exists (nth 6 (box_corners F far) (mkV3 (f 0) (f 0) (f 0))).
  split; [apply nth_In; vm_compute; auto with arith|]. vm_compute. reflexivity.
Qed.

(* centre -1.5, size 1.1 (x from -2.05 to -0.95) and centre -1.4, size 0.1 *)
Definition wide : Box F := fbox (a_div F (f 11) (f 10)) (a_div F (f (-3)) (f 2)).
Definition narrow : Box F := fbox (a_div F (f 1) (f 10)) (a_div F (f (-14)) (f 10)).
Theorem C48_float_merge_refuted :
  exists p, box_contains F wide p = true /\
    box_valid F narrow = true /\ box_contains F (box_merge F wide narrow) p = false.
Proof.
  exists (box_max F wide). vm_compute. auto.
Qed.

Print Assumptions C48_contains_is_membership.
Print Assumptions C48_frames_are_inverse.
Print Assumptions C48_corners_span_the_box.
Print Assumptions C48_merge_is_smallest.
Print Assumptions C48_merge_with_invalid.
Print Assumptions C48_fit_is_smallest.
Print Assumptions C48_intersects_is_overlap.
Print Assumptions C48_volume.
Print Assumptions C48_iou_is_overlap_ratio.
Print Assumptions C48_equality.
Print Assumptions C48_merge_into_obb_refuted.
Print Assumptions C48_flat_fit_refuted.
Print Assumptions C48_merge_raabb_refuted.
Print Assumptions C48_fit_raabb_refuted.
Print Assumptions C48_float_iou_refuted.
Print Assumptions C48_float_corners_refuted.
Print Assumptions C48_float_merge_refuted.
