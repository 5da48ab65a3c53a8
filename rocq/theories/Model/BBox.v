(** * Bounding boxes: src/bounding_box.cpp, src/bounding_box_extraction.cpp

    Written over an arithmetic [A] (see Model/Numbers.v). *)
From Coq Require Import List ZArith.
From Verif.Model Require Import Numbers.
Import ListNotations.
Set Default Proof Using "Type".
Local Notation "p .1" := (fst p) (at level 2, left associativity, format "p .1").
Local Notation "p .2" := (snd p) (at level 2, left associativity, format "p .2").

(** BoundingBox::Type, include/spark_dsg/bounding_box.h:53-58. *)
Inductive box_type := INVALID | AABB | OBB | RAABB.

Definition box_type_eqb (a b : box_type) : bool :=
  match a, b with
  | INVALID, INVALID | AABB, AABB | OBB, OBB | RAABB, RAABB => true
  | _, _ => false
  end.

(** Eigen::Vector3f, Eigen::Vector2f and Eigen::Matrix3f (by rows). *)
Record V3 (T : Type) := mkV3 { vx : T; vy : T; vz : T }.
Arguments mkV3 {T}. Arguments vx {T}. Arguments vy {T}. Arguments vz {T}.
Record M3 (T : Type) := mkM3 { mx : V3 T; my : V3 T; mz : V3 T }.
Arguments mkM3 {T}. Arguments mx {T}. Arguments my {T}. Arguments mz {T}.

Section box.
Context (A : Arith).
Notation "x + y" := (a_add A x y).
Notation "x - y" := (a_sub A x y).
Notation "x * y" := (a_mul A x y).
Notation "x / y" := (a_div A x y).
Notation "- x" := (a_opp A x).
Notation zero := (a_of_Z A 0).
Notation one := (a_of_Z A 1).
Notation two := (a_of_Z A 2).

Definition v_zero : V3 A := mkV3 zero zero zero.
Definition v_add (u v : V3 A) := mkV3 (vx u + vx v) (vy u + vy v) (vz u + vz v).
Definition v_sub (u v : V3 A) := mkV3 (vx u - vx v) (vy u - vy v) (vz u - vz v).
Definition v_opp (u : V3 A) := mkV3 (- vx u) (- vy u) (- vz u).
Definition v_half (u : V3 A) := mkV3 (vx u / two) (vy u / two) (vz u / two).
Definition v_abs (u : V3 A) := mkV3 (a_abs A (vx u)) (a_abs A (vy u)) (a_abs A (vz u)).
Definition v_min (u v : V3 A) :=
  mkV3 (a_min A (vx u) (vx v)) (a_min A (vy u) (vy v)) (a_min A (vz u) (vz v)).
Definition v_max (u v : V3 A) :=
  mkV3 (a_max A (vx u) (vx v)) (a_max A (vy u) (vy v)) (a_max A (vz u) (vz v)).
Definition v_lt (u v : V3 A) : bool :=
  (a_lt A (vx u) (vx v) && a_lt A (vy u) (vy v) && a_lt A (vz u) (vz v))%bool.
Definition v_eq (u v : V3 A) : bool :=
  (a_eq A (vx u) (vx v) && a_eq A (vy u) (vy v) && a_eq A (vz u) (vz v))%bool.
(* Eigen evaluates the dot product of 3-vectors from the left *)
Definition v_dot (u v : V3 A) : A := vx u * vx v + vy u * vy v + vz u * vz v.
Definition v_prod (u : V3 A) : A := vx u * vy u * vz u.

Definition m_id : M3 A :=
  mkM3 (mkV3 one zero zero) (mkV3 zero one zero) (mkV3 zero zero one).
Definition m_eq (m n : M3 A) : bool :=
  (v_eq (mx m) (mx n) && v_eq (my m) (my n) && v_eq (mz m) (mz n))%bool.
Definition m_apply (m : M3 A) (v : V3 A) : V3 A :=
  mkV3 (v_dot (mx m) v) (v_dot (my m) v) (v_dot (mz m) v).
Definition m_transpose (m : M3 A) : M3 A :=
  mkM3 (mkV3 (vx (mx m)) (vx (my m)) (vx (mz m)))
       (mkV3 (vy (mx m)) (vy (my m)) (vy (mz m)))
       (mkV3 (vz (mx m)) (vz (my m)) (vz (mz m))).

(** struct BoundingBox, bounding_box.h:227-236. *)
Record Box := mkBox {
  b_type : box_type;
  b_dim : V3 A;       (* dimensions *)
  b_center : V3 A;    (* world_P_center *)
  b_rot : M3 A        (* world_R_center *)
}.

(** BoundingBox() = default, bounding_box.h:73, members :227-236. *)
Definition box_default : Box := mkBox INVALID v_zero v_zero m_id.

(** BoundingBox(dimensions), bounding_box.cpp:42-43. *)
Definition box_from_origin (d : V3 A) : Box := mkBox AABB d (v_half d) m_id.

(** BoundingBox(dimensions, world_P_center), bounding_box.cpp:45-47. *)
Definition box_aabb (d c : V3 A) : Box := mkBox AABB d c m_id.

(** BoundingBox(dimensions, world_P_center, yaw), bounding_box.cpp:49-54.  The
    rotation matrix about the z axis is given by the cosine and the sine of
    [yaw] instead of the angle (Eigen computes both from the angle). *)
Definition yaw_matrix (c s : A) : M3 A :=
  mkM3 (mkV3 c (- s) zero) (mkV3 s c zero) (mkV3 zero zero one).
Definition box_raabb (d p : V3 A) (c s : A) : Box := mkBox RAABB d p (yaw_matrix c s).

(** BoundingBox::isValid, bounding_box.cpp:86-91. *)
Definition box_valid (b : Box) : bool :=
  match b_type b with
  | INVALID => false
  | _ => v_lt v_zero (b_dim b)
  end.

(** BoundingBox::volume, bounding_box.cpp:93-98. *)
Definition box_volume (b : Box) : A :=
  if box_valid b then v_prod (b_dim b) else zero.

(** BoundingBox::hasRotation, bounding_box.cpp:100-105. *)
Definition box_has_rotation (b : Box) : bool :=
  match b_type b with
  | INVALID | AABB => false
  | _ => negb (m_eq (b_rot b) m_id)
  end.

(** BoundingBox::minCorner / maxCorner, bounding_box.cpp:107-113. *)
Definition box_min (b : Box) : V3 A := v_sub (b_center b) (v_half (b_dim b)).
Definition box_max (b : Box) : V3 A := v_add (b_center b) (v_half (b_dim b)).

(** BoundingBox::corners, bounding_box.cpp:115-138. *)
Definition box_corners (b : Box) : list (V3 A) :=
  let lo := v_half (v_opp (b_dim b)) in
  let hi := v_half (b_dim b) in
  let cs := [lo;
             mkV3 (vx hi) (vy lo) (vz lo);
             mkV3 (vx hi) (vy hi) (vz lo);
             mkV3 (vx lo) (vy hi) (vz lo);
             mkV3 (vx lo) (vy lo) (vz hi);
             mkV3 (vx hi) (vy lo) (vz hi);
             hi;
             mkV3 (vx lo) (vy hi) (vz hi)] in
  let cs := if box_has_rotation b then map (m_apply (b_rot b)) cs else cs in
  map (fun c => v_add c (b_center b)) cs.

(** BoundingBox::pointToWorldFrame / pointToBoxFrame, bounding_box.cpp:180-194. *)
Definition box_to_world (b : Box) (p : V3 A) : V3 A :=
  if box_has_rotation b then v_add (m_apply (b_rot b) p) (b_center b)
  else v_add p (b_center b).
Definition box_to_box (b : Box) (p : V3 A) : V3 A :=
  if box_has_rotation b then m_apply (m_transpose (b_rot b)) (v_sub p (b_center b))
  else v_sub p (b_center b).

(** BoundingBox::isInside, bounding_box.cpp:277-279: the largest of the three
    coefficients is at most zero (without NaN: each of them is). *)
Definition box_is_inside (b : Box) (q : V3 A) : bool :=
  let e := v_sub (v_abs q) (v_half (b_dim b)) in
  a_le A (a_max A (a_max A (vx e) (vy e)) (vz e)) zero.

(** BoundingBox::contains, bounding_box.cpp:196-205. *)
Definition box_contains (b : Box) (p : V3 A) : bool :=
  if box_valid b then box_is_inside b (box_to_box b p) else false.

(** BoundingBox::intersects, bounding_box.cpp:207-219. *)
Definition box_intersects (b o : Box) : bool :=
  if negb (box_valid b && box_valid o) then false else
  match b_type b, b_type o with
  | AABB, AABB => (v_lt (box_min b) (box_max o) && v_lt (box_min o) (box_max b))%bool
  | _, _ => false
  end.

(** BoundingBox::computeIoU, bounding_box.cpp:221-238. *)
Definition box_iou (b o : Box) : A :=
  if negb (box_valid b && box_valid o) then zero else
  match b_type b, b_type o with
  | AABB, AABB =>
      let lo := v_max (box_min b) (box_min o) in
      let hi := v_min (box_max b) (box_max o) in
      let size := v_max (v_sub hi lo) v_zero in
      let inter := v_prod size in
      let union := box_volume b + box_volume o - inter in
      inter / union
  | _, _ => zero
  end.

(** BoundingBox::operator==, bounding_box.cpp:240-254. *)
Definition box_eq (b o : Box) : bool :=
  if negb (box_type_eqb (b_type b) (b_type o)) then false else
  match b_type b with
  | INVALID => true
  | AABB => (v_eq (b_dim b) (b_dim o) && v_eq (b_center b) (b_center o))%bool
  | _ => (v_eq (b_dim b) (b_dim o) && v_eq (b_center b) (b_center o)
          && m_eq (b_rot b) (b_rot o))%bool
  end.

(** ** bounding_box_extraction.cpp *)

(** Eigen's normalized() of a 2-vector: divides by the norm if its square is
    positive and returns the vector unchanged otherwise. *)
Definition normalized (v : A * A) : A * A :=
  let n2 := v.1 * v.1 + v.2 * v.2 in
  if a_lt A zero n2 then (v.1 / a_sqrt A n2, v.2 / a_sqrt A n2) else v.

(** getAngle, getDist, getJointDirection, bounding_box_extraction.cpp:42-59. *)
Definition get_angle (curr root : V3 A) : A :=
  one - (normalized (vx curr - vx root, vy curr - vy root)).1.
Definition get_dist (curr root : V3 A) : A :=
  a_abs A (vx curr - vx root) + a_abs A (vy curr - vy root).
Definition joint_direction (prev curr next : V3 A) : A :=
  (vx curr - vx prev) * (vy next - vy prev) - (vy curr - vy prev) * (vx next - vx prev).

(** The root of the hull, bounding_box_extraction.cpp:62-76: the lowest point,
    the leftmost of those, the last of those. *)
Definition hull_root (points : list (V3 A)) (first : V3 A) : nat * V3 A :=
  (fold_left (fun acc p =>
     let '(i, (root, pos)) := acc in
     (S i, if (a_lt A (vy pos) (vy p) || (a_eq A (vy p) (vy pos) && a_lt A (vx pos) (vx p)))%bool
           then (root, pos) else (i, p)))
   points (0%nat, (0%nat, first))).2.

(** The comparison, bounding_box_extraction.cpp:78-90.  [std::abs(a_i - a_j) <
    1.0e-9f] is modelled as equality: both are differences [1.0f - x] with x in
    [-1, 1], which in binary32 are multiples of 2^-24 > 1e-9. *)
Definition hull_less (root p q : V3 A) : bool :=
  let ap := get_angle p root in
  let aq := get_angle q root in
  if a_eq A ap aq then a_lt A (get_dist p root) (get_dist q root) else a_lt A ap aq.

(** std::sort, bounding_box_extraction.cpp:99: modelled by insertion sort (the
    order of equivalent points is unspecified in C++; equivalent points have
    the same x and y). *)
Fixpoint insert_by {T} (less : T -> T -> bool) (x : T) (l : list T) : list T :=
  match l with
  | [] => [x]
  | y :: r => if less y x then y :: insert_by less x r else x :: l
  end.
Definition sort_by {T} (less : T -> T -> bool) (l : list T) : list T :=
  fold_right (insert_by less) [] l.

(** The hull as a stack with the last point first; the loop
    bounding_box_extraction.cpp:101-116. *)
Fixpoint hull_pop (stack : list (V3 A)) (p : V3 A) : list (V3 A) :=
  match stack with
  | prev :: ((curr :: _) as rest) =>
      if a_lt A (joint_direction prev curr p) zero then stack else hull_pop rest p
  | _ => stack
  end.

(** get2dConvexHull, bounding_box_extraction.cpp:61-119 (points instead of their
    indices). *)
Definition convex_hull (points : list (V3 A)) (first : V3 A) : list (V3 A) :=
  let '(root, root_pos) := hull_root points first in
  let others := firstn root points ++ skipn (S root) points in
  rev (fold_left (fun stack p => p :: hull_pop stack p)
         (sort_by (hull_less root_pos) others) [root_pos]).

(** BoxResult2D, bounding_box_extraction.cpp:121-126, with the direction n_h of
    the chosen edge instead of yaw = atan2(n_h.y, n_h.x). *)
Record Result2D := mkR2 {
  r_min : A * A; r_max : A * A; r_area : option A; r_dir : A * A }.

(** The body of the loop over the hull's edges, bounding_box_extraction.cpp:133-184:
    [c] is the current vertex, [others] the remaining vertices in cyclic order,
    the first of which is the next vertex (the vertex itself if it is alone).
    A^-1 is the closed formula Eigen uses for 2x2 matrices.  atan2(0, 0) = 0. *)
Definition edge_box (r : Result2D) (c : V3 A) (others : list (V3 A)) : Result2D :=
  let n := match others with [] => c | n :: _ => n end in
  let n_h := normalized (vx n - vx c, vy n - vy c) in
  let n_w := (- n_h.2, n_h.1) in
  let b_w := - (n_w.1 * vx c + n_w.2 * vy c) in
  let b_h := - (n_h.1 * vx c + n_h.2 * vy c) in
  let '(max_w, min_h, max_h) :=
    fold_left (fun acc x =>
      let '(max_w, min_h, max_h) := acc in
      let w := n_w.1 * vx x + n_w.2 * vy x + b_w in
      let h := n_h.1 * vx x + n_h.2 * vy x + b_h in
      (if a_le A max_w w then w else max_w,
       if a_le A h min_h then h else min_h,
       if a_le A max_h h then h else max_h)) others (zero, zero, zero) in
  let area := max_w * (max_h - min_h) in
  let skip := match r_area r with Some m => a_le A m area | None => false end in
  if skip then r else
  let det := n_w.1 * n_h.2 - n_w.2 * n_h.1 in
  let inv00 := n_h.2 / det in
  let inv01 := - n_w.2 / det in
  let inv10 := - n_h.1 / det in
  let inv11 := n_w.1 / det in
  let solve (b0 b1 : A) := (- inv00 * b0 + - inv01 * b1, - inv10 * b0 + - inv11 * b1) in
  let dir := if (a_eq A n_h.1 zero && a_eq A n_h.2 zero)%bool then (one, zero) else n_h in
  mkR2 (solve b_w (b_h - min_h)) (solve (b_w - max_w) (b_h - max_h)) (Some area) dir.

(** getMin2DBox, bounding_box_extraction.cpp:128-187. *)
Definition min_2d_box (hull : list (V3 A)) : Result2D :=
  (fold_left (fun acc c =>
     let '(r, before, after) := acc in
     (edge_box r c (after ++ rev before), c :: before, tl after))
   hull (mkR2 (zero, zero) (zero, zero) None (one, zero), [], tl hull)).1.1.

(** extractAABB, bounding_box_extraction.cpp:189-197. *)
Definition extract_aabb (first : V3 A) (rest : list (V3 A)) : Box :=
  let lo := fold_left v_min rest first in
  let hi := fold_left v_max rest first in
  box_aabb (v_sub hi lo) (v_half (v_add lo hi)).

(** extractOBB, bounding_box_extraction.cpp:199. *)
Definition extract_obb : Box := box_default.

(** extractRAABB, bounding_box_extraction.cpp:201-225. *)
Definition extract_raabb (first : V3 A) (rest : list (V3 A)) : Box :=
  let box := min_2d_box (convex_hull (first :: rest) first) in
  match r_area box with
  | None => box_default
  | Some _ =>
      let lo := fold_left (fun z p => a_min A (vz p) z) rest (vz first) in
      let hi := fold_left (fun z p => a_max A (vz p) z) rest (vz first) in
      let p_min := mkV3 (r_min box).1 (r_min box).2 lo in
      let p_max := mkV3 (r_max box).1 (r_max box).2 hi in
      let res := box_raabb v_zero (v_half (v_add p_min p_max)) (r_dir box).1 (r_dir box).2 in
      mkBox RAABB (v_sub (box_to_box res p_max) (box_to_box res p_min))
            (b_center res) (b_rot res)
  end.

(** bounding_box::extract, bounding_box_extraction.cpp:227-242; also the
    constructors BoundingBox(points, type), bounding_box.cpp:73-84. *)
Definition box_extract (points : list (V3 A)) (t : box_type) : Box :=
  match points with
  | [] => box_default
  | first :: rest =>
      match t with
      | INVALID => box_default
      | AABB => extract_aabb first rest
      | OBB => extract_obb
      | RAABB => extract_raabb first rest
      end
  end.

(** BoundingBox::mergeAABB, mergeGeneral and merge, bounding_box.cpp:140-178. *)
Definition box_merge_aabb (b o : Box) : Box :=
  let lo := v_min (box_min b) (box_min o) in
  let hi := v_max (box_max b) (box_max o) in
  mkBox (b_type b) (v_sub hi lo) (v_half (v_add lo hi)) (b_rot b).
Definition box_merge_general (b o : Box) : Box :=
  box_extract (box_corners b ++ box_corners o) (b_type b).
Definition box_merge (b o : Box) : Box :=
  if negb (box_valid o) then b else
  if negb (box_valid b) then o else
  match b_type b, b_type o with
  | AABB, AABB => box_merge_aabb b o
  | _, _ => box_merge_general b o
  end.

End box.
