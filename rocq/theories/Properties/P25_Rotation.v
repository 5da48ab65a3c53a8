(** C56 the orientation of a bounding box survives JSON.  JSON stores the rotation matrix of a
    box as a quaternion and rebuilds the matrix from it (Model/Rotation.v). *)
From Coq Require Import Reals Lra NArith List.
From stdpp Require Import base list.
From Verif.Model Require Import Numbers BBox Attrs Json Rotation.
From Verif.Spec Require Import RotationSpec JsonSpec.
From Verif.Proof Require Import RotationP.

Section Exact.
Local Open Scope R_scope.
(** In exact arithmetic every rotation matrix comes back unchanged, *)
Theorem C56_rotation_kept : forall m, is_rotation m -> rot_of_quat reals (quat_of_rot reals m) = m.
Proof. exact rotation_back. Qed.
Print Assumptions C56_rotation_kept.
(** the quaternion in the text is a unit quaternion, *)
Theorem C56_quaternion_unit : forall m, is_rotation m ->
  let q := quat_of_rot reals m in qw q * qw q + qx q * qx q + qy q * qy q + qz q * qz q = 1.
Proof. exact rotation_unit. Qed.
Print Assumptions C56_quaternion_unit.
(** and every unit quaternion in a text is read as a rotation. *)
Theorem C56_read_rotation : forall q, qw q * qw q + qx q * qx q + qy q * qy q + qz q * qz q = 1 -> is_rotation (rot_of_quat reals q).
Proof. exact unit_rotation. Qed.
Print Assumptions C56_read_rotation.

(** a rotation that is none of the simple ones: (2 -1 2; 2 2 -1; -1 2 2) / 3 *)
Definition skew : M3 R := mkM3 (mkV3 (2/3) (-1/3) (2/3)) (mkV3 (2/3) (2/3) (-1/3)) (mkV3 (-1/3) (2/3) (2/3)).
Lemma skew_rotation : is_rotation skew.
Proof. unfold is_rotation, dot, det, skew; cbn. repeat split; lra. Qed.
(** one in the branch for a negative trace: half a turn about the axis (3 4 0) / 5 *)
Definition half_turn : M3 R := mkM3 (mkV3 (-7/25) (24/25) 0) (mkV3 (24/25) (7/25) 0) (mkV3 0 0 (-1)).
Lemma half_turn_rotation : is_rotation half_turn.
Proof. unfold is_rotation, dot, det, half_turn; cbn. repeat split; lra. Qed.
Example C56_ex : rot_of_quat reals (quat_of_rot reals skew) = skew /\ rot_of_quat reals (quat_of_rot reals half_turn) = half_turn.
Proof. split; apply C56_rotation_kept; [exact skew_rotation|exact half_turn_rotation]. Qed.

(** Not so for a reflection: the rows of a mirrored frame are orthonormal, but what comes back
    is another matrix. *)
Definition mirror : M3 R := mkM3 (mkV3 1 0 0) (mkV3 0 1 0) (mkV3 0 0 (-1)).
Theorem C56_reflection_refuted :
  dot (mx mirror) (mx mirror) = 1 /\ dot (my mirror) (my mirror) = 1 /\ dot (mz mirror) (mz mirror) = 1 /\
  dot (mx mirror) (my mirror) = 0 /\ dot (mx mirror) (mz mirror) = 0 /\ dot (my mirror) (mz mirror) = 0 /\
  rot_of_quat reals (quat_of_rot reals mirror) <> mirror.
Proof.
  unfold dot, mirror; cbn. repeat (split; [lra|]). intros E.
  apply (f_equal (fun m => vz (mz m))) in E. revert E.
  unfold quat_of_rot, rot_of_quat; cbn.
  destruct (Rlt_dec 0 (1 + (1 + -1))) as [_|n]; [|exfalso; apply n; lra]. cbn.
  replace (0 - 0) with 0 by lra. rewrite !Rmult_0_l, !Rmult_0_r. lra.
Qed.
Print Assumptions C56_reflection_refuted.
End Exact.

Local Open Scope N_scope.
(** In floats the rotations whose quaternion is made of 0, 1/2 and 1 are exact: the identity,
    the half turns about the axes, and the turns that permute the axes. *)
Local Notation one := 0x3F800000. Local Notation neg := 0xBF800000.
Definition exact_turns : list Matrix :=
  map (mkMatrix 3 3)
    [[one;0;0; 0;one;0; 0;0;one]; [one;0;0; 0;neg;0; 0;0;neg]; [neg;0;0; 0;one;0; 0;0;neg]; [neg;0;0; 0;neg;0; 0;0;one];
     [0;0;one; one;0;0; 0;one;0]; [0;one;0; 0;0;one; one;0;0]; [0;0;neg; neg;0;0; 0;one;0]; [0;neg;0; 0;0;one; neg;0;0];
     [0;0;neg; one;0;0; 0;neg;0]; [0;one;0; 0;0;neg; neg;0;0]; [0;0;one; neg;0;0; 0;neg;0]; [0;neg;0; 0;0;neg; one;0;0]].
Theorem C56_exact_in_floats : forall m, m ∈ exact_turns -> rotation_through_quaternion m = m.
Proof.
  enough (H : Forall (fun m => rotation_through_quaternion m = m) exact_turns) by (intros m Hm; exact (proj1 (stdpp.list.Forall_forall _ _) H m Hm)).
  unfold exact_turns. cbn [map]. repeat (apply stdpp.list.Forall_cons; split; [vm_compute; reflexivity|]). apply stdpp.list.Forall_nil. exact I.
Qed.
Print Assumptions C56_exact_in_floats.
(** A quarter turn about the vertical axis is not: its zeros become 2^-24 and, saving and
    loading again, the matrix moves further away. *)
Definition quarter_turn : Matrix := mkMatrix 3 3 [0;neg;0; one;0;0; 0;0;one].
Theorem C56_quarter_turn_refuted :
  rotation_through_quaternion quarter_turn = mkMatrix 3 3 [0x33800000; 0xBF7FFFFF; 0; 0x3F7FFFFF; 0x33800000; 0; 0; 0; one] /\
  rotation_through_quaternion (rotation_through_quaternion quarter_turn) <> rotation_through_quaternion quarter_turn.
Proof. split; [vm_compute; reflexivity|vm_compute; discriminate]. Qed.
Print Assumptions C56_quarter_turn_refuted.
