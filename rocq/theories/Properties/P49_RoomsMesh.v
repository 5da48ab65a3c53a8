(** C77, C78, C79: none of the three changes the mesh. *)
From Coq Require Import NArith List.
From stdpp Require Import base.
From Verif.Model Require Import Types Mesh Attrs Graph Expand Repartition Label.
From Verif.Spec Require Import GraphObs.
From Verif.Proof Require Import RoomsMeshP.

Theorem C77_mesh : forall g g', reachable g -> expand_rooms g (Ok g') -> g_mesh g' = g_mesh g.
Proof. exact expand_rooms_mesh. Qed.
Print Assumptions C77_mesh.
Theorem C78_mesh : forall rooms check bad g g', reachable g -> repartition_rooms rooms check bad g (Ok g') -> g_mesh g' = g_mesh g.
Proof. exact repartition_mesh. Qed.
Print Assumptions C78_mesh.
Theorem C79_mesh : forall P S (area : list NodeAttrs -> option P) (iou : GtRoom -> P -> option S) less below gts polygon g g' r,
  add_gt_room_label area iou less below gts polygon g (g', r) -> g_mesh g' = g_mesh g.
Proof. intros P S area iou less below gts polygon g g' r H. exact (label_mesh area iou less below gts polygon g (g', r) H). Qed.
Print Assumptions C79_mesh.
