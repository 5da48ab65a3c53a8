(** What add_gt_room_label promises. *)
From Coq Require Import NArith List.
From stdpp Require Import base list.
From Verif.Model Require Import Types Mesh Attrs Node Graph Label.
From Verif.Spec Require Import GraphObs RepartitionSpec.
Local Open Scope N_scope.
Local Open Scope list_scope.

(** The second attributes are the first ones with the label [l]. *)
Inductive sem_relabelled (l : N) : SemAttrs -> SemAttrs -> Prop :=
| sem_re b n c bb l0 f : sem_relabelled l (mkSem b n c bb l0 f) (mkSem b n c bb l f).
Inductive relabelled (l : N) : NodeAttrs -> NodeAttrs -> Prop :=
| re_sem s s' : sem_relabelled l s s' -> relabelled l (ASem s) (ASem s')
| re_obj s s' m r q : sem_relabelled l s s' -> relabelled l (AObj (mkObj s m r q)) (AObj (mkObj s' m r q))
| re_room s s' p : sem_relabelled l s s' -> relabelled l (ARoom (Attrs.mkRoom s p)) (ARoom (Attrs.mkRoom s' p))
| re_place s s' d b v p m f r c o sc q n : sem_relabelled l s s' ->
    relabelled l (APlace (mkPlace s d b v p m f r c o sc q n)) (APlace (mkPlace s' d b v p m f r c o sc q n))
| re_place2d s s' b c co e pb v p mi ma m d f cl am : sem_relabelled l s s' ->
    relabelled l (APlace2d (mkPlace2d s b c co e pb v p mi ma m d f cl am)) (APlace2d (mkPlace2d s' b c co e pb v p mi ma m d f cl am))
| re_khronos s s' m r q fi la me tt tp po de : sem_relabelled l s s' ->
    relabelled l (AKhronos (mkKhronos (mkObj s m r q) fi la me tt tp po de)) (AKhronos (mkKhronos (mkObj s' m r q) fi la me tt tp po de)).
(** Attributes with a label. *)
Definition has_label (a : NodeAttrs) : Prop := match a with ANode _ | AAgent _ => False | _ => True end.

Section label.
Context {P S : Type} (area : list NodeAttrs -> option P) (iou : GtRoom -> P -> option S) (less : S -> S -> bool) (below : S -> bool).
Context (gts : list GtRoom) (g : Graph).

(** [l] has the attributes of the children of [x], in some order. *)
Definition children_of (x : N) (l : list NodeAttrs) : Prop :=
  exists ids, NoDup ids /\ (forall y, y ∈ ids <-> is_parent_of g x y) /\ Forall2 (has_attrs g) ids l.
(** [gt] is, of the rooms of the house at the height of [pos], the first with the largest ratio [s]. *)
Definition overlaps_most (pos : Vec3) (p : P) (gt : GtRoom) (s : S) : Prop :=
  exists pre post, gts = pre ++ gt :: post /\ gr_floor gt pos = true /\ iou gt p = Some s /\
    (forall o, o ∈ pre -> gr_floor o pos = true -> exists s', iou o p = Some s' /\ less s' s = true) /\
    (forall o, o ∈ post -> gr_floor o pos = true -> exists s', iou o p = Some s' /\ less s s' = false).
(** The label the room [x] is to get: none if the largest ratio is below the threshold. *)
Definition decided (x : N) (o : option N) : Prop :=
  exists a l p gt s, has_attrs g x a /\ children_of x l /\ area l = Some p /\ overlaps_most (attrs_position a) p gt s /\
    o = (if below s then None else Some (gr_label gt)).
(** The label of the room [x] cannot be found, or cannot be written. *)
Definition fails (x : N) : Prop :=
  exists a l, has_attrs g x a /\ children_of x l /\
    (area l = None \/
     (exists p, area l = Some p /\
       ((exists gt, gt ∈ gts /\ gr_floor gt (attrs_position a) = true /\ iou gt p = None) \/
        (forall gt, gt ∈ gts -> gr_floor gt (attrs_position a) = false))) \/
     (~ has_label a /\ exists label, decided x (Some label))).
(** The attributes once [o] is decided. *)
Definition labelled (o : option N) (a a' : NodeAttrs) : Prop :=
  match o with None => a' = a | Some l => relabelled l a a' end.
(** In [g'] the room [x] has the label that it is to get, and is as before otherwise. *)
Definition settled (x : N) (g' : Graph) : Prop :=
  exists o k t a a', decided x o /\ node_data g x = Some (k, t, a) /\ labelled o a a' /\ node_data g' x = Some (k, t, a').
End label.

(** Ratios that are compared as numbers are: a strict weak order. *)
Definition strict_weak {S} (less : S -> S -> bool) : Prop :=
  (forall a b, less a b = true -> less b a = false) /\ forall a b c, less a c = true -> less a b = true \/ less b c = true.
