(** C62: boxes around the nodes below a node, and around a mesh. *)
From Coq Require Import NArith ZArith QArith Bool List Lia.
From stdpp Require Import base list gmap fin_maps relations.
From Verif.Model Require Import Types Mesh Attrs Node EdgeContainer SLayer DLayer Graph Search Views Numbers BBox Fit.
From Verif.Spec Require Import AbstractGraph GraphHistory GraphObs Search Views BoxSpec.
From Verif.Proof Require Import GraphRep GraphObsP QueryP.
From Verif.Properties Require Import ExGraph P09_Views P15_Boxes.
Local Open Scope N_scope.
Local Open Scope list_scope.
Set Default Proof Using "Type".

Lemma points_ok {I} (A : Arith) cast (get : I -> result Vec3) (pos : I -> Vec3) l : (forall x, x ∈ l -> get x = Ok (pos x)) ->
  points_of A cast get l = Ok (map (fun x => cast_point A cast (pos x)) l).
Proof.
  induction l as [|x r IH]; intros H; [reflexivity|]. cbn. rewrite (H x) by left. cbn. rewrite IH; [reflexivity|]. intros y Hy. apply H. right. exact Hy.
Qed.
Lemma points_throw {I} (A : Arith) cast (get : I -> result Vec3) l : (forall x, x ∈ l -> get x <> UB) -> (exists x, x ∈ l /\ get x = Throw) -> points_of A cast get l = Throw.
Proof.
  induction l as [|x r IH]; intros H (y & Hy & E); [inversion Hy|]. cbn. pose proof (H x ltac:(left)) as Hx.
  destruct (get x) as [p| |] eqn:Ex; [|reflexivity|congruence]. cbn. rewrite IH; [reflexivity| |].
  - intros z Hz. apply H. right. exact Hz.
  - apply elem_of_cons in Hy as [->|Hy]; [congruence|]. eauto.
Qed.

(** The positions of the nodes of a layer below a node. *)
Definition position_below (cast : N -> Q) (g : Graph) (p : N) (lid : LayerId) : V3 Q -> Prop := fun q =>
  exists d k t b, layer_of g d = Some (key_static lid) /\ below g p d /\ node_data g d = Some (k, t, b) /\
    q = mkV3 (cast (v_x (attrs_position b))) (cast (v_y (attrs_position b))) (cast (v_z (attrs_position b))).
(** A point that may be written with other fractions. *)
Definition there (S : V3 Q -> Prop) : V3 Q -> Prop := fun p => exists q, S q /\ same_point p q.
Definition spread (S : V3 Q -> Prop) (f : V3 Q -> Q) : Prop := exists p q, S p /\ S q /\ (f p < f q)%Q.

(** The box around a set of points, given as a list. *)
Lemma box_around sq (S : V3 Q -> Prop) ps : (forall q, In q ps <-> S q) ->
  let b := box_extract (exact sq) ps AABB in
  (box_valid (exact sq) b = true <-> spread S vx /\ spread S vy /\ spread S vz) /\
  (box_valid (exact sq) b = true -> smallest_aligned sq b (there S)).
Proof.
  intros HS b. destruct (C48_fit_is_smallest sq ps) as [H1 H2]. fold b in H1, H2.
  assert (HD : forall f, differ ps f <-> spread S f) by (intros f; unfold differ, spread; setoid_rewrite HS; reflexivity).
  assert (HL : forall q, listed ps q <-> there S q) by (intros q; unfold listed, there; setoid_rewrite HS; reflexivity).
  split; [rewrite H1, !HD; reflexivity|]. intros V. destruct (H2 V) as (K1 & K2 & K3). split; [exact K1|]. split.
  - intros q Hq. apply K2, HL, Hq.
  - intros x Hx Hc. apply K3; [exact Hx|]. intros q Hq. apply Hc, HL, Hq.
Qed.

(** computeAncestorBoundingBox with type AABB gives the smallest axis-aligned box around the
    nodes of the layer below the given node; the box is valid exactly if those nodes differ
    along every axis. *)
Theorem C62_box_around_the_nodes_below : forall sq cast g p lid, reachable g -> 1 <= lid ->
  exists b, finishes (ancestor_box (exact sq) cast g p lid AABB) b /\
    (box_valid (exact sq) b = true <->
       spread (position_below cast g p lid) vx /\ spread (position_below cast g p lid) vy /\ spread (position_below cast g p lid) vz) /\
    (box_valid (exact sq) b = true -> smallest_aligned sq b (there (position_below cast g p lid))).
Proof.
  intros sq cast g p lid Hr Hl. destruct (reachable_RepL g Hr) as [a [HR _]].
  destruct (C33_callback_on_exactly_the_nodes_below g (key_static lid) p Hr) as (vs & (n & Hf) & _ & H & _); [left; eauto|].
  pose proof (H Hl) as HV. clear H.
  set (pos := fun x => match node_data g x with Some (_, _, b) => attrs_position b | None => mkVec3 0 0 0 end).
  assert (HP : forall x, x ∈ vs -> g_get_position g x = Ok (pos x) /\ is_Some (node_data g x)).
  { intros x Hx. rewrite (position_query g a x HR). apply HV in Hx as [Hx _]. unfold pos. destruct (node_data g x) as [[[k t] b]|] eqn:E; [split; [reflexivity|eauto]|]. exfalso.
    unfold node_data in E. rewrite Hx in E. destruct (known_layer g a x _ HR Hx) as [(s & m & _ & _ & _ & _ & Hno & _)|(d & m & _ & _ & _ & _ & Hno & _)]; rewrite Hno in E; discriminate. }
  set (ps := map (fun x => cast_point (exact sq) cast (pos x)) vs).
  exists (box_extract (exact sq) ps AABB). split.
  - exists n. intros fuel Hle. unfold ancestor_box. rewrite (Hf fuel Hle). unfold fit. cbn [reads_points]. rewrite (points_ok _ _ _ pos vs); [reflexivity|]. intros x Hx. apply HP, Hx.
  - apply box_around. intros q. unfold ps. rewrite in_map_iff. unfold position_below. split.
    + intros (x & <- & Hx). apply elem_of_list_In in Hx. destruct (HP x Hx) as [_ [[[k t] b] E]]. apply HV in Hx as [H1 H2]. exists x, k, t, b. split; [exact H1|]. split; [exact H2|]. split; [exact E|].
      unfold pos. rewrite E. reflexivity.
    + intros (d & k & t & b & H1 & H2 & H3 & ->). exists d. split; [unfold pos; rewrite H3; reflexivity|]. apply elem_of_list_In, HV. auto.
Qed.
Print Assumptions C62_box_around_the_nodes_below.

(** It never fails, whatever the type of the box, the layer and the arithmetic; without nodes
    below, and always for the type OBB, the result is the invalid default box. *)
Theorem C62_never_fails : forall (A : Arith) cast g p lid t, reachable g ->
  exists b, finishes (ancestor_box A cast g p lid t) b /\
    ((t = INVALID \/ t = OBB \/ ~ exists d, layer_of g d = Some (key_static lid) /\ below g p d) -> b = box_default A).
Proof.
  intros A cast g p lid t Hr. destruct (reachable_RepL g Hr) as [a [HR _]].
  destruct (C33_callback_on_exactly_the_nodes_below g (key_static lid) p Hr) as (vs & (n & Hf) & HV & _ & _); [left; eauto|].
  set (pos := fun x => match node_data g x with Some (_, _, b) => attrs_position b | None => mkVec3 0 0 0 end).
  assert (HP : forall x, x ∈ vs -> g_get_position g x = Ok (pos x)).
  { intros x Hx. rewrite (position_query g a x HR). apply HV in Hx as [Hx _]. unfold pos. destruct (node_data g x) as [[[k t'] b]|] eqn:E; [reflexivity|]. exfalso.
    unfold node_data in E. rewrite Hx in E. destruct (known_layer g a x _ HR Hx) as [(s & m & _ & _ & _ & _ & Hno & _)|(d & m & _ & _ & _ & _ & Hno & _)]; rewrite Hno in E; discriminate. }
  pose proof (points_ok A cast _ pos vs HP) as HPs.
  destruct (reads_points t) eqn:Et.
  - exists (box_extract A (map (fun x => cast_point A cast (pos x)) vs) t). split.
    + exists n. intros fuel Hle. unfold ancestor_box. rewrite (Hf fuel Hle). unfold fit. rewrite Et, HPs. reflexivity.
    + intros [->|[->|Hno]]; [discriminate|discriminate|]. destruct vs as [|d vs]; [reflexivity|]. exfalso. apply Hno. exists d. apply HV. left.
  - exists (box_default A). split; [|reflexivity]. exists n. intros fuel Hle. unfold ancestor_box. rewrite (Hf fuel Hle). unfold fit. rewrite Et. reflexivity.
Qed.
Print Assumptions C62_never_fails.

(** A box around a mesh, or around the vertices at given indices (each below the number of
    vertices): the smallest axis-aligned box around them.  Another index throws. *)
Definition vertex (cast : N -> Q) (m : Mesh) (indices : option (list N)) : V3 Q -> Prop := fun q =>
  exists i v, m_points m !! N.to_nat i = Some v /\ (match indices with Some l => i ∈ l | None => True end) /\
    q = mkV3 (cast (v_x v)) (cast (v_y v)) (cast (v_z v)).
Theorem C62_box_around_a_mesh : forall sq cast m indices,
  (forall l i, indices = Some l -> i ∈ l -> i < N.of_nat (length (m_points m))) ->
  exists b, mesh_box (exact sq) cast m indices AABB = Ok b /\
    (box_valid (exact sq) b = true <->
       spread (vertex cast m indices) vx /\ spread (vertex cast m indices) vy /\ spread (vertex cast m indices) vz) /\
    (box_valid (exact sq) b = true -> smallest_aligned sq b (there (vertex cast m indices))).
Proof.
  intros sq cast m indices Hin.
  assert (HI : forall i, i ∈ mesh_indices m indices <-> i < N.of_nat (length (m_points m)) /\ match indices with Some l => i ∈ l | None => True end).
  { intros i. destruct indices as [l|]; cbn.
    - split; [|intros [_ H]; exact H]. intros H. split; [apply (Hin l i eq_refl H)|exact H].
    - rewrite elem_of_list_In, in_map_iff. setoid_rewrite in_seq. split; [intros (x & <- & H); split; [lia|exact I]|]. intros [H _]. exists (N.to_nat i). lia. }
  set (pos := fun i => default (mkVec3 0 0 0) (m_points m !! N.to_nat i)).
  assert (HP : forall i, i ∈ mesh_indices m indices -> mesh_pos m i = Ok (pos i) /\ m_points m !! N.to_nat i = Some (pos i)).
  { intros i Hi. apply HI in Hi as [Hi _]. unfold mesh_pos, vat. apply N.ltb_lt in Hi as Hb. rewrite Hb. destruct (m_points m !! N.to_nat i) as [v|] eqn:E; [unfold pos; rewrite E; auto|].
    apply lookup_ge_None in E. lia. }
  exists (box_extract (exact sq) (map (fun x => cast_point (exact sq) cast (pos x)) (mesh_indices m indices)) AABB). split.
  - unfold mesh_box, fit. cbn [reads_points]. rewrite (points_ok _ _ _ pos); [reflexivity|]. intros i Hi. apply HP, Hi.
  - apply box_around. intros q. rewrite in_map_iff. unfold vertex. split.
    + intros (i & <- & Hi). apply elem_of_list_In in Hi. exists i, (pos i). split; [apply HP, Hi|]. split; [apply HI, Hi|reflexivity].
    + intros (i & v & H1 & H2 & ->). exists i. split; [unfold pos; rewrite H1; reflexivity|]. apply elem_of_list_In, HI. split; [|exact H2]. apply lookup_lt_Some in H1. lia.
Qed.
Print Assumptions C62_box_around_a_mesh.
Theorem C62_index_out_of_range : forall (A : Arith) cast m l i t, i ∈ l -> N.of_nat (length (m_points m)) <= i -> t = AABB \/ t = RAABB ->
  mesh_box A cast m (Some l) t = Throw.
Proof.
  intros A cast m l i t Hi Hb Ht. unfold mesh_box, fit. assert (E : points_of A cast (mesh_pos m) l = Throw).
  { apply points_throw.
    - intros x _. unfold mesh_pos, vat. destruct (x <? N.of_nat (length (m_points m))); [|discriminate]. destruct (m_points m !! N.to_nat x); discriminate.
    - exists i. split; [exact Hi|]. unfold mesh_pos, vat. apply N.ltb_ge in Hb. rewrite Hb. reflexivity. }
  destruct Ht as [->| ->]; cbn [reads_points mesh_indices]; rewrite E; reflexivity.
Qed.
Print Assumptions C62_index_out_of_range.

(** A box of type OBB is never fitted. *)
Theorem C62_obb_refuted : forall (A : Arith) cast g p lid, reachable g ->
  finishes (ancestor_box A cast g p lid OBB) (box_default A) /\ box_valid A (box_default A) = false.
Proof.
  intros A cast g p lid Hr. destruct (C62_never_fails A cast g p lid OBB Hr) as (b & H1 & H2). rewrite <- (H2 (or_intror (or_introl eq_refl))) at 1. split; [exact H1|reflexivity].
Qed.
Print Assumptions C62_obb_refuted.

(** A concrete case: two places at (0,0,0) and (2,4,6) below a room, another place elsewhere;
    and a mesh with vertices at (0,0,0), (9,9,9), (2,4,6), of which the first and third are
    selected.  Here a stored coefficient stands for itself as a number. *)
Definition as_number (b : N) : Q := inject_Z (Z.of_N b).
Definition fit_ops : list gop :=
  [ GEmplace PLACES 10 (base_at 0 0 0); GEmplace PLACES 11 (base_at 2 4 6); GEmplace PLACES 12 (base_at 9 9 9);
    GEmplace ROOMS 20 (base_at 0 1 0); GInsertEdge 20 10 None; GInsertEdge 20 11 None ].
Definition fit_graph : Graph := match run_b ex_start fit_ops with Some g => g | None => ex_start end.
Definition fit_mesh : Mesh := mkMesh false false false false [mkVec3 0 0 0; mkVec3 9 9 9; mkVec3 2 4 6] [] [] [] [] [].
Definition box_is (b : Box (exact q_sqrt)) (x y z : Q) : bool :=
  box_valid X b && box_contains X b (pt 0 0 0) && box_contains X b (pt x y z) && negb (box_contains X b (pt 9 9 9)) &&
  Qeq_bool (vx (b_dim X b)) x && Qeq_bool (vy (b_dim X b)) y && Qeq_bool (vz (b_dim X b)) z.
Example C62_case : reachable fit_graph /\
  (match ancestor_box X as_number fit_graph 20 PLACES AABB 10 with Some (Ok b) => box_is b 2 4 6 | _ => false end) = true /\
  (match mesh_box X as_number fit_mesh (Some [0; 2]) AABB with Ok b => box_is b 2 4 6 | _ => false end) = true /\
  (match mesh_box X as_number fit_mesh None AABB with Ok b => box_contains X b (pt 9 9 9) | _ => false end) = true.
Proof. split; [apply run_b_start; vm_compute; reflexivity|]. vm_compute. auto. Qed.
