(** The matrices of a mesh (C64) and rigid motions (C65). *)
From Coq Require Import NArith ZArith QArith Bool List Lia.
From stdpp Require Import base list gmap.
From Verif.Model Require Import Types Node Mesh Json MeshMatrix BBox Numbers.
From Verif.Spec Require Import MeshSpec BoxSpec BinarySpec MeshMatrixSpec.
From Verif.Proof Require Import MeshP JsonNum BBoxP.
Local Open Scope N_scope.

(** ** Channels: the 256 values *)
Definition all_bytes : list N := map N.of_nat (seq 0 256).
Lemma elem_bytes c : c < 256 -> In c all_bytes.
Proof. intros H. unfold all_bytes. apply in_map_iff. exists (N.to_nat c). split; [lia|]. apply in_seq. lia. Qed.
Lemma byte_sweep (f : N -> bool) : forallb f all_bytes = true -> forall c, c < 256 -> f c = true.
Proof. intros H c Hc. exact (proj1 (forallb_forall f all_bytes) H c (elem_bytes c Hc)). Qed.
Lemma channel_back c : c < 256 -> channel_in (channel_out c) = Ok c.
Proof.
  intros Hc. pose proof (byte_sweep (fun c => match channel_in (channel_out c) with Ok b => b =? c | _ => false end)) as H.
  specialize (H ltac:(vm_compute; reflexivity) c Hc). cbv beta in H.
  destruct (channel_in (channel_out c)) as [b| |]; try discriminate. apply N.eqb_eq in H. congruence.
Qed.
Lemma channel_in_byte v b : channel_in v = Ok b -> b < 256.
Proof. unfold channel_in. destruct (f32_trunc _) as [x|]; [|discriminate]. destruct (N.ltb_spec x 256); [|discriminate]. intros [= <-]. assumption. Qed.
Lemma channel_in_throw v : channel_in v <> Throw.
Proof. unfold channel_in. destruct (f32_trunc _) as [x|]; [|discriminate]. destruct (N.ltb x 256); discriminate. Qed.

(** ** Lists written position by position *)
Lemma map_result_seq {B} (f : nat -> result B) (g : nat -> B) n : forall j, (forall i, (j <= i < j + n)%nat -> f i = Ok (g i)) ->
  map_result f (seq j n) = Ok (map g (seq j n)).
Proof.
  induction n as [|n IH]; intros j H; [reflexivity|]. cbn [seq map map_result]. rewrite (H j) by lia. cbn [rbind].
  rewrite IH by (intros i Hi; apply H; lia). reflexivity.
Qed.
Lemma vset_some {A} (l : list A) (i : nat) a : (i < length l)%nat -> vset l (N.of_nat i) a = Ok (<[i := a]> l).
Proof. intros H. unfold vset. rewrite (proj2 (N.ltb_lt _ _)) by lia. rewrite Nat2N.id. reflexivity. Qed.
Lemma vat_some {A} (l : list A) (i : nat) x : l !! i = Some x -> vat l (N.of_nat i) = Ok x.
Proof. intros H. apply vat_Ok. rewrite Nat2N.id. exact H. Qed.

Definition pos_of (c : list N) : Vec3 :=
  mkVec3 (double_to_float (nth 0 c 0)) (double_to_float (nth 1 c 0)) (double_to_float (nth 2 c 0)).
Definition chan_ok (c : list N) : bool :=
  match channel_in (nth 3 c 0), channel_in (nth 4 c 0), channel_in (nth 5 c 0) with Ok _, Ok _, Ok _ => true | _, _, _ => false end.
Definition byte_in (v : N) : N := match channel_in v with Ok b => b | _ => 0 end.
Definition color_of (c : list N) : Color := mkColor (byte_in (nth 3 c 0)) (byte_in (nth 4 c 0)) (byte_in (nth 5 c 0)) 255.

Lemma entry_some {T} (p : Columns T) (r i : nat) c d : cs_cols p !! i = Some c -> (r < length c)%nat -> entry p r i = Ok (nth r c d).
Proof.
  intros H Hr. unfold entry. rewrite H. cbn [mbind option_bind]. destruct (c !! r) as [x|] eqn:E; [|apply lookup_ge_None in E; lia].
  cbn [deref]. f_equal. symmetry. apply nth_lookup_Some with (d := d) in E. exact E.
Qed.

Lemma set_vertex_eq p m i c : cs_cols p !! i = Some c -> length c = 6%nat -> (i < length (m_points m))%nat ->
  (m_has_colors m = true -> (i < length (m_colors m))%nat) ->
  set_vertex p m i = if m_has_colors m && negb (chan_ok c) then UB
    else Ok (mkMesh (m_has_colors m) (m_has_stamps m) (m_has_labels m) (m_has_first m) (<[i := pos_of c]> (m_points m))
               (if m_has_colors m then <[i := color_of c]> (m_colors m) else m_colors m)
               (m_stamps m) (m_first m) (m_labels m) (m_faces m)).
Proof.
  intros Hc Hl Hi Hcol. unfold set_vertex.
  rewrite (entry_some p 0 i c 0 Hc), (entry_some p 1 i c 0 Hc), (entry_some p 2 i c 0 Hc) by lia. cbn [rbind].
  unfold mesh_set_pos. rewrite vset_some by exact Hi. cbn [rmap rbind m_has_colors]. destruct (m_has_colors m) eqn:E; [|reflexivity].
  rewrite (entry_some p 3 i c 0 Hc), (entry_some p 4 i c 0 Hc), (entry_some p 5 i c 0 Hc) by lia. cbn [rbind].
  unfold chan_ok, color_of, byte_in.
  pose proof (channel_in_throw (nth 3 c 0)) as T3. pose proof (channel_in_throw (nth 4 c 0)) as T4. pose proof (channel_in_throw (nth 5 c 0)) as T5.
  destruct (channel_in (nth 3 c 0)) as [r| |]; [|congruence|reflexivity].
  destruct (channel_in (nth 4 c 0)) as [g| |]; [|congruence|reflexivity].
  destruct (channel_in (nth 5 c 0)) as [b| |]; [|congruence|reflexivity].
  cbn [rbind andb negb]. unfold mesh_set_color. cbn [m_colors]. rewrite vset_some by auto. cbn [rmap rbind]. reflexivity.
Qed.

(** The loop over all columns. *)
Lemma set_loop p k : forall j m, (j + k <= length (m_points m))%nat -> (m_has_colors m = true -> length (m_colors m) = length (m_points m)) ->
  (j + k <= length (cs_cols p))%nat -> (forall c, c ∈ cs_cols p -> length c = 6%nat) ->
  let m' := mkMesh (m_has_colors m) (m_has_stamps m) (m_has_labels m) (m_has_first m)
              (take j (m_points m) ++ map pos_of (take k (drop j (cs_cols p))) ++ drop (j + k) (m_points m))
              (if m_has_colors m then take j (m_colors m) ++ map color_of (take k (drop j (cs_cols p))) ++ drop (j + k) (m_colors m) else m_colors m)
              (m_stamps m) (m_first m) (m_labels m) (m_faces m) in
  rfold (set_vertex p) (seq j k) m =
    if m_has_colors m && negb (forallb chan_ok (take k (drop j (cs_cols p)))) then UB else Ok m'.
Proof.
  assert (step : forall A (l : list A) j k x, (j + S k <= length l)%nat ->
     forall r, take (S j) (<[j := x]> l) ++ r ++ drop (S j + k) (<[j := x]> l) = take j l ++ (x :: r) ++ drop (j + S k) l).
  { intros A l j k' x H r. rewrite (take_S_r _ _ x) by (apply list_lookup_insert; lia). rewrite take_insert by lia.
    rewrite drop_insert_gt by lia. replace (S j + k')%nat with (j + S k')%nat by lia. rewrite <- app_assoc. reflexivity. }
  induction k as [|k IH]; intros j m Hm Hc Hp H6 m'; cbn [seq rfold].
  - unfold m'. rewrite take_0. cbn [forallb map app negb]. rewrite andb_false_r, Nat.add_0_r, !take_drop. destruct m as [[] ? ? ? ? ? ? ? ? ?]; reflexivity.
  - destruct (cs_cols p !! j) as [c|] eqn:E; [|apply lookup_ge_None in E; lia].
    assert (L6 : length c = 6%nat) by (apply H6; eapply elem_of_list_lookup_2; exact E).
    rewrite (set_vertex_eq p m j c E L6) by first [lia|intros Hh; rewrite (Hc Hh); lia].
    rewrite (drop_S _ _ _ E) in *. cbn [take forallb].
    destruct (m_has_colors m) eqn:Eh; cbn [andb].
    + destruct (chan_ok c); cbn [negb andb rbind]; [|reflexivity]. rewrite IH; cbn [m_points m_colors m_has_colors]; rewrite ?insert_length; [|lia|auto|lia|exact H6].
      cbn [andb]. destruct (forallb chan_ok _); cbn [negb]; [|reflexivity]. f_equal. unfold m'. rewrite (drop_S _ _ _ E). cbn [take map m_has_stamps m_has_labels m_has_first m_stamps m_first m_labels m_faces].
      rewrite ?Eh, !step by (try rewrite Hc by reflexivity; lia). reflexivity.
    + cbn [rbind]. rewrite IH; cbn [m_points m_colors m_has_colors]; rewrite ?insert_length; [|lia|discriminate|lia|exact H6].
      cbn [andb]. f_equal. unfold m'. rewrite (drop_S _ _ _ E). cbn [take map m_has_stamps m_has_labels m_has_first m_stamps m_first m_labels m_faces].
      rewrite ?Eh, !step by lia. reflexivity.
Qed.

Lemma set_vertices_eq p m : cs_rows p = 6 -> (forall c, c ∈ cs_cols p -> length c = 6%nat) ->
  set_vertices m p = if m_has_colors m && negb (forallb chan_ok (cs_cols p)) then UB
    else let r := mesh_resize_vertices (length (cs_cols p)) m in
      Ok (mkMesh (m_has_colors m) (m_has_stamps m) (m_has_labels m) (m_has_first m) (map pos_of (cs_cols p))
            (if m_has_colors m then map color_of (cs_cols p) else m_colors m) (m_stamps r) (m_first r) (m_labels r) (m_faces m)).
Proof.
  intros H1 H2. unfold set_vertices. rewrite H1. cbn [N.eqb Pos.eqb negb].
  set (n := length (cs_cols p)). rewrite (set_loop p n 0); unfold mesh_resize_vertices; cbn [m_points m_has_colors m_colors]; unfold vresize; rewrite ?resize_length; try lia.
  - rewrite !drop_0, !Nat.add_0_l. cbn [m_has_colors m_points m_colors m_has_stamps m_has_labels m_has_first m_stamps m_first m_labels m_faces].
    rewrite (take_ge (cs_cols p)) by (unfold n; lia). destruct (m_has_colors m) eqn:Eh; cbn [andb].
    + destruct (forallb chan_ok (cs_cols p)); cbn [negb]; [|reflexivity]. rewrite !take_0, !drop_ge by (rewrite resize_length; lia). rewrite !app_nil_r. reflexivity.
    + rewrite !take_0, !drop_ge by (rewrite resize_length; lia). rewrite !app_nil_r. reflexivity.
  - intros Hh. rewrite Hh. rewrite resize_length. reflexivity.
  - exact H2.
Qed.

(** ** Reading *)
Definition col_of (pc : Vec3 * option Color) : list N :=
  [float_to_double (v_x (fst pc)); float_to_double (v_y (fst pc)); float_to_double (v_z (fst pc))] ++
  match snd pc with Some c => [channel_out (c_r c); channel_out (c_g c); channel_out (c_b c)] | None => [0; 0; 0] end.
Lemma get_vertices_eq m : exists p, get_vertices m = Ok p /\ has_rows 6 p /\ length (cs_cols p) = length (m_points m) /\
  forall i q, m_points m !! i = Some q -> cs_cols p !! i = Some (col_of (q, m_colors m !! i)).
Proof.
  set (g := fun i => col_of (default (mkVec3 0 0 0) (m_points m !! i), m_colors m !! i)).
  assert (HG : map_result (vertex_column m) (seq 0 (length (m_points m))) = Ok (map g (seq 0 (length (m_points m))))).
  { apply map_result_seq. intros i Hi. unfold vertex_column, mesh_pos. destruct (m_points m !! i) as [q|] eqn:E; [|apply lookup_ge_None in E; lia].
    rewrite (vat_some _ _ _ E). cbn [rbind]. unfold g. rewrite E. cbn [default]. destruct (m_colors m !! i) as [c|] eqn:Ec.
    - pose proof (lookup_lt_Some _ _ _ Ec) as Hl. rewrite (proj2 (N.ltb_lt _ _)) by lia. unfold mesh_color. rewrite (vat_some _ _ _ Ec). reflexivity.
    - apply lookup_ge_None in Ec. rewrite (proj2 (N.ltb_ge _ _)) by lia. reflexivity. }
  exists (mkColumns 6 (map g (seq 0 (length (m_points m))))). split; [unfold get_vertices; rewrite HG; reflexivity|]. cbn [cs_cols].
  split; [|split; [rewrite map_length, seq_length; reflexivity|]].
  - split; [reflexivity|]. intros c Hc. cbn [cs_cols] in Hc. apply elem_of_list_In, in_map_iff in Hc as (i & <- & _). unfold g, col_of. destruct (snd _); reflexivity.
  - intros i q Hq. change (map g (seq 0 (length (m_points m)))) with (g <$> seq 0 (length (m_points m))). rewrite list_lookup_fmap.
    rewrite lookup_seq_lt by (eapply lookup_lt_Some; exact Hq). cbn [fmap option_fmap option_map]. unfold g. rewrite Nat.add_0_l, Hq. reflexivity.
Qed.

(** ** Faces *)
Definition face_of (c : list Z) : Face := mkFace (to_size (nth 0 c 0%Z)) (to_size (nth 1 c 0%Z)) (to_size (nth 2 c 0%Z)).
Lemma set_face_eq p m i c : cs_cols p !! i = Some c -> length c = 3%nat -> (i < length (m_faces m))%nat ->
  set_face p m i = Ok (with_faces m (<[i := face_of c]> (m_faces m))).
Proof.
  intros Hc Hl Hi. unfold set_face.
  rewrite (entry_some p 0 i c 0%Z Hc), (entry_some p 1 i c 0%Z Hc), (entry_some p 2 i c 0%Z Hc) by lia. cbn [rbind].
  unfold mesh_set_face. rewrite vset_some by exact Hi. reflexivity.
Qed.
Lemma face_loop p k : forall j m, (j + k <= length (m_faces m))%nat ->
  (j + k <= length (cs_cols p))%nat -> (forall c, c ∈ cs_cols p -> length c = 3%nat) ->
  rfold (set_face p) (seq j k) m = Ok (with_faces m (take j (m_faces m) ++ map face_of (take k (drop j (cs_cols p))) ++ drop (j + k) (m_faces m))).
Proof.
  induction k as [|k IH]; intros j m Hm Hp H3; cbn [seq rfold].
  - rewrite take_0. cbn [map app]. rewrite Nat.add_0_r, take_drop. destruct m; reflexivity.
  - destruct (cs_cols p !! j) as [c|] eqn:E; [|apply lookup_ge_None in E; lia].
    assert (L : length c = 3%nat) by (apply H3; eapply elem_of_list_lookup_2; exact E).
    rewrite (set_face_eq p m j c E L) by lia. cbn [rbind]. rewrite IH; cbn [m_faces with_faces]; rewrite ?insert_length; try lia; [|exact H3].
    rewrite (drop_S _ _ _ E). cbn [take map]. f_equal. unfold with_faces. cbn. f_equal.
    rewrite (take_S_r _ _ (face_of c)) by (apply list_lookup_insert; lia). rewrite take_insert by lia. rewrite drop_insert_gt by lia.
    replace (j + S k)%nat with (S (j + k)) by lia. rewrite <- app_assoc. reflexivity.
Qed.
Lemma set_faces_eq p m : cs_rows p = 3 -> (forall c, c ∈ cs_cols p -> length c = 3%nat) ->
  set_faces m p = Ok (with_faces m (map face_of (cs_cols p))).
Proof.
  intros H1 H2. unfold set_faces. rewrite H1. cbn [N.eqb Pos.eqb negb].
  rewrite (face_loop p _ 0); unfold mesh_resize_faces; cbn [m_faces]; unfold vresize; rewrite ?resize_length; try lia; [|exact H2].
  rewrite take_0, !drop_0, take_ge, drop_ge by (rewrite ?resize_length; lia). rewrite app_nil_r. reflexivity.
Qed.
Definition fcol (f : Face) : list Z :=
  [wrap_signed 32 (Z.of_N (f_0 f)); wrap_signed 32 (Z.of_N (f_1 f)); wrap_signed 32 (Z.of_N (f_2 f))].
Lemma get_faces_eq m : get_faces m = Ok (mkColumns 3 (map fcol (m_faces m))).
Proof.
  set (g := fun i => fcol (default (mkFace 0 0 0) (m_faces m !! i))).
  assert (HG : map_result (face_column m) (seq 0 (length (m_faces m))) = Ok (map g (seq 0 (length (m_faces m))))).
  { apply map_result_seq. intros i Hi. unfold face_column, mesh_face. destruct (m_faces m !! i) as [q|] eqn:E; [|apply lookup_ge_None in E; lia].
    rewrite (vat_some _ _ _ E). cbn [rbind]. unfold g. rewrite E. reflexivity. }
  unfold get_faces. rewrite HG. cbn [rbind]. do 2 f_equal. unfold g. clear.
  apply list_eq. intros i. change (map ?f ?l) with (f <$> l). rewrite !list_lookup_fmap.
  destruct (m_faces m !! i) as [q|] eqn:E.
  - rewrite lookup_seq_lt by (eapply lookup_lt_Some; exact E). cbn. rewrite E. reflexivity.
  - apply lookup_ge_None in E. rewrite lookup_seq_ge by lia. reflexivity.
Qed.
Lemma index_back x : x < 2 ^ 31 -> to_size (wrap_signed 32 (Z.of_N x)) = x.
Proof.
  intros H. unfold to_size, wrap_signed. change (2 ^ (Z.of_N 32 - 1))%Z with 2147483648%Z. change (2 ^ Z.of_N 32)%Z with 4294967296%Z.
  change (2 ^ 64)%Z with 18446744073709551616%Z. change (2 ^ 31) with 2147483648 in H.
  rewrite (Z.mod_small (Z.of_N x + 2147483648)) by lia. rewrite Z.mod_small by lia. lia.
Qed.
