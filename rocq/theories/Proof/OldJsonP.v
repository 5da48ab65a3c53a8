(** Attributes in JSON documents of older versions (Spec/OldJsonSpec.v). *)
From Coq Require Import NArith ZArith Bool List Lia String.
From stdpp Require Import base list gmap fin_maps.
From Verif.Model Require Import Types Mesh Attrs Node EdgeContainer SLayer DLayer Graph Binary Versioning AttrCodec Registry GraphCodec Json Rotation JsonCodec GraphJson.
From Verif.Spec Require Import BinarySpec AttrSpec RegistrySpec ProgramSpec GraphObs LegacySpec JsonSpec OldJsonSpec.
From Verif.Proof Require Import LegacyP JsonNum JsonP RegistryP GraphCodecP JsonAttrP.
Local Open Scope N_scope.

(* ------------------------------------------------------------------ *)
(** ** Reading fields one after the other *)
Lemma read_app {S} (fs gs : list (JField S)) j d : read_jfields (fs ++ gs) j d = (let! d1 := read_jfields fs j d in read_jfields gs j d1).
Proof. revert d. induction fs as [|f fs IH]; intros d; [reflexivity|]. cbn [app read_jfields]. destruct (read_jfield j f d); cbn [rbind]; [apply IH|reflexivity..]. Qed.
Lemma read_lift {S B} (get : S -> B) (set : B -> S -> S) (fs : list (JField B)) j d :
  (forall b s, get (set b s) = b) -> (forall b b' s, set b (set b' s) = set b s) -> (forall s, set (get s) s = s) ->
  read_jfields (map (lift_jfield get set) fs) j d = rmap (fun b => set b d) (read_jfields fs j (get d)).
Proof.
  intros H1 H2 H3. revert d. induction fs as [|[A nm cd gt st] fs IH]; intros d; cbn [map read_jfields rmap]; [cbn; rewrite H3; reflexivity|].
  unfold read_jfield, lift_jfield, mkJF. cbn [jf_ty jf_name jf_codec jf_set jf_get]. destruct (j_contains j nm); [|cbn [rbind]; apply IH].
  destruct (j_at j nm) as [x| |]; cbn [rbind]; try reflexivity. destruct (jc_from cd x) as [v| |]; cbn [rbind]; try reflexivity.
  rewrite IH. rewrite H1. destruct (read_jfields fs j (st v (get d))) as [b| |]; cbn; rewrite ?H2; reflexivity.
Qed.
(** the object holds the texts of these members *)
Definition holds {S} (fs : list (JField S)) (s : S) (o : list (list N * json)) : Prop :=
  forall f, In f fs -> exists x, obj_get o (jf_name f) = Some x /\ dump (jc_to (jf_codec f) (jf_get f s)) = Ok x.
Lemma carried_reads {S} (fs : list (JField S)) s d d' o : carried fs s d d' -> holds fs s o -> read_jfields fs (JObject o) d = Ok d'.
Proof.
  induction 1 as [|f fs s d d' v (j & D & R) _ IH]; intros H; [reflexivity|]. cbn [read_jfields]. destruct (H f (or_introl eq_refl)) as (x & G & D').
  assert (x = j) as -> by congruence. unfold read_jfield. cbn [j_contains j_at]. rewrite G. cbn [at_ rbind]. rewrite R. cbn [rbind]. apply IH. intros g Hg. apply H. right. exact Hg.
Qed.
(** today's text *)
Lemma text_holds {S} (fs : list (JField S)) s name t : field_names_ok (map jf_name fs) = true -> dump (JObject (write_jfields fs s [(str "type", JString name)])) = Ok t ->
  exists o, t = JObject o /\ holds fs s o /\ obj_get o (str "type") = Some (JString name).
Proof.
  intros HN D. apply andb_true_iff in HN as [HN HF]. apply bool_decide_eq_true in HN.
  rewrite write_jfields_new in D by exact HN. rewrite dump_object in D.
  destruct (map_result dump_member ([(str "type", JString name)] ++ members_of fs s)) as [o| |] eqn:E; try discriminate. cbn in D. injection D as <-.
  exists o. split; [reflexivity|]. apply map_result_inv in E.
  assert (NM : map fst o = str "type" :: map jf_name fs).
  { transitivity (map fst ([(str "type", JString name)] ++ members_of fs s)).
    - revert E. generalize ([(str "type", JString name)] ++ members_of fs s). intros l E. induction E as [|[k x] [k' y] l l' E1 _ IH]; [reflexivity|]. cbn [map fst]. rewrite IH. f_equal.
      unfold dump_member in E1. cbn [fst snd] in E1. destruct (utf8 k); [|discriminate]. destruct (dump x); cbn in E1; congruence.
    - cbn [app map fst]. unfold members_of. rewrite map_map. reflexivity. }
  assert (ND : NoDup (map fst o)) by (rewrite NM; exact HN).
  assert (IN : forall k x, In (k, x) ([(str "type", JString name)] ++ members_of fs s) -> exists y, dump x = Ok y /\ obj_get o k = Some y).
  { intros k x Hin. apply elem_of_list_In, elem_of_list_lookup in Hin as [i Hi]. destruct (Forall2_lookup_l _ _ _ _ _ E Hi) as ([k' y] & Hy & E1).
    unfold dump_member in E1. cbn [fst snd] in E1. destruct (utf8 k); [|discriminate]. destruct (dump x) as [y'| |]; cbn in E1; try discriminate. injection E1 as <- <-.
    exists y'. split; [reflexivity|]. apply obj_get_in; [exact ND|]. apply elem_of_list_lookup. eauto. }
  split.
  - intros f Hf. destruct (IN (jf_name f) (jc_to (jf_codec f) (jf_get f s))) as (y & D & G); [right; unfold members_of; apply in_map_iff; exists f; split; [reflexivity|exact Hf]|]. eauto.
  - destruct (IN (str "type") (JString name)) as (y & D & G); [left; reflexivity|]. rewrite G. cbn [dump] in D. destruct (utf8 name); congruence.
Qed.
Lemma holds_sub {S} (fs gs : list (JField S)) s o : holds gs s o -> (forall f, In f fs -> In f gs) -> holds fs s o.
Proof. intros H Hin f Hf. apply H, Hin, Hf. Qed.
Lemma holds_lift {S B} (get : S -> B) set (fs : list (JField B)) s o : holds (map (lift_jfield get set) fs) s o -> holds fs (get s) o.
Proof. intros H f Hf. exact (H _ (in_map _ _ _ Hf)). Qed.
Lemma holds_agree {S} (fs : list (JField S)) s o o' : holds fs s o -> (forall f, In f fs -> obj_get o' (jf_name f) = obj_get o (jf_name f)) -> holds fs s o'.
Proof. intros H E f Hf. rewrite (E f Hf). apply H, Hf. Qed.
Lemma holds_app {S} (fs gs : list (JField S)) s o : holds (fs ++ gs) s o -> holds fs s o /\ holds gs s o.
Proof. intros H. split; eapply holds_sub; try exact H; intros f Hf; apply in_or_app; auto. Qed.

(* ------------------------------------------------------------------ *)
(** ** The members that changed *)
Section Old.
  Context (old now : Env) (Ho : older (ev_version old) 1 0 4) (Hn : modern now).
  Notation v := (ev_version old).

  Definition base3 : list (JField BaseAttrs) := firstn 3 (base_jfields now).
  Lemma base_old_fields : base_jfields old = base3.
  Proof using Ho Hn.
    unfold base3, base_jfields. assert (version_ltb v (mkV 1 0 4) = true) as -> by (apply older_spec, Ho). rewrite Hn. reflexivity.
  Qed.
  Lemma base_old b d o : base_ok b -> holds base3 b o -> read_jfields (base_jfields old) (JObject o) d = Ok (mkBase (a_pos (base_through b)) (a_time b) (a_active b) (a_predicted d)).
  Proof using Ho Hn.
    intros (Hp & Ht) H. rewrite base_old_fields. eapply carried_reads; [|exact H]. unfold base3, base_jfields. cbn [app firstn].
    eapply carried_cons; [apply carries_vec3d, Hp|]. eapply carried_cons; [apply (carries_unsigned 64), Ht|]. eapply carried_cons; [apply carries_bool|]. apply carried_nil.
  Qed.

  Lemma unsigned8 x : fits 8 x -> get_unsigned 8 (JInt (Z.of_N x)) = Ok x.
  Proof using. intros H. destruct (carries_unsigned 8 x H) as (j & D & R). cbn in D. injection D as <-. exact R. Qed.
  Lemma old_color_reads c : color_ok c -> jc_from jc_color_legacy (color_array c) = Ok (mkColor (c_r c) (c_g c) (c_b c) 255).
  Proof using.
    intros (Hr & Hg & Hb & _). unfold color_array. cbn [jc_color_legacy jc_from jc_vec3 jc_matrix rbind j_size length].
    change (shape_check (Z.of_N 3) (Z.of_N 1) (JArray [JInt (Z.of_N (c_r c)); JInt (Z.of_N (c_g c)); JInt (Z.of_N (c_b c))])) with (@Ok unit tt).
    cbn [rbind coeffs_from map_result coeff jc_u8 jc_unsigned jc_from]. rewrite !unsigned8 by assumption. reflexivity.
  Qed.
  Lemma type_text b : exists jt, dump (type_to (bb_type b)) = Ok jt /\ match jt with JNull => 0%Z | _ => type_from jt end = if decide (box_valid b) then bb_type b else 0%Z.
  Proof using.
    destruct (Z.eq_dec (bb_type b) 1%Z) as [E|N1]; [rewrite decide_True by (unfold box_valid; tauto); rewrite E; eexists; split; reflexivity|].
    destruct (Z.eq_dec (bb_type b) 2%Z) as [E|N2]; [rewrite decide_True by (unfold box_valid; tauto); rewrite E; eexists; split; reflexivity|].
    destruct (Z.eq_dec (bb_type b) 3%Z) as [E|N3]; [rewrite decide_True by (unfold box_valid; tauto); rewrite E; eexists; split; reflexivity|].
    rewrite decide_False by (unfold box_valid; tauto). exists (JString (str "INVALID")). split; [|reflexivity].
    replace (type_to (bb_type b)) with (JString (str "INVALID")); [reflexivity|]. unfold type_to. cbn [box_types find fst].
    destruct (Z.eqb_spec 0 (bb_type b)) as [E|_]; [reflexivity|]. destruct (Z.eqb_spec 1 (bb_type b)); [congruence|]. destruct (Z.eqb_spec 3 (bb_type b)); [congruence|].
    destruct (Z.eqb_spec 2 (bb_type b)); [congruence|]. reflexivity.
  Qed.
  Lemma old_box_reads b lo hi bt bo : older v 1 0 3 -> json_bbox b -> vec_ok 32 lo -> vec_ok 32 hi ->
    dump (jc_to (jc_bbox now) b) = Ok (JObject bt) -> corners_box lo hi bt bo ->
    jc_from (jc_bbox old) (JObject bo) = Ok (if decide (box_valid b) then mkBBox (bb_type b) (corner_width (ev_fsub old) lo hi) (vec_of coeff32 (bb_center b)) (rotation_through_quaternion (bb_rot b)) else default_box).
  Proof using.
    intros Hv (Hd & Hp & Hq) Hlo Hhi D (C1 & C2 & C3 & (jn & Gn & Dn) & (jx & Gx & Dx)).
    destruct (carries_vec3f _ Hp) as (jp & Dp & Rp). destruct (writable_quatf (quatf_of_rot (bb_rot b))) as (jq & Dq). destruct (type_text b) as (jt & Dt & Et).
    destruct (carries_vec3f _ Hd) as (jd & Dd & _). destruct (carries_vec3f _ Hlo) as (jn' & Dn' & Rn), (carries_vec3f _ Hhi) as (jx' & Dx' & Rx).
    assert (jn' = jn) as -> by congruence. assert (jx' = jx) as -> by congruence.
    assert (DD : dump (jc_to (jc_bbox now) b) = Ok (JObject [(str "type", jt); (str "dimensions", jd); (str "world_P_center", jp); (str "world_R_center", jq)])).
    { cbn [jc_bbox jc_to]. rewrite j_object_nodup by (apply (bool_decide_unpack _); vm_compute; exact I). apply dumps_object. unfold dumps.
      repeat (apply List.Forall2_cons; [cbn [fst snd]; split; [reflexivity|split; [reflexivity|assumption]]|]); apply List.Forall2_nil. }
    rewrite DD in D. injection D as <-.
    assert (T1 : obj_get bo (str "type") = Some jt) by (rewrite C1; reflexivity). assert (T2 : obj_get bo (str "world_P_center") = Some jp) by (rewrite C2; reflexivity).
    assert (T3 : obj_get bo (str "world_R_center") = Some jq) by (rewrite C3; reflexivity).
    cbn [jc_bbox jc_from j_at]. rewrite T1, T2, T3, Gn, Gx. cbn [at_ rbind]. rewrite Et. destruct (decide (box_valid b)) as [V|V]; [|reflexivity].
    replace (bb_type b =? 0)%Z with false by (symmetry; apply Z.eqb_neq; destruct V as [->|[->| ->]]; lia).
    assert (version_ltb v (mkV 1 0 3) = true) as -> by (apply older_spec, Hv). rewrite Rx. cbn [rbind]. rewrite Rn. cbn [rbind]. rewrite Rp. cbn [rbind].
    destruct (Hq V) as (H1 & H2 & H3 & H4).
    destruct (carries_quat jc_f32 finite32 (quatf_of_rot (bb_rot b))) as (j' & D' & R'); try assumption; [apply carries_f32|]. fold jc_quatf in D', R'.
    assert (j' = jq) as -> by congruence. rewrite R'. reflexivity.
  Qed.

  (** the semantic part *)
  Definition sem_now : list (JField SemAttrs) := sem_jfields now.
  Definition name_of (x : string) : list N := str x.
  Lemma names_now : map jf_name sem_now = map str sem_names.
  Proof using Hn. unfold sem_now, sem_jfields, base_jfields. rewrite Hn. vm_compute. reflexivity. Qed.
  Lemma changed_old : changed_since v = if decide (older v 1 0 3) then ["is_predicted"; "color"; "bounding_box"]%string else ["is_predicted"]%string.
  Proof using. reflexivity. Qed.

  Definition old_sem_ok (lo hi : Vec3) (s : SemAttrs) (today o : list (list N * json)) : Prop :=
    (forall x, x ∈ sem_names -> x ∉ changed_since v -> obj_get o (str x) = obj_get today (str x)) /\
    (older v 1 0 3 -> obj_get o (str "color") = Some (color_array (s_color s)) /\
       exists bt bo, obj_get today (str "bounding_box") = Some (JObject bt) /\ obj_get o (str "bounding_box") = Some (JObject bo) /\ corners_box lo hi bt bo).
  Lemma str_neq x y : bool_decide (str x = str y) = false -> str x <> str y.
  Proof using. intros H. apply bool_decide_eq_false in H. exact H. Qed.

  Lemma sem_old lo hi s d today o : json_sem s -> vec_ok 32 lo -> vec_ok 32 hi -> a_predicted (s_base d) = false ->
    holds sem_now s today -> old_sem_ok lo hi s today o ->
    read_jfields (sem_jfields old) (JObject o) d = Ok (from_old_json v (corner_width (ev_fsub old) lo hi) (sem_through s)).
  Proof using Ho Hn.
    intros (Hb & Hnm & Hc & Hbb & Hl & Hf) Hlo Hhi Hpd HH (Hsame & Hchg).
    assert (Same : forall x, x ∈ sem_names -> x ∉ ["is_predicted"; "color"; "bounding_box"]%string -> obj_get o (str x) = obj_get today (str x)).
    { intros x H1 H2. apply Hsame; [exact H1|]. rewrite changed_old. destruct (decide _); [exact H2|]. intros H3. apply H2. apply elem_of_list_singleton in H3 as ->. left. }
    assert (HB : holds base3 (s_base s) o).
    { apply (holds_agree _ _ today).
      - unfold sem_now, sem_jfields in HH. apply holds_app in HH as [HH _]. apply holds_lift in HH. eapply holds_sub; [exact HH|]. intros f Hf0. rewrite <- (firstn_skipn 3 (base_jfields now)). apply in_or_app. left. exact Hf0.
      - unfold base3, base_jfields. cbn [app firstn]. intros f [<-|[<-|[<-|[]]]]; apply Same; apply (bool_decide_unpack _); vm_compute; exact I. }
    unfold sem_jfields. rewrite read_app. rewrite (read_lift s_base (fun b s => sem_set_base s b)); [|reflexivity|reflexivity|intros []; reflexivity].
    rewrite (base_old (s_base s) (s_base d) o Hb HB). cbn [rmap rbind].
    assert (GET : forall f, In f (skipn 4 (sem_jfields now)) -> exists x, obj_get today (jf_name f) = Some x /\ dump (jc_to (jf_codec f) (jf_get f s)) = Ok x).
    { intros f Hfi. apply HH. unfold sem_now. rewrite <- (firstn_skipn 4 (sem_jfields now)). apply in_or_app. right. exact Hfi. }
    assert (SK : skipn 4 (sem_jfields now) = [
      mkJF (str "name") jc_string s_name (fun v s => mkSem (s_base s) v (s_color s) (s_bbox s) (s_label s) (s_feature s));
      mkJF (str "color") jc_color s_color (fun v s => mkSem (s_base s) (s_name s) v (s_bbox s) (s_label s) (s_feature s));
      mkJF (str "bounding_box") (jc_bbox now) s_bbox (fun v s => mkSem (s_base s) (s_name s) (s_color s) v (s_label s) (s_feature s));
      mkJF (str "semantic_label") jc_u32 s_label (fun v s => mkSem (s_base s) (s_name s) (s_color s) (s_bbox s) v (s_feature s));
      mkJF (str "semantic_feature") jc_matrixXd s_feature (fun v s => mkSem (s_base s) (s_name s) (s_color s) (s_bbox s) (s_label s) v)]).
    { unfold sem_jfields, base_jfields. rewrite Hn. reflexivity. }
    rewrite SK in GET.
    destruct (GET _ (or_introl eq_refl)) as (j1 & G1 & D1). destruct (GET _ (or_intror (or_introl eq_refl))) as (j2 & G2 & D2).
    destruct (GET _ (or_intror (or_intror (or_introl eq_refl)))) as (j3 & G3 & D3). destruct (GET _ (or_intror (or_intror (or_intror (or_introl eq_refl))))) as (j4 & G4 & D4).
    destruct (GET _ (or_intror (or_intror (or_intror (or_intror (or_introl eq_refl)))))) as (j5 & G5 & D5).
    unfold mkJF in G1, D1, G2, D2, G3, D3, G4, D4, G5, D5. cbn [jf_name jf_codec jf_get] in G1, D1, G2, D2, G3, D3, G4, D4, G5, D5. clear GET SK.
    destruct (carries_string _ Hnm) as (j1' & D1' & R1). assert (E1 : Ok j1' = Ok j1) by (rewrite <- D1, <- D1'; reflexivity). injection E1 as ->.
    destruct (carries_unsigned 32 _ Hl) as (j4' & D4' & R4). assert (E4 : Ok j4' = Ok j4) by (rewrite <- D4, <- D4'; reflexivity). injection E4 as ->.
    destruct (matrixXd_carried _ Hf) as (j5' & D5' & R5). assert (E5 : Ok j5' = Ok j5) by (rewrite <- D5, <- D5'; reflexivity). injection E5 as ->.
    assert (S1 : obj_get o (str "name") = Some j1) by (rewrite <- G1; apply Same; apply (bool_decide_unpack _); vm_compute; exact I).
    assert (S4 : obj_get o (str "semantic_label") = Some j4) by (rewrite <- G4; apply Same; apply (bool_decide_unpack _); vm_compute; exact I).
    assert (S5 : obj_get o (str "semantic_feature") = Some j5) by (rewrite <- G5; apply Same; apply (bool_decide_unpack _); vm_compute; exact I).
    assert (C2 : exists x, obj_get o (str "color") = Some x /\ jc_from (if version_leb v (mkV 1 0 2) then jc_color_legacy else jc_color) x =
      Ok (if decide (older v 1 0 3) then mkColor (c_r (s_color s)) (c_g (s_color s)) (c_b (s_color s)) 255 else s_color s)).
    { rewrite leb_older. destruct (decide (older v 1 0 3)) as [Hv|Hv].
      - assert (version_ltb v (mkV 1 0 3) = true) as -> by (apply older_spec, Hv). destruct (Hchg Hv) as [E _]. rewrite E. eexists. split; [reflexivity|]. apply old_color_reads, Hc.
      - assert (version_ltb v (mkV 1 0 3) = false) as -> by (apply not_true_iff_false; intros E; apply Hv, older_spec, E).
        assert (obj_get o (str "color") = obj_get today (str "color")) as ->. { apply Hsame; [apply (bool_decide_unpack _); vm_compute; exact I|]. rewrite changed_old, decide_False by exact Hv. apply (bool_decide_unpack _); vm_compute; exact I. }
        rewrite G2. eexists. split; [reflexivity|]. destruct (carries_color _ Hc) as (j' & D' & R'). assert (E2 : Ok j' = Ok j2) by (rewrite <- D2, <- D'; reflexivity). injection E2 as ->. exact R'. }
    assert (C3 : exists x, obj_get o (str "bounding_box") = Some x /\ jc_from (jc_bbox old) x = Ok (s_bbox (from_old_json v (corner_width (ev_fsub old) lo hi) (sem_through s)))).
    { destruct (decide (older v 1 0 3)) as [Hv|Hv].
      - destruct (Hchg Hv) as (_ & bt & bo & E1 & E2 & E3). rewrite E2. eexists. split; [reflexivity|]. rewrite G3 in E1. injection E1 as ->.
        rewrite (old_box_reads (s_bbox s) lo hi bt bo Hv Hbb Hlo Hhi D3 E3). f_equal. unfold from_old_json, from_old, sem_through, bbox_through. cbn [s_bbox].
        destruct (decide (box_valid (s_bbox s))) as [V|V].
        + rewrite decide_True by exact V. cbn [s_bbox]. rewrite decide_True by exact Hv. reflexivity.
        + rewrite decide_False; [|unfold box_valid; cbn; lia]. cbn [s_bbox]. rewrite decide_True by exact Hv. reflexivity.
      - assert (Hv' : version_ltb v (mkV 1 0 3) = false) by (apply not_true_iff_false; intros E; apply Hv, older_spec, E).
        assert (obj_get o (str "bounding_box") = obj_get today (str "bounding_box")) as ->. { apply Hsame; [apply (bool_decide_unpack _); vm_compute; exact I|]. rewrite changed_old, decide_False by exact Hv. apply (bool_decide_unpack _); vm_compute; exact I. }
        rewrite G3. eexists. split; [reflexivity|]. destruct (carries_bbox old _ Hv' Hbb) as (j' & D' & R').
        assert (E3 : Ok j' = Ok j3) by (rewrite <- D3, <- D'; reflexivity). injection E3 as ->. rewrite R'. f_equal.
        unfold from_old_json, from_old, sem_through. cbn [s_bbox]. destruct (decide (box_valid _)); cbn [s_bbox]; rewrite decide_False by exact Hv; reflexivity. }
    destruct C2 as (x2 & S2 & R2). destruct C3 as (x3 & S3 & R3).
    cbn [read_jfields]. unfold read_jfield, mkJF. cbn [jf_ty jf_name jf_codec jf_set jf_get j_contains j_at].
    rewrite S1. cbn [at_ rbind]. rewrite R1. cbn [rbind]. rewrite S2. cbn [at_ rbind]. rewrite R2. cbn [rbind]. rewrite S3. cbn [at_ rbind]. rewrite R3. cbn [rbind].
    rewrite S4. cbn [at_ rbind]. unfold jc_u32. rewrite R4. cbn [rbind]. rewrite S5. cbn [at_ rbind]. rewrite R5. cbn [rbind sem_set_base s_base s_name s_color s_bbox s_label s_feature].
    f_equal. unfold from_old_json. destruct (decide (box_valid (s_bbox (sem_through s)))); unfold from_old, not_predicted, sem_through, base_through;
      cbn [s_base s_name s_color s_bbox s_label s_feature a_pos a_time a_active]; rewrite Hpd; reflexivity.
  Qed.
End Old.

(* ------------------------------------------------------------------ *)
(** ** The other members of each class: written and read as today *)
Definition env0 : Env := mkEnv (h_version header_current) (fun _ _ => 0).
Definition obj_rest : list (JField ObjAttrs) := ltac:(let t := eval unfold obj_jfields in (obj_jfields env0) in match t with _ ++ ?r => exact r end).
Definition room_rest : list (JField RoomAttrs) := ltac:(let t := eval unfold room_jfields in (room_jfields env0) in match t with _ ++ ?r => exact r end).
Definition place_rest : list (JField PlaceAttrs) := ltac:(let t := eval cbv zeta delta [place_jfields] beta in (place_jfields env0) in match t with _ ++ ?r => exact r end).
Definition place2d_rest : list (JField Place2dAttrs) := ltac:(let t := eval cbv zeta delta [place2d_jfields] beta in (place2d_jfields env0) in match t with _ ++ ?r => exact r end).
Definition agent_rest : list (JField AgentAttrs) := ltac:(let t := eval unfold agent_jfields in (agent_jfields env0) in match t with _ ++ ?r => exact r end).
Definition khronos_rest : list (JField KhronosAttrs) := ltac:(let t := eval cbv zeta delta [khronos_jfields] beta in (khronos_jfields env0) in match t with _ ++ ?r => exact r end).

Definition sem_put (a : NodeAttrs) (s : SemAttrs) := with_sem (through_json a) s.
Lemma obj_rest_carried o s : json_ok (AObj o) -> carried obj_rest o (mkObj s (o_mesh_conn obj_default) (o_registered obj_default) (o_rot obj_default))
  (mkObj s (o_mesh_conn o) (o_registered o) (o_rot o)).
Proof.
  intros (Hs & Hm & Hq). unfold obj_rest. eapply carried_cons; [apply u64s_carried, Hm|]. eapply carried_cons; [apply carries_bool|]. eapply carried_cons; [apply carries_quatd, Hq|]. apply carried_nil.
Qed.
Lemma room_rest_carried r s : json_ok (ARoom r) -> carried room_rest r (mkRoom s (r_probs room_default)) (mkRoom s (r_probs r)).
Proof.
  intros (Hs & Hm). unfold room_rest.
  eapply carried_cons; [apply carries_map; intros k v E; destruct (Hm k v E) as [H1 H2]; split; [exact H1|apply carries_f64, H2]|]. apply carried_nil.
Qed.
Definition place_with (p : PlaceAttrs) (s : SemAttrs) : PlaceAttrs := mkPlace s (p_distance p) (p_basis p) (p_voxblox p) (p_pcl p) (p_labels p) (p_deform p)
                       (p_real p) (p_cleanup p) (p_frontier p) (p_scale p) (p_orient p) (p_nfv p).
Lemma place_rest_carried p s : json_ok (APlace p) -> carried place_rest p (place_with place_default s)
  (mkPlace s (p_distance p) (p_basis p) (p_voxblox p) (p_pcl p) (p_labels p) (p_deform p) (p_real p) (p_cleanup p) (p_frontier p) (vec_of coeff64 (p_scale p)) (p_orient p) (p_nfv p)).
Proof.
  intros (Hs & Hd & Hb & Hv & Hp & Hl & Hdf & Hsc & Ho & Hn). unfold place_rest.
  eapply carried_cons; [apply carries_f64, Hd|]. eapply carried_cons; [apply (carries_unsigned 32), Hb|]. eapply carried_cons; [apply nvis_carried, Hv|].
  eapply carried_cons; [apply u64s_carried, Hp|]. eapply carried_cons; [apply u8s_carried, Hl|]. eapply carried_cons; [apply u64s_carried, Hdf|].
  eapply carried_cons; [apply carries_bool|]. eapply carried_cons; [apply carries_bool|]. eapply carried_cons; [apply carries_vec3d, Hsc|].
  eapply carried_cons; [apply carries_quatd, Ho|]. eapply carried_cons; [apply carries_bool|]. eapply carried_cons; [apply (carries_unsigned 64), Hn|]. apply carried_nil.
Qed.
Definition place2d_with (d : Place2dAttrs) (s : SemAttrs) : Place2dAttrs := mkPlace2d s (d_boundary d) (d_centroid d) (d_compress d) (d_expand d) (d_pcl_boundary d)
     (d_voxblox d) (d_pcl d) (d_min d) (d_max d) (d_labels d) (d_deform d) (d_finish_merge d) (d_cleanup_split d) (d_active_mesh d).
Lemma place2d_rest_carried d s : json_ok (APlace2d d) -> carried place2d_rest d (place2d_with place2d_default s)
  (mkPlace2d s (map (vec_of coeff64) (d_boundary d)) (vec_of coeff64 (d_centroid d))
      (matrix_of coeff64 (d_compress d)) (matrix_of coeff64 (d_expand d)) (d_pcl_boundary d) (d_voxblox d) (d_pcl d) 0 0
      (d_labels d) (d_deform d) false (d_cleanup_split d) (d_active_mesh d)).
Proof.
  intros (Hs & Hb & Hc & Hm1 & Hm2 & Hpb & Hv & Hp & Hl & Hd). unfold place2d_rest.
  eapply carried_cons; [apply (carries_list_with _ (vec_ok 64)); [apply carries_vec3d|exact Hb]|]. eapply carried_cons; [apply carries_vec3d, Hc|].
  eapply carried_cons; [apply matrix2d_carried, Hm1|]. eapply carried_cons; [apply matrix2d_carried, Hm2|].
  eapply carried_cons; [apply u64s_carried, Hpb|]. eapply carried_cons; [apply nvis_carried, Hv|]. eapply carried_cons; [apply u64s_carried, Hp|].
  eapply carried_cons; [apply u8s_carried, Hl|]. eapply carried_cons; [apply u64s_carried, Hd|]. eapply carried_cons; [apply carries_bool|]. eapply carried_cons; [apply carries_bool|]. apply carried_nil.
Qed.
Lemma agent_rest_carried a b : json_ok (AAgent a) -> carried agent_rest a (mkAgent b (g_rot agent_default) (g_ext agent_default) (g_dbow_ids agent_default) (g_dbow_vals agent_default))
  (mkAgent b (g_rot a) (g_ext a) (g_dbow_ids a) (matrix_of coeff32 (g_dbow_vals a))).
Proof.
  intros (Hs & Hq & Hx & Hi & Hv). unfold agent_rest.
  eapply carried_cons; [apply carries_quatd, Hq|]. eapply carried_cons; [apply (carries_unsigned 64), Hx|]. eapply carried_cons; [apply bowids_carried, Hi|]. eapply carried_cons; [apply vectorXf_carried, Hv|]. apply carried_nil.
Qed.
Definition khronos_with (k : KhronosAttrs) (s : SemAttrs) : KhronosAttrs := mkKhronos (mkObj s (o_mesh_conn (k_obj k)) (o_registered (k_obj k)) (o_rot (k_obj k)))
     (k_first k) (k_last k) (k_mesh k) (k_traj_t k) (k_traj_p k) (k_points k) (k_details k).
Lemma khronos_rest_carried k s : json_ok (AKhronos k) -> carried khronos_rest k (khronos_with khronos_default s)
  (mkKhronos (mkObj s [] false (mkQuat double_one 0 0 0)) (k_first k) (k_last k)
      (mesh_through (k_mesh k)) (k_traj_t k) (map (vec_of coeff32) (k_traj_p k)) (map (map (vec_of coeff32)) (k_points k)) (k_details k)).
Proof.
  intros (Hs & H1 & H2 & Hm & Hp & Ht & Hd & Hdet). unfold khronos_rest.
  eapply carried_cons; [apply u64s_carried, H1|]. eapply carried_cons; [apply u64s_carried, H2|]. eapply carried_cons; [apply carries_mesh, Hm|].
  eapply carried_cons; [apply points_carried, Hp|]. eapply carried_cons; [apply u64s_carried, Ht|].
  eapply carried_cons; [apply (carries_list_with _ (Forall (vec_ok 32))); [intros; apply points_carried; assumption|exact Hd]|].
  eapply carried_cons; [apply carries_map; intros key v E; destruct (Hdet key v E) as [U V]; split; [exact U|apply u64s_carried, V]|]. apply carried_nil.
Qed.

(* ------------------------------------------------------------------ *)
(** ** Every class *)
Section OldKind.
  Context (old now : Env) (Ho : older (ev_version old) 1 0 4) (Hn : modern now).
  Notation v := (ev_version old).
  Definition plain_names (x : string) : bool := negb (bool_decide (x ∈ ["is_predicted"; "color"; "bounding_box"]%string)).

  (** a class that extends the semantic attributes *)
  Lemma class_old {S} (get : S -> SemAttrs) set (rest : list (JField S)) a s0 sem d d' lo hi today o :
    (forall b s, get (set b s) = b) -> (forall b b' s, set b (set b' s) = set b s) -> (forall s, set (get s) s = s) ->
    get d = sem_default -> get s0 = sem -> sem_of a = Some sem -> json_sem sem -> vec_ok 32 lo -> vec_ok 32 hi ->
    field_names_ok (map jf_name (map (lift_jfield get set) (sem_jfields now) ++ rest)) = true ->
    dump (JObject (write_jfields (map (lift_jfield get set) (sem_jfields now) ++ rest) s0 [(str "type", JString (kind_name (kind_of a)))])) = Ok (JObject today) ->
    json_names (kind_of a) = sem_names ++ skipn 9 (json_names (kind_of a)) ->
    map jf_name rest = map str (skipn 9 (json_names (kind_of a))) -> forallb plain_names (skipn 9 (json_names (kind_of a))) = true ->
    old_object v lo hi a today o ->
    carried rest s0 (set (from_old_json v (corner_width (ev_fsub old) lo hi) (sem_through sem)) d) d' ->
    read_jfields (map (lift_jfield get set) (sem_jfields old) ++ rest) (JObject o) d = Ok d' /\ obj_get o (str "type") = Some (JString (kind_name (kind_of a))).
  Proof using Ho Hn.
    intros L1 L2 L3 Hd Hs0 Hsem Hj Hlo Hhi HN D HJ HR HP (O1 & O2 & O3) HC.
    destruct (text_holds _ _ _ _ HN D) as (o0 & E & HH & HT). injection E as <-. split; [|rewrite O1; exact HT].
    apply holds_app in HH as [HH1 HH2]. rewrite read_app, (read_lift get set) by assumption. rewrite Hd.
    rewrite (sem_old old now Ho Hn lo hi sem sem_default today o Hj Hlo Hhi eq_refl).
    - cbn [rmap rbind]. eapply carried_reads; [exact HC|]. eapply holds_agree; [exact HH2|]. intros f Hf.
      assert (Hin : In (jf_name f) (map str (skipn 9 (json_names (kind_of a))))) by (rewrite <- HR; apply in_map, Hf). apply in_map_iff in Hin as (x & <- & Hx).
      apply O2; [rewrite HJ; apply elem_of_app; right; apply elem_of_list_In, Hx|]. rewrite forallb_forall in HP. specialize (HP x Hx). unfold plain_names in HP. apply negb_true_iff, bool_decide_eq_false in HP.
      unfold changed_since. destruct (decide _); [exact HP|]. intros Hc. apply HP. apply elem_of_list_singleton in Hc as ->. left.
    - rewrite <- Hs0. apply (holds_lift get set). exact HH1.
    - split; [|intros Hv; apply (O3 sem Hsem Hv)]. intros x Hx. apply O2. rewrite HJ. apply elem_of_app. left. exact Hx.
  Qed.
  Lemma class_plain {S} (get : S -> BaseAttrs) set (rest : list (JField S)) a s0 d d' lo hi today o :
    (forall b s, get (set b s) = b) -> (forall b b' s, set b (set b' s) = set b s) -> (forall s, set (get s) s = s) ->
    get d = base_default -> base_ok (get s0) ->
    field_names_ok (map jf_name (map (lift_jfield get set) (base_jfields now) ++ rest)) = true ->
    dump (JObject (write_jfields (map (lift_jfield get set) (base_jfields now) ++ rest) s0 [(str "type", JString (kind_name (kind_of a)))])) = Ok (JObject today) ->
    json_names (kind_of a) = base_names ++ skipn 4 (json_names (kind_of a)) ->
    map jf_name rest = map str (skipn 4 (json_names (kind_of a))) -> forallb plain_names (skipn 4 (json_names (kind_of a))) = true ->
    old_object v lo hi a today o ->
    carried rest s0 (set (not_predicted (base_through (get s0))) d) d' ->
    read_jfields (map (lift_jfield get set) (base_jfields old) ++ rest) (JObject o) d = Ok d' /\ obj_get o (str "type") = Some (JString (kind_name (kind_of a))).
  Proof using Ho Hn.
    intros L1 L2 L3 Hd Hb HN D HJ HR HP (O1 & O2 & _) HC.
    destruct (text_holds _ _ _ _ HN D) as (o0 & E & HH & HT). injection E as <-. split; [|rewrite O1; exact HT].
    assert (Hpl : forall x, x ∈ json_names (kind_of a) -> plain_names x = true -> obj_get o (str x) = obj_get today (str x)).
    { intros x Hx Hp. apply O2; [exact Hx|]. unfold plain_names in Hp. apply negb_true_iff, bool_decide_eq_false in Hp.
      unfold changed_since. destruct (decide _); [exact Hp|]. intros Hc. apply Hp. apply elem_of_list_singleton in Hc as ->. left. }
    apply holds_app in HH as [HH1 HH2]. rewrite read_app, (read_lift get set) by assumption. rewrite Hd.
    rewrite (base_old old now Ho Hn (get s0) base_default o Hb).
    - cbn [rmap rbind]. eapply carried_reads; [exact HC|]. eapply holds_agree; [exact HH2|]. intros f Hf.
      assert (Hin : In (jf_name f) (map str (skipn 4 (json_names (kind_of a))))) by (rewrite <- HR; apply in_map, Hf). apply in_map_iff in Hin as (x & <- & Hx).
      apply Hpl; [rewrite HJ; apply elem_of_app; right; apply elem_of_list_In, Hx|]. rewrite forallb_forall in HP. exact (HP x Hx).
    - apply (holds_agree _ _ today).
      + apply holds_lift in HH1. eapply holds_sub; [exact HH1|]. intros f Hf0. rewrite <- (firstn_skipn 3 (base_jfields now)). apply in_or_app. left. exact Hf0.
      + unfold base3, base_jfields. cbn [app firstn]. intros f [<-|[<-|[<-|[]]]]; apply Hpl; try reflexivity; rewrite HJ; apply elem_of_app; left; apply (bool_decide_unpack _); vm_compute; exact I.
  Qed.
  Ltac names := unfold khronos_jfields, agent_jfields, place2d_jfields, place_jfields, room_jfields, obj_jfields, sem_jfields, base_jfields; rewrite Hn; vm_compute; reflexivity.
  Lemma lift_id {S} (fs : list (JField S)) : Forall (fun f => lift_jfield (fun s : S => s) (fun b _ => b) f = f) fs.
  Proof using. apply List.Forall_forall. intros [A nm cd gt st] _. reflexivity. Qed.
  Lemma lift_id_map {S} (fs : list (JField S)) : map (lift_jfield (fun s : S => s) (fun b _ => b)) fs = fs.
  Proof using. induction fs as [|[A nm cd gt st] fs IH]; [reflexivity|]. cbn [map]. rewrite IH. reflexivity. Qed.

  Theorem old_object_read lo hi a today o : json_ok a -> vec_ok 32 lo -> vec_ok 32 hi ->
    dump (attrs_to_json now a) = Ok (JObject today) -> old_object v lo hi a today o ->
    kind_from_json old (kind_of a) (JObject o) = Ok (old_json_attrs v (corner_width (ev_fsub old) lo hi) a) /\ obj_get o (str "type") = Some (JString (kind_name (kind_of a))).
  Proof using Ho Hn.
    intros Ha Hlo Hhi D HO. unfold attrs_to_json in D.
    destruct a as [b|s|x|r|q|q|g|k]; cbn [kind_from_json kind_of].
    - assert (K : read_jfields (map (lift_jfield (fun s : BaseAttrs => s) (fun b _ => b)) (base_jfields old) ++ []) (JObject o) base_default = Ok (not_predicted (base_through b)) /\ obj_get o (str "type") = Some (JString (kind_name KNode))).
      { apply (class_plain (fun s => s) (fun b _ => b) [] (ANode b) b base_default (not_predicted (base_through b)) lo hi today o); try reflexivity.
        - exact Ha.
        - rewrite lift_id_map, app_nil_r. names.
        - rewrite lift_id_map, app_nil_r. exact D.
        - exact HO.
        - apply carried_nil. }
      rewrite lift_id_map, app_nil_r in K. destruct K as [-> K]. split; [reflexivity|exact K].
    - assert (K : read_jfields (map (lift_jfield (fun s : SemAttrs => s) (fun b _ => b)) (sem_jfields old) ++ []) (JObject o) sem_default = Ok (from_old_json v (corner_width (ev_fsub old) lo hi) (sem_through s)) /\ obj_get o (str "type") = Some (JString (kind_name KSem))).
      { apply (class_old (fun s => s) (fun b _ => b) [] (ASem s) s s sem_default (from_old_json v (corner_width (ev_fsub old) lo hi) (sem_through s)) lo hi today o); try reflexivity; try assumption.
        - rewrite lift_id_map, app_nil_r. names.
        - rewrite lift_id_map, app_nil_r. exact D.
        - apply carried_nil. }
      rewrite lift_id_map, app_nil_r in K. destruct K as [-> K]. split; [reflexivity|exact K].
    - pose proof (obj_rest_carried x (from_old_json v (corner_width (ev_fsub old) lo hi) (sem_through (o_sem x))) Ha) as HC.
      match type of HC with carried _ _ _ ?d' => destruct (class_old o_sem (fun s o => mkObj s (o_mesh_conn o) (o_registered o) (o_rot o)) obj_rest (AObj x) x (o_sem x) obj_default d' lo hi today o) as [K1 K2];
        [reflexivity|reflexivity|intros []; reflexivity|reflexivity|reflexivity|reflexivity|apply Ha|exact Hlo|exact Hhi|names|exact D|reflexivity|reflexivity|reflexivity|exact HO|exact HC|] end.
      split; [|exact K2]. change (obj_jfields old) with (map (lift_jfield o_sem (fun s o => mkObj s (o_mesh_conn o) (o_registered o) (o_rot o))) (sem_jfields old) ++ obj_rest). rewrite K1. reflexivity.
    - pose proof (room_rest_carried r (from_old_json v (corner_width (ev_fsub old) lo hi) (sem_through (r_sem r))) Ha) as HC.
      match type of HC with carried _ _ _ ?d' => destruct (class_old r_sem (fun s r => mkRoom s (r_probs r)) room_rest (ARoom r) r (r_sem r) room_default d' lo hi today o) as [K1 K2];
        [reflexivity|reflexivity|intros []; reflexivity|reflexivity|reflexivity|reflexivity|apply Ha|exact Hlo|exact Hhi|names|exact D|reflexivity|reflexivity|reflexivity|exact HO|exact HC|] end.
      split; [|exact K2]. change (room_jfields old) with (map (lift_jfield r_sem (fun s r => mkRoom s (r_probs r))) (sem_jfields old) ++ room_rest). rewrite K1. reflexivity.
    - pose proof (place_rest_carried q (from_old_json v (corner_width (ev_fsub old) lo hi) (sem_through (p_sem q))) Ha) as HC.
      match type of HC with carried _ _ _ ?d' => destruct (class_old p_sem (fun s p => place_with p s) place_rest (APlace q) q (p_sem q) place_default d' lo hi today o) as [K1 K2];
        [reflexivity|reflexivity|intros []; reflexivity|reflexivity|reflexivity|reflexivity|apply Ha|exact Hlo|exact Hhi|names|exact D|reflexivity|reflexivity|reflexivity|exact HO|exact HC|] end.
      split; [|exact K2]. change (place_jfields old) with (map (lift_jfield p_sem (fun s p => place_with p s)) (sem_jfields old) ++ place_rest). rewrite K1. reflexivity.
    - pose proof (place2d_rest_carried q (from_old_json v (corner_width (ev_fsub old) lo hi) (sem_through (d_sem q))) Ha) as HC.
      match type of HC with carried _ _ _ ?d' => destruct (class_old d_sem (fun s p => place2d_with p s) place2d_rest (APlace2d q) q (d_sem q) place2d_default d' lo hi today o) as [K1 K2];
        [reflexivity|reflexivity|intros []; reflexivity|reflexivity|reflexivity|reflexivity|apply Ha|exact Hlo|exact Hhi|names|exact D|reflexivity|reflexivity|reflexivity|exact HO|exact HC|] end.
      split; [|exact K2]. change (place2d_jfields old) with (map (lift_jfield d_sem (fun s p => place2d_with p s)) (sem_jfields old) ++ place2d_rest). rewrite K1. reflexivity.
    - destruct (class_plain g_base (fun b a => mkAgent b (g_rot a) (g_ext a) (g_dbow_ids a) (g_dbow_vals a)) agent_rest (AAgent g) g agent_default
        (mkAgent (not_predicted (base_through (g_base g))) (g_rot g) (g_ext g) (g_dbow_ids g) (matrix_of coeff32 (g_dbow_vals g))) lo hi today o) as [K1 K2];
        [reflexivity|reflexivity|intros []; reflexivity|reflexivity|apply Ha|names|exact D|reflexivity|reflexivity|reflexivity|exact HO|apply agent_rest_carried, Ha|].
      split; [|exact K2]. change (agent_jfields old) with (map (lift_jfield g_base (fun b a => mkAgent b (g_rot a) (g_ext a) (g_dbow_ids a) (g_dbow_vals a))) (base_jfields old) ++ agent_rest). rewrite K1. reflexivity.
    - pose proof (khronos_rest_carried k (from_old_json v (corner_width (ev_fsub old) lo hi) (sem_through (o_sem (k_obj k)))) Ha) as HC.
      match type of HC with carried _ _ _ ?d' => destruct (class_old (fun k => o_sem (k_obj k)) (fun s k => khronos_with k s) khronos_rest (AKhronos k) k (o_sem (k_obj k)) khronos_default d' lo hi today o) as [K1 K2];
        [reflexivity|reflexivity|intros [[] ? ? ? ? ? ? ?]; reflexivity|reflexivity|reflexivity|reflexivity|apply Ha|exact Hlo|exact Hhi|names|exact D|reflexivity|reflexivity|reflexivity|exact HO|exact HC|] end.
      split; [|exact K2]. change (khronos_jfields old) with (map (lift_jfield (fun k => o_sem (k_obj k)) (fun s k => khronos_with k s)) (sem_jfields old) ++ khronos_rest). rewrite K1. reflexivity.
  Qed.
End OldKind.
