(** Attributes in files of older versions are read as Spec/LegacySpec.v says. *)
From Coq Require Import NArith ZArith Bool List Lia.
From stdpp Require Import base list gmap.
From Verif.Model Require Import Types Mesh Attrs Binary Versioning AttrCodec.
From Verif.Spec Require Import BinarySpec AttrSpec LegacySpec.
From Verif.Proof Require Import BinaryP SaveLoad AttrP.
Local Open Scope N_scope.

Lemma older_spec v a b c : version_ltb v (mkV a b c) = true <-> older v a b c.
Proof.
  unfold version_ltb, older. cbn [v_major v_minor v_patch]. destruct v as [x y z]. cbn [v_major v_minor v_patch].
  destruct (N.ltb_spec x a) as [L|L]; [split; auto|]. destruct (N.eqb_spec x a) as [->|E]; [|split; [discriminate|lia]].
  destruct (N.ltb_spec y b) as [L'|L']; [split; auto|]. destruct (N.eqb_spec y b) as [->|E']; [|split; [discriminate|lia]].
  rewrite N.ltb_lt. split; [auto|]. lia.
Qed.
Lemma leb_older v : version_leb v (mkV 1 0 2) = version_ltb v (mkV 1 0 3).
Proof.
  unfold version_leb. destruct (version_ltb v (mkV 1 0 3)) eqn:E.
  - apply older_spec in E. apply negb_true_iff. apply not_true_iff_false. intros H. unfold version_ltb in H. cbn [v_major v_minor v_patch] in H.
    destruct v as [x y z]. unfold older in E. cbn [v_major v_minor v_patch] in *.
    destruct (N.ltb_spec 1 x); [lia|]. destruct (N.eqb_spec 1 x); [|discriminate]. destruct (N.ltb_spec 0 y); [lia|]. destruct (N.eqb_spec 0 y); [|discriminate].
    apply N.ltb_lt in H. lia.
  - apply negb_false_iff. assert (H : ~ older v 1 0 3) by (rewrite <- older_spec; congruence). clear E. unfold version_ltb, older in *. cbn [v_major v_minor v_patch] in *.
    destruct v as [x y z]. cbn [v_major v_minor v_patch] in *.
    destruct (N.ltb_spec 1 x); [reflexivity|]. destruct (N.eqb_spec 1 x); [|lia]. destruct (N.ltb_spec 0 y); [reflexivity|]. destruct (N.eqb_spec 0 y); [|lia].
    apply N.ltb_lt. lia.
Qed.

(** a codec with another writer *)
Definition wr {A} (w : A -> result (list N)) (c : Codec A) : Codec A := mkCodec w (cd_read c).
Inductive reads_alike {T} : list (Field T) -> list (Field T) -> Prop :=
| ra_nil : reads_alike [] []
| ra_cons A c1 c2 (get : T -> A) set r1 r2 : (forall t, cd_read c1 t = cd_read c2 t) -> reads_alike r1 r2 ->
    reads_alike (mkField c1 get set :: r1) (mkField c2 get set :: r2).
Lemma alike_refl {T} (fs : list (Field T)) : reads_alike fs fs.
Proof. induction fs as [|[A c get set] r IH]; constructor; auto. Qed.
Lemma alike_app {T} (a b c d : list (Field T)) : reads_alike a b -> reads_alike c d -> reads_alike (a ++ c) (b ++ d).
Proof. intros H1 H2. induction H1 as [|A c1 c2 get set r1 r2 Hc H IH]; [exact H2|]. cbn [app]. constructor; assumption. Qed.
Lemma alike_lift {S T} (up : T -> S) put (a b : list (Field S)) : reads_alike a b -> reads_alike (map (lift_field up put) a) (map (lift_field up put) b).
Proof. induction 1 as [|A c1 c2 get set r1 r2 Hc H IH]; [constructor|]. cbn [map]. unfold lift_field at 1 3. cbn. constructor; assumption. Qed.
Lemma alike_read {T} (a b : list (Field T)) : reads_alike a b -> forall t buf pos, read_fields a t buf pos = read_fields b t buf pos.
Proof.
  induction 1 as [|A c1 c2 get set r1 r2 Hc H IH]; intros t buf pos; [reflexivity|]. cbn [read_fields fd_codec fd_get fd_set]. unfold bind.
  rewrite Hc. destruct (cd_read c2 (get t) buf pos) as [x q|e] eqn:E; cbn [fd_type] in *; rewrite E; [apply IH|reflexivity].
Qed.
Lemma reads_ext {A} (r r' : Reader A) bs a : (forall buf pos, r buf pos = r' buf pos) -> reads_back r bs a -> reads_back r' bs a.
Proof. intros H HR before after Hl. rewrite <- H. apply HR, Hl. Qed.
Lemma write_app {T} (a b : list (Field T)) t : write_fields (a ++ b) t = let! x := write_fields a t in let! y := write_fields b t in Ok (x ++ y).
Proof.
  unfold write_fields. rewrite map_app. generalize (map (fun f => cd_write (fd_codec f) (fd_get f t)) b). intros y.
  generalize (map (fun f => cd_write (fd_codec f) (fd_get f t)) a). intros l. induction l as [|w l IH]; cbn [app seq_writes rbind].
  - destruct (seq_writes y); reflexivity.
  - destruct w as [b0| |]; cbn [rbind]; [|reflexivity..]. rewrite IH. destruct (seq_writes l) as [u| |]; cbn [rbind]; [|reflexivity..].
    destruct (seq_writes y) as [v| |]; cbn [rbind]; [|reflexivity..]. rewrite app_assoc. reflexivity.
Qed.
Lemma write_lift {S T} (up : T -> S) put (fs : list (Field S)) t : write_fields (map (lift_field up put) fs) t = write_fields fs (up t).
Proof. unfold write_fields. rewrite map_map. reflexivity. Qed.

Section Old.
  Context (old now : Env) (Ho : older (ev_version old) 1 0 4) (Hn : version_ltb (ev_version now) (mkV 1 0 4) = false).
  Context (Hsub : forall a b, fits 32 (ev_fsub old a b)).
  Context (lo hi : Vec3) (Hlo : vec_ok 32 lo) (Hhi : vec_ok 32 hi).
  Notation v := (ev_version old).
  Notation width := (vsub_with (ev_fsub old) hi lo).

  Definition old_color_ok (c : Color) : Prop := color_ok c /\ (older v 1 0 3 -> c_a c = 255).
  Definition old_color : Codec Color := wr (old_color_bytes v) (if version_leb v (mkV 1 0 2) then c_color_legacy else c_color).
  Lemma sl_old_color : saves_and_loads old_color old_color_ok any.
  Proof using.
    unfold old_color, wr, saves_and_loads, round_trips, old_color_bytes, old_color_ok. cbn [cd_write cd_read]. rewrite leb_older. destruct (decide (older v 1 0 3)) as [L|L].
    - apply older_spec in L as E. rewrite E.
      assert (HS : saves_and_loads (codec_vec3 c_u8) (vec_ok 8) any).
      { eapply sl_weaken; [| |apply (sl_vec3 c_u8 _ _ sl_u8)]; [intros a H; exact H|intros; repeat split]. }
      destruct HS as [W R]. split.
      + intros c [(H1 & H2 & H3 & _) _]. apply W. repeat split; assumption.
      + intros c o bs [(H1 & H2 & H3 & H4) Ha] _ Hw. destruct (R (mkVec3 (c_r c) (c_g c) (c_b c)) (mkVec3 0 0 0) bs (conj H1 (conj H2 H3)) I Hw) as [B X]. split; [exact B|].
        cbn [cd_read c_color_legacy]. rewrite <- (app_nil_r bs). eapply reads_bind; [exact X|]. cbn [v_x v_y v_z]. rewrite <- (Ha L). destruct c. apply reads_ret.
    - assert (E : version_ltb v (mkV 1 0 3) = false) by (apply not_true_iff_false; rewrite older_spec; exact L). rewrite E. destruct sl_color as [W R]. split.
      + intros c [H _]. apply W, H.
      + intros c o bs [H _] _ Hw. exact (R c o bs H I Hw).
  Qed.
  Definition old_box_ok (b : BoundingBox) : Prop := bbox_ok b /\ (older v 1 0 3 -> bb_dim b = width).
  Definition old_box : Codec BoundingBox := wr (old_box_bytes v lo hi) (c_bbox old).
  Lemma sl_old_box : saves_and_loads old_box old_box_ok any.
  Proof using Hlo Hhi.
    unfold old_box, wr, saves_and_loads, round_trips, old_box_bytes, old_box_ok. cbn [cd_write cd_read]. destruct (decide (older v 1 0 3)) as [L|L].
    - apply older_spec in L as E.
      destruct sl_i32 as [W1 R1], sl_vec3f as [W2 R2], (sl_mat (Some 3) (Some 3) 32 c_f32 sl_f32) as [W3 R3].
      assert (HW : forall b, bbox_ok b -> exists h t l g c r, fixed_array 5 = Ok h /\ cd_write c_i32 (bb_type b) = Ok t /\
        cd_write c_vec3f lo = Ok l /\ cd_write c_vec3f hi = Ok g /\ cd_write c_vec3f (bb_center b) = Ok c /\ cd_write c_matrix3f (bb_rot b) = Ok r).
      { intros b (Ht & Hd & Hc & Hr). destruct (W1 _ Ht) as [t Et], (W2 _ Hlo) as [l El], (W2 _ Hhi) as [g Eg], (W2 _ Hc) as [c Ec], (W3 _ Hr) as [r Er].
        eexists _, t, l, g, c, r. split; [apply fixed_array_le; reflexivity|]. auto. }
      split.
      + intros b [Hb _]. destruct (HW b Hb) as (h & t & l & g & c & r & E1 & E2 & E3 & E4 & E5 & E6).
        cbn [seq_writes]. rewrite E1, E2, E3, E4, E5, E6. eexists; reflexivity.
      + intros b o bs [Hb Hd] _ H. destruct (HW b Hb) as (h & t & l & g & c & r & E1 & E2 & E3 & E4 & E5 & E6).
        destruct Hb as (Ht & _ & Hc & Hr). cbn [seq_writes] in H. rewrite E1, E2, E3, E4, E5, E6 in H. injection H as <-.
        destruct (R1 _ 0%Z _ Ht I E2) as [B1 X1]. destruct (R2 _ (mkVec3 0 0 0) _ Hlo I E3) as [B2 X2]. destruct (R2 _ (mkVec3 0 0 0) _ Hhi I E4) as [B3 X3].
        destruct (R2 _ (bb_center o) _ Hc I E5) as [B4 X4]. destruct (R3 _ (bb_rot o) _ Hr I E6) as [B5 X5].
        split.
        * pose proof (fixed_array_bytes _ _ E1). repeat apply Forall_app_2; try assumption. constructor.
        * cbn [cd_read c_bbox]. rewrite E. specialize (Hd L). destruct b as [bt bd bc br]. cbn [bb_type bb_dim bb_center bb_rot] in *. subst bd.
          eapply reads_bind; [apply (reads_check_length 5), E1|]. eapply reads_bind; [exact X1|].
          replace (l ++ g ++ c ++ r ++ []) with ((l ++ g ++ []) ++ (c ++ r ++ [])) by (rewrite app_nil_r, <- !app_assoc; reflexivity).
          eapply (reads_bind _ _ (l ++ g ++ [])); [|eapply reads_bind; [exact X4|]; eapply reads_bind; [exact X5|]; apply reads_ret].
          eapply reads_bind; [exact X2|]. eapply reads_bind; [exact X3|]. apply reads_ret.
    - assert (E : version_ltb v (mkV 1 0 3) = false) by (apply not_true_iff_false; rewrite older_spec; exact L).
      destruct (sl_bbox old E) as [W R]. split; [intros b [Hb _]; apply W, Hb|]. intros b o bs [Hb _] _ Hw. exact (R b o bs Hb I Hw).
  Qed.
  (** the semantic members with the old writers and today's readers *)
  Definition old_sem : list (Field SemAttrs) :=
    map (lift_field s_base (fun b s => sem_set_base s b)) (base_fields old) ++ [
    mkField c_string s_name (fun v s => mkSem (s_base s) v (s_color s) (s_bbox s) (s_label s) (s_feature s));
    mkField old_color s_color (fun v s => mkSem (s_base s) (s_name s) v (s_bbox s) (s_label s) (s_feature s));
    mkField old_box s_bbox (fun v s => mkSem (s_base s) (s_name s) (s_color s) v (s_label s) (s_feature s));
    mkField c_u32 s_label (fun v s => mkSem (s_base s) (s_name s) (s_color s) (s_bbox s) v (s_feature s));
    mkField c_matrixXd s_feature (fun v s => mkSem (s_base s) (s_name s) (s_color s) (s_bbox s) (s_label s) v)].
  Lemma alike_sem : reads_alike old_sem (sem_fields old).
  Proof using. unfold old_sem, sem_fields. apply alike_app; [apply alike_refl|]. repeat constructor. Qed.
  Lemma fit_old_base b o : base_ok b -> a_predicted o = false ->
    fields_fit (base_fields old) b o /\ copy_fields (base_fields old) b o = not_predicted b.
  Proof using Ho.
    intros (H1 & H2) Hp. apply older_spec in Ho as E. unfold base_fields. rewrite E. split.
    - cbn [app]. field sl_vec3d; [assumption|]. field sl_u64; [assumption|]. field sl_bool; [exact I|]. exact I.
    - destruct b, o. cbn in *. subst. reflexivity.
  Qed.
  Lemma sem_from_old s : sem_ok s -> sem_ok (from_old v width s).
  Proof using Hsub.
    intros (H1 & H2 & H3 & H4 & H5 & H6). unfold from_old, sem_ok. cbn [s_base s_name s_color s_bbox s_label s_feature].
    split; [exact H1|]. split; [exact H2|]. destruct (decide (older v 1 0 3)); [|auto]. split.
    - destruct H3 as (? & ? & ? & _). repeat split; try assumption; reflexivity.
    - split; [|auto]. destruct H4 as (? & _ & ? & ?). split; [assumption|]. split; [|auto]. repeat split; apply Hsub.
  Qed.
  Lemma fit_old_sem s o : sem_ok s -> a_predicted (s_base o) = false ->
    fields_fit old_sem (from_old v width s) o /\ copy_fields old_sem (from_old v width s) o = from_old v width s.
  Proof using Ho Hsub Hlo Hhi.
    intros Hs Hp. pose proof (sem_from_old s Hs) as (Hb & Hnm & Hc & Hbb & Hl & Hf).
    assert (F1 : forall b, base_ok (not_predicted b) -> fields_fit (base_fields old) (not_predicted b) (s_base o) /\ copy_fields (base_fields old) (not_predicted b) (s_base o) = not_predicted b)
      by (intros b Hb'; exact (fit_old_base (not_predicted b) (s_base o) Hb' Hp)).
    destruct (F1 (s_base s) Hb) as [F C].
    unfold old_sem. rewrite fields_fit_app, copy_fields_app, copy_lift; [|reflexivity..|intros []; reflexivity].
    change (s_base (from_old v width s)) with (not_predicted (s_base s)). rewrite C. split; [|destruct s, o; reflexivity]. split.
    - apply fit_lift; [reflexivity..|]. exact F.
    - field sl_string; [assumption|]. field sl_old_color. { split; [exact Hc|]. intros L. unfold from_old. cbn. destruct (decide (older v 1 0 3)); [reflexivity|contradiction]. }
      field sl_old_box. { split; [exact Hbb|]. intros L. unfold from_old. cbn [s_bbox]. destruct (decide (older v 1 0 3)); [reflexivity|contradiction]. }
      field sl_u32; [assumption|]. field (sl_mat None None 64 c_f64 sl_f64); [assumption|]. exact I.
  Qed.
  Lemma write_old_sem s : write_fields old_sem (from_old v width s) = old_sem_bytes v lo hi s.
  Proof using Ho.
    unfold old_sem. rewrite write_app, write_lift. apply older_spec in Ho as E. unfold base_fields. rewrite E. cbn [app].
    change (write_fields _ (s_base (from_old v width s))) with (old_base_bytes (s_base s)). unfold old_sem_bytes. cbn [seq_writes].
    destruct (old_base_bytes (s_base s)) as [b| |]; cbn [rbind]; [|reflexivity..].
    unfold write_fields. cbn [map fd_codec fd_get seq_writes old_color old_box wr cd_write].
    assert (Ec : old_color_bytes v (s_color (from_old v width s)) = old_color_bytes v (s_color s)).
    { unfold old_color_bytes, from_old. cbn [s_color]. destruct (decide (older v 1 0 3)); reflexivity. }
    assert (Eb : old_box_bytes v lo hi (s_bbox (from_old v width s)) = old_box_bytes v lo hi (s_bbox s)).
    { unfold old_box_bytes, from_old. cbn [s_bbox]. destruct (decide (older v 1 0 3)); reflexivity. }
    rewrite Ec, Eb. reflexivity.
  Qed.

  Lemma old_class {T} (F : Env -> list (Field T)) up put own x o y :
    (forall e, F e = map (lift_field up put) (sem_fields e) ++ own) ->
    (forall s t, up (put s t) = s) -> (forall s s' t, put s (put s' t) = put s t) -> (forall t, put (up t) t = t) ->
    sem_ok (up x) -> a_predicted (s_base (up o)) = false ->
    let x' := put (from_old v width (up x)) x in
    (fields_fit (F now) x' o /\ copy_fields (F now) x' o = y) -> write_fields own x' = write_fields own x ->
    exists ob nb wb, old_sem_bytes v lo hi (up x) = Ok ob /\ write_fields (sem_fields now) (up x) = Ok nb /\
      write_fields (F now) x = Ok (nb ++ wb) /\ Forall is_byte (ob ++ wb) /\ reads_back (read_fields (F old) o) (ob ++ wb) y.
  Proof using Ho Hn Hsub Hlo Hhi.
    intros HF H1 H2 H3 Hs Hp x' [Hfit Hcopy] Hown. set (sv := from_old v width (up x)) in *.
    assert (Eup : up x' = sv) by apply H1.
    destruct (fit_old_sem (up x) (up o) Hs Hp) as [G1 G2]. fold sv in G1, G2.
    rewrite HF, fields_fit_app, copy_lift in Hfit by assumption. rewrite HF, copy_fields_app, copy_lift in Hcopy by assumption.
    rewrite Eup in Hfit, Hcopy. destruct (fit_sem now Hn sv (up o) (sem_from_old (up x) Hs)) as [_ Csv]. rewrite Csv in Hfit, Hcopy. destruct Hfit as [_ Hfo].
    assert (Hall : fields_fit (map (lift_field up put) old_sem ++ own) x' o).
    { rewrite fields_fit_app, copy_lift by assumption. rewrite Eup, G2. split; [|exact Hfo]. apply fit_lift; [assumption..|]. rewrite Eup. exact G1. }
    destruct (sl_fields _ _ _ Hall) as (bs & Hw & Hb & Hr). rewrite copy_fields_app, copy_lift in Hr by assumption. rewrite Eup, G2, Hcopy in Hr.
    rewrite write_app, write_lift, Eup in Hw. subst sv. rewrite write_old_sem, Hown in Hw.
    destruct (old_sem_bytes v lo hi (up x)) as [ob| |]; [|discriminate|discriminate]. cbn [rbind] in Hw.
    destruct (write_fields own x) as [wb| |] eqn:Ew; [|discriminate|discriminate]. cbn [rbind] in Hw. injection Hw as <-.
    destruct (fit_sem now Hn (up x) (up o) Hs) as [Fn _]. destruct (sl_fields _ _ _ Fn) as (nb & Hnb & _).
    exists ob, nb, wb. split; [reflexivity|]. split; [exact Hnb|]. split; [rewrite HF, write_app, write_lift, Hnb; cbn [rbind]; rewrite Ew; reflexivity|]. split; [exact Hb|].
    eapply reads_ext; [|exact Hr]. intros buf pos. rewrite HF. apply alike_read. apply alike_app; [apply alike_lift, alike_sem|apply alike_refl].
  Qed.

  Theorem old_semantic a s : attrs_ok a -> sem_of a = Some s ->
    exists ob nb rest, old_sem_bytes v lo hi s = Ok ob /\ write_attr_fields now (ASem s) = Ok nb /\ write_attr_fields now a = Ok (nb ++ rest) /\
      Forall is_byte (ob ++ rest) /\ reads_back (read_attr_fields old (kind_of a)) (ob ++ rest) (kept (with_sem a (from_old v width s))).
  Proof using Ho Hn Hsub Hlo Hhi.
    assert (Hmk : forall T (f : T -> NodeAttrs) (F : Env -> list (Field T)) up o x y,
      (exists ob nb wb, old_sem_bytes v lo hi (up x) = Ok ob /\ write_fields (sem_fields now) (up x) = Ok nb /\
        write_fields (F now) x = Ok (nb ++ wb) /\ Forall is_byte (ob ++ wb) /\ reads_back (read_fields (F old) o) (ob ++ wb) y) ->
      exists ob nb rest, old_sem_bytes v lo hi (up x) = Ok ob /\ write_attr_fields now (ASem (up x)) = Ok nb /\ write_fields (F now) x = Ok (nb ++ rest) /\
        Forall is_byte (ob ++ rest) /\ reads_back (rmapr f (read_fields (F old) o)) (ob ++ rest) (f y)).
    { intros T f F up o x y (ob & nb & wb & A & B & C & D & E). exists ob, nb, wb. do 4 (split; [assumption|]). apply reads_rmapr, E. }
    intros Ha Hs. destruct a as [x|x|x|x|x|x|x|x]; try discriminate; injection Hs as <-; cbn [attrs_ok kind_of write_attr_fields read_attr_fields with_sem] in *.
    - destruct (fit_old_sem x sem_default Ha eq_refl) as [G1 G2]. destruct (sl_fields _ _ _ G1) as (bs & Hw & Hb & Hr). rewrite write_old_sem in Hw. rewrite G2 in Hr.
      destruct (fit_sem now Hn x sem_default Ha) as [Fn _]. destruct (sl_fields _ _ _ Fn) as (nb & Hnb & _).
      exists bs, nb, []. rewrite !app_nil_r. do 4 (split; [assumption|]). cbn [kept]. apply reads_rmapr. eapply reads_ext; [|exact Hr]. intros. apply alike_read, alike_sem.
    - pose proof (sem_from_old (o_sem x) (proj1 Ha)) as Hs'.
      apply (Hmk _ AObj obj_fields o_sem obj_default x). eapply old_class; [intros; reflexivity|reflexivity|reflexivity|intros []; reflexivity|apply Ha|reflexivity| |reflexivity].
      apply (fit_obj now Hn). destruct Ha as (_ & ? & ?). split; [exact Hs'|auto].
    - pose proof (sem_from_old (r_sem x) (proj1 Ha)) as Hs'.
      apply (Hmk _ ARoom room_fields r_sem room_default x). eapply old_class; [intros; reflexivity|reflexivity|reflexivity|intros []; reflexivity|apply Ha|reflexivity| |reflexivity].
      apply (fit_room now Hn). destruct Ha as (_ & ?). split; [exact Hs'|auto].
    - pose proof (sem_from_old (p_sem x) (proj1 Ha)) as Hs'.
      apply (Hmk _ APlace place_fields p_sem place_default x). eapply old_class; [intros; reflexivity|reflexivity|reflexivity|intros []; reflexivity|apply Ha|reflexivity| |reflexivity].
      apply (fit_place now Hn); [|constructor]. destruct Ha as (_ & Ha). split; [exact Hs'|exact Ha].
    - pose proof (sem_from_old (d_sem x) (proj1 Ha)) as Hs'. cbn [kept].
      apply (Hmk _ APlace2d place2d_fields d_sem place2d_default x). eapply old_class; [intros; reflexivity|reflexivity|reflexivity|intros []; reflexivity|apply Ha|reflexivity| |reflexivity].
      match goal with |- fields_fit _ ?x' _ /\ _ => destruct (fit_place2d now Hn x') as [F1 F2]; [|split; [exact F1|injection F2; intros E; exact E]] end.
      destruct Ha as (_ & Ha). split; [exact Hs'|exact Ha].
    - pose proof (sem_from_old (o_sem (k_obj x)) (proj1 (proj1 Ha))) as Hs'. cbn [kept].
      apply (Hmk _ AKhronos khronos_fields (fun k => o_sem (k_obj k)) khronos_default x). eapply (old_class khronos_fields (fun k => o_sem (k_obj k))); [intros; reflexivity|reflexivity|reflexivity|intros [[] ? ? ? ? ? ? ?]; reflexivity|apply Ha|reflexivity| |reflexivity].
      match goal with |- fields_fit _ ?x' _ /\ _ => destruct (fit_khronos now Hn x') as [F1 F2]; [|split; [exact F1|injection F2; intros E; exact E]] end.
      destruct Ha as (Ho' & Ha). split; [|exact Ha]. split; [exact Hs'|exact (proj2 Ho')].
  Qed.
End Old.

Theorem old_plain old now a : older (ev_version old) 1 0 4 -> version_ltb (ev_version now) (mkV 1 0 4) = false -> attrs_ok a -> sem_of a = None ->
  exists ob nb rest, old_base_bytes (attrs_base a) = Ok ob /\ write_attr_fields now (ANode (attrs_base a)) = Ok nb /\ write_attr_fields now a = Ok (nb ++ rest) /\
    Forall is_byte (ob ++ rest) /\ reads_back (read_attr_fields old (kind_of a)) (ob ++ rest) (attrs_set_base a (not_predicted (attrs_base a))).
Proof.
  intros Ho Hn Ha Hs. apply older_spec in Ho as E. destruct a as [x|x|x|x|x|x|x|x]; try discriminate; cbn [attrs_ok kind_of write_attr_fields read_attr_fields attrs_base attrs_set_base] in *.
  - destruct (fit_old_base old Ho x base_default Ha eq_refl) as [F C]. destruct (sl_fields _ _ _ F) as (ob & Hw & Hb & Hr). rewrite C in Hr.
    destruct (fit_base now Hn x base_default Ha) as [F' _]. destruct (sl_fields _ _ _ F') as (nb & Hnb & _).
    exists ob, nb, []. rewrite !app_nil_r. split; [|split; [exact Hnb|split; [exact Hnb|split; [exact Hb|apply reads_rmapr, Hr]]]].
    unfold base_fields in Hw. rewrite E in Hw. exact Hw.
  - destruct Ha as (H1 & H2 & H3 & H4 & H5). set (put := fun b a => mkAgent b (g_rot a) (g_ext a) (g_dbow_ids a) (g_dbow_vals a)).
    assert (Hsh : exists own, forall e, agent_fields e = map (lift_field g_base put) (base_fields e) ++ own) by (eexists; intros; reflexivity).
    destruct Hsh as [own HF]. destruct (fit_old_base old Ho (g_base x) base_default H1 eq_refl) as [F C].
    destruct (fit_base now Hn (g_base x) base_default H1) as [F' C']. destruct (sl_fields _ _ _ F') as (nb & Hnb & _). destruct (sl_fields _ _ _ F) as (ob & Hob & _).
    assert (L1 : forall s t, g_base (put s t) = s) by reflexivity. assert (L2 : forall s s' t, put s (put s' t) = put s t) by reflexivity.
    assert (L3 : forall t, put (g_base t) t = t) by (intros []; reflexivity).
    set (x' := put (not_predicted (g_base x)) x).
    assert (Hx' : agent_ok x') by (split; [exact H1|auto]).
    destruct (fit_agent now Hn x' agent_default Hx') as [G1 G2]. rewrite HF, fields_fit_app, copy_lift in G1 by assumption.
    rewrite HF, copy_fields_app, copy_lift in G2 by assumption. change (g_base x') with (not_predicted (g_base x)) in G1, G2. change (g_base agent_default) with base_default in G1, G2.
    destruct (fit_base now Hn (not_predicted (g_base x)) base_default H1) as [_ Cn]. rewrite Cn in G1, G2. destruct G1 as [_ G1].
    destruct (fit_old_base old Ho (not_predicted (g_base x)) base_default H1 eq_refl) as [Fo Co].
    assert (Hall : fields_fit (agent_fields old) x' agent_default).
    { rewrite HF, fields_fit_app, copy_lift by assumption. change (g_base x') with (not_predicted (g_base x)). change (g_base agent_default) with base_default.
      rewrite Co. split; [|exact G1]. apply fit_lift; [assumption..|]. exact Fo. }
    destruct (sl_fields _ _ _ Hall) as (bs & Hw & Hb & Hr). rewrite HF, copy_fields_app, copy_lift in Hr by assumption.
    change (g_base x') with (not_predicted (g_base x)) in Hr. change (g_base agent_default) with base_default in Hr. rewrite Co in Hr.
    change (copy_fields own x' (put (not_predicted (not_predicted (g_base x))) agent_default)) with (copy_fields own x' (put (not_predicted (g_base x)) agent_default)) in Hr. rewrite G2 in Hr.
    rewrite HF, write_app, write_lift in Hw. change (g_base x') with (not_predicted (g_base x)) in Hw.
    assert (Eb : write_fields (base_fields old) (not_predicted (g_base x)) = Ok ob).
    { rewrite <- Hob. unfold base_fields. rewrite E. reflexivity. }
    rewrite Eb in Hw. cbn [rbind] in Hw.
    destruct (write_fields own x') as [wb| |] eqn:Ew; [|discriminate|discriminate]. cbn [rbind] in Hw. injection Hw as <-.
    assert (Eo : own = [mkField c_quatd g_rot (fun v a => mkAgent (g_base a) v (g_ext a) (g_dbow_ids a) (g_dbow_vals a));
      mkField c_u64 g_ext (fun v a => mkAgent (g_base a) (g_rot a) v (g_dbow_ids a) (g_dbow_vals a));
      mkField c_bowids g_dbow_ids (fun v a => mkAgent (g_base a) (g_rot a) (g_ext a) v (g_dbow_vals a));
      mkField c_vectorXf g_dbow_vals (fun v a => mkAgent (g_base a) (g_rot a) (g_ext a) (g_dbow_ids a) v)]).
    { specialize (HF now). unfold agent_fields in HF. apply app_inv_head in HF. symmetry. exact HF. }
    exists ob, nb, wb. split; [|split; [exact Hnb|split; [|split; [exact Hb|]]]].
    + unfold base_fields in Hob. rewrite E in Hob. exact Hob.
    + rewrite HF, write_app, write_lift, Hnb. cbn [rbind]. replace (write_fields own x) with (write_fields own x') by (rewrite Eo; reflexivity). rewrite Ew. reflexivity.
    + apply (reads_rmapr AAgent). rewrite HF. exact Hr.
Qed.
