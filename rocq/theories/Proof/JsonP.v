(** Values survive being written as JSON text and read back. *)
From Coq Require Import NArith ZArith Bool List Lia String.
From stdpp Require Import base list gmap fin_maps.
From Verif.Model Require Import Types Mesh Attrs Binary Versioning AttrCodec Registry GraphCodec Json Rotation JsonCodec.
From Verif.Spec Require Import BinarySpec AttrSpec JsonSpec.
From Verif.Proof Require Import JsonNum.
Local Open Scope N_scope.

(* ------------------------------------------------------------------ *)
(** ** dump *)
Lemma dump_array l : dump (JArray l) = rmap JArray (map_result dump l).
Proof. cbn [dump]. f_equal. induction l as [|x l IH]; [reflexivity|]. cbn [map_result]. destruct (dump x); [|reflexivity..]. cbn [rbind]. rewrite IH. reflexivity. Qed.
Definition dump_member (x : list N * json) : result (list N * json) :=
  if utf8 (fst x) then let! y := dump (snd x) in Ok (fst x, y) else Throw.
Lemma dump_object o : dump (JObject o) = rmap JObject (map_result dump_member o).
Proof.
  cbn [dump]. f_equal. induction o as [|[k x] o IH]; [reflexivity|]. cbn [map_result]. unfold dump_member at 1. cbn [fst snd].
  destruct (utf8 k); [|reflexivity]. destruct (dump x); [|reflexivity..]. cbn [rbind]. rewrite IH. reflexivity.
Qed.
Lemma map_result_ok {A B} (f : A -> result B) l l' : Forall2 (fun a b => f a = Ok b) l l' -> map_result f l = Ok l'.
Proof. induction 1 as [|a b l l' E _ IH]; [reflexivity|]. cbn [map_result]. rewrite E. cbn [rbind]. rewrite IH. reflexivity. Qed.
Lemma map_result_inv {A B} (f : A -> result B) l l' : map_result f l = Ok l' -> Forall2 (fun a b => f a = Ok b) l l'.
Proof.
  revert l'. induction l as [|a l IH]; intros l' H; cbn [map_result] in H; [injection H as <-; constructor|].
  destruct (f a) as [b| |] eqn:E; cbn [rbind] in H; try discriminate. destruct (map_result f l) as [r| |]; cbn [rbind] in H; try discriminate.
  injection H as <-. constructor; [exact E|]. apply IH. reflexivity.
Qed.
(** two lists of members, the second the dumped first *)
Definition dumps : list (list N * json) -> list (list N * json) -> Prop :=
  Forall2 (fun x y => utf8 (fst x) = true /\ fst y = fst x /\ dump (snd x) = Ok (snd y)).
Lemma dumps_object o o' : dumps o o' -> dump (JObject o) = Ok (JObject o').
Proof.
  intros H. rewrite dump_object. rewrite (map_result_ok dump_member o o'); [reflexivity|].
  eapply Forall2_impl; [exact H|]. intros [k x] [k' y] (Hu & E & Hd). cbn in *. subst k'. unfold dump_member. cbn [fst snd]. rewrite Hu, Hd. reflexivity.
Qed.
Lemma dumps_app a a' b b' : dumps a a' -> dumps b b' -> dumps (a ++ b) (a' ++ b').
Proof. apply Forall2_app. Qed.
Lemma dumps_names o o' : dumps o o' -> map fst o' = map fst o.
Proof. induction 1 as [|x y l l' (_ & E & _) _ IH]; [reflexivity|]. cbn [map]. rewrite E, IH. reflexivity. Qed.
Fixpoint json_ind' (P : json -> Prop) (Hn : P JNull) (Hb : forall b, P (JBool b)) (Hi : forall z, P (JInt z)) (Hf : forall v, P (JFloat v))
  (Hs : forall s, P (JString s)) (Ha : forall l, Forall P l -> P (JArray l)) (Ho : forall o, Forall (fun x => P (snd x)) o -> P (JObject o)) (j : json) : P j :=
  match j with
  | JNull => Hn | JBool b => Hb b | JInt z => Hi z | JFloat v => Hf v | JString s => Hs s
  | JArray l => Ha l ((fix go l := match l return Forall P l with [] => @List.Forall_nil json P | x :: r => @List.Forall_cons json P x r (json_ind' P Hn Hb Hi Hf Hs Ha Ho x) (go r) end) l)
  | JObject o => Ho o ((fix go o := match o return Forall (fun x => P (snd x)) o with [] => @List.Forall_nil _ (fun x => P (snd x)) | x :: r => @List.Forall_cons _ (fun x => P (snd x)) x r (json_ind' P Hn Hb Hi Hf Hs Ha Ho (snd x)) (go r) end) o)
  end.
(** a text is its own dump *)
Lemma dump_again j t : dump j = Ok t -> dump t = Ok t.
Proof.
  revert t. induction j as [|b|z|v|s|l IH|o IH] using json_ind'; intros t E.
  - injection E as <-. reflexivity.
  - injection E as <-. reflexivity.
  - injection E as <-. reflexivity.
  - cbn [dump] in E. destruct (fl_finite 11 52 v) eqn:F; injection E as <-; [cbn [dump]; rewrite F|]; reflexivity.
  - cbn [dump] in E. destruct (utf8 s) eqn:F; [|discriminate]. injection E as <-. cbn [dump]. rewrite F. reflexivity.
  - rewrite dump_array in E. destruct (map_result dump l) as [l'| |] eqn:F; [|discriminate..]. injection E as <-. apply map_result_inv in F.
    rewrite dump_array. rewrite (map_result_ok dump l' l'); [reflexivity|].
    induction F as [|a b l l' Hd _ IH2]; [constructor|]. inversion IH as [|? ? H1 H2]; subst. constructor; [apply H1; exact Hd|apply IH2; exact H2].
  - rewrite dump_object in E. destruct (map_result dump_member o) as [o'| |] eqn:F; [|discriminate..]. injection E as <-. apply map_result_inv in F.
    apply dumps_object. unfold dumps. induction F as [|[k x] [k' y] l l' Hd _ IH2]; [constructor|]. inversion IH as [|? ? H1 H2]; subst.
    constructor; [|apply IH2; exact H2]. unfold dump_member in Hd. cbn [fst snd] in *. destruct (utf8 k) eqn:U; [|discriminate].
    destruct (dump x) as [y'| |] eqn:D; cbn [rbind] in Hd; try discriminate. injection Hd as <- <-. split; [exact U|]. split; [reflexivity|]. apply H1. reflexivity.
Qed.

(* ------------------------------------------------------------------ *)
(** ** Objects *)
Lemma obj_get_in o k v : NoDup (map fst o) -> (k, v) ∈ o -> obj_get o k = Some v.
Proof.
  induction o as [|[k' v'] o IH]; intros ND H; [apply elem_of_nil in H; contradiction|]. cbn [map fst] in ND. apply stdpp.list.NoDup_cons in ND as [Hn ND].
  cbn [obj_get]. apply elem_of_cons in H as [E|H].
  - injection E as -> ->. rewrite bool_decide_true by reflexivity. reflexivity.
  - rewrite bool_decide_false; [apply IH; assumption|]. intros ->. apply Hn. apply elem_of_list_fmap. exists (k, v). split; [reflexivity|exact H].
Qed.
Lemma obj_get_none o k : k ∉ map fst o -> obj_get o k = None.
Proof.
  induction o as [|[k' v'] o IH]; intros H; [reflexivity|]. cbn [map fst] in H. apply not_elem_of_cons in H as [H1 H2]. cbn [obj_get].
  rewrite bool_decide_false by congruence. apply IH, H2.
Qed.
Lemma obj_set_new o k v : k ∉ map fst o -> obj_set o k v = o ++ [(k, v)].
Proof.
  induction o as [|[k' v'] o IH]; intros H; [reflexivity|]. cbn [map fst] in H. apply not_elem_of_cons in H as [H1 H2]. cbn [obj_set app].
  rewrite bool_decide_false by congruence. rewrite IH by exact H2. reflexivity.
Qed.
Lemma fold_set_new l o : NoDup (map fst (o ++ l)) -> fold_left (fun o x => obj_set o (fst x) (snd x)) l o = o ++ l.
Proof.
  revert o. induction l as [|[k v] l IH]; intros o ND; [rewrite app_nil_r; reflexivity|]. cbn [fold_left fst snd].
  assert (E : o ++ (k, v) :: l = (o ++ [(k, v)]) ++ l) by (rewrite <- app_assoc; reflexivity). rewrite E in *. rewrite obj_set_new; [apply IH, ND|].
  rewrite !map_app in ND. apply NoDup_app in ND as (ND & _ & _). apply NoDup_app in ND as (_ & Hd & _). intros Hin. apply (Hd _ Hin). left.
Qed.
Lemma j_object_nodup l : NoDup (map fst l) -> j_object l = JObject l.
Proof. intros H. unfold j_object. rewrite fold_set_new by exact H. reflexivity. Qed.

(* ------------------------------------------------------------------ *)
(** ** Carrying values *)
(** writing [a] with [c] and reading the text gives [a'] *)
Definition carries {A} (c : JCodec A) (a a' : A) : Prop := exists j, dump (jc_to c a) = Ok j /\ jc_from c j = Ok a'.
Definition writable {A} (c : JCodec A) (a : A) : Prop := exists j, dump (jc_to c a) = Ok j.
Definition carries_coeff (c : JCodec N) (nan a a' : N) : Prop := exists j, dump (jc_to c a) = Ok j /\ coeff c nan j = Ok a'.

Lemma carries_bool b : carries jc_bool b b.
Proof. exists (JBool b). split; reflexivity. Qed.
Lemma carries_string s : is_utf8 s -> carries jc_string s s.
Proof. intros H. exists (JString s). cbn [jc_string jc_to dump]. rewrite (is_utf8_accepted s H). split; reflexivity. Qed.
Lemma carries_unsigned bits v : fits bits v -> carries (jc_unsigned bits) v v.
Proof.
  intros H. exists (JInt (Z.of_N v)). split; [reflexivity|]. cbn [jc_unsigned jc_from get_unsigned]. f_equal.
  unfold fits in H. rewrite Z.mod_small; [apply N2Z.id|]. split; [apply N2Z.is_nonneg|]. change 2%Z with (Z.of_N 2). rewrite <- (N2Z.inj_pow 2 bits). apply N2Z.inj_lt, H.
Qed.
Lemma wrap_id v bits : (0 < bits) -> fits_signed (Z.of_N bits) v -> wrap_signed bits v = v.
Proof.
  intros Hb H. unfold wrap_signed, fits_signed in *. assert (E : (2 ^ Z.of_N bits = 2 * 2 ^ (Z.of_N bits - 1))%Z).
  { rewrite <- (Z.pow_succ_r 2) by lia. f_equal. lia. } rewrite Z.mod_small; lia.
Qed.
Lemma carries_i32 z : fits_signed 32 z -> carries jc_i32 z z.
Proof. intros H. exists (JInt z). split; [reflexivity|]. cbn [jc_i32 jc_from get_int32]. f_equal. apply wrap_id; [lia|exact H]. Qed.
Lemma carries_f64 v : finite64 v -> carries jc_f64 v v.
Proof. intros [_ H]. exists (JFloat v). cbn [jc_f64 jc_to dump]. rewrite (proj2 (finite_iff 11 52 v) H). split; reflexivity. Qed.
Lemma carries_f32 v : finite32 v -> carries jc_f32 v v.
Proof.
  intros [Hf H]. apply finite_iff in H. exists (JFloat (float_to_double v)). cbn [jc_f32 jc_to dump]. rewrite float_to_double_finite, H by exact Hf. split; [reflexivity|].
  cbn [jc_f32 jc_from get_float]. f_equal. apply float_double_float; assumption.
Qed.
Lemma writable_f32 v : writable jc_f32 v.
Proof. eexists. cbn [jc_f32 jc_to dump]. reflexivity. Qed.
Lemma writable_f64 v : writable jc_f64 v.
Proof. eexists. cbn [jc_f64 jc_to dump]. reflexivity. Qed.

Lemma coeff_f64 v : fits 64 v -> carries_coeff jc_f64 nan64 v (coeff64 v).
Proof.
  intros Hf. unfold carries_coeff, coeff64. cbn [jc_f64 jc_to dump]. destruct (decide (is_finite 11 52 v)) as [H|H].
  - rewrite (proj2 (finite_iff 11 52 v) H). eexists. split; reflexivity.
  - rewrite (proj2 (finite_iff_not 11 52 v) H). eexists. split; reflexivity.
Qed.
Lemma coeff_f32 v : fits 32 v -> carries_coeff jc_f32 nan32 v (coeff32 v).
Proof.
  intros Hf. unfold carries_coeff, coeff32. cbn [jc_f32 jc_to dump]. rewrite float_to_double_finite by exact Hf. destruct (decide (is_finite 8 23 v)) as [H|H].
  - apply finite_iff in H. rewrite H. eexists. split; [reflexivity|]. cbn [coeff jc_f32 jc_from get_float]. f_equal. apply float_double_float; assumption.
  - rewrite (proj2 (finite_iff_not 8 23 v) H). eexists. split; reflexivity.
Qed.
Lemma coeff_unsigned bits nan v : fits bits v -> carries_coeff (jc_unsigned bits) nan v v.
Proof. intros H. destruct (carries_unsigned bits v H) as (j & E & F). exists j. split; [exact E|]. injection E as <-. exact F. Qed.

Lemma carries_list {A} (c : JCodec A) l l' : Forall2 (carries c) l l' -> carries (jc_list c) l l'.
Proof.
  intros H. cut (exists js, map_result dump (map (jc_to c) l) = Ok js /\ map_result (jc_from c) js = Ok l').
  { intros (js & E & F). exists (JArray js). cbn [jc_list jc_to]. rewrite dump_array, E. split; [reflexivity|]. exact F. }
  induction H as [|a a' l l' (j & E & F) _ (js & IE & IF)]; [exists []; split; reflexivity|]. exists (j :: js). cbn [map map_result].
  rewrite E. cbn [rbind]. rewrite IE. split; [reflexivity|]. rewrite F. cbn [rbind]. rewrite IF. reflexivity.
Qed.
Lemma carries_map {V} (c : JCodec V) (m : gmap (list N) V) : (forall k v, m !! k = Some v -> is_utf8 k /\ carries c v v) -> carries (jc_map c) m m.
Proof.
  intros H. cut (exists o, dumps (map (fun x : list N * V => (fst x, jc_to c (snd x))) (map_to_list m)) o /\
                  map_result (fun x => let! v := jc_from c (snd x) in Ok (fst x, v)) o = Ok (map_to_list m)).
  { intros (o & D & E). exists (JObject o). split; [apply dumps_object, D|]. cbn [jc_map jc_from get_map]. rewrite E. cbn [rbind]. rewrite list_to_map_to_list. reflexivity. }
  assert (HL : Forall (fun x : list N * V => is_utf8 (fst x) /\ carries c (snd x) (snd x)) (map_to_list m)).
  { apply stdpp.list.Forall_forall. intros [k v] Hin. apply elem_of_map_to_list in Hin. apply H, Hin. }
  induction HL as [|[k v] l (Hu & j & E & F) _ (o & IE & IF)]; [exists []; split; [constructor|reflexivity]|].
  exists ((k, j) :: o). cbn [map fst snd] in *. split; [constructor; [cbn [fst snd]; split; [apply is_utf8_accepted, Hu|split; [reflexivity|exact E]]|exact IE]|].
  cbn [map_result fst snd]. rewrite F. cbn [rbind]. rewrite IF. reflexivity.
Qed.

(** coefficients *)
Lemma carries_coeffs (c : JCodec N) nan f l : Forall (fun a => carries_coeff c nan a (f a)) l ->
  exists j, dump (coeffs_to c l) = Ok j /\ j_size j = len l /\ coeffs_from c nan j = Ok (map f l).
Proof.
  intros H. destruct l as [|a l]; [exists JNull; split; [reflexivity|]; split; reflexivity|].
  cut (exists js, map_result dump (map (jc_to c) (a :: l)) = Ok js /\ length js = length (a :: l) /\ map_result (coeff c nan) js = Ok (map f (a :: l))).
  { intros (js & E & L & F). exists (JArray js). change (coeffs_to c (a :: l)) with (JArray (map (jc_to c) (a :: l))). rewrite dump_array, E. split; [reflexivity|].
    split; [cbn [j_size]; rewrite L; reflexivity|exact F]. }
  generalize dependent (a :: l). clear a l. intros l H. induction H as [|a l (j & E & F) _ (js & IE & IL & IF)]; [exists []; repeat split; reflexivity|].
  exists (j :: js). cbn [map map_result length]. rewrite E. cbn [rbind]. rewrite IE. split; [reflexivity|]. split; [rewrite IL; reflexivity|]. rewrite F. cbn [rbind]. rewrite IF. reflexivity.
Qed.
Lemma shape_ok r c (vec : json) : r < 2 ^ 31 -> c < 2 ^ 31 -> r * c < 2 ^ 31 -> j_size vec = r * c -> shape_check (Z.of_N r) (Z.of_N c) vec = Ok tt.
Proof.
  change (2 ^ 31) with 2147483648. intros Hr Hc Hp Hs. unfold shape_check. rewrite <- N2Z.inj_mul, Hs. change (2 ^ 31)%Z with 2147483648%Z. generalize dependent (r * c). intros p Hp Hs.
  rewrite Z.eqb_refl. replace (_ || _) with false by (symmetry; apply orb_false_iff; split; [apply Z.ltb_ge|apply Z.leb_gt]; lia).
  cbn [negb]. replace (_ || _) with false by (symmetry; apply orb_false_iff; split; apply Z.ltb_ge; lia). reflexivity.
Qed.
Ltac nodup_names := apply (bool_decide_unpack _); vm_compute; exact I.
Lemma carries_matrix rows cols c nan bits f m :
  json_matrix rows cols bits m -> (forall v, fits bits v -> carries_coeff c nan v (f v)) -> (rows = None -> cols = None \/ cols = Some 1) ->
  (forall r, rows = Some r -> exists c, cols = Some c) ->
  carries (jc_matrix rows cols c nan) m (matrix_of f m).
Proof.
  intros (HL & Hr & Hc & Hp & Er & Ec & HF) Hf Hshape Hshape2.
  destruct (carries_coeffs c nan f (mx_data m)) as (j & D & S & R). { eapply Forall_impl; [exact HF|]. exact Hf. }
  rewrite HL in S.
  assert (Hend : (let! _ := shape_check (Z.of_N (mx_rows m)) (Z.of_N (mx_cols m)) j in let! data := coeffs_from c nan j in
                 Ok (mkMatrix (Z.to_N (Z.of_N (mx_rows m))) (Z.to_N (Z.of_N (mx_cols m))) data)) = Ok (matrix_of f m)).
  { rewrite (shape_ok _ _ j Hr Hc Hp S). cbn [rbind]. rewrite R. cbn [rbind]. rewrite !N2Z.id. reflexivity. }
  assert (HI : forall n, n < 2 ^ 31 -> wrap_signed 32 (Z.of_N n) = Z.of_N n).
  { intros n Hn. apply wrap_id; [lia|]. unfold fits_signed. change (2 ^ (Z.of_N 32 - 1))%Z with 2147483648%Z. change (2 ^ 31) with 2147483648 in Hn. lia. }
  destruct rows as [r|], cols as [cl|].
  - exists j. split; [exact D|]. cbn [jc_matrix jc_from rbind]. rewrite <- (Er r eq_refl), <- (Ec cl eq_refl). exact Hend.
  - destruct (Hshape2 r eq_refl) as [? ?]; discriminate.
  - destruct (Hshape eq_refl) as [E|E]; [discriminate|injection E as ->]. rewrite (Ec 1 eq_refl) in *. rewrite N.mul_1_r in *.
    exists j. split; [exact D|]. cbn [jc_matrix jc_from rbind]. rewrite S, N.div_1_r. unfold int_size. rewrite HI by exact Hr. exact Hend.
  - set (o := [(str "rows", JInt (Z.of_N (mx_rows m))); (str "cols", JInt (Z.of_N (mx_cols m))); (str "data", j)]).
    exists (JObject o). cbn [jc_matrix jc_to]. split.
    + rewrite j_object_nodup by nodup_names. apply dumps_object. repeat constructor; exact D.
    + cbn [jc_matrix jc_from]. replace (j_at (JObject o) (str "rows")) with (Ok (JInt (Z.of_N (mx_rows m)))) by reflexivity.
      replace (j_at (JObject o) (str "cols")) with (Ok (JInt (Z.of_N (mx_cols m)))) by reflexivity. replace (j_at (JObject o) (str "data")) with (Ok j) by reflexivity.
      cbn [rbind get_int32]. rewrite !HI by assumption. exact Hend.
Qed.
Lemma carries_vec3 c nan bits f v : vec_ok bits v -> (forall x, fits bits x -> carries_coeff c nan x (f x)) -> carries (jc_vec3 c nan) v (vec_of f v).
Proof.
  intros (Hx & Hy & Hz) Hf. destruct v as [x y z]. cbn [v_x v_y v_z] in *.
  destruct (Hf x Hx) as (jx & Dx & Rx), (Hf y Hy) as (jy & Dy & Ry), (Hf z Hz) as (jz & Dz & Rz).
  exists (JArray [jx; jy; jz]). cbn [jc_vec3 jc_to v_x v_y v_z]. rewrite dump_array. cbn [map_result]. rewrite Dx, Dy, Dz. split; [reflexivity|].
  cbn [jc_vec3 jc_from jc_matrix rbind]. rewrite (shape_ok 3 1) by reflexivity. cbn [rbind coeffs_from map_result]. rewrite Rx, Ry, Rz. reflexivity.
Qed.
Lemma carries_vec3d v : vec_ok 64 v -> carries jc_vec3d v (vec_of coeff64 v).
Proof. intros H. apply (carries_vec3 _ _ 64); [exact H|apply coeff_f64]. Qed.
Lemma carries_vec3f v : vec_ok 32 v -> carries jc_vec3f v (vec_of coeff32 v).
Proof. intros H. apply (carries_vec3 _ _ 32); [exact H|apply coeff_f32]. Qed.

(** objects with fixed names: [m] is the i-th member of the text *)
Ltac dumped := apply dumps_object; unfold dumps; repeat (apply List.Forall2_cons; [cbn [fst snd]; split; [reflexivity|split; [reflexivity|first [eassumption|reflexivity]]]|]); apply List.Forall2_nil.

Lemma carries_quat c P (q : Quat) : (forall v, P v -> carries c v v) -> P (q_w q) -> P (q_x q) -> P (q_y q) -> P (q_z q) -> carries (jc_quat c) q q.
Proof.
  intros Hc Hw Hx Hy Hz. destruct q as [w x y z]. cbn [q_w q_x q_y q_z] in *.
  destruct (Hc _ Hw) as (jw & Dw & Rw), (Hc _ Hx) as (jx & Dx & Rx), (Hc _ Hy) as (jy & Dy & Ry), (Hc _ Hz) as (jz & Dz & Rz).
  set (o := [(str "w", jw); (str "x", jx); (str "y", jy); (str "z", jz)]). exists (JObject o). split.
  - cbn [jc_quat jc_to q_w q_x q_y q_z]. rewrite j_object_nodup by nodup_names. unfold o. dumped.
  - cbn [jc_quat jc_from]. replace (j_at (JObject o) (str "w")) with (Ok jw) by reflexivity. replace (j_at (JObject o) (str "x")) with (Ok jx) by reflexivity.
    replace (j_at (JObject o) (str "y")) with (Ok jy) by reflexivity. replace (j_at (JObject o) (str "z")) with (Ok jz) by reflexivity.
    cbn [rbind]. rewrite Rw. cbn [rbind]. rewrite Rx. cbn [rbind]. rewrite Ry. cbn [rbind]. rewrite Rz. reflexivity.
Qed.
Lemma carries_quatd q : finite_quat q -> carries jc_quatd q q.
Proof. intros (H1 & H2 & H3 & H4). apply (carries_quat _ finite64); [apply carries_f64|assumption..]. Qed.
Lemma writable_quatf q : writable jc_quatf q.
Proof.
  destruct (writable_f32 (q_w q)) as [jw Dw], (writable_f32 (q_x q)) as [jx Dx], (writable_f32 (q_y q)) as [jy Dy], (writable_f32 (q_z q)) as [jz Dz].
  exists (JObject [(str "w", jw); (str "x", jx); (str "y", jy); (str "z", jz)]). cbn [jc_quatf jc_quat jc_to]. rewrite j_object_nodup by nodup_names. dumped.
Qed.

Lemma carries_color c : color_ok c -> carries jc_color c c.
Proof.
  intros (Hr & Hg & Hb & Ha). destruct c as [r g b a]. cbn [c_r c_g c_b c_a] in *.
  destruct (carries_unsigned 8 r Hr) as (jr & Dr & Rr), (carries_unsigned 8 g Hg) as (jg & Dg & Rg), (carries_unsigned 8 b Hb) as (jb & Db & Rb), (carries_unsigned 8 a Ha) as (ja & Da & Ra).
  set (o := [(str "r", jr); (str "g", jg); (str "b", jb); (str "a", ja)]). exists (JObject o). split.
  - cbn [jc_color jc_to c_r c_g c_b c_a]. rewrite j_object_nodup by nodup_names. unfold o. dumped.
  - cbn [jc_color jc_from]. replace (j_at (JObject o) (str "r")) with (Ok jr) by reflexivity. replace (j_at (JObject o) (str "g")) with (Ok jg) by reflexivity.
    replace (j_at (JObject o) (str "b")) with (Ok jb) by reflexivity. replace (j_at (JObject o) (str "a")) with (Ok ja) by reflexivity. replace (j_contains (JObject o) (str "a")) with true by reflexivity.
    unfold jc_u8. cbn [rbind]. rewrite Rr. cbn [rbind]. rewrite Rg. cbn [rbind]. rewrite Rb. cbn [rbind]. rewrite Ra. reflexivity.
Qed.

(** not before 1.0.3 *)
Lemma carries_bbox env b : version_ltb (ev_version env) (mkV 1 0 3) = false -> json_bbox b -> carries (jc_bbox env) b (bbox_through b).
Proof.
  intros Hv (Hd & Hp & Hq). destruct (carries_vec3f _ Hd) as (jd & Dd & Rd), (carries_vec3f _ Hp) as (jp & Dp & Rp).
  destruct (writable_quatf (quatf_of_rot (bb_rot b))) as (jq & Dq).
  assert (Ht : exists jt, dump (type_to (bb_type b)) = Ok jt /\ match jt with JNull => 0%Z | _ => type_from jt end = if decide (box_valid b) then bb_type b else 0%Z).
  { destruct (Z.eq_dec (bb_type b) 1%Z) as [E|N1]; [rewrite decide_True by (unfold box_valid; tauto); rewrite E; eexists; split; reflexivity|].
    destruct (Z.eq_dec (bb_type b) 2%Z) as [E|N2]; [rewrite decide_True by (unfold box_valid; tauto); rewrite E; eexists; split; reflexivity|].
    destruct (Z.eq_dec (bb_type b) 3%Z) as [E|N3]; [rewrite decide_True by (unfold box_valid; tauto); rewrite E; eexists; split; reflexivity|].
    rewrite decide_False by (unfold box_valid; tauto). exists (JString (str "INVALID")). split; [|reflexivity].
    replace (type_to (bb_type b)) with (JString (str "INVALID")); [reflexivity|]. unfold type_to. cbn [box_types find fst].
    destruct (Z.eqb_spec 0 (bb_type b)) as [E|_]; [reflexivity|]. destruct (Z.eqb_spec 1 (bb_type b)); [congruence|]. destruct (Z.eqb_spec 3 (bb_type b)); [congruence|].
    destruct (Z.eqb_spec 2 (bb_type b)); [congruence|]. reflexivity. }
  destruct Ht as (jt & Dt & Et).
  set (o := [(str "type", jt); (str "dimensions", jd); (str "world_P_center", jp); (str "world_R_center", jq)]). exists (JObject o). split.
  - cbn [jc_bbox jc_to]. rewrite j_object_nodup by nodup_names. unfold o. dumped.
  - cbn [jc_bbox jc_from]. replace (j_at (JObject o) (str "type")) with (Ok jt) by reflexivity. replace (j_at (JObject o) (str "dimensions")) with (Ok jd) by reflexivity.
    replace (j_at (JObject o) (str "world_P_center")) with (Ok jp) by reflexivity. replace (j_at (JObject o) (str "world_R_center")) with (Ok jq) by reflexivity.
    cbn [rbind]. rewrite Et. unfold bbox_through. destruct (decide (box_valid b)) as [V|V].
    + replace (bb_type b =? 0)%Z with false by (symmetry; apply Z.eqb_neq; destruct V as [->|[->| ->]]; lia).
      destruct (Hq V) as (H1 & H2 & H3 & H4).
      assert (Rq : jc_from jc_quatf jq = Ok (quatf_of_rot (bb_rot b))).
      { destruct (carries_quat jc_f32 finite32 (quatf_of_rot (bb_rot b))) as (j' & D' & R'); try assumption; [apply carries_f32|]. fold jc_quatf in D', R'. congruence. }
      rewrite Hv. rewrite Rd. cbn [rbind]. rewrite Rp. cbn [rbind]. rewrite Rq. reflexivity.
    + reflexivity.
Qed.

Lemma carries_three {A} (c : JCodec A) l : length l = 3%nat -> Forall (fun x => carries c x x) l ->
  exists j, dump (JArray (map (jc_to c) l)) = Ok j /\ map_result (fun i => let! x := j_nth j i in jc_from c x) [0; 1; 2]%nat = Ok l /\ exists l', j = JArray l'.
Proof.
  intros HL HF. destruct l as [|x [|y [|z [|? ?]]]]; try discriminate. inversion_clear HF as [|? ? (jx & Dx & Rx) HF1]. inversion_clear HF1 as [|? ? (jy & Dy & Ry) HF2]. inversion_clear HF2 as [|? ? (jz & Dz & Rz) _].
  exists (JArray [jx; jy; jz]). cbn [map]. rewrite dump_array. cbn [map_result]. rewrite Dx, Dy, Dz. split; [reflexivity|]. split; [|eexists; reflexivity].
  cbn [j_nth lookup list_lookup at_ rbind]. rewrite Rx. cbn [rbind]. rewrite Ry. cbn [rbind]. rewrite Rz. reflexivity.
Qed.
Lemma carries_nvi i : json_nvi i -> carries jc_nvi i i.
Proof.
  intros ((B1 & B2) & (P1 & P2) & Hv & Hl). destruct i as [b p v l]. cbn [nv_block nv_voxel nv_vertex nv_label] in *.
  destruct (carries_three jc_i32 b B1) as (jb & Db & Rb & _). { eapply Forall_impl; [exact B2|]. apply carries_i32. }
  destruct (carries_three jc_f64 p P1) as (jp & Dp & Rp & _). { eapply Forall_impl; [exact P2|]. apply carries_f64. }
  destruct (carries_unsigned 64 v Hv) as (jv & Dv & Rv).
  assert (Hlab : exists jl, dump (match l with Some l => jc_to jc_u32 l | None => JNull end) = Ok jl /\
            (match jl with JNull => Ok (mkNVI b p v None) | _ => let! l := jc_from jc_u32 jl in Ok (mkNVI b p v (Some l)) end) = Ok (mkNVI b p v l)).
  { destruct l as [l|]; [|exists JNull; split; reflexivity]. destruct (carries_unsigned 32 l (Hl l eq_refl)) as (jl & D & R). exists jl. split; [exact D|].
    unfold jc_u32. rewrite R. injection D as <-. reflexivity. }
  destruct Hlab as (jl & Dl & Rl).
  set (o := [(str "block", jb); (str "voxel_pos", jp); (str "vertex", jv); (str "label", jl)]). exists (JObject o). split.
  - cbn [jc_nvi jc_to nv_block nv_voxel nv_vertex nv_label]. rewrite j_object_nodup by nodup_names. unfold o. dumped.
  - cbn [jc_nvi jc_from]. replace (j_at (JObject o) (str "block")) with (Ok jb) by reflexivity. replace (j_at (JObject o) (str "voxel_pos")) with (Ok jp) by reflexivity.
    replace (j_at (JObject o) (str "vertex")) with (Ok jv) by reflexivity. replace (j_at (JObject o) (str "label")) with (Ok jl) by reflexivity. replace (j_contains (JObject o) (str "label")) with true by reflexivity.
    cbn [rbind]. rewrite Rb. cbn [rbind]. rewrite Rp. cbn [rbind]. unfold jc_u64. rewrite Rv. cbn [rbind]. exact Rl.
Qed.
Lemma carries_face f : face_ok f -> carries jc_face f f.
Proof.
  intros (H1 & H2 & H3). destruct f as [a b c]. cbn [f_0 f_1 f_2] in *.
  destruct (carries_three jc_u64 [a; b; c] eq_refl) as (j & D & R & l' & ->). { repeat constructor; apply carries_unsigned; assumption. }
  exists (JArray l'). split; [exact D|]. cbn [jc_face jc_from]. rewrite R. reflexivity.
Qed.
Lemma Forall_carries {A} (c : JCodec A) (P : A -> Prop) (f : A -> A) l : (forall x, P x -> carries c x (f x)) -> Forall P l -> Forall2 (carries c) l (map f l).
Proof. intros H. induction 1; constructor; [apply H; assumption|assumption]. Qed.
Lemma carries_list_with {A} (c : JCodec A) (P : A -> Prop) f l : (forall x, P x -> carries c x (f x)) -> Forall P l -> carries (jc_list c) l (map f l).
Proof. intros H HF. apply carries_list, (Forall_carries c P); assumption. Qed.
Lemma carries_list_id {A} (c : JCodec A) (P : A -> Prop) l : (forall x, P x -> carries c x x) -> Forall P l -> carries (jc_list c) l l.
Proof. intros H HF. rewrite <- (map_id l) at 2. apply (carries_list_with c P (fun x => x)); assumption. Qed.
Lemma carries_header h : is_utf8 (h_project h) -> v_major (h_version h) < 256 -> v_minor (h_version h) < 256 -> v_patch (h_version h) < 256 -> carries jc_header h h.
Proof.
  intros Hp Ha Hb Hc. destruct h as [p [a b c]]. cbn [h_project h_version v_major v_minor v_patch] in *.
  destruct (carries_string p Hp) as (jp & Dp & Rp), (carries_unsigned 8 a Ha) as (ja & Da & Ra), (carries_unsigned 8 b Hb) as (jb & Db & Rb), (carries_unsigned 8 c Hc) as (jc & Dc & Rc).
  set (v := [(str "major", ja); (str "minor", jb); (str "patch", jc)]). set (o := [(str "project_name", jp); (str "version", JObject v)]).
  exists (JObject o). split.
  - cbn [jc_header jc_to h_project h_version v_major v_minor v_patch]. rewrite !j_object_nodup by nodup_names.
    assert (Dv : dump (JObject [(str "major", jc_to jc_u8 a); (str "minor", jc_to jc_u8 b); (str "patch", jc_to jc_u8 c)]) = Ok (JObject v)) by (unfold v; dumped).
    unfold o. dumped.
  - cbn [jc_header jc_from]. replace (j_at (JObject o) (str "project_name")) with (Ok jp) by reflexivity. replace (j_at (JObject o) (str "version")) with (Ok (JObject v)) by reflexivity.
    cbn [rbind]. replace (j_at (JObject v) (str "major")) with (Ok ja) by reflexivity. replace (j_at (JObject v) (str "minor")) with (Ok jb) by reflexivity. replace (j_at (JObject v) (str "patch")) with (Ok jc) by reflexivity.
    cbn [jc_string jc_from] in Rp. rewrite Rp. cbn [rbind]. unfold jc_u8. rewrite Ra. cbn [rbind]. rewrite Rb. cbn [rbind]. rewrite Rc. reflexivity.
Qed.

(* ------------------------------------------------------------------ *)
(** ** Meshes *)
Lemma obj_get_app a b k : obj_get (a ++ b) k = match obj_get a k with Some v => Some v | None => obj_get b k end.
Proof. induction a as [|[k' v] a IH]; [reflexivity|]. cbn [app obj_get]. destruct (bool_decide (k' = k)); [reflexivity|exact IH]. Qed.
(** the text of an optional member *)
Definition chunk {A} (name : list N) (c : JCodec (list A)) (l' : list A) (o : list (list N * json)) : Prop :=
  (forall k, k <> name -> obj_get o k = None) /\ match obj_get o name with Some x => jc_from c x | None => Ok [] end = Ok l'.
Lemma member_chunk {A} name (c : JCodec (list A)) l f : utf8 name = true -> carries c l (map f l) ->
  exists o, dumps (member name c l) o /\ chunk name c (map f l) o.
Proof.
  intros Hu (j & D & R). destruct l as [|a l]; [exists []; split; [constructor|]; split; [intros; reflexivity|reflexivity]|].
  exists [(name, j)]. split; [constructor; [split; [exact Hu|split; [reflexivity|exact D]]|constructor]|]. split.
  - intros k Hk. cbn [obj_get]. rewrite bool_decide_false by congruence. reflexivity.
  - cbn [obj_get]. rewrite bool_decide_true by reflexivity. exact R.
Qed.
Lemma read_member_get {A} name (c : JCodec A) old o : read_member name c old (JObject o) = match obj_get o name with Some x => jc_from c x | None => Ok old end.
Proof. unfold read_member. cbn [j_contains j_at]. destruct (obj_get o name); reflexivity. Qed.
Lemma member_names {A} name (c : JCodec (list A)) l : map fst (member name c l) = if (match l with [] => false | _ => true end) then [name] else [].
Proof. destruct l; reflexivity. Qed.
Ltac differ := let E := fresh in intros E; vm_compute in E; discriminate.
Lemma header_current_carried : carries jc_header header_current header_current.
Proof.
  apply carries_header; [|reflexivity..]. exists (h_project header_current). split; [|reflexivity].
  apply List.Forall_forall. intros x Hx. vm_compute in Hx. unfold scalar_value. repeat (destruct Hx as [<-|Hx]; [lia|]). contradiction.
Qed.
Lemma mesh_names m : NoDup (map fst (
     [(str "header", jc_to jc_header header_current);
      (str "has_colors", JBool (m_has_colors m)); (str "has_timestamps", JBool (m_has_stamps m));
      (str "has_labels", JBool (m_has_labels m)); (str "has_first_seen_stamps", JBool (m_has_first m))] ++
     member (str "points") jc_points (m_points m) ++ member (str "colors") (jc_list jc_color) (m_colors m) ++
     member (str "stamps") jc_u64s (m_stamps m) ++ member (str "first_seen_stamps") jc_u64s (m_first m) ++
     member (str "labels") jc_u32s (m_labels m) ++ member (str "faces") (jc_list jc_face) (m_faces m))).
Proof.
  rewrite !map_app, !member_names. cbn [map fst]. destruct (m_points m), (m_colors m), (m_stamps m), (m_first m), (m_labels m), (m_faces m); nodup_names.
Qed.
Lemma mesh_carried_full m : json_mesh m -> exists t, dump (jc_to jc_mesh m) = Ok t /\ jc_from jc_mesh t = Ok (mesh_through m) /\
  exists jh, obj_get (match t with JObject o => o | _ => [] end) (str "header") = Some jh /\ jc_from jc_header jh = Ok header_current /\ exists o, t = JObject o.
Proof.
  intros (Hp & Hc & Hs & Hl & Hf & Hfc).
  destruct (member_chunk (str "points") jc_points (m_points m) (vec_of coeff32) eq_refl) as (o1 & D1 & K1 & R1).
  { apply (carries_list_with _ (vec_ok 32)); [apply carries_vec3f|exact Hp]. }
  destruct (member_chunk (str "colors") (jc_list jc_color) (m_colors m) (fun x => x) eq_refl) as (o2 & D2 & K2 & R2).
  { apply (carries_list_with _ color_ok); [apply carries_color|exact Hc]. }
  destruct (member_chunk (str "stamps") jc_u64s (m_stamps m) (fun x => x) eq_refl) as (o3 & D3 & K3 & R3).
  { apply (carries_list_with _ (fits 64)); [apply carries_unsigned|exact Hs]. }
  destruct (member_chunk (str "first_seen_stamps") jc_u64s (m_first m) (fun x => x) eq_refl) as (o4 & D4 & K4 & R4).
  { apply (carries_list_with _ (fits 64)); [apply carries_unsigned|exact Hf]. }
  destruct (member_chunk (str "labels") jc_u32s (m_labels m) (fun x => x) eq_refl) as (o5 & D5 & K5 & R5).
  { apply (carries_list_with _ (fits 32)); [apply carries_unsigned|exact Hl]. }
  destruct (member_chunk (str "faces") (jc_list jc_face) (m_faces m) (fun x => x) eq_refl) as (o6 & D6 & K6 & R6).
  { apply (carries_list_with _ face_ok); [apply carries_face|exact Hfc]. }
  rewrite map_id in R2, R3, R4, R5, R6.
  destruct header_current_carried as (jh & Dh & Rh).
  set (o := [(str "header", jh); (str "has_colors", JBool (m_has_colors m)); (str "has_timestamps", JBool (m_has_stamps m));
      (str "has_labels", JBool (m_has_labels m)); (str "has_first_seen_stamps", JBool (m_has_first m))] ++ o1 ++ o2 ++ o3 ++ o4 ++ o5 ++ o6).
  exists (JObject o). split; [|split].
  - cbn [jc_mesh jc_to]. rewrite j_object_nodup by apply mesh_names. apply dumps_object. unfold o. repeat apply dumps_app; try assumption.
    unfold dumps. repeat (apply List.Forall2_cons; [cbn [fst snd]; split; [reflexivity|split; [reflexivity|first [eassumption|reflexivity]]]|]); apply List.Forall2_nil.
  - assert (G : forall k, obj_get o k = match obj_get [(str "header", jh); (str "has_colors", JBool (m_has_colors m)); (str "has_timestamps", JBool (m_has_stamps m));
      (str "has_labels", JBool (m_has_labels m)); (str "has_first_seen_stamps", JBool (m_has_first m))] k with Some v => Some v | None => obj_get (o1 ++ o2 ++ o3 ++ o4 ++ o5 ++ o6) k end) by (intros k; apply obj_get_app).
    cbn [jc_mesh jc_from]. replace (j_at (JObject o) (str "has_colors")) with (Ok (JBool (m_has_colors m))) by reflexivity. replace (j_at (JObject o) (str "has_timestamps")) with (Ok (JBool (m_has_stamps m))) by reflexivity.
    replace (j_at (JObject o) (str "has_labels")) with (Ok (JBool (m_has_labels m))) by reflexivity. replace (j_at (JObject o) (str "has_first_seen_stamps")) with (Ok (JBool (m_has_first m))) by reflexivity.
    cbn [rbind get_bool]. rewrite !read_member_get, !G.
    repeat match goal with |- context [obj_get (_ :: ?r) (str ?k)] => let r := constr:(obj_get [(str "header", jh); (str "has_colors", JBool (m_has_colors m)); (str "has_timestamps", JBool (m_has_stamps m));
      (str "has_labels", JBool (m_has_labels m)); (str "has_first_seen_stamps", JBool (m_has_first m))] (str k)) in replace r with (@None json) by reflexivity end.
    rewrite !obj_get_app.
    rewrite (K1 (str "colors")), (K1 (str "stamps")), (K1 (str "first_seen_stamps")), (K1 (str "labels")), (K1 (str "faces")) by differ.
    rewrite (K2 (str "points")), (K2 (str "stamps")), (K2 (str "first_seen_stamps")), (K2 (str "labels")), (K2 (str "faces")) by differ.
    rewrite (K3 (str "points")), (K3 (str "colors")), (K3 (str "first_seen_stamps")), (K3 (str "labels")), (K3 (str "faces")) by differ.
    rewrite (K4 (str "points")), (K4 (str "colors")), (K4 (str "stamps")), (K4 (str "labels")), (K4 (str "faces")) by differ.
    rewrite (K5 (str "points")), (K5 (str "colors")), (K5 (str "stamps")), (K5 (str "first_seen_stamps")), (K5 (str "faces")) by differ.
    rewrite (K6 (str "points")), (K6 (str "colors")), (K6 (str "stamps")), (K6 (str "first_seen_stamps")), (K6 (str "labels")) by differ.
    repeat match goal with |- context [match match ?x with Some v => Some v | None => None end with Some _ => _ | None => _ end] => replace (match x with Some v => Some v | None => None end) with x by (destruct x; reflexivity) end.
    rewrite R1. cbn [rbind]. rewrite R2. cbn [rbind]. rewrite R3. cbn [rbind]. rewrite R4. cbn [rbind]. rewrite R5. cbn [rbind]. rewrite R6. reflexivity.
  - exists jh. split; [reflexivity|]. split; [exact Rh|]. exists o. reflexivity.
Qed.
Lemma carries_mesh m : json_mesh m -> carries jc_mesh m (mesh_through m).
Proof. intros H. destruct (mesh_carried_full m H) as (t & D & R & _). exists t. split; assumption. Qed.
Lemma mesh_text m : json_mesh m -> exists t, mesh_to_text m = Ok t /\ dump t = Ok t /\ mesh_from_text t = Ok (mesh_through m).
Proof.
  intros H. destruct (mesh_carried_full m H) as (t & D & R & jh & G & Rh & o & ->). exists (JObject o). split; [exact D|]. split; [eapply dump_again, D|].
  unfold mesh_from_text. cbn [j_contains j_at]. rewrite G. cbn [at_ rbind]. rewrite Rh. exact R.
Qed.

(* ------------------------------------------------------------------ *)
(** ** Fields *)
Inductive carried {S} : list (JField S) -> S -> S -> S -> Prop :=
| carried_nil s d : carried [] s d d
| carried_cons f fs s d d' v : carries (jf_codec f) (jf_get f s) v -> carried fs s (jf_set f v d) d' -> carried (f :: fs) s d d'.
Lemma carried_app {S} (fs gs : list (JField S)) s d d1 d2 : carried fs s d d1 -> carried gs s d1 d2 -> carried (fs ++ gs) s d d2.
Proof. induction 1 as [|f fs s d d' v Hv _ IH]; intros H; [exact H|]. econstructor; [exact Hv|]. apply IH, H. Qed.
Lemma carried_lift {S B} (get : S -> B) (set : B -> S -> S) (fs : list (JField B)) s d b' :
  (forall b s, get (set b s) = b) -> (forall b b' s, set b (set b' s) = set b s) -> (forall s, set (get s) s = s) ->
  carried fs (get s) (get d) b' -> carried (map (lift_jfield get set) fs) s d (set b' d).
Proof.
  intros H1 H2 H3 H. remember (get s) as bs eqn:Es. remember (get d) as bd eqn:Ed. revert d Ed.
  induction H as [bs bd|f fs bs bd b' v Hv _ IH]; intros d Ed; [subst; rewrite H3; constructor|]. subst bs.
  econstructor; [exact Hv|]. cbn [lift_jfield mkJF jf_set]. rewrite <- (H2 b' (jf_set f v (get d)) d). apply IH; [reflexivity|]. rewrite H1. subst bd. reflexivity.
Qed.
Definition members_of {S} (fs : list (JField S)) (s : S) : list (list N * json) := map (fun f => (jf_name f, jc_to (jf_codec f) (jf_get f s))) fs.
Lemma write_jfields_new {S} (fs : list (JField S)) s o : NoDup (map fst o ++ map jf_name fs) -> write_jfields fs s o = o ++ members_of fs s.
Proof.
  intros ND. rewrite <- (fold_set_new (members_of fs s) o).
  - unfold write_jfields, members_of. clear ND. revert o. induction fs as [|f fs IH]; intros o; [reflexivity|]. cbn [map fold_left fst snd]. apply IH.
  - rewrite map_app. unfold members_of. rewrite map_map. exact ND.
Qed.
Lemma carried_text {S} (fs : list (JField S)) s d d' : carried fs s d d' -> Forall (fun f => utf8 (jf_name f) = true) fs ->
  exists o, dumps (members_of fs s) o /\ forall big, NoDup (map fst big) -> o ⊆ big -> read_jfields fs (JObject big) d = Ok d'.
Proof.
  induction 1 as [|f fs s d d' v (j & D & R) _ IH]; intros HU; [exists []; split; [constructor|reflexivity]|].
  inversion HU as [|? ? U1 U2]; subst. destruct (IH U2) as (o & Do & Ro). exists ((jf_name f, j) :: o). split.
  - constructor; [split; [exact U1|split; [reflexivity|exact D]]|exact Do].
  - intros big ND Hin. cbn [read_jfields]. unfold read_jfield. assert (E : obj_get big (jf_name f) = Some j) by (apply obj_get_in; [exact ND|apply Hin; left]).
    cbn [j_contains j_at]. rewrite E. cbn [at_ rbind]. rewrite R. cbn [rbind]. apply Ro; [exact ND|]. intros x Hx. apply Hin. right. exact Hx.
Qed.
Definition field_names_ok (fs : list (list N)) : bool := bool_decide (NoDup (str "type" :: fs)) && forallb utf8 fs.
Lemma object_text {S} (fs : list (JField S)) s d d' name : field_names_ok (map jf_name fs) = true -> utf8 name = true -> carried fs s d d' ->
  exists o, dump (JObject (write_jfields fs s [(str "type", JString name)])) = Ok (JObject o) /\ obj_get o (str "type") = Some (JString name) /\
    read_jfields fs (JObject o) d = Ok d'.
Proof.
  intros HN HU HC. apply andb_true_iff in HN as [HN HF]. apply bool_decide_eq_true in HN.
  assert (HF' : Forall (fun f => utf8 (jf_name f) = true) fs).
  { apply List.Forall_forall. intros f Hf. rewrite forallb_forall in HF. apply HF, in_map, Hf. }
  destruct (carried_text fs s d d' HC HF') as (o & Do & Ro). exists ((str "type", JString name) :: o).
  assert (ND : NoDup (map fst ((str "type", JString name) :: o))).
  { cbn [map fst]. rewrite (dumps_names _ _ Do). unfold members_of. rewrite map_map. exact HN. }
  split; [|split].
  - rewrite write_jfields_new by exact HN. cbn [app]. apply dumps_object. constructor; [cbn [fst snd dump]; rewrite HU; split; [reflexivity|split; reflexivity]|exact Do].
  - cbn [obj_get]. rewrite bool_decide_true by reflexivity. reflexivity.
  - apply Ro; [exact ND|]. intros x Hx. right. exact Hx.
Qed.
