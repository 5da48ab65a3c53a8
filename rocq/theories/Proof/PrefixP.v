(** Readers given only a beginning of the bytes: what a reader returns on a beginning of a
    buffer it also returns on the whole buffer. *)
From Coq Require Import NArith ZArith Bool List Lia String.
From stdpp Require Import base list gmap.
From Verif.Model Require Import Types Mesh Attrs Node EdgeContainer Graph Binary Versioning AttrCodec Registry GraphCodec.
From Verif.Spec Require Import BinarySpec CutSpec AbstractGraph GraphHistory.
From Verif.Proof Require Import BinaryP BinarySafe AttrSafe GraphCodecP GraphCodecSafe GraphMesh MessageP.
Local Open Scope N_scope.

Definition same_with_more {A} (small big : outcome A) : Prop :=
  match small with
  | Val _ _ => big = small
  | Fail Undefined => big = small
  | Fail _ => True
  end.
Definition mono {A} (m : Reader A) : Prop := forall P S pos, same_with_more (m P pos) (m (P ++ S) pos).

Lemma mono_ret {A} (a : A) : mono (ret a).
Proof. intros P S pos. reflexivity. Qed.
Lemma mono_fail {A} f : mono (@fail A f).
Proof. intros P S pos. destruct f; cbn; auto. Qed.
Lemma mono_bind {A B} (m : Reader A) (k : A -> Reader B) : mono m -> (forall a, mono (k a)) -> mono (bind m k).
Proof.
  intros Hm Hk P S pos. unfold bind. pose proof (Hm P S pos) as H. destruct (m P pos) as [a p|f].
  - cbn in H. rewrite H. apply Hk.
  - destruct f; cbn in *; auto. rewrite H. reflexivity.
Qed.
Lemma mono_valid a b : mono (check_valid a b).
Proof.
  intros P S pos. unfold check_valid. rewrite app_length.
  generalize ((pos + (b * a) mod two64) mod two64). intros x.
  destruct (N.ltb_spec (N.of_nat (length P)) x) as [L|L]; [exact I|].
  cbn. replace (_ <? _) with false; [reflexivity|]. symmetry. apply N.ltb_ge. lia.
Qed.
Lemma mono_byte : mono byte_at.
Proof.
  intros P S pos. unfold byte_at. destruct (P !! N.to_nat pos) as [b|] eqn:E; [|exact I].
  rewrite (lookup_app_l_Some _ _ _ _ E). reflexivity.
Qed.
Lemma mono_advance n : mono (advance n).
Proof. intros P S pos. reflexivity. Qed.
Lemma mono_word n : mono (take_word n).
Proof.
  induction n as [|n IH]; cbn [take_word]; [apply mono_ret|]. apply mono_bind; [apply mono_byte|]. intros b.
  apply mono_bind; [apply mono_advance|]. intros _. apply mono_bind; [exact IH|]. intros r. apply mono_ret.
Qed.
Lemma mono_bytes n : mono (take_bytes n).
Proof.
  induction n as [|n IH]; cbn [take_bytes]; [apply mono_ret|]. apply mono_bind; [apply mono_byte|]. intros b.
  apply mono_bind; [apply mono_advance|]. intros _. apply mono_bind; [exact IH|]. intros r. apply mono_ret.
Qed.
Create HintDb mono.
#[export] Hint Resolve mono_ret mono_fail mono_valid mono_byte mono_advance mono_word mono_bytes : mono.
(** one step through a reader *)
Ltac mstep := first
  [ solve [auto 2 with mono nocore]
  | apply mono_bind; [|intros ?]
  | match goal with |- mono (match ?x with _ => _ end) => destruct x end ].
Ltac mo := repeat mstep.
Lemma mono_curr : mono curr_type. Proof. unfold curr_type. mo. Qed.
#[export] Hint Resolve mono_curr : mono.
Lemma mono_type t : mono (check_type t). Proof. unfold check_type. mo. Qed.
Lemma mono_dyn : mono check_dynamic_array. Proof. unfold check_dynamic_array. mo. Qed.
Lemma mono_end : mono is_dynamic_array_end. Proof. unfold is_dynamic_array_end. mo. Qed.
Lemma mono_length : mono read_array_length. Proof. unfold read_array_length. mo. Qed.
Lemma mono_check_length n : mono (check_array_length n). Proof. unfold check_array_length. mo. Qed.
#[export] Hint Resolve mono_type mono_dyn mono_end mono_length mono_check_length : mono.

Definition cm {A} (c : Codec A) : Prop := forall old, mono (cd_read c old).
Lemma cm_use {A} (c : Codec A) old : cm c -> mono (cd_read c old). Proof. intros H. apply H. Qed.
#[export] Hint Resolve cm_use : mono.
Lemma cm_uint t n : cm (codec_uint t n). Proof. intros old. cbn [cd_read codec_uint]. mo. Qed.
Lemma cm_int t n : cm (codec_int t n). Proof. intros old. cbn [cd_read codec_int]. mo. Qed.
Lemma cm_bool : cm c_bool. Proof. intros old. cbn [cd_read c_bool]. mo. Qed.
Lemma cm_string : cm c_string. Proof. intros old. cbn [cd_read c_string]. mo. Qed.
#[export] Hint Resolve cm_uint cm_int cm_bool cm_string : mono.
Lemma mono_each {A} (c : Codec A) l : cm c -> mono (read_each c l).
Proof. intros H. induction l as [|x l IH]; cbn [read_each]; [apply mono_ret|]. apply mono_bind; [apply H|intros v]. apply mono_bind; [exact IH|intros vs]. apply mono_ret. Qed.
#[export] Hint Resolve mono_each : mono.
Lemma cm_option {A} d (c : Codec A) : cm c -> cm (codec_option d c).
Proof. intros H old. cbn [cd_read codec_option]. mo. Qed.
Lemma cm_vector {A} d (c : Codec A) : cm c -> cm (codec_vector d c).
Proof. intros H old. cbn [cd_read codec_vector]. mo. Qed.
Lemma cm_list {A} d (c : Codec A) : cm c -> cm (codec_list d c).
Proof. intros H old. cbn [cd_read codec_list]. mo. Qed.
Lemma cm_array {A} n (c : Codec A) : cm c -> cm (codec_array n c).
Proof. intros H old. cbn [cd_read codec_array]. mo. Qed.
Lemma mono_set `{Countable A} d (c : Codec A) n s : cm c -> mono (read_set d c n s).
Proof. intros Hc. revert s. induction n as [|n IH]; intros s; cbn [read_set]; mo. Qed.
Lemma cm_set `{Countable A} order d (c : Codec A) : cm c -> cm (codec_set order d c).
Proof. intros Hc old. cbn [cd_read codec_set]. mo. apply mono_set, Hc. Qed.
Lemma mono_map {K V} `{Countable K} dk (dv : V) (ck : Codec K) cv n m : cm ck -> cm cv -> mono (read_map dk dv ck cv n m).
Proof. intros Hk Hv. revert m. induction n as [|n IH]; intros m; cbn [read_map]; mo. Qed.
Lemma cm_map {K V} `{Countable K} order dk (dv : V) (ck : Codec K) cv : cm ck -> cm cv -> cm (codec_map order dk dv ck cv).
Proof. intros Hk Hv old. cbn [cd_read codec_map]. mo. apply mono_map; assumption. Qed.
Lemma cm_vec3 (c : Codec N) : cm c -> cm (codec_vec3 c).
Proof. intros H old. cbn [cd_read codec_vec3]. mo. Qed.
Lemma cm_quat (c : Codec N) : cm c -> cm (codec_quat c).
Proof. intros H old. cbn [cd_read codec_quat]. mo. Qed.
Lemma cm_matrix fr fc (c : Codec N) : cm c -> cm (codec_matrix fr fc c).
Proof.
  intros H old. cbn [cd_read codec_matrix].
  apply mono_bind; [apply mono_length|intros n]. destruct (n <? 2); [apply mono_fail|].
  apply mono_bind; [apply cm_int|intros rows]. apply mono_bind; [apply cm_int|intros cols].
  destruct (negb _); [apply mono_fail|]. destruct (negb _); [apply mono_fail|]. destruct (negb _); [apply mono_fail|].
  apply mono_bind; [apply mono_each, H|intros d]. apply mono_ret.
Qed.
Lemma cm_ser b A (c : Codec A) : serialisable b A c -> cm c.
Proof.
  intros H. induction H; try apply cm_uint; try apply cm_int; try apply cm_bool; try apply cm_string;
    auto using cm_option, cm_vector, cm_list, cm_array, cm_vec3, cm_quat, cm_matrix.
  - apply cm_set. assumption.
  - apply cm_map; assumption.
Qed.

Ltac ser := apply (cm_ser true); repeat constructor.
Definition monos {T} (fs : list (Field T)) : Prop := Forall (fun f => cm (fd_codec f)) fs.
Lemma mono_fields {T} (fs : list (Field T)) t : monos fs -> mono (read_fields fs t).
Proof.
  intros H. revert t. induction H as [|f fs Hf _ IH]; intros t; cbn [read_fields]; [apply mono_ret|].
  apply mono_bind; [apply Hf|intros v; apply IH].
Qed.
Lemma cm_color : cm c_color.
Proof. intros t. apply mono_fields. repeat constructor; cbn [fd_codec]; ser. Qed.
Lemma cm_vec3f : cm c_vec3f. Proof. ser. Qed.
Lemma cm_matrix3f : cm c_matrix3f. Proof. ser. Qed.
Lemma cm_color_legacy : cm c_color_legacy.
Proof. intros t. cbn [cd_read c_color_legacy]. apply mono_bind; [apply cm_vec3, cm_uint|intros v]. apply mono_ret. Qed.
Lemma cm_bbox env : cm (c_bbox env).
Proof.
  intros t. cbn [cd_read c_bbox]. cbv zeta. apply mono_bind; [apply mono_check_length|intros _]. apply mono_bind; [apply cm_int|intros ty].
  apply mono_bind.
  { destruct (version_ltb _ _); [|apply cm_vec3f]. apply mono_bind; [apply cm_vec3f|intros mn]. apply mono_bind; [apply cm_vec3f|intros mx]. apply mono_ret. }
  intros d. apply mono_bind; [apply cm_vec3f|intros c]. apply mono_bind; [apply cm_matrix3f|intros r]. apply mono_ret.
Qed.
Lemma cm_nvi : cm c_nvi.
Proof.
  intros t. cbn [cd_read c_nvi]. do 2 (apply mono_bind; [apply mono_check_length|intros _]). apply mono_bind; [apply mono_each, cm_int|intros b].
  apply mono_bind; [apply mono_check_length|intros _]. apply mono_bind; [apply mono_each, cm_uint|intros p]. apply mono_bind; [apply cm_uint|intros v].
  apply mono_bind; [apply cm_option, cm_uint|intros l]. apply mono_ret.
Qed.
Lemma cm_face : cm c_face.
Proof. intros t. cbn [cd_read c_face]. apply mono_bind; [apply cm_array, cm_uint|intros l]. apply mono_ret. Qed.
Lemma cm_u64s : cm c_u64s. Proof. ser. Qed.
Lemma cm_mesh : cm c_mesh.
Proof.
  intros t. cbn [cd_read c_mesh]. do 4 (apply mono_bind; [apply cm_bool|intros ?]). apply mono_bind; [apply cm_vector, cm_vec3f|intros ?].
  apply mono_bind; [apply cm_vector, cm_color|intros ?]. apply mono_bind; [apply cm_u64s|intros ?].
  apply mono_bind; [apply cm_vector, cm_uint|intros ?]. apply mono_bind; [apply cm_u64s|intros ?].
  apply mono_bind; [apply cm_vector, cm_face|intros ?]. apply mono_ret.
Qed.
Lemma cm_header : cm c_header.
Proof.
  intros t. cbn [cd_read c_header]. apply mono_bind; [apply cm_string|intros ?]. do 3 (apply mono_bind; [apply cm_uint|intros ?]). apply mono_ret.
Qed.
Lemma monos_lift {S T} (up : T -> S) put (fs : list (Field S)) : monos fs -> monos (map (lift_field up put) fs).
Proof. intros H. apply List.Forall_map. eapply Forall_impl; [exact H|]. intros f Hf. exact Hf. Qed.
Lemma monos_app {T} (fs gs : list (Field T)) : monos fs -> monos gs -> monos (fs ++ gs).
Proof. apply Forall_app_2. Qed.
Lemma monos_base env : monos (base_fields env).
Proof. apply monos_app; [repeat constructor; cbn [fd_codec]; ser|]. destruct (version_ltb _ _); repeat constructor. ser. Qed.
Lemma monos_edge : monos edge_fields.
Proof. repeat constructor; cbn [fd_codec]; ser. Qed.
Lemma monos_sem env : monos (sem_fields env).
Proof.
  apply monos_app; [apply monos_lift, monos_base|]. constructor; [ser|]. constructor; [cbn [fd_codec]; destruct (version_leb _ _); [apply cm_color_legacy|apply cm_color]|].
  constructor; [apply cm_bbox|]. constructor; [ser|]. constructor; [ser|]. constructor.
Qed.
Lemma cm_nvis : cm c_nvis. Proof. apply cm_vector, cm_nvi. Qed.
Lemma mono_attr_fields env k : mono (read_attr_fields env k).
Proof.
  assert (Hg : forall T (f : T -> NodeAttrs) fs o, monos fs -> mono (rmapr f (read_fields fs o))).
  { intros T f fs o H. apply mono_bind; [apply mono_fields, H|intros a]. apply mono_ret. }
  assert (Hs := monos_sem env).
  destruct k; cbn [read_attr_fields]; apply Hg.
  - apply monos_base.
  - exact Hs.
  - apply monos_app; [apply monos_lift, Hs|]. repeat (constructor; [ser|]). constructor.
  - apply monos_app; [apply monos_lift, Hs|]. repeat (constructor; [ser|]). constructor.
  - apply monos_app; [apply monos_lift, Hs|]. repeat (constructor; [first [apply cm_nvis|ser]|]). constructor.
  - apply monos_app; [apply monos_lift, Hs|]. repeat (constructor; [first [apply cm_nvis|ser]|]). constructor.
  - apply monos_app; [apply monos_lift, monos_base|]. repeat (constructor; [ser|]). constructor.
  - apply monos_app; [apply monos_lift, Hs|]. repeat (constructor; [first [apply cm_mesh|ser]|]). constructor.
Qed.

(* ------------------------------------------------------------------ *)
(** ** The graph reader *)
Lemma mono_lift {A} (r : result A) : mono (lift r).
Proof. destruct r; cbn [lift]; [apply mono_ret|apply mono_fail|apply mono_fail]. Qed.
Lemma mono_read_attrs env f : mono (read_attrs env f).
Proof.
  unfold read_attrs. apply mono_bind; [apply cm_uint|intros t]. destruct (create_by_id f t); [|apply mono_ret].
  apply mono_bind; [apply mono_attr_fields|intros ?]. apply mono_ret.
Qed.
Lemma mono_read_edge_attrs f : mono (read_edge_attrs f).
Proof.
  unfold read_edge_attrs. apply mono_bind; [apply cm_uint|intros t]. destruct (create_by_id f t); [|apply mono_ret].
  apply mono_bind; [apply mono_fields, monos_edge|intros ?]. apply mono_ret.
Qed.
Lemma mono_node_round env f st : mono (node_round env f st).
Proof.
  unfold node_round, parse_node. apply mono_bind; [|intros [x g']; apply mono_ret].
  apply mono_bind; [apply mono_check_length|intros _]. do 2 (apply mono_bind; [apply cm_uint|intros ?]).
  apply mono_bind; [apply cm_option, cm_int|intros ?]. apply mono_bind; [apply mono_read_attrs|intros [at'|]]; [|apply mono_ret].
  apply mono_bind; [apply mono_lift|intros [? ?]]. apply mono_ret.
Qed.
Lemma mono_parse_edge f g : mono (parse_edge f g).
Proof.
  unfold parse_edge. apply mono_bind; [apply mono_check_length|intros _]. do 2 (apply mono_bind; [apply cm_uint|intros ?]).
  apply mono_bind; [apply mono_read_edge_attrs|intros [at'|]].
  - apply mono_bind; [apply mono_lift|intros [? ?]]. apply mono_ret.
  - apply mono_bind; [apply mono_lift|intros [|]]; [apply mono_fail|]. apply mono_bind; [apply mono_lift|intros [? ?]]. apply mono_ret.
Qed.
Lemma mono_loop {S} (step : S -> Reader S) : (forall s, mono (step s)) -> forall f1 f2 s P T pos, (f1 <= f2)%nat ->
  same_with_more (read_loop step f1 s P pos) (read_loop step f2 s (P ++ T) pos).
Proof.
  intros Hs. induction f1 as [|f1 IH]; intros f2 s P T pos L; [exact I|]. destruct f2 as [|f2]; [lia|].
  cbn [read_loop]. unfold bind. pose proof (mono_end P T pos) as H. destruct (is_dynamic_array_end P pos) as [e p|f].
  - cbn in H. rewrite H. destruct e; [reflexivity|]. pose proof (Hs s P T p) as H1. destruct (step s P p) as [s' p'|f].
    + cbn in H1. rewrite H1. apply IH. lia.
    + destruct f; cbn in H1; try exact I. rewrite H1. reflexivity.
  - destruct f; cbn in H; try exact I. rewrite H. reflexivity.
Qed.
Lemma mono_array {S} (step : S -> Reader S) s : (forall s, mono (step s)) -> mono (read_dynamic_array step s).
Proof.
  intros Hs P T pos. unfold read_dynamic_array, bind. pose proof (mono_dyn P T pos) as H.
  destruct (check_dynamic_array P pos) as [e p|f].
  - cbn in H. rewrite H. apply mono_loop; [exact Hs|]. rewrite app_length. lia.
  - destruct f; cbn in H; try exact I. rewrite H. reflexivity.
Qed.
Lemma mono_factory {T} env (r : Registry T) : mono (load_factory env r).
Proof. unfold load_factory. destruct (version_ltb _ _); [apply mono_ret|]. apply mono_bind; [apply cm_vector, cm_string|intros n]. apply mono_ret. Qed.

Lemma mono_before env p g : mono (before_flag env p g).
Proof.
  unfold before_flag. apply mono_bind; [destruct (version_ltb _ _); [apply cm_uint|apply mono_ret]|intros _].
  apply mono_bind; [apply mono_factory|intros nf]. apply mono_bind; [apply mono_factory|intros ef].
  do 2 (apply mono_bind; [apply mono_array; intros; apply mono_node_round|intros ?]).
  apply mono_bind; [apply mono_lift|intros g3]. apply mono_bind; [apply mono_array; intros; apply mono_parse_edge|intros g4]. apply mono_lift.
Qed.

(* ------------------------------------------------------------------ *)
(** ** Cut buffers *)
Lemma inside_before env p g : inside tame 0 0 (before_flag env p g) (fun _ => True).
Proof.
  unfold before_flag. eapply (ins_weaken _ 0 (0 + (0 + (0 + (1 + (1 + (0 + (1 + 0)))))))); [reflexivity|lia|let z := fresh in let Hz := fresh in intros z Hz; exact Hz|].
  eapply ins_bind with (Q1 := fun _ => True).
  { destruct (version_ltb _ _); [|apply ins_ret; exact I].
    eapply (ins_weaken _ 0 1); [reflexivity|lia|let z := fresh in let Hz := fresh in intros z Hz; exact Hz|]. apply ci_u64. }
  intros _ _. eapply ins_bind; [apply ins_factory|]. intros nf _. eapply ins_bind; [apply ins_factory|]. intros ef _.
  eapply ins_bind; [apply ins_array; intros; apply ins_node_round|]. intros st1 _.
  eapply ins_bind; [apply ins_array; intros; apply ins_node_round|]. intros st2 _.
  eapply ins_bind; [apply ins_lift|]. intros g3 _.
  eapply ins_bind; [apply ins_array; intros; apply ins_parse_edge|]. intros g4 _. apply ins_lift.
Qed.
Lemma cut_core {A} (m : Reader A) r Q P S pos a n : mono m -> inside tame 0 r m Q -> Forall is_byte P -> len P < max_object ->
  pos <= len P -> m (P ++ S) pos = Val a n -> len P < n -> m P pos = Fail Exception.
Proof.
  intros Hm Hi Hb Hl Hp E Hn. pose proof (Hm P S pos) as H. specialize (Hi P pos Hb Hl ltac:(lia)).
  destruct (m P pos) as [a' n'|f].
  - cbn in H. rewrite H in E. injection E as -> ->. lia.
  - destruct Hi as [->| ->]; [reflexivity|]. cbn in H. rewrite H in E. discriminate.
Qed.
(** cut or whole, a reader that succeeds on the whole either throws or does the same *)
Lemma cut_or_same {A} (m : Reader A) r Q P S pos a n : mono m -> inside tame 0 r m Q -> Forall is_byte P -> len P < max_object ->
  pos <= len P -> m (P ++ S) pos = Val a n -> m P pos = Fail Exception \/ m P pos = Val a n /\ pos <= n <= len P.
Proof.
  intros Hm Hi Hb Hl Hp E. pose proof (Hm P S pos) as H. specialize (Hi P pos Hb Hl ltac:(lia)).
  destruct (m P pos) as [a' n'|f].
  - right. cbn in H. rewrite H in E. injection E as -> ->. split; [reflexivity|]. lia.
  - left. destruct Hi as [->| ->]; [reflexivity|]. cbn in H. rewrite H in E. discriminate.
Qed.
Lemma curr_at buf pos b : len buf < max_object -> buf !! N.to_nat pos = Some b -> curr_type buf pos = Val b pos.
Proof.
  intros Hl E. pose proof (lookup_lt_Some _ _ _ E) as L. unfold curr_type, bind, check_valid, byte_at.
  change (N.of_nat (length buf)) with (len buf). unfold len, max_object in *.
  replace ((pos + (1 * 1) mod two64) mod two64) with (pos + 1) by (symmetry; apply N.mod_small; unfold two64; lia).
  replace (_ <? _) with false; [cbv beta iota; rewrite E; reflexivity|]. symmetry. apply N.ltb_ge. lia.
Qed.
Lemma flag_at buf pos b : len buf < max_object -> buf !! N.to_nat pos = Some b -> check_if_true buf pos = Val (b =? T_TRUE) (pos + 1).
Proof.
  intros Hl E. pose proof (lookup_lt_Some _ _ _ E) as L. unfold check_if_true, check_type, bind. rewrite (curr_at _ _ _ Hl E). cbv beta iota. rewrite (curr_at _ _ _ Hl E). cbv beta iota. rewrite N.eqb_refl.
  unfold advance, ret. rewrite N.mod_small; [reflexivity|]. unfold len, max_object, two64 in *. lia.
Qed.
Lemma flag_end buf : len buf < max_object -> check_if_true buf (len buf) = Val false (len buf).
Proof.
  intros Hl. unfold check_if_true, curr_type, check_valid, bind. change (N.of_nat (length buf)) with (len buf).
  replace ((len buf + (1 * 1) mod two64) mod two64) with (len buf + 1) by (symmetry; apply N.mod_small; unfold max_object, two64 in *; lia).
  replace (_ <? _) with true; [reflexivity|]. symmetry. apply N.ltb_lt. lia.
Qed.
Lemma cut_update env p g P S pos g' n g0 k : Forall is_byte P -> len (P ++ S) < max_object -> pos <= len P ->
  before_flag env p g (P ++ S) pos = Val g0 k -> from_flag g0 (P ++ S) k = Val g' n -> len P < n ->
  update_graph env p g P pos = Fail Exception \/ len P = k /\ update_graph env p g P pos = Val g0 k.
Proof.
  intros Hb Hl Hp HB HF Hn. assert (HlP : len P < max_object) by (unfold len in *; rewrite app_length in Hl; lia).
  rewrite update_split. unfold bind.
  destruct (cut_or_same _ _ _ P S pos g0 k (mono_before env p g) (inside_before env p g) Hb HlP Hp HB) as [E|[E Hk]]; rewrite E; [auto|].
  destruct (N.eq_dec k (len P)) as [->|Hne].
  - right. split; [reflexivity|]. unfold from_flag, bind. rewrite flag_end by exact HlP. reflexivity.
  - left. assert (Hlt : (N.to_nat k < length P)%nat) by (unfold len in *; lia).
    destruct (lookup_lt_is_Some_2 P _ Hlt) as [b Eb]. pose proof (lookup_app_l_Some P S _ _ Eb) as Eb'.
    unfold from_flag, bind in *. rewrite (flag_at _ _ _ Hl Eb') in HF. rewrite (flag_at _ _ _ HlP Eb).
    destruct (b =? T_TRUE).
    + destruct (cd_read c_mesh (mesh_new true false false false) (P ++ S) (k + 1)) as [m n'|f] eqn:Em; [|discriminate]. injection HF as <- <-.
      rewrite (cut_core _ _ _ P S (k + 1) m n' (cm_mesh _) (ci_mesh tame (or_introl eq_refl) _) Hb HlP ltac:(unfold len in *; lia) Em Hn). reflexivity.
    + injection HF as <- <-. unfold len in *. lia.
Qed.
Lemma from_but_mesh g0 buf k g' n : from_flag g0 buf k = Val g' n -> but_mesh g0 g'.
Proof.
  unfold from_flag, bind. destruct (check_if_true buf k) as [[|] k'|]; [|intros E; injection E as <- <-; exists (g_mesh g0); destruct g0; reflexivity|discriminate].
  destruct (cd_read c_mesh _ buf k') as [m n'|]; [|discriminate]. intros E. injection E as <- <-. eexists. reflexivity.
Qed.
Lemma inside_from g0 : inside tame 0 0 (from_flag g0) (fun _ => True).
Proof.
  unfold from_flag. eapply (ins_weaken _ 0 (0 + 0)); [reflexivity|lia|let z := fresh in let Hz := fresh in intros z Hz; exact Hz|].
  eapply ins_bind; [apply ins_if_true|]. intros [|] _; [|apply ins_ret; exact I].
  eapply (ins_weaken _ 0 (1 + 0)); [reflexivity|lia|let z := fresh in let Hz := fresh in intros z Hz; exact Hz|].
  eapply ins_bind; [apply ci_mesh, or_introl, eq_refl|]. intros ? _. apply ins_ret. exact I.
Qed.

(** ** What is read before the mesh flag leaves the mesh alone *)
Lemma loop_keeps {S} (step : S -> Reader S) (J : S -> Prop) : (forall s buf pos s' n, J s -> step s buf pos = Val s' n -> J s') ->
  forall fuel s buf pos s' n, J s -> read_loop step fuel s buf pos = Val s' n -> J s'.
Proof.
  intros Hs. induction fuel as [|fuel IH]; intros s buf pos s' n HJ H; [discriminate|]. cbn [read_loop] in H.
  apply bind_val in H as (e & p & _ & H). destruct e; [apply ret_val in H as [<- _]; exact HJ|].
  apply bind_val in H as (s1 & p1 & H1 & H). eapply IH; [|exact H]. eapply Hs; eassumption.
Qed.
Lemma array_keeps {S} (step : S -> Reader S) (J : S -> Prop) : (forall s buf pos s' n, J s -> step s buf pos = Val s' n -> J s') ->
  forall s buf pos s' n, J s -> read_dynamic_array step s buf pos = Val s' n -> J s'.
Proof.
  intros Hs s buf pos s' n HJ H. unfold read_dynamic_array in H. apply bind_val in H as (? & ? & _ & H). eapply loop_keeps; eassumption.
Qed.
Lemma before_mesh env p g buf pos g0 k : before_flag env p g buf pos = Val g0 k -> g_mesh g0 = g_mesh g.
Proof.
  intros H. unfold before_flag in H. apply bind_val in H as (? & ? & _ & H). apply bind_val in H as (nf & ? & _ & H). apply bind_val in H as (ef & ? & _ & H).
  apply bind_val in H as (st1 & ? & H1 & H). apply bind_val in H as (st2 & ? & H2 & H). apply bind_val in H as (g3 & ? & H3 & H). apply lift_val in H3 as [H3 <-].
  apply bind_val in H as (g4 & ? & H4 & H). apply lift_val in H as [H5 _].
  assert (Hn : forall s buf pos s' n, g_mesh (fst s) = g_mesh g -> node_round env nf s buf pos = Val s' n -> g_mesh (fst s') = g_mesh g).
  { clear. intros s buf pos s' n Hs H. apply bind_val in H as ([x g1] & ? & H & Hr). apply ret_val in Hr as [<- _]. cbn [fst].
    unfold parse_node in H. apply bind_val in H as (? & ? & _ & H). apply bind_val in H as (l & ? & _ & H). apply bind_val in H as (i & ? & _ & H).
    apply bind_val in H as (t & ? & _ & H). apply bind_val in H as ([a|] & ? & _ & H); [|apply ret_val in H as [[= <- <-] _]; exact Hs].
    apply bind_val in H as ([b g2] & ? & H & Hr). apply ret_val in Hr as [[= <- <-] _]. apply lift_val in H as [H _].
    pose proof (step_mesh (fst s) (GAddOrUpdateNode l i a t) ltac:(discriminate) ltac:(discriminate)) as K. cbn [g_step] in K. rewrite H in K. cbn in K. congruence. }
  apply (array_keeps _ (fun s => g_mesh (fst s) = g_mesh g) Hn) in H1; [|reflexivity]. apply (array_keeps _ (fun s => g_mesh (fst s) = g_mesh g) Hn) in H2; [|exact H1].
  assert (E3 : g_mesh g3 = g_mesh g).
  { rewrite <- H2. clear -H3. pose proof (keepm_rfold (fun g x => let! (_, g') := g_remove_node g x in Ok g') (elements (snd st2))) as K.
    specialize (K ltac:(intros g1 x; cbv beta; pose proof (keepm_remove_node g1 x) as R; destruct (g_remove_node g1 x) as [[? ?]| |]; exact R) (fst st2)). rewrite H3 in K. exact K. }
  assert (E4 : g_mesh g4 = g_mesh g).
  { apply (array_keeps _ (fun s => g_mesh s = g_mesh g)) in H4; [exact H4| |rewrite <- E3; reflexivity].
    clear. intros s buf pos s' n Hs H. unfold parse_edge in H. apply bind_val in H as (? & ? & _ & H). apply bind_val in H as (u & ? & _ & H). apply bind_val in H as (v & ? & _ & H).
    apply bind_val in H as ([a|] & ? & _ & H).
    - apply bind_val in H as ([b g2] & ? & H & Hr). apply ret_val in Hr as [<- _]. apply lift_val in H as [H _].
      pose proof (step_mesh s (GAddOrUpdateEdge u v a) ltac:(discriminate) ltac:(discriminate)) as K. cbn [g_step] in K. rewrite H in K. cbn in K. congruence.
    - apply bind_val in H as ([|] & ? & _ & H); [discriminate|]. apply bind_val in H as ([b g2] & ? & H & Hr). apply ret_val in Hr as [<- _]. apply lift_val in H as [H _].
      pose proof (keepm_insert_edge s u v None) as K. rewrite H in K. cbn in K. congruence. }
  apply sweep_mesh in H5. congruence.
Qed.
Lemma update_cuts env p g (mesh : option Mesh -> Prop) : mesh (g_mesh g) -> refuses_cuts_but_mesh (update_graph env p g) mesh.
Proof.
  intros Hm buf pos g' n Hb Hl Hp H. rewrite update_split in H. apply bind_val in H as (g0 & k & HB & HF). exists g0, k.
  split; [eapply from_but_mesh, HF|]. split; [rewrite (before_mesh _ _ _ _ _ _ _ HB); exact Hm|].
  split.
  { pose proof (inside_before env p g buf pos Hb Hl ltac:(lia)) as K. rewrite HB in K.
    pose proof (inside_from g0 buf k Hb Hl ltac:(lia)) as K'. rewrite HF in K'. lia. }
  intros P [[S ->] Hn] Hp'. apply Forall_app in Hb as [Hb _]. eapply cut_update; eassumption.
Qed.
Lemma read_cuts env p : refuses_cuts_but_mesh (read_graph env p) (fun m => m = None).
Proof.
  intros buf pos g n Hb Hl Hp H. unfold read_graph in *. apply bind_val in H as (ids & q & H1 & H). apply bind_val in H as (g1 & q' & H2 & H). apply lift_val in H2 as [H2 <-].
  assert (Hm : g_mesh g1 = None) by (unfold g_new in H2; destruct ids; [discriminate|injection H2 as <-; reflexivity]).
  pose proof (ci_u64s tame (or_introl eq_refl) [] buf pos Hb Hl ltac:(lia)) as K. rewrite H1 in K.
  destruct (update_cuts env p g1 (fun m => m = None) Hm buf q g n Hb Hl ltac:(lia) H) as (g0 & k & B & M & Hk & HP).
  exists g0, k. split; [exact B|]. split; [exact M|]. split; [exact Hk|]. intros P HC HpP. specialize (HP P HC). destruct HC as [[S ->] Hn].
  apply Forall_app in Hb as [Hb _]. assert (HlP : len P < max_object) by (unfold len in *; rewrite app_length in Hl; lia).
  unfold bind. destruct (cut_or_same _ _ _ P S pos ids q (cm_u64s _) (ci_u64s tame (or_introl eq_refl) []) Hb HlP HpP H1) as [E|[E Hq]]; rewrite E; [left; reflexivity|].
  rewrite H2. cbn [lift ret]. apply HP. lia.
Qed.
Lemma update_buffer_cuts env p g : refuses_cuts_but_mesh (update_from_buffer env p g) (fun m => m = g_mesh g \/ m = None).
Proof.
  intros buf pos g' n Hb Hl Hp H. unfold update_from_buffer in *. apply bind_val in H as (ids & q & H1 & H).
  pose proof (ci_u64s tame (or_introl eq_refl) [] buf pos Hb Hl ltac:(lia)) as K. rewrite H1 in K.
  set (g1 := if bool_decide (g_layer_ids g = ids) then g else g_reset g ids) in H.
  assert (Hm : g_mesh g1 = g_mesh g \/ g_mesh g1 = None) by (unfold g1; case_bool_decide; [left|right]; reflexivity).
  destruct (update_cuts env p g1 (fun m => m = g_mesh g \/ m = None) Hm buf q g' n Hb Hl ltac:(lia) H) as (g0 & k & B & M & Hk & HP).
  exists g0, k. split; [exact B|]. split; [exact M|]. split; [exact Hk|]. intros P HC HpP. specialize (HP P HC). destruct HC as [[S ->] Hn].
  apply Forall_app in Hb as [Hb _]. assert (HlP : len P < max_object) by (unfold len in *; rewrite app_length in Hl; lia).
  unfold bind. destruct (cut_or_same _ _ _ P S pos ids q (cm_u64s _) (ci_u64s tame (or_introl eq_refl) []) Hb HlP HpP H1) as [E|[E Hq]]; rewrite E; [left; reflexivity|].
  apply HP. lia.
Qed.
Lemma refuses {A} (m : Reader A) r Q : mono m -> inside tame 0 r m Q -> refuses_cuts m.
Proof.
  intros Hm Hi buf P pos a n Hb Hl E [[S ->] Hn] Hp. apply Forall_app in Hb as [Hb _]. eapply cut_core; try eassumption.
  unfold len in *. rewrite app_length in Hl. lia.
Qed.
(** ** Headers *)
Definition header_reader : Reader (option Header) :=
  let* t := curr_type in
  if negb (t =? T_ARR32) then ret None
  else
    let* id := cd_read c_string [] in
    if negb (bool_decide (id = IDENTIFIER)) then ret None
    else let* h := cd_read c_header (mkHeader (str "main") (mkV 0 0 0)) in ret (Some h).
Lemma header_reads buf : header_parse buf = header_reader buf 0. Proof. reflexivity. Qed.
Lemma mono_header : mono header_reader.
Proof.
  unfold header_reader. apply mono_bind; [apply mono_curr|intros t]. destruct (negb _); [apply mono_ret|].
  apply mono_bind; [apply cm_string|intros i]. destruct (negb _); [apply mono_ret|]. apply mono_bind; [apply cm_header|intros h]. apply mono_ret.
Qed.
Lemma inside_header_reader : inside tame 0 0 header_reader (fun _ => True).
Proof.
  unfold header_reader. assert (HE : tame Exception) by (left; reflexivity).
  apply ins_curr; [exact HE|]. intros t _. destruct (negb _); [apply ins_ret; exact I|].
  eapply (ins_weaken tame 0 (1 + 0)); [lia|lia|intros a H; exact H|].
  eapply ins_bind; [apply ci_string; exact HE|]. intros s _. destruct (negb _); [apply ins_ret; exact I|].
  eapply (ins_weaken tame 0 (1 + 0)); [lia|lia|intros a H; exact H|].
  eapply ins_bind; [apply inside_header; exact HE|]. intros h _. apply ins_ret. exact I.
Qed.
