(** Every value that fits can be written and reads back: the codecs one by one. *)
From Coq Require Import NArith ZArith Bool List Lia.
From stdpp Require Import base list gmap.
From Verif.Model Require Import Types Mesh Attrs Binary.
From Verif.Spec Require Import BinarySpec.
From Verif.Proof Require Import BinaryP.
Local Open Scope N_scope.

Lemma short_two32 {A} (l : list A) : short l -> N.of_nat (length l) < two32.
Proof. intros H. exact H. Qed.

Lemma writes_each {A} (c : Codec A) (P : A -> Prop) l :
  (forall a, P a -> exists bs, cd_write c a = Ok bs) -> Forall P l -> exists bs, write_each c l = Ok bs.
Proof.
  intros Hc HP. induction HP as [|a l Ha HP [b IH]]; [eexists; reflexivity|].
  destruct (Hc a Ha) as [x Hx]. unfold write_each in *. cbn [map seq_writes]. rewrite Hx. cbn [rbind]. rewrite IH.
  eexists; reflexivity.
Qed.
Lemma writes_array {A} (c : Codec A) (P : A -> Prop) l :
  (forall a, P a -> exists bs, cd_write c a = Ok bs) -> short l -> Forall P l -> exists bs, write_array c l = Ok bs.
Proof.
  intros Hc Hs HP. unfold write_array. rewrite (fixed_array_le _ (short_two32 l Hs)). cbn [rbind].
  destruct (writes_each c P l Hc HP) as [b ->]. eexists; reflexivity.
Qed.

Lemma sl_weaken {A} (c : Codec A) (P P' F F' : A -> Prop) :
  (forall a, P' a -> P a) -> (forall a, F' a -> F a) -> saves_and_loads c P F -> saves_and_loads c P' F'.
Proof.
  intros HP HF [H1 H2]. split; [intros a Ha; auto|]. intros a old bs Ha Ho. apply H2; auto.
Qed.

Lemma sl_uint tag nb : is_byte tag -> saves_and_loads (codec_uint tag nb) (fits (8 * N.of_nat nb)) any.
Proof. intros H. split; [intros a _; eexists; reflexivity|apply rt_uint, H]. Qed.
Lemma sl_int tag nb : is_byte tag -> (0 < nb)%nat -> saves_and_loads (codec_int tag nb) (fits_signed (8 * Z.of_nat nb)) any.
Proof. intros H Hn. split; [intros a _; eexists; reflexivity|apply rt_int; assumption]. Qed.
Lemma sl_bool : saves_and_loads c_bool any any.
Proof. split; [intros a _; eexists; reflexivity|apply rt_bool]. Qed.
Lemma sl_string : saves_and_loads c_string (fun s => short s /\ Forall is_byte s) any.
Proof.
  split.
  - intros s [Hs _]. cbn [cd_write c_string]. rewrite (fixed_array_le _ (short_two32 s Hs)). eexists; reflexivity.
  - intros a old bs [_ Ha] Ho. apply rt_string; assumption.
Qed.
Lemma sl_option {A} d (c : Codec A) P F : saves_and_loads c P F -> F d -> not_nil c ->
  saves_and_loads (codec_option d c) (fun o => forall v, o = Some v -> P v) (fun o => o = None).
Proof.
  intros [Hw Hr] Hd Hn. split; [|eapply rt_option; eassumption].
  intros [v|] H; cbn [cd_write codec_option]; [apply Hw, H; reflexivity|eexists; reflexivity].
Qed.
Lemma sl_vector {A} d (c : Codec A) P F : saves_and_loads c P F -> F d ->
  saves_and_loads (codec_vector d c) (fun l => short l /\ Forall P l) (Forall F).
Proof.
  intros [Hw Hr] Hd. split; [intros l [Hs HP]; exact (writes_array c P l Hw Hs HP)|].
  intros a old bs [_ Ha] Ho. eapply rt_vector; eassumption.
Qed.
Lemma sl_list {A} d (c : Codec A) P F : saves_and_loads c P F -> F d ->
  saves_and_loads (codec_list d c) (fun l => short l /\ Forall P l) any.
Proof.
  intros [Hw Hr] Hd. split; [intros l [Hs HP]; exact (writes_array c P l Hw Hs HP)|].
  intros a old bs [_ Ha] Ho. eapply rt_list; eassumption.
Qed.
Lemma sl_array {A} n (c : Codec A) P F : N.of_nat n < 2 ^ 32 -> saves_and_loads c P F ->
  saves_and_loads (codec_array n c) (fun l => length l = n /\ Forall P l) (fun l => length l = n /\ Forall F l).
Proof.
  intros Hn [Hw Hr]. split.
  - intros l [Hl HP]. refine (writes_array c P l Hw _ HP). unfold short, len. rewrite Hl. exact Hn.
  - eapply rt_array; eassumption.
Qed.
Lemma sl_set {A} `{Countable A} order d (c : Codec A) P F : saves_and_loads c P F -> F d -> lists_set order ->
  saves_and_loads (codec_set order d c) (fun s => N.of_nat (size s) < 2 ^ 32 /\ forall x, x ∈ s -> P x) any.
Proof.
  intros [Hw Hr] Hd Ho. split.
  - intros s [Hs HP]. cbn [cd_write codec_set]. destruct (Ho s) as [Hnd Hin].
    apply (writes_array c P); [exact Hw| |].
    + unfold short, len. assert (Hl : length (order s) = size s).
      { unfold size, set_size. cbn. apply Permutation_length. apply NoDup_Permutation; [exact Hnd|apply NoDup_elements|].
        intros x. rewrite elem_of_elements. apply Hin. }
      rewrite Hl. exact Hs.
    + apply Forall_forall. intros x Hx. apply HP, Hin, Hx.
  - intros a old bs [_ Ha] Ho'. eapply rt_set; eassumption.
Qed.
Lemma order_length {K V} `{Countable K} (order : gmap K V -> list (K * V)) m : lists_map order -> length (order m) = size m.
Proof.
  intros Ho. destruct (Ho m) as [Hnd Hin]. unfold size, map_size.
  apply Permutation_length, NoDup_Permutation.
  - apply (NoDup_fmap_1 fst). exact Hnd.
  - apply NoDup_map_to_list.
  - intros [k v]. rewrite elem_of_map_to_list. apply Hin.
Qed.
Lemma sl_map {K V} `{Countable K} order dk dv (ck : Codec K) (cv : Codec V) PK FK PV FV :
  saves_and_loads ck PK FK -> saves_and_loads cv PV FV -> FK dk -> FV dv -> lists_map order ->
  saves_and_loads (codec_map order dk dv ck cv)
    (fun m => N.of_nat (size m) < 2 ^ 32 /\ forall k v, m !! k = Some v -> PK k /\ PV v) any.
Proof.
  intros [Wk Rk] [Wv Rv] Hdk Hdv Ho. split.
  - intros m [Hs HP]. cbn [cd_write codec_map]. pose proof (order_length order m Ho) as Hl.
    rewrite fixed_array_le by (rewrite Hl; exact Hs). cbn [rbind].
    assert (Hex : exists b, seq_writes (map (write_pair ck cv) (order m)) = Ok b).
    { assert (HF : Forall (fun kv => PK (fst kv) /\ PV (snd kv)) (order m)).
      { apply Forall_forall. intros [k v] Hkv. apply HP. apply Ho, Hkv. }
      clear Hl. induction HF as [|[k v] l [Hk Hv] HF [b IH]]; [eexists; reflexivity|].
      cbn [map seq_writes]. unfold write_pair at 1. cbn [fst snd] in *.
      destruct (Wk k Hk) as [x ->]. destruct (Wv v Hv) as [y ->]. cbn [rbind]. rewrite IH. eexists; reflexivity. }
    destruct Hex as [b ->]. eexists; reflexivity.
  - intros a old bs [_ Ha] Ho'. eapply rt_map; eassumption.
Qed.
Lemma sl_matrix fr fc (c : Codec N) P F : saves_and_loads c P F -> F 0 ->
  saves_and_loads (codec_matrix fr fc c)
    (fun m => matrix_shaped fr fc m /\ mx_rows m * mx_cols m + 2 < 2 ^ 32 /\ Forall P (mx_data m)) any.
Proof.
  intros [Hw Hr] H0. split.
  - intros m (_ & Hs & HP). cbn [cd_write codec_matrix]. rewrite fixed_array_le by exact Hs. cbn [rbind].
    destruct (cd_write c_i64 (Z.of_N (mx_rows m))) as [a| |] eqn:Ea; try discriminate.
    destruct (cd_write c_i64 (Z.of_N (mx_cols m))) as [b| |] eqn:Eb; try discriminate.
    destruct (writes_each c P (mx_data m) Hw HP) as [d ->]. eexists; reflexivity.
  - intros a old bs (H1 & _ & H2) Ho. apply (rt_matrix fr fc c P F Hr H0 a old bs); [split; assumption|exact Ho].
Qed.
Lemma sl_vec3 (c : Codec N) P F : saves_and_loads c P F ->
  saves_and_loads (codec_vec3 c) (fun v => P (v_x v) /\ P (v_y v) /\ P (v_z v)) (fun v => F (v_x v) /\ F (v_y v) /\ F (v_z v)).
Proof.
  intros [Hw Hr]. split; [|apply rt_vec3, Hr]. intros v (Hx & Hy & Hz). cbn [cd_write codec_vec3 seq_writes].
  destruct (Hw _ Hx) as [x ->]. destruct (Hw _ Hy) as [y ->]. destruct (Hw _ Hz) as [z ->]. eexists; reflexivity.
Qed.
Lemma sl_quat (c : Codec N) P F : saves_and_loads c P F ->
  saves_and_loads (codec_quat c) (fun q => P (q_w q) /\ P (q_x q) /\ P (q_y q) /\ P (q_z q))
    (fun q => F (q_w q) /\ F (q_x q) /\ F (q_y q) /\ F (q_z q)).
Proof.
  intros [Hw Hr]. split; [|apply rt_quat, Hr]. intros v (Hv & Hx & Hy & Hz). cbn [cd_write codec_quat seq_writes].
  rewrite fixed_array_le by reflexivity. cbn [rbind].
  destruct (Hw _ Hv) as [w ->]. destruct (Hw _ Hx) as [x ->]. destruct (Hw _ Hy) as [y ->]. destruct (Hw _ Hz) as [z ->]. eexists; reflexivity.
Qed.

(** Field lists *)
Fixpoint fields_fit {T} (fs : list (Field T)) (from to : T) : Prop :=
  match fs with
  | [] => True
  | f :: r => (exists P F, saves_and_loads (fd_codec f) P F /\ P (fd_get f from) /\ F (fd_get f to)) /\
              fields_fit r from (fd_set f (fd_get f from) to)
  end.
Lemma sl_fields {T} (fs : list (Field T)) from to : fields_fit fs from to ->
  exists bs, write_fields fs from = Ok bs /\ Forall is_byte bs /\ reads_back (read_fields fs to) bs (copy_fields fs from to).
Proof.
  intros H. assert (Hex : exists bs, write_fields fs from = Ok bs).
  { revert to H. induction fs as [|f r IH]; intros to H; [eexists; reflexivity|].
    destruct H as [(P & F & [Hw _] & HP & _) H]. destruct (Hw _ HP) as [b Hb]. destruct (IH _ H) as [c Hc].
    unfold write_fields in *. cbn [map seq_writes]. rewrite Hb. cbn [rbind]. rewrite Hc. eexists; reflexivity. }
  destruct Hex as [bs Hbs]. exists bs. split; [exact Hbs|]. apply rt_fields; [|exact Hbs].
  revert to H. clear. induction fs as [|f r IH]; intros to H; [exact I|].
  destruct H as [(P & F & [_ Hr] & HP & HF) H]. split; [exists P, F; auto|]. apply IH, H.
Qed.
Lemma fields_fit_app {T} (fs gs : list (Field T)) from to :
  fields_fit (fs ++ gs) from to <-> fields_fit fs from to /\ fields_fit gs from (copy_fields fs from to).
Proof.
  revert to. induction fs as [|f r IH]; intros to; cbn [app fields_fit copy_fields]; [tauto|]. rewrite IH. tauto.
Qed.
Lemma copy_fields_app {T} (fs gs : list (Field T)) from to :
  copy_fields (fs ++ gs) from to = copy_fields gs from (copy_fields fs from to).
Proof. revert to. induction fs as [|f r IH]; intros to; cbn [app copy_fields]; [reflexivity|apply IH]. Qed.
Lemma copy_lift {S T} (up : T -> S) (put : S -> T -> T) (fs : list (Field S)) from to :
  (forall s t, up (put s t) = s) -> (forall s s' t, put s (put s' t) = put s t) -> (forall t, put (up t) t = t) ->
  copy_fields (map (lift_field up put) fs) from to = put (copy_fields fs (up from) (up to)) to.
Proof.
  intros H1 H2 H3. revert to. induction fs as [|f r IH]; intros to; cbn [map copy_fields].
  - symmetry. apply H3.
  - rewrite IH. cbn [lift_field fd_get fd_set]. rewrite H1, H2. reflexivity.
Qed.
Lemma fit_lift {S T} (up : T -> S) (put : S -> T -> T) (fs : list (Field S)) from to :
  (forall s t, up (put s t) = s) -> (forall s s' t, put s (put s' t) = put s t) ->
  fields_fit fs (up from) (up to) -> fields_fit (map (lift_field up put) fs) from to.
Proof.
  intros H1 H2. revert to. induction fs as [|f r IH]; intros to H; [exact I|].
  destruct H as [(P & F & H & HP & HF) Hr]. cbn [map fields_fit]. split; [exists P, F; cbn; auto|].
  apply IH. cbn [lift_field fd_get fd_set]. rewrite H1. exact Hr.
Qed.
Lemma sl_codec_fields {T} (fs : list (Field T)) (P F : T -> Prop) :
  (forall a old, P a -> F old -> fields_fit fs a old /\ copy_fields fs a old = a) -> (exists old, F old) ->
  saves_and_loads (codec_fields fs) P F.
Proof.
  intros H [o Ho]. split.
  - intros a Ha. destruct (sl_fields fs a o) as (bs & Hbs & _); [apply H; assumption|]. eauto.
  - intros a old bs Ha Hold Hw. destruct (H a old Ha Hold) as [Hf Hc].
    destruct (sl_fields fs a old Hf) as (bs' & Hbs & Hb & Hr). cbn [codec_fields cd_write cd_read] in *.
    rewrite Hbs in Hw. injection Hw as <-. rewrite Hc in Hr. split; assumption.
Qed.
