(** Proofs about the binary primitives and containers. *)
From Coq Require Import NArith ZArith Bool List Lia.
From stdpp Require Import base list gmap.
From Verif.Model Require Import Types Mesh Attrs Node Binary.
From Verif.Spec Require Import BinarySpec.
Local Open Scope N_scope.

Lemma len_app {A} (a b : list A) : len (a ++ b) = len a + len b.
Proof. unfold len. rewrite app_length. lia. Qed.
Lemma len_cons {A} (x : A) l : len (x :: l) = 1 + len l.
Proof. unfold len. cbn [length]. lia. Qed.
Lemma len_nil {A} : len (@nil A) = 0. Proof. reflexivity. Qed.
Lemma max_object_val : max_object = 9223372036854775808. Proof. reflexivity. Qed.
Lemma two64_val : two64 = 18446744073709551616. Proof. reflexivity. Qed.

(* ---------------------------------------------------------------- *)
(** ** reads_back *)
Section Reads.
  Context {A B : Type}.

  Lemma reads_ret (a : A) : reads_back (ret a) [] a.
  Proof. intros p s _. unfold ret. rewrite len_nil, N.add_0_r. reflexivity. Qed.

  Lemma reads_bind (m : Reader A) (k : A -> Reader B) bs1 bs2 a b :
    reads_back m bs1 a -> reads_back (k a) bs2 b -> reads_back (bind m k) (bs1 ++ bs2) b.
  Proof.
    intros H1 H2 p s Hl. unfold bind.
    specialize (H1 p (bs2 ++ s)). rewrite <- app_assoc in Hl |- *.
    rewrite H1 by exact Hl.
    specialize (H2 (p ++ bs1) s). rewrite <- app_assoc in H2. rewrite (len_app p bs1) in H2.
    rewrite H2 by exact Hl. rewrite (len_app bs1 bs2). f_equal. lia.
  Qed.

  Lemma reads_check nb ne (k : unit -> Reader A) bs a :
    ne * nb <= len bs -> reads_back (k tt) bs a -> reads_back (bind (check_valid nb ne) k) bs a.
  Proof.
    intros Hn Hk p s Hl. unfold bind, check_valid.
    assert (HL : len (p ++ bs ++ s) = len p + (len bs + len s)) by (rewrite !len_app; reflexivity).
    change (N.of_nat (length (p ++ bs ++ s))) with (len (p ++ bs ++ s)).
    rewrite HL in Hl |- *. rewrite max_object_val in Hl. rewrite two64_val.
    rewrite (N.mod_small (ne * nb)) by lia. rewrite N.mod_small by lia.
    destruct (N.ltb_spec (len p + (len bs + len s)) (len p + ne * nb)); [lia|].
    apply Hk. rewrite HL, max_object_val. exact Hl.
  Qed.

  Lemma reads_byte (k : N -> Reader A) t bs a :
    reads_back (k t) (t :: bs) a -> reads_back (bind byte_at k) (t :: bs) a.
  Proof.
    intros Hk p s Hl. unfold bind, byte_at, len at 1. rewrite Nat2N.id.
    rewrite lookup_app_r by lia. rewrite Nat.sub_diag. cbn. apply Hk, Hl.
  Qed.

  Lemma reads_advance (k : unit -> Reader A) t bs a :
    reads_back (k tt) bs a -> reads_back (bind (advance 1) k) (t :: bs) a.
  Proof.
    intros Hk p s Hl. unfold bind, advance.
    specialize (Hk (p ++ [t]) s). rewrite <- app_assoc in Hk. cbn [app] in Hk |- *.
    assert (HL : len (p ++ t :: bs ++ s) = len p + (1 + (len bs + len s))).
    { rewrite len_app, len_cons, len_app. reflexivity. }
    cbn [app] in Hl.
    rewrite HL, max_object_val in Hl. rewrite N.mod_small by (rewrite two64_val; lia).
    rewrite (len_app p [t]), len_cons, len_nil in Hk. rewrite N.add_0_r in Hk.
    rewrite Hk by (rewrite HL, max_object_val; exact Hl).
    rewrite len_cons. f_equal. lia.
  Qed.

  Lemma reads_ext (r r' : Reader A) bs a :
    (forall buf pos, r buf pos = r' buf pos) -> reads_back r' bs a -> reads_back r bs a.
  Proof. intros E H p s Hl. rewrite E. apply H, Hl. Qed.
End Reads.

Lemma bind_assoc {A B C} (m : Reader A) (k : A -> Reader B) (h : B -> Reader C) buf pos :
  bind (bind m k) h buf pos = bind m (fun a => bind (k a) h) buf pos.
Proof. unfold bind. destruct (m buf pos); reflexivity. Qed.

Lemma reads_curr {A} (k : N -> Reader A) t bs a :
  reads_back (k t) (t :: bs) a -> reads_back (bind curr_type k) (t :: bs) a.
Proof.
  intros H. eapply reads_ext; [intros; apply bind_assoc|].
  apply reads_check; [rewrite len_cons; lia|]. apply reads_byte, H.
Qed.

Lemma reads_type {A} t (k : unit -> Reader A) bs a :
  reads_back (k tt) bs a -> reads_back (bind (check_type t) k) (t :: bs) a.
Proof.
  intros H. unfold check_type. eapply reads_ext; [intros; apply bind_assoc|].
  apply reads_curr. rewrite N.eqb_refl. apply reads_advance, H.
Qed.

Lemma byte_div v n : v < 256 ^ N.succ n -> v / 256 < 256 ^ n.
Proof. intros H. apply N.div_lt_upper_bound; [lia|]. rewrite N.pow_succ_r' in H. exact H. Qed.

Lemma word_bytes_len nb v : length (word_bytes nb v) = nb.
Proof. revert v. induction nb as [|k IH]; intros v; cbn [word_bytes length]; [reflexivity|]. rewrite IH. reflexivity. Qed.
Lemma word_bytes_bytes nb v : Forall is_byte (word_bytes nb v).
Proof.
  revert v. induction nb as [|k IH]; intros v; cbn [word_bytes]; constructor; [|apply IH].
  apply N.mod_lt. lia.
Qed.

Lemma reads_word nb v : v < 256 ^ N.of_nat nb -> reads_back (take_word nb) (word_bytes nb v) v.
Proof.
  revert v. induction nb as [|k IH]; intros v Hv.
  - cbn in Hv. assert (v = 0) as -> by lia. apply reads_ret.
  - cbn [word_bytes take_word]. apply reads_byte, reads_advance.
    rewrite Nat2N.inj_succ in Hv. apply byte_div in Hv.
    rewrite <- (app_nil_r (word_bytes k (v / 256))).
    eapply reads_bind; [apply IH, Hv|].
    replace (v mod 256 + 256 * (v / 256)) with v; [apply reads_ret|].
    pose proof (N.div_mod v 256). lia.
Qed.

Lemma reads_bytes bs : reads_back (take_bytes (length bs)) bs bs.
Proof.
  induction bs as [|b bs IH]; [apply reads_ret|].
  cbn [length take_bytes]. apply reads_byte, reads_advance.
  rewrite <- (app_nil_r bs) at 2. eapply reads_bind; [exact IH|]. apply reads_ret.
Qed.

Lemma fixed_array_ok n bs : fixed_array n = Ok bs -> n < two32 /\ bs = T_ARR32 :: word_bytes 4 n.
Proof.
  unfold fixed_array. destruct (N.ltb_spec (two32 - 1) n); [discriminate|].
  intros [= <-]. split; [|reflexivity]. unfold two32 in *. lia.
Qed.
Lemma fixed_array_le n : n < two32 -> fixed_array n = Ok (T_ARR32 :: word_bytes 4 n).
Proof. intros H. unfold fixed_array. destruct (N.ltb_spec (two32 - 1) n); [unfold two32 in *; lia|reflexivity]. Qed.
Lemma fixed_array_bytes n bs : fixed_array n = Ok bs -> Forall is_byte bs.
Proof. intros H. apply fixed_array_ok in H as [_ ->]. constructor; [reflexivity|]. apply word_bytes_bytes. Qed.

Lemma reads_length n bs : fixed_array n = Ok bs -> reads_back read_array_length bs n.
Proof.
  intros H. apply fixed_array_ok in H as [Hn ->]. unfold read_array_length.
  apply reads_curr. cbn -[word_bytes take_word]. apply reads_advance. apply reads_check; [|apply reads_word, Hn].
  unfold len. rewrite word_bytes_len. reflexivity.
Qed.
Lemma reads_check_length n m bs : fixed_array n = Ok bs -> reads_back (check_array_length m) bs tt.
Proof.
  intros H. apply fixed_array_ok in H as [Hn ->]. unfold check_array_length.
  apply reads_curr. cbn -[word_bytes take_word]. apply reads_advance. apply reads_check.
  { unfold len. rewrite word_bytes_len. reflexivity. }
  rewrite <- (app_nil_r (word_bytes 4 n)). eapply reads_bind; [apply reads_word, Hn|].
  rewrite N.eqb_refl. apply reads_ret.
Qed.

(* ---------------------------------------------------------------- *)
(** ** Round trips *)
Lemma rt_uint tag nb : is_byte tag -> round_trips (codec_uint tag nb) (fits (8 * N.of_nat nb)) any.
Proof.
  intros Ht v old bs Hv _ [= <-]. split; [constructor; [exact Ht|apply word_bytes_bytes]|].
  cbn [cd_read codec_uint]. apply reads_type. apply reads_check.
  { unfold len. rewrite word_bytes_len. lia. }
  apply reads_word. unfold fits in Hv. rewrite N.pow_mul_r in Hv. exact Hv.
Qed.

Lemma bits_inv nb z : (0 < nb)%nat -> fits_signed (8 * Z.of_nat nb) z ->
  of_bits nb (to_bits nb z) = z /\ to_bits nb z < 256 ^ N.of_nat nb.
Proof.
  intros Hnb [H1 H2]. unfold of_bits, to_bits.
  set (k := (8 * Z.of_nat nb)%Z) in *.
  assert (Hp : (2 ^ k = 2 * 2 ^ (k - 1))%Z).
  { rewrite <- Z.pow_succ_r by lia. f_equal. lia. }
  assert (Hpos : (0 < 2 ^ (k - 1))%Z) by (apply Z.pow_pos_nonneg; lia).
  pose proof (Z.mod_pos_bound z (2 ^ k)) as Hm.
  rewrite Z2N.id by lia. split.
  - destruct (Z.ltb_spec (z mod 2 ^ k) (2 ^ (k - 1))) as [Hlt|Hge].
    + destruct (Z.le_gt_cases 0 z) as [Hz|Hz].
      * rewrite Z.mod_small by lia. reflexivity.
      * exfalso. assert (E : (z mod 2 ^ k = z + 2 ^ k)%Z).
        { symmetry. apply Z.mod_unique_pos with (q := (-1)%Z); lia. }
        lia.
    + destruct (Z.le_gt_cases 0 z) as [Hz|Hz].
      * exfalso. rewrite Z.mod_small in Hge by lia. lia.
      * assert (E : (z mod 2 ^ k = z + 2 ^ k)%Z).
        { symmetry. apply Z.mod_unique_pos with (q := (-1)%Z); lia. }
        lia.
  - apply N2Z.inj_lt. rewrite Z2N.id by lia. rewrite N2Z.inj_pow.
    replace (Z.of_N 256 ^ Z.of_N (N.of_nat nb))%Z with (2 ^ k)%Z; [lia|].
    unfold k. rewrite Z.pow_mul_r by lia. f_equal. lia.
Qed.

Lemma rt_int tag nb : is_byte tag -> (0 < nb)%nat -> round_trips (codec_int tag nb) (fits_signed (8 * Z.of_nat nb)) any.
Proof.
  intros Ht Hnb v old bs Hv _ [= <-]. split; [constructor; [exact Ht|apply word_bytes_bytes]|].
  destruct (bits_inv nb v Hnb Hv) as [E Hb].
  cbn [cd_read codec_int]. apply reads_type. apply reads_check.
  { unfold len. rewrite word_bytes_len. lia. }
  rewrite <- (app_nil_r (word_bytes nb _)). eapply reads_bind; [apply reads_word, Hb|].
  rewrite E. apply reads_ret.
Qed.

Lemma rt_bool : round_trips c_bool any any.
Proof.
  intros [] old bs _ _ [= <-]; (split; [constructor; [reflexivity|constructor]|]);
    cbn [cd_read c_bool]; apply reads_curr, reads_type; apply reads_ret.
Qed.

Lemma rt_string : round_trips c_string (Forall is_byte) any.
Proof.
  intros s old bs Hs _ H. cbn [cd_write c_string] in H.
  destruct (fixed_array _) as [h| |] eqn:Eh; try discriminate. injection H as <-.
  split; [apply Forall_app_2; [eapply fixed_array_bytes, Eh|exact Hs]|].
  cbn [cd_read c_string]. eapply reads_bind; [eapply reads_length, Eh|].
  apply reads_check; [unfold len; lia|]. rewrite Nat2N.id. apply reads_bytes.
Qed.


Lemma rt_option {A} d (c : Codec A) P F : round_trips c P F -> F d -> not_nil c ->
  round_trips (codec_option d c) (fun o => forall v, o = Some v -> P v) (fun o => o = None).
Proof.
  intros Hc Hd Hn o old bs Ho -> H. cbn [cd_write codec_option] in H.
  destruct o as [v|].
  - destruct (Hc v d bs (Ho v eq_refl) Hd H) as [Hb Hr]. split; [exact Hb|].
    destruct (Hn _ _ H) as (t & r & -> & Ht).
    cbn [cd_read codec_option]. apply reads_curr. apply N.eqb_neq in Ht. rewrite Ht.
    rewrite <- (app_nil_r (t :: r)). eapply reads_bind; [exact Hr|]. apply reads_ret.
  - injection H as <-. split; [constructor; [reflexivity|constructor]|].
    cbn [cd_read codec_option]. apply reads_curr. rewrite N.eqb_refl. apply reads_type, reads_ret.
Qed.

Lemma rt_each {A} (c : Codec A) P F : round_trips c P F -> forall l olds bs,
  Forall P l -> Forall F olds -> length olds = length l -> write_each c l = Ok bs ->
  Forall is_byte bs /\ reads_back (read_each c olds) bs l.
Proof.
  intros Hc. induction l as [|v l IH]; intros olds bs Hl Ho Hlen H.
  - destruct olds; [|discriminate]. injection H as <-. split; [constructor|]. apply reads_ret.
  - destruct olds as [|o olds]; [discriminate|]. inversion Hl; subst. inversion Ho; subst.
    cbn in H. destruct (cd_write c v) as [b| |] eqn:Ev; try discriminate. cbn [rbind] in H.
    fold (write_each c l) in H. destruct (write_each c l) as [br| |] eqn:El; try discriminate.
    injection H as <-. destruct (Hc v o b) as [Hb Hr]; [assumption..|].
    destruct (IH olds br) as [Hb' Hr']; [assumption|assumption|now injection Hlen|reflexivity|].
    split; [apply Forall_app_2; assumption|].
    cbn [read_each]. eapply reads_bind; [exact Hr|].
    rewrite <- (app_nil_r br). eapply reads_bind; [exact Hr'|]. apply reads_ret.
Qed.

Lemma write_array_split {A} (c : Codec A) l bs : write_array c l = Ok bs ->
  exists h b, fixed_array (N.of_nat (length l)) = Ok h /\ write_each c l = Ok b /\ bs = h ++ b.
Proof.
  unfold write_array. destruct (fixed_array _) as [h| |]; [|discriminate..].
  destruct (write_each c l) as [b| |]; [|discriminate..]. intros [= <-]. eauto.
Qed.

Lemma Forall_resize {A} (P : A -> Prop) n d l : P d -> Forall P l -> Forall P (resize n d l).
Proof. intros Hd Hl. apply Forall_resize; assumption. Qed.

Lemma rt_vector {A} d (c : Codec A) P F : round_trips c P F -> F d ->
  round_trips (codec_vector d c) (Forall P) (Forall F).
Proof.
  intros Hc Hd l old bs Hl Ho H. apply write_array_split in H as (h & b & Eh & Eb & ->).
  destruct (rt_each c P F Hc l (resize (length l) d old) b) as [Hb Hr]; [assumption| |apply resize_length|assumption|].
  { apply Forall_resize; assumption. }
  split; [apply Forall_app_2; [eapply fixed_array_bytes, Eh|exact Hb]|].
  cbn [cd_read codec_vector]. eapply reads_bind; [eapply reads_length, Eh|]. rewrite Nat2N.id. exact Hr.
Qed.

Lemma rt_list {A} d (c : Codec A) P F : round_trips c P F -> F d ->
  round_trips (codec_list d c) (Forall P) any.
Proof.
  intros Hc Hd l old bs Hl _ H. apply write_array_split in H as (h & b & Eh & Eb & ->).
  destruct (rt_each c P F Hc l (replicate (length l) d) b) as [Hb Hr]; [assumption| |apply replicate_length|assumption|].
  { apply Forall_replicate, Hd. }
  split; [apply Forall_app_2; [eapply fixed_array_bytes, Eh|exact Hb]|].
  cbn [cd_read codec_list]. eapply reads_bind; [eapply reads_length, Eh|]. rewrite Nat2N.id. exact Hr.
Qed.

Lemma rt_array {A} n (c : Codec A) P F : round_trips c P F ->
  round_trips (codec_array n c) (fun l => length l = n /\ Forall P l) (fun l => length l = n /\ Forall F l).
Proof.
  intros Hc l old bs [Hn Hl] [Ho HF] H. apply write_array_split in H as (h & b & Eh & Eb & ->).
  destruct (rt_each c P F Hc l old b) as [Hb Hr]; [assumption|assumption|congruence|assumption|].
  split; [apply Forall_app_2; [eapply fixed_array_bytes, Eh|exact Hb]|].
  cbn [cd_read codec_array]. eapply reads_bind; [eapply reads_check_length, Eh|]. exact Hr.
Qed.

(** sets *)
Lemma rt_set_loop {A} `{Countable A} d (c : Codec A) P F : round_trips c P F -> F d -> forall l s bs,
  Forall P l -> write_each c l = Ok bs ->
  Forall is_byte bs /\ reads_back (read_set d c (length l) s) bs (list_to_set l ∪ s).
Proof.
  intros Hc Hd. induction l as [|v l IH]; intros s bs Hl H'.
  - injection H' as <-. split; [constructor|]. cbn. rewrite (left_id_L ∅ (∪)). apply reads_ret.
  - inversion Hl; subst. cbn in H'.
    destruct (cd_write c v) as [b| |] eqn:Ev; try discriminate. cbn [rbind] in H'.
    fold (write_each c l) in H'. destruct (write_each c l) as [br| |] eqn:El; try discriminate.
    injection H' as <-. destruct (Hc v d b) as [Hb Hr]; [assumption..|].
    destruct (IH ({[v]} ∪ s) br) as [Hb' Hr']; [assumption|reflexivity|].
    split; [apply Forall_app_2; assumption|].
    cbn [length read_set]. eapply reads_bind; [exact Hr|].
    replace (list_to_set (v :: l) ∪ s) with (list_to_set l ∪ ({[v]} ∪ s) : gset A); [exact Hr'|].
    cbn [list_to_set]. set_solver.
Qed.

Lemma rt_set {A} `{Countable A} order d (c : Codec A) P F : round_trips c P F -> F d -> lists_set order ->
  round_trips (codec_set order d c) (fun s => forall x, x ∈ s -> P x) any.
Proof.
  intros Hc Hd Ho s old bs Hs _ H'. cbn [cd_write codec_set] in H'.
  apply write_array_split in H' as (h & b & Eh & Eb & ->).
  destruct (Ho s) as [Hnd Hin].
  destruct (rt_set_loop d c P F Hc Hd (order s) ∅ b) as [Hb Hr]; [|assumption|].
  { apply Forall_forall. intros x Hx. apply Hs, Hin, Hx. }
  split; [apply Forall_app_2; [eapply fixed_array_bytes, Eh|exact Hb]|].
  cbn [cd_read codec_set]. eapply reads_bind; [eapply reads_length, Eh|]. rewrite Nat2N.id.
  replace s with (list_to_set (order s) ∪ ∅ : gset A) at 2; [exact Hr|].
  apply set_eq. intros x. rewrite elem_of_union, elem_of_list_to_set, Hin. set_solver.
Qed.

(** maps *)
Lemma rt_map_loop {K V} `{Countable K} dk dv (ck : Codec K) (cv : Codec V) PK FK PV FV :
  round_trips ck PK FK -> round_trips cv PV FV -> FK dk -> FV dv -> forall l m bs,
  Forall (fun kv => PK (fst kv) /\ PV (snd kv)) l -> NoDup (map fst l) ->
  (forall k v, (k, v) ∈ l -> m !! k = None) ->
  seq_writes (map (write_pair ck cv) l) = Ok bs ->
  Forall is_byte bs /\ reads_back (read_map dk dv ck cv (length l) m) bs (list_to_map l ∪ m).
Proof.
  intros Hk Hv Hdk Hdv. induction l as [|[k v] l IH]; intros m bs Hl Hnd Hm H'.
  - injection H' as <-. split; [constructor|]. cbn. rewrite (left_id_L ∅ (∪)). apply reads_ret.
  - inversion Hl as [|? ? [Pk Pv] Hl']; subst. cbn [fst snd] in *.
    cbn [map fst] in Hnd. inversion Hnd as [|? ? Hni Hnd']; subst.
    cbn [map seq_writes] in H'. unfold write_pair at 1 in H'. cbn [fst snd] in H'.
    destruct (cd_write ck k) as [bk| |] eqn:Ek; try discriminate.
    destruct (cd_write cv v) as [bv| |] eqn:Ev; try discriminate. cbn [rbind] in H'.
    destruct (seq_writes (map _ l)) as [br| |] eqn:El; try discriminate.
    injection H' as <-.
    destruct (Hk k dk bk) as [Hb1 Hr1]; [assumption..|].
    assert (Hmk : m !! k = None) by (eapply Hm; left).
    destruct (Hv v (default dv (m !! k)) bv) as [Hb2 Hr2]; [assumption|rewrite Hmk; exact Hdv|assumption|].
    destruct (IH (<[k := v]> m) br) as [Hb' Hr']; [assumption|assumption| |reflexivity|].
    { intros k' v' Hin. destruct (decide (k' = k)) as [->|Hne].
      - exfalso. apply Hni. change k with (fst (k, v')). apply elem_of_list_fmap_1, Hin.
      - rewrite lookup_insert_ne by congruence. eapply Hm. right. exact Hin. }
    split; [repeat apply Forall_app_2; assumption|].
    cbn [length read_map]. rewrite <- app_assoc. eapply reads_bind; [exact Hr1|].
    eapply reads_bind; [exact Hr2|].
    replace (list_to_map ((k, v) :: l) ∪ m) with (list_to_map l ∪ <[k := v]> m : gmap K V); [exact Hr'|].
    rewrite list_to_map_cons, <- insert_union_l, <- insert_union_r; [reflexivity|].
    apply not_elem_of_list_to_map. exact Hni.
Qed.

Lemma rt_map {K V} `{Countable K} order dk dv (ck : Codec K) (cv : Codec V) PK FK PV FV :
  round_trips ck PK FK -> round_trips cv PV FV -> FK dk -> FV dv -> lists_map order ->
  round_trips (codec_map order dk dv ck cv) (fun m => forall k v, m !! k = Some v -> PK k /\ PV v) any.
Proof.
  intros Hk Hv Hdk Hdv Ho m old bs Hm _ H'. cbn [cd_write codec_map] in H'.
  destruct (fixed_array _) as [h| |] eqn:Eh; try discriminate. cbn [rbind] in H'.
  destruct (seq_writes _) as [b| |] eqn:Eb; try discriminate. injection H' as <-.
  destruct (Ho m) as [Hnd Hin].
  destruct (rt_map_loop dk dv ck cv PK FK PV FV Hk Hv Hdk Hdv (order m) ∅ b) as [Hb Hr]; [|assumption| |assumption|].
  { apply Forall_forall. intros [k v] Hx. cbn. apply Hm, Hin, Hx. }
  { intros. apply lookup_empty. }
  split; [apply Forall_app_2; [eapply fixed_array_bytes, Eh|exact Hb]|].
  cbn [cd_read codec_map]. eapply reads_bind; [eapply reads_length, Eh|]. rewrite Nat2N.id.
  replace m with (list_to_map (order m) ∪ ∅ : gmap K V) at 2; [exact Hr|].
  rewrite (right_id_L ∅ (∪)). apply map_eq. intros k. apply option_eq. intros v.
  rewrite <- Hin. split.
  - intros E. apply elem_of_list_to_map_2 in E. exact E.
  - intros E. apply elem_of_list_to_map_1; assumption.
Qed.

(** matrices *)
Lemma rt_matrix fr fc (c : Codec N) P F : round_trips c P F -> F 0 ->
  round_trips (codec_matrix fr fc c) (fun m => matrix_shaped fr fc m /\ Forall P (mx_data m)) any.
Proof.
  intros Hc H0 m old bs [(Hlen & Hr & Hk & Hfr & Hfc) HP] _ H. cbn [cd_write codec_matrix] in H.
  destruct (fixed_array _) as [h| |] eqn:Eh; try discriminate.
  cbn [rbind] in H.
  destruct (cd_write c_i64 (Z.of_N (mx_rows m))) as [wr| |] eqn:Ewr; try discriminate.
  destruct (cd_write c_i64 (Z.of_N (mx_cols m))) as [wc| |] eqn:Ewc; try discriminate.
  destruct (write_each c (mx_data m)) as [b| |] eqn:Eb; try discriminate.
  cbn [rbind] in H. injection H as <-.
  assert (Hn : mx_rows m * mx_cols m + 2 < two32) by apply (fixed_array_ok _ _ Eh).
  rewrite max_object_val in Hr, Hk. unfold two32 in Hn. change (2 ^ 32) with 4294967296 in Hn.
  assert (H8 : (0 < 8)%nat) by lia.
  destruct (rt_int T_INT64 8 eq_refl H8 (Z.of_N (mx_rows m)) 0%Z wr) as [Hbr Hrr];
    [split; cbn; lia|exact I|exact Ewr|].
  destruct (rt_int T_INT64 8 eq_refl H8 (Z.of_N (mx_cols m)) 0%Z wc) as [Hbc Hrc];
    [split; cbn; lia|exact I|exact Ewc|].
  set (n := mx_rows m * mx_cols m) in *.
  assert (En : (Z.of_N (mx_rows m) * Z.of_N (mx_cols m) = Z.of_N n)%Z) by (unfold n; lia).
  destruct (rt_each c P F Hc (mx_data m) (replicate (N.to_nat n) 0) b) as [Hb Hrd];
    [assumption|apply Forall_replicate, H0| |assumption|].
  { rewrite replicate_length. unfold len in Hlen. lia. }
  split.
  { apply Forall_app_2; [eapply fixed_array_bytes, Eh|].
    apply Forall_app_2; [exact Hbr|]. apply Forall_app_2; [exact Hbc|exact Hb]. }
  cbn [cd_read codec_matrix]. eapply reads_bind; [eapply reads_length, Eh|].
  destruct (N.ltb_spec (n + 2) 2); [lia|].
  eapply reads_bind; [exact Hrr|].
  eapply reads_bind; [exact Hrc|]. cbn beta. rewrite En.
  assert (E1 : int64_ok (Z.of_N n) && int64_ok (Z.of_N n + 2) = true).
  { unfold int64_ok. rewrite !andb_true_iff, !Z.leb_le, !Z.ltb_lt. lia. }
  rewrite E1. cbn [negb].
  assert (E2 : (Z.of_N n + 2 =? Z.of_N (n + 2))%Z = true) by (apply Z.eqb_eq; lia).
  rewrite E2. cbn [negb].
  assert (E3 : shape_ok fr fc (Z.of_N (mx_rows m)) (Z.of_N (mx_cols m)) = true).
  { unfold shape_ok. rewrite !andb_true_iff, !Z.leb_le. repeat split; [lia|lia| |].
    - destruct fr; [|reflexivity]. apply Z.eqb_eq. f_equal. symmetry. apply Hfr. reflexivity.
    - destruct fc; [|reflexivity]. apply Z.eqb_eq. f_equal. symmetry. apply Hfc. reflexivity. }
  rewrite E3. cbn [negb].
  replace (Z.to_nat (Z.of_N n)) with (N.to_nat n) by lia.
  rewrite <- (app_nil_r b). eapply reads_bind; [exact Hrd|].
  rewrite !N2Z.id. destruct m. apply reads_ret.
Qed.

(* ---------------------------------------------------------------- *)
(** ** Structures *)
Lemma reads_seq1 {A B} (c : Codec A) P F (k : A -> Reader B) v old b r bs :
  round_trips c P F -> P v -> F old -> cd_write c v = Ok b -> reads_back (k v) r bs ->
  reads_back (bind (cd_read c old) k) (b ++ r) bs.
Proof. intros Hc Hv Ho Hw Hk. eapply reads_bind; [apply (Hc v old b); assumption|exact Hk]. Qed.

Lemma rt_vec3 (c : Codec N) P F : round_trips c P F ->
  round_trips (codec_vec3 c) (fun v => P (v_x v) /\ P (v_y v) /\ P (v_z v)) (fun v => F (v_x v) /\ F (v_y v) /\ F (v_z v)).
Proof.
  intros Hc v old bs (Px & Py & Pz) (Fx & Fy & Fz) H. cbn [cd_write codec_vec3 seq_writes] in H.
  destruct (cd_write c (v_x v)) as [bx| |] eqn:Ex; try discriminate.
  destruct (cd_write c (v_y v)) as [bY| |] eqn:Ey; try discriminate.
  destruct (cd_write c (v_z v)) as [bz| |] eqn:Ez; try discriminate.
  cbn [rbind] in H. injection H as <-.
  destruct (Hc _ (v_x old) _ Px Fx Ex) as [Hbx _]. destruct (Hc _ (v_y old) _ Py Fy Ey) as [Hby _].
  destruct (Hc _ (v_z old) _ Pz Fz Ez) as [Hbz _].
  split; [repeat apply Forall_app_2; try assumption; constructor|].
  cbn [cd_read codec_vec3].
  eapply reads_seq1; [exact Hc|exact Px|exact Fx|exact Ex|]. eapply reads_seq1; [exact Hc|exact Py|exact Fy|exact Ey|].
  eapply reads_seq1; [exact Hc|exact Pz|exact Fz|exact Ez|]. destruct v. apply reads_ret.
Qed.

Lemma rt_quat (c : Codec N) P F : round_trips c P F ->
  round_trips (codec_quat c) (fun q => P (q_w q) /\ P (q_x q) /\ P (q_y q) /\ P (q_z q))
    (fun q => F (q_w q) /\ F (q_x q) /\ F (q_y q) /\ F (q_z q)).
Proof.
  intros Hc v old bs (Pw & Px & Py & Pz) (Fw & Fx & Fy & Fz) H. cbn [cd_write codec_quat seq_writes] in H.
  destruct (fixed_array 4) as [h| |] eqn:Eh; try discriminate.
  destruct (cd_write c (q_w v)) as [bw| |] eqn:Ew; try discriminate.
  destruct (cd_write c (q_x v)) as [bx| |] eqn:Ex; try discriminate.
  destruct (cd_write c (q_y v)) as [bY| |] eqn:Ey; try discriminate.
  destruct (cd_write c (q_z v)) as [bz| |] eqn:Ez; try discriminate.
  cbn [rbind] in H. injection H as <-.
  destruct (Hc _ (q_w old) _ Pw Fw Ew) as [Hbw _]. destruct (Hc _ (q_x old) _ Px Fx Ex) as [Hbx _].
  destruct (Hc _ (q_y old) _ Py Fy Ey) as [Hby _]. destruct (Hc _ (q_z old) _ Pz Fz Ez) as [Hbz _].
  pose proof (fixed_array_bytes _ _ Eh) as Hbh.
  split; [repeat apply Forall_app_2; try assumption; constructor|].
  cbn [cd_read codec_quat]. eapply reads_bind; [eapply reads_check_length, Eh|].
  eapply reads_seq1; [exact Hc|exact Pw|exact Fw|exact Ew|]. eapply reads_seq1; [exact Hc|exact Px|exact Fx|exact Ex|].
  eapply reads_seq1; [exact Hc|exact Py|exact Fy|exact Ey|].
  eapply reads_seq1; [exact Hc|exact Pz|exact Fz|exact Ez|]. destruct v. apply reads_ret.
Qed.

(** Field lists: the destination ends up with every visited field overwritten. *)
Fixpoint copy_fields {T} (fs : list (Field T)) (from to : T) : T :=
  match fs with [] => to | f :: r => copy_fields r from (fd_set f (fd_get f from) to) end.
(** each field's codec round-trips at this value and destination *)
Fixpoint fields_ok {T} (fs : list (Field T)) (from to : T) : Prop :=
  match fs with
  | [] => True
  | f :: r => (exists P F, round_trips (fd_codec f) P F /\ P (fd_get f from) /\ F (fd_get f to)) /\
              fields_ok r from (fd_set f (fd_get f from) to)
  end.
Lemma rt_fields {T} (fs : list (Field T)) : forall from to bs,
  fields_ok fs from to -> write_fields fs from = Ok bs ->
  Forall is_byte bs /\ reads_back (read_fields fs to) bs (copy_fields fs from to).
Proof.
  induction fs as [|f r IH]; intros from to bs Hok H.
  - injection H as <-. split; [constructor|]. apply reads_ret.
  - destruct Hok as [(P & F & Hc & HP & HF) Hok].
    unfold write_fields in H. cbn [map seq_writes] in H.
    destruct (cd_write _ _) as [b| |] eqn:Eb; try discriminate. cbn [rbind] in H.
    fold (write_fields r from) in H. destruct (write_fields r from) as [br| |] eqn:Er; try discriminate.
    injection H as <-. destruct (Hc _ _ _ HP HF Eb) as [Hb Hr].
    destruct (IH _ _ _ Hok Er) as [Hb' Hr'].
    split; [apply Forall_app_2; assumption|].
    cbn [read_fields copy_fields]. eapply reads_bind; [exact Hr|exact Hr'].
Qed.
