(** C35-C38: the binary format. *)
From Coq Require Import NArith ZArith Bool List Lia String.
From stdpp Require Import base list gmap.
From Verif.Model Require Import Types Mesh Attrs Binary Versioning AttrCodec Registry GraphCodec.
From Verif.Spec Require Import BinarySpec AttrSpec.
From Verif.Proof Require Import BinaryP BinarySafe SaveLoad AttrP AttrSafe.
Local Open Scope N_scope.

(** C35: every integer, boolean, float (bit pattern), double or string that fits its C++ type
    is written, and reading it -- anywhere in a buffer, into any variable -- returns it and
    stops at the first following byte. *)
Theorem C35_primitives_round_trip :
  saves_and_loads c_u8 (fits 8) any /\ saves_and_loads c_u16 (fits 16) any /\
  saves_and_loads c_u32 (fits 32) any /\ saves_and_loads c_u64 (fits 64) any /\
  saves_and_loads c_i8 (fits_signed 8) any /\ saves_and_loads c_i16 (fits_signed 16) any /\
  saves_and_loads c_i32 (fits_signed 32) any /\ saves_and_loads c_i64 (fits_signed 64) any /\
  saves_and_loads c_f32 (fits 32) any /\ saves_and_loads c_f64 (fits 64) any /\
  saves_and_loads c_nanoseconds (fits_signed 64) any /\ saves_and_loads c_bool any any /\
  saves_and_loads c_string (fun s => short s /\ Forall is_byte s) any.
Proof.
  split; [apply (sl_uint T_UINT8 1); reflexivity|]. split; [apply (sl_uint T_UINT16 2); reflexivity|].
  split; [apply (sl_uint T_UINT32 4); reflexivity|]. split; [apply (sl_uint T_UINT64 8); reflexivity|].
  split; [apply (sl_int T_INT8 1); [reflexivity|lia]|]. split; [apply (sl_int T_INT16 2); [reflexivity|lia]|].
  split; [apply (sl_int T_INT32 4); [reflexivity|lia]|]. split; [apply (sl_int T_INT64 8); [reflexivity|lia]|].
  split; [apply (sl_uint T_FLOAT32 4); reflexivity|]. split; [apply (sl_uint T_FLOAT64 8); reflexivity|].
  split; [apply (sl_int T_INT64 8); [reflexivity|lia]|]. split; [apply sl_bool|]. apply sl_string.
Qed.
Print Assumptions C35_primitives_round_trip.
(** The bytes: one mark that tells the type, the MessagePack one, then the value, least significant
    byte first; a string after its length. *)
Fixpoint little_endian (bs : list N) : N := match bs with [] => 0 | b :: r => b + 256 * little_endian r end.
Definition written_as {A} (c : Codec A) (mark : N) (size : nat) (valid : A -> Prop) (value : A -> Z) : Prop :=
  (forall v, valid v -> exists bs, cd_write c v = Ok (mark :: bs) /\ length bs = size /\ Forall is_byte bs /\
     (Z.of_N (little_endian bs) = value v mod 2 ^ (8 * Z.of_nat size))%Z) /\
  (forall old buf pos b, len buf < max_object -> buf !! N.to_nat pos = Some b -> b <> mark -> cd_read c old buf pos = Fail Exception).
Lemma word_value nb v : little_endian (word_bytes nb v) = v mod 2 ^ (8 * N.of_nat nb).
Proof.
  revert v. induction nb; intros v; cbn [word_bytes little_endian]; [rewrite N.mod_1_r; reflexivity|]. rewrite IHnb.
  replace (8 * N.of_nat (S nb)) with (8 + 8 * N.of_nat nb) by lia. rewrite N.pow_add_r. change (2 ^ 8) with 256.
  rewrite N.mod_mul_r by (try discriminate; apply N.pow_nonzero; discriminate). reflexivity.
Qed.
Lemma mark_checked t buf pos b : len buf < max_object -> buf !! N.to_nat pos = Some b -> b <> t -> check_type t buf pos = Fail Exception.
Proof.
  intros L H N. unfold check_type, curr_type, check_valid, byte_at, bind. pose proof (lookup_lt_Some _ _ _ H) as K.
  assert (max_object <= two64) by (vm_compute; discriminate). unfold len in L. rewrite (N.mod_small (1 * 1)) by reflexivity.
  rewrite (N.mod_small (pos + 1 * 1)) by lia. replace (_ <? _) with false by (symmetry; apply N.ltb_ge; lia).
  rewrite H. apply not_eq_sym in N. apply N.eqb_neq in N. rewrite N. reflexivity.
Qed.
Lemma uint_written t nb : written_as (codec_uint t nb) t nb (fun v => v < 2 ^ (8 * N.of_nat nb)) Z.of_N.
Proof.
  split.
  - intros v Hv. exists (word_bytes nb v). split; [reflexivity|]. split; [apply word_bytes_len|]. split; [apply word_bytes_bytes|].
    rewrite word_value, N2Z.inj_mod, N2Z.inj_pow, N2Z.inj_mul, nat_N_Z. reflexivity.
  - intros old buf pos b L H N. cbn [cd_read codec_uint]. unfold bind at 1. rewrite (mark_checked t buf pos b L H N). reflexivity.
Qed.
Lemma int_written t nb valid : written_as (codec_int t nb) t nb valid (fun v => v).
Proof.
  split.
  - intros v _. exists (word_bytes nb (to_bits nb v)). split; [reflexivity|]. split; [apply word_bytes_len|]. split; [apply word_bytes_bytes|].
    rewrite word_value, N2Z.inj_mod, N2Z.inj_pow, N2Z.inj_mul, nat_N_Z. unfold to_bits.
    rewrite Z2N.id by (apply Z.mod_pos_bound; apply Z.pow_pos_nonneg; lia). apply Z.mod_mod. apply Z.pow_nonzero; lia.
  - intros old buf pos b L H N. cbn [cd_read codec_int]. unfold bind at 1. rewrite (mark_checked t buf pos b L H N). reflexivity.
Qed.
Theorem C35_wire_format :
  written_as c_u8 0xcc 1 (fits 8) Z.of_N /\ written_as c_u16 0xcd 2 (fits 16) Z.of_N /\
  written_as c_u32 0xce 4 (fits 32) Z.of_N /\ written_as c_u64 0xcf 8 (fits 64) Z.of_N /\
  written_as c_i8 0xd0 1 (fits_signed 8) (fun v => v) /\ written_as c_i16 0xd1 2 (fits_signed 16) (fun v => v) /\
  written_as c_i32 0xd2 4 (fits_signed 32) (fun v => v) /\ written_as c_i64 0xd3 8 (fits_signed 64) (fun v => v) /\
  written_as c_f32 0xca 4 (fits 32) Z.of_N /\ written_as c_f64 0xcb 8 (fits 64) Z.of_N /\
  cd_write c_bool false = Ok [0xc2] /\ cd_write c_bool true = Ok [0xc3] /\
  (forall s, short s -> exists l, cd_write c_string s = Ok (0xdd :: l ++ s) /\ length l = 4%nat /\ little_endian l = len s) /\
  (forall A (d : A) (c : Codec A), cd_write (codec_option d c) None = Ok [0xc0] /\ forall v, cd_write (codec_option d c) (Some v) = cd_write c v) /\
  (forall l, dynamic_array (map Ok l) = Ok (0x00 :: concat l ++ [0x01])).
Proof.
  split; [apply (uint_written 0xcc 1)|]. split; [apply (uint_written 0xcd 2)|]. split; [apply (uint_written 0xce 4)|].
  split; [apply (uint_written 0xcf 8)|]. split; [apply (int_written 0xd0 1)|]. split; [apply (int_written 0xd1 2)|].
  split; [apply (int_written 0xd2 4)|]. split; [apply (int_written 0xd3 8)|]. split; [apply (uint_written 0xca 4)|].
  split; [apply (uint_written 0xcb 8)|]. split; [reflexivity|]. split; [reflexivity|]. split; [|split].
  - intros s Hs. cbn [cd_write c_string]. unfold fixed_array. unfold short, len in *.
    replace (_ <? _) with false by (symmetry; apply N.ltb_ge; unfold two32; lia). cbn [rbind]. exists (word_bytes 4 (N.of_nat (length s))).
    split; [reflexivity|]. split; [apply word_bytes_len|]. rewrite word_value. apply N.mod_small. change (8 * N.of_nat 4) with 32. lia.
  - intros A d c. split; reflexivity.
  - intros l. unfold dynamic_array. cbn [seq_writes rbind]. 
    assert (E : seq_writes (map Ok l ++ [Ok [T_ARRYY]]) = Ok (concat l ++ [T_ARRYY])).
    { induction l as [|a l IH]; [reflexivity|]. cbn [map app seq_writes rbind concat]. rewrite IH. cbn [rbind]. rewrite <- app_assoc. reflexivity. }
    rewrite E. reflexivity.
Qed.
Print Assumptions C35_wire_format.
(** A string too long for the format is refused. *)
Theorem C35_long_string_refused : forall s, ~ short s -> cd_write c_string s = Throw.
Proof.
  intros s H. cbn [cd_write c_string]. unfold fixed_array.
  destruct (N.ltb_spec (two32 - 1) (N.of_nat (length s))) as [_|Hl]; [reflexivity|].
  exfalso. apply H. unfold short, len. change (2 ^ 32) with two32. unfold two32 in *. lia.
Qed.
Print Assumptions C35_long_string_refused.
(** Two values in a row, then foreign bytes. *)
Example C35_ex :
  (fits_signed 32 (-5))%Z /\ cd_write c_i32 (-5)%Z = Ok [210; 251; 255; 255; 255] /\
  cd_write c_string (str "hi") = Ok [221; 2; 0; 0; 0; 104; 105] /\
  (let* a := cd_read c_i32 0%Z in let* b := cd_read c_string [] in ret (a, b))
    ([9; 9] ++ [210; 251; 255; 255; 255] ++ [221; 2; 0; 0; 0; 104; 105] ++ [1; 2; 3]) 2
  = Val ((-5)%Z, str "hi") 14.
Proof. split; [split; [discriminate|reflexivity]|]. split; [reflexivity|]. split; reflexivity. Qed.

(** C36: containers of any element type that itself saves and loads.  [F] are the
    destinations into which the elements may be read. *)
Theorem C36_containers_round_trip : forall A (c : Codec A) (P F : A -> Prop) (d : A),
  saves_and_loads c P F -> F d ->
  saves_and_loads (codec_vector d c) (fun l => short l /\ Forall P l) (Forall F) /\
  saves_and_loads (codec_list d c) (fun l => short l /\ Forall P l) any /\
  (forall n, N.of_nat n < 2 ^ 32 ->
     saves_and_loads (codec_array n c) (fun l => length l = n /\ Forall P l) (fun l => length l = n /\ Forall F l)) /\
  (not_nil c -> saves_and_loads (codec_option d c) (fun o => forall v, o = Some v -> P v) (fun o => o = None)).
Proof.
  intros A c P F d H Hd. split; [apply sl_vector; assumption|]. split; [eapply sl_list; eassumption|].
  split; [intros n Hn; apply sl_array; assumption|]. intros Hn. eapply sl_option; eassumption.
Qed.
Print Assumptions C36_containers_round_trip.
Theorem C36_sets_and_maps_round_trip : forall K V `{Countable K} (ck : Codec K) (cv : Codec V) PK FK PV FV dk dv,
  saves_and_loads ck PK FK -> saves_and_loads cv PV FV -> FK dk -> FV dv ->
  (forall order, lists_set order ->
     saves_and_loads (codec_set order dk ck) (fun s => N.of_nat (size s) < 2 ^ 32 /\ forall x, x ∈ s -> PK x) any) /\
  (forall order, lists_map order ->
     saves_and_loads (codec_map order dk dv ck cv)
       (fun m => N.of_nat (size m) < 2 ^ 32 /\ forall k v, m !! k = Some v -> PK k /\ PV v) any).
Proof.
  intros K V ? ? ck cv PK FK PV FV dk dv Hk Hv Hdk Hdv. split; intros order Ho.
  - eapply sl_set; eassumption.
  - eapply sl_map; eassumption.
Qed.
Print Assumptions C36_sets_and_maps_round_trip.
Theorem C36_matrices_round_trip : forall (c : Codec N) (P F : N -> Prop),
  saves_and_loads c P F -> F 0 ->
  (forall rows cols, saves_and_loads (codec_matrix rows cols c)
     (fun m => matrix_shaped rows cols m /\ mx_rows m * mx_cols m + 2 < 2 ^ 32 /\ Forall P (mx_data m)) any) /\
  saves_and_loads (codec_vec3 c) (fun v => P (v_x v) /\ P (v_y v) /\ P (v_z v)) (fun v => F (v_x v) /\ F (v_y v) /\ F (v_z v)) /\
  saves_and_loads (codec_quat c) (fun q => P (q_w q) /\ P (q_x q) /\ P (q_y q) /\ P (q_z q))
    (fun q => F (q_w q) /\ F (q_x q) /\ F (q_y q) /\ F (q_z q)).
Proof.
  intros c P F H H0. split; [intros; eapply sl_matrix; eassumption|]. split; [apply sl_vec3, H|apply sl_quat, H].
Qed.
Print Assumptions C36_matrices_round_trip.
Lemma refuse n : 2 ^ 32 <= n -> fixed_array n = Throw.
Proof.
  intros H. unfold fixed_array. destruct (N.ltb_spec (two32 - 1) n) as [_|Hl]; [reflexivity|].
  exfalso. change (2 ^ 32) with two32 in H. unfold two32 in *. lia.
Qed.
(** Anything longer is refused on writing. *)
Theorem C36_too_long_refused : forall A (c : Codec A) d n l, ~ short l ->
  cd_write (codec_vector d c) l = Throw /\ cd_write (codec_list d c) l = Throw /\ cd_write (codec_array n c) l = Throw.
Proof.
  intros A c d n l H. assert (H' : 2 ^ 32 <= N.of_nat (length l)) by (unfold short, len in H; lia).
  cbn [cd_write codec_vector codec_list codec_array]. unfold write_array. rewrite (refuse _ H'). auto.
Qed.
Print Assumptions C36_too_long_refused.
Theorem C36_too_large_matrix_refused : forall (c : Codec N) rows cols m,
  2 ^ 32 <= mx_rows m * mx_cols m + 2 -> cd_write (codec_matrix rows cols c) m = Throw.
Proof. intros c rows cols m H. cbn [cd_write codec_matrix]. rewrite (refuse _ H). reflexivity. Qed.
Print Assumptions C36_too_large_matrix_refused.

(** A nested example: a vector of optional vectors of doubles. *)
Definition ex_codec := codec_vector None (codec_option [] (codec_vector 0 c_f64)).
Definition ex_value : list (option (list N)) := [Some [1; 2 ^ 64 - 1]; None; Some []].
Example C36_ex : saves_and_loads ex_codec
    (fun l => short l /\ Forall (fun o => forall v, o = Some v -> short v /\ Forall (fits 64) v) l) (Forall (fun o => o = None)) /\
  (short ex_value /\ Forall (fun o => forall v, o = Some v -> short v /\ Forall (fits 64) v) ex_value) /\
  exists bs, cd_write ex_codec ex_value = Ok bs /\ cd_read ex_codec [] bs 0 = Val ex_value (len bs).
Proof.
  split.
  { apply sl_vector; [|reflexivity]. apply (sl_option [] _ _ (Forall any)); [apply sl_vector; [apply sl_f64|exact I]|constructor|].
    intros a bs H. cbn [cd_write codec_vector] in H. apply write_array_split in H as (h & b & Eh & _ & ->).
    apply fixed_array_ok in Eh as [_ ->]. eexists _, _. split; [reflexivity|discriminate]. }
  split.
  { split; [reflexivity|]. constructor; [|constructor; [|constructor; [|constructor]]].
    - intros v [= <-]. split; [reflexivity|]. constructor; [reflexivity|constructor; [reflexivity|constructor]].
    - intros v [=].
    - intros v [= <-]. split; [reflexivity|constructor]. }
  eexists. split; [vm_compute; reflexivity|]. vm_compute. reflexivity.
Qed.
(** Destinations matter: reading "no value" into an optional that already holds one keeps the
    old value (and vector::resize keeps old elements, so this also happens inside vectors). *)
Theorem C36_absent_optional_keeps_old_value_refuted : forall A (d : A) (c : Codec A) v,
  cd_write (codec_option d c) None = Ok [T_NIL] /\ cd_read (codec_option d c) (Some v) [T_NIL] 0 = Val (Some v) 1.
Proof. intros A d c v. split; reflexivity. Qed.
Print Assumptions C36_absent_optional_keeps_old_value_refuted.

(* ------------------------------------------------------------------ *)
(** C37: reading any type the library can serialise, from any position in any byte string,
    never touches memory outside the buffer and never moves outside it. *)
Theorem C37_reader_stays_inside_buffer : forall A (c : Codec A), serialisable true A c ->
  forall old, stays_inside (cd_read c old).
Proof.
  intros A c H old. apply (inside_stays 1 _ (fun _ => True)).
  apply (ser_inside tame (or_introl eq_refl) true (fun _ => or_intror eq_refl) A c H).
Qed.
Print Assumptions C37_reader_stays_inside_buffer.
(** Without Eigen matrices in the type, every read returns a value or throws. *)
Theorem C37_returns_or_throws : forall A (c : Codec A), serialisable false A c ->
  forall old, safe_on_all (cd_read c old).
Proof.
  intros A c H old. apply (inside_safe 1 _ (fun _ => True)).
  apply (ser_inside exn eq_refl false); [discriminate|exact H].
Qed.
Print Assumptions C37_returns_or_throws.
(** Node attributes of every class written by any version, meshes and edge attributes. *)
Theorem C37_attributes_stay_inside : forall env k, stays_inside (read_attr_fields env k).
Proof.
  intros env k. apply (inside_stays 0 _ (fun _ => True)). apply ins_attr_fields; [left; reflexivity|right; reflexivity].
Qed.
Print Assumptions C37_attributes_stay_inside.
Theorem C37_meshes_and_edges_safe : forall m e, safe_on_all (cd_read c_mesh m) /\ safe_on_all (read_fields edge_fields e).
Proof.
  intros m e. split.
  - apply (inside_safe 1 _ (fun _ => True)). apply (ci_mesh exn eq_refl).
  - apply (inside_safe 0 _ (fun _ => True)). apply ins_fields. apply (good_edge exn eq_refl).
Qed.
Print Assumptions C37_meshes_and_edges_safe.
(** Any sequence of such reads. *)
Theorem C37_sequences : forall A B (r : Reader A) (k : A -> Reader B),
  (stays_inside r -> (forall a, stays_inside (k a)) -> stays_inside (bind r k)) /\
  (safe_on_all r -> (forall a, safe_on_all (k a)) -> safe_on_all (bind r k)).
Proof.
  assert (HS : forall A B (r : Reader A) (k : A -> Reader B), stays_inside r -> (forall a, stays_inside (k a)) -> stays_inside (bind r k)).
  { intros A B r k Hr Hk buf pos Hb Hl Hp. unfold bind. specialize (Hr buf pos Hb Hl Hp). destruct (r buf pos) as [a p|f]; [|exact Hr].
    assert (Hp' : p <= len buf) by lia. specialize (Hk a buf p Hb Hl Hp'). destruct (k a buf p); [lia|exact Hk]. }
  intros A B r k. split; [apply HS|]. intros [H1 H2] H. split; [apply HS; [exact H1|intros a; apply (H a)]|].
  intros buf pos Hb Hl Hp. unfold bind. specialize (H2 buf pos Hb Hl Hp). specialize (H1 buf pos Hb Hl Hp).
  destruct (r buf pos) as [a p|f]; [|congruence]. destruct (H a) as [_ Ha]. apply Ha; [exact Hb|exact Hl|lia].
Qed.
Print Assumptions C37_sequences.
Example C37_ex :
  serialisable false _ (codec_map (fun m : gmap (list N) (list N) => map_to_list m) [] [] c_string (codec_vector 0 c_u64)) /\
  (* truncated data: a vector announcing 2^32 - 1 elements *)
  cd_read (codec_vector 0 c_u8) [] [221; 255; 0; 0; 0; 204; 7] 0 = Fail Exception /\
  cd_read c_string [] [221; 255; 255; 255; 255; 104] 0 = Fail Exception.
Proof. split; [repeat constructor|]. split; vm_compute; reflexivity. Qed.
(** With matrices "or throws" is false: negative dimensions whose product matches the declared
    length reach Eigen's resize, which guards them by an assertion only. *)
Theorem C37_negative_matrix_dimensions_refuted :
  exists buf, Forall is_byte buf /\ cd_read (codec_matrix None None c_f64) (mkMatrix 0 0 []) buf 0 = Fail Undefined.
Proof.
  exists ([221; 3; 0; 0; 0] ++ [211; 255; 255; 255; 255; 255; 255; 255; 255] ++ [211; 255; 255; 255; 255; 255; 255; 255; 255]).
  split; [repeat constructor|]. vm_compute. reflexivity.
Qed.
Print Assumptions C37_negative_matrix_dimensions_refuted.

(* ------------------------------------------------------------------ *)
(** C38: a matrix is returned only if its declared length is the number of its entries plus
    two; any other length is rejected. *)
Theorem C38_matrix_length_checked : forall rows cols c old buf pos m pos', Forall is_byte buf -> len buf < max_object -> pos <= len buf ->
  cd_read (codec_matrix rows cols c) old buf pos = Val m pos' ->
  exists p, read_array_length buf pos = Val (mx_rows m * mx_cols m + 2) p /\ pos < p.
Proof.
  intros fr fc c old buf pos m pos' Hb Hl Hp H. cbn [cd_read codec_matrix] in H. unfold bind at 1 in H.
  pose proof (ins_length exn eq_refl buf pos Hb Hl) as Hi.
  destruct (read_array_length buf pos) as [n p|f] eqn:En; [|discriminate]. destruct Hi as [Hi _]; [lia|].
  exists p. destruct (n <? 2); [discriminate|].
  unfold bind at 1 in H. destruct (cd_read c_i64 0%Z buf p) as [r p1|f]; [|discriminate].
  unfold bind at 1 in H. destruct (cd_read c_i64 0%Z buf p1) as [k p2|f]; [|discriminate].
  destruct (negb (int64_ok _ && _)); [discriminate|].
  destruct (Z.eqb_spec (r * k + 2) (Z.of_N n)) as [E|E]; [|discriminate]. cbn [negb] in H.
  destruct (shape_ok fr fc r k) eqn:Es; [|discriminate]. cbn [negb] in H.
  unfold bind in H. destruct (read_each _ _ _ _) as [d p3|f]; [|discriminate]. injection H as <- <-. cbn [mx_rows mx_cols].
  unfold shape_ok in Es. rewrite !andb_true_iff in Es. destruct Es as [[[H1 H2] _] _]. split; [|lia]. f_equal. lia.
Qed.
Print Assumptions C38_matrix_length_checked.
Example C38_ex : exists bs, cd_write (codec_matrix None None c_u8) (mkMatrix 1 2 [5; 6]) = Ok bs /\
  cd_read (codec_matrix None None c_u8) (mkMatrix 0 0 []) bs 0 = Val (mkMatrix 1 2 [5; 6]) (len bs) /\
  (* the same bytes with declared length 5 instead of 4 *)
  cd_read (codec_matrix None None c_u8) (mkMatrix 0 0 []) (<[1%nat := 5]> bs) 0 = Fail Exception.
Proof. eexists. split; [vm_compute; reflexivity|]. split; vm_compute; reflexivity. Qed.
(** For the types of fixed size (std::array, quaternion, bounding box, mesh face, node and edge
    records) the claim is false: checkFixedArrayLength compares the expected length with itself,
    so every declared length is accepted and the elements that follow are misread. *)
Theorem C38_fixed_array_length_ignored_refuted : forall declared expected bs,
  fixed_array declared = Ok bs -> reads_back (check_array_length expected) bs tt.
Proof. intros declared expected bs H. exact (reads_check_length declared expected bs H). Qed.
Print Assumptions C38_fixed_array_length_ignored_refuted.
Example C38_ex_array : exists bs, cd_write (codec_vector 0 c_u8) [1; 2; 3] = Ok bs /\
  cd_read (codec_array 2 c_u8) [0; 0] bs 0 = Val [1; 2] 9 /\ len bs = 11.
Proof. eexists. split; [vm_compute; reflexivity|]. split; vm_compute; reflexivity. Qed.
