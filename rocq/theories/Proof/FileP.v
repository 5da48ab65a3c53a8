(** Headers, versions and file names. *)
From Coq Require Import NArith ZArith Bool List Lia.
From stdpp Require Import base list gmap.
From Verif.Model Require Import Types Mesh Attrs Binary Versioning AttrCodec.
From Verif.Spec Require Import BinarySpec AttrSpec FileSpec.
From Verif.Proof Require Import BinaryP BinarySafe SaveLoad AttrP AttrSafe.
Local Open Scope N_scope.
Notation MAIN := (h_project header_current).

Lemma version_ltb_spec a b : version_ltb a b = true <-> older a b.
Proof.
  unfold version_ltb, older. destruct (N.ltb_spec (v_major a) (v_major b)), (N.eqb_spec (v_major a) (v_major b)),
    (N.ltb_spec (v_minor a) (v_minor b)), (N.eqb_spec (v_minor a) (v_minor b)), (N.ltb_spec (v_patch a) (v_patch b));
  split; intros Hx; try discriminate; try reflexivity; try lia.
Qed.

(** ** Header *)
Definition header_ok (h : Header) : Prop :=
  text_ok (h_project h) /\ fits 8 (v_major (h_version h)) /\ fits 8 (v_minor (h_version h)) /\ fits 8 (v_patch (h_version h)).
Lemma sl_header : saves_and_loads c_header header_ok any.
Proof.
  destruct sl_string as [Ws Rs], sl_u8 as [Wu Ru].
  assert (HW : forall h, header_ok h -> exists p a b c, cd_write c_string (h_project h) = Ok p /\
    cd_write c_u8 (v_major (h_version h)) = Ok a /\ cd_write c_u8 (v_minor (h_version h)) = Ok b /\ cd_write c_u8 (v_patch (h_version h)) = Ok c).
  { intros h (H1 & H2 & H3 & H4). destruct (Ws _ H1) as [p Ep], (Wu _ H2) as [a Ea], (Wu _ H3) as [b Eb], (Wu _ H4) as [c Ec].
    exists p, a, b, c. auto. }
  split.
  - intros h Hh. destruct (HW h Hh) as (p & a & b & c & E1 & E2 & E3 & E4).
    change (cd_write c_header h) with (seq_writes [cd_write c_string (h_project h); cd_write c_u8 (v_major (h_version h));
                        cd_write c_u8 (v_minor (h_version h)); cd_write c_u8 (v_patch (h_version h))]).
    rewrite E1, E2, E3, E4. eexists; reflexivity.
  - intros h old bs Hh _ H. destruct (HW h Hh) as (p & a & b & c & E1 & E2 & E3 & E4).
    change (cd_write c_header h) with (seq_writes [cd_write c_string (h_project h); cd_write c_u8 (v_major (h_version h));
                        cd_write c_u8 (v_minor (h_version h)); cd_write c_u8 (v_patch (h_version h))]) in H.
    rewrite E1, E2, E3, E4 in H. cbn [seq_writes rbind] in H. injection H as <-.
    destruct Hh as (H1 & H2 & H3 & H4).
    destruct (Rs _ (h_project old) _ H1 I E1) as [B1 X1]. destruct (Ru _ (v_major (h_version old)) _ H2 I E2) as [B2 X2].
    destruct (Ru _ (v_minor (h_version old)) _ H3 I E3) as [B3 X3]. destruct (Ru _ (v_patch (h_version old)) _ H4 I E4) as [B4 X4].
    split; [repeat apply Forall_app_2; try assumption; constructor|].
    cbn [cd_read c_header]. destruct h as [hp [ha hb hc]].
    eapply reads_bind; [exact X1|]. eapply reads_bind; [exact X2|]. eapply reads_bind; [exact X3|]. eapply reads_bind; [exact X4|]. apply reads_ret.
Qed.

Definition id_bytes : list N := T_ARR32 :: word_bytes 4 9 ++ IDENTIFIER.
Lemma id_write : cd_write c_string IDENTIFIER = Ok id_bytes.
Proof. reflexivity. Qed.
Lemma id_ok : text_ok IDENTIFIER.
Proof. split; [reflexivity|]. repeat constructor. Qed.

Lemma header_round h : header_ok h -> exists bs, header_bytes h = Ok bs /\ Forall is_byte bs /\
  forall rest, len (bs ++ rest) < max_object -> header_parse (bs ++ rest) = Val (Some h) (len bs).
Proof.
  intros Hh. destruct (proj1 sl_header h Hh) as [b Hb]. exists (id_bytes ++ b ++ []).
  destruct (proj2 sl_string IDENTIFIER [] _ id_ok I id_write) as [B1 X1].
  destruct (proj2 sl_header h (mkHeader MAIN (mkV 0 0 0)) _ Hh I Hb) as [B2 X2].
  split; [unfold header_bytes; cbn [seq_writes]; rewrite id_write, Hb; reflexivity|].
  split; [repeat apply Forall_app_2; try assumption; constructor|].
  intros rest Hl. unfold header_parse.
  refine (_ : _ = Val (Some h) (0 + len (id_bytes ++ b ++ []))).
  assert (HR : reads_back (let* t := curr_type in
    if negb (t =? T_ARR32) then ret None else let* id := cd_read c_string [] in
     if negb (bool_decide (id = IDENTIFIER)) then ret None
     else let* h := cd_read c_header (mkHeader MAIN (mkV 0 0 0)) in ret (Some h)) (id_bytes ++ b ++ []) (Some h)).
  { unfold id_bytes at 1. cbn [app]. apply reads_curr. rewrite N.eqb_refl. cbn [negb].
    change (T_ARR32 :: (word_bytes 4 9 ++ IDENTIFIER) ++ b ++ []) with (id_bytes ++ b ++ []).
    eapply reads_bind; [exact X1|]. rewrite bool_decide_eq_true_2 by reflexivity. cbn [negb].
    eapply reads_bind; [exact X2|]. apply reads_ret. }
  apply (HR [] rest). exact Hl.
Qed.

(** inversion of reads *)
Lemma take_bytes_inv n : forall buf pos l p, pos + N.of_nat n <= len buf -> len buf < max_object ->
  take_bytes n buf pos = Val l p -> l = take n (drop (N.to_nat pos) buf).
Proof.
  induction n as [|n IH]; intros buf pos l p Hn Hl H.
  - cbn in H. injection H as <- _. destruct (drop _ _); reflexivity.
  - cbn [take_bytes] in H. unfold bind at 1, byte_at in H.
    destruct (buf !! N.to_nat pos) as [b|] eqn:Eb; [|discriminate].
    unfold bind at 1, advance in H. rewrite max_object_val in Hl.
    rewrite N.mod_small in H by (rewrite two64_val; lia).
    unfold bind in H. destruct (take_bytes n buf (pos + 1)) as [r p1|] eqn:Er; [|discriminate].
    injection H as <- _. apply IH in Er; [|lia|rewrite max_object_val; lia]. subst r.
    rewrite (drop_S buf b (N.to_nat pos) Eb). cbn [take]. f_equal. f_equal. f_equal. lia.
Qed.
Lemma take_word_inv nb : forall buf pos w p, Forall is_byte buf -> pos + N.of_nat nb <= len buf -> len buf < max_object ->
  take_word nb buf pos = Val w p -> word_bytes nb w = take nb (drop (N.to_nat pos) buf) /\ p = pos + N.of_nat nb.
Proof.
  induction nb as [|n IH]; intros buf pos w p Hb Hn Hl H.
  - cbn in H. injection H as <- <-. split; [destruct (drop _ _); reflexivity|lia].
  - cbn [take_word] in H. unfold bind at 1, byte_at in H.
    destruct (buf !! N.to_nat pos) as [b|] eqn:Eb; [|discriminate].
    unfold bind at 1, advance in H. rewrite max_object_val in Hl.
    rewrite N.mod_small in H by (rewrite two64_val; lia).
    unfold bind in H. destruct (take_word n buf (pos + 1)) as [r p1|] eqn:Er; [|discriminate].
    change (Val (b + 256 * r) p1 = Val w p) in H. assert (w = b + 256 * r) as -> by congruence. assert (p = p1) as -> by congruence.
    apply IH in Er as [Er ->]; [|exact Hb|lia|rewrite max_object_val; lia].
    assert (Hbb : is_byte b) by (eapply Forall_lookup_1; [exact Hb|exact Eb]). unfold is_byte in Hbb.
    split; [|lia]. cbn [word_bytes]. rewrite (drop_S buf b (N.to_nat pos) Eb). cbn [take].
    assert (E1 : (b + 256 * r) mod 256 = b) by (rewrite N.mul_comm, N.mod_add by lia; apply N.mod_small; lia).
    assert (E2 : (b + 256 * r) / 256 = r) by (rewrite N.mul_comm, N.div_add by lia; rewrite N.div_small by lia; lia).
    rewrite E1, E2, Er. f_equal. f_equal. f_equal. lia.
Qed.

Lemma header_only_id buf h off : Forall is_byte buf -> len buf < max_object -> header_parse buf = Val (Some h) off ->
  take (length id_bytes) buf = id_bytes /\ len id_bytes <= off <= len buf.
Proof.
  intros Hb Hl H. unfold header_parse in H.
  pose proof Hl as Hl'. rewrite max_object_val in Hl'.
  unfold bind at 1 in H. destruct (curr_type buf 0) as [t p0|] eqn:E0; [|discriminate].
  assert (Hc : buf !! 0%nat = Some t /\ p0 = 0 /\ 1 <= len buf).
  { unfold curr_type, bind, check_valid, byte_at in E0. destruct (_ <? _); [discriminate|]. cbn [N.to_nat] in E0.
    destruct (buf !! 0%nat) as [x|] eqn:Ex; [|discriminate]. assert (x = t) as -> by congruence. assert (p0 = 0) as -> by congruence. split; [reflexivity|]. split; [reflexivity|].
    apply lookup_lt_Some in Ex. unfold len. lia. }
  destruct Hc as (Ht & -> & H1). destruct (N.eqb_spec t T_ARR32) as [Et|]; [|discriminate]. rewrite Et in *. clear Et. cbn [negb] in H.
  unfold bind at 1 in H. cbn [cd_read c_string] in H. unfold bind at 1 in H.
  pose proof (ins_length exn eq_refl buf 0 Hb Hl) as Hi.
  destruct (read_array_length buf 0) as [n p1|] eqn:En; [|discriminate]. destruct Hi as [Hi Hn]; [lia|].
  assert (Hw : p1 = 5 /\ word_bytes 4 n = take 4 (drop 1 buf)).
  { unfold read_array_length, bind in En. rewrite E0 in En. cbn [N.eqb orb] in En.
    change ((T_ARR32 =? T_ARR32) || (T_ARR32 =? T_STR32)) with true in En. cbn iota in En. unfold advance in En.
    rewrite N.mod_small in En by (rewrite two64_val; lia). unfold check_valid in En.
    change ((1 * 4) mod two64) with 4 in En. change ((0 + 1 + 4) mod two64) with 5 in En. change (0 + 1) with 1 in En.
    destruct (N.ltb_spec (N.of_nat (length buf)) 5); [discriminate|].
    apply take_word_inv in En as [En ->]; [|exact Hb|unfold len; lia|exact Hl]. split; [reflexivity|exact En]. }
  destruct Hw as [-> Hw]. unfold bind at 1 in H.
  destruct (check_valid 1 n buf 5) as [u p2|] eqn:Ecv; [|discriminate].
  unfold check_valid in Ecv. rewrite N.mul_1_r in Ecv. change two32 with 4294967296 in Hn.
  rewrite !N.mod_small in Ecv by (rewrite ?two64_val; rewrite ?N.mod_small; rewrite ?two64_val; lia).
  destruct (N.ltb_spec (N.of_nat (length buf)) (5 + n)) as [|Hn5]; [discriminate|]. injection Ecv as _ <-.
  destruct (take_bytes (N.to_nat n) buf 5) as [s p3|] eqn:Es; [|discriminate].
  assert (Hp3 : p3 = 5 + n).
  { pose proof (reads_bytes (take (N.to_nat n) (drop 5 buf)) (take 5 buf) (drop (5 + N.to_nat n) buf)) as HR.
    assert (Esplit : take 5 buf ++ take (N.to_nat n) (drop 5 buf) ++ drop (5 + N.to_nat n) buf = buf).
    { rewrite <- drop_drop. rewrite take_drop. apply take_drop. }
    rewrite Esplit in HR. specialize (HR Hl).
    assert (L1 : length (take (N.to_nat n) (drop 5 buf)) = N.to_nat n) by (rewrite take_length, drop_length; lia).
    assert (L2 : len (take 5 buf) = 5) by (unfold len; rewrite take_length; lia).
    rewrite L1, L2 in HR. unfold len in HR. rewrite L1 in HR. rewrite N2Nat.id in HR. rewrite HR in Es. injection Es as _ <-. reflexivity. }
  apply take_bytes_inv in Es; [|unfold len; lia|exact Hl].
  destruct (bool_decide_reflect (s = IDENTIFIER)) as [Hs|]; [|discriminate]. cbn [negb] in H.
  rewrite Hs in Es.
  assert (Hn9 : n = 9).
  { assert (L : length IDENTIFIER = N.to_nat n) by (rewrite Es, take_length, drop_length; change (N.to_nat 5) with 5%nat; lia).
    change (length IDENTIFIER) with 9%nat in L. lia. }
  subst n p3. change (N.to_nat 9) with 9%nat in Es. change (N.to_nat 5) with 5%nat in Es.
  split.
  - change (length id_bytes) with (1 + (4 + 9))%nat. destruct buf as [|b0 r]; [discriminate|]. cbn in Ht. injection Ht as ->.
    cbn [plus take]. unfold id_bytes. f_equal. cbn [drop] in Hw, Es.
    transitivity (take (4 + 9) r); [reflexivity|]. rewrite <- (take_take_drop r 4 9). f_equal; [symmetry; exact Hw|symmetry; exact Es].
  - change (len id_bytes) with 14. unfold bind in H.
    pose proof (inside_header exn eq_refl (mkHeader MAIN (mkV 0 0 0)) buf 14 Hb Hl) as Hh.
    change (5 + 9) with 14 in H. destruct (cd_read c_header _ buf 14) as [hh pp|]; [|discriminate].
    unfold ret in H. injection H as <- <-. destruct Hh as [Hh _]; [unfold len; lia|]. lia.
Qed.

Lemma headerless buf : Forall is_byte buf -> len buf < max_object -> take (length id_bytes) buf <> id_bytes ->
  (exists off, header_parse buf = Val None off) \/ header_parse buf = Fail Exception.
Proof.
  intros Hb Hl Hn. destruct (header_parse buf) as [[h|] off|f] eqn:E.
  - exfalso. apply Hn. eapply header_only_id; eassumption.
  - left. eauto.
  - right. f_equal. assert (Hi : inside exn 0 0 (fun b p => (let* t := curr_type in
     if negb (t =? T_ARR32) then ret None else let* id := cd_read c_string [] in
     if negb (bool_decide (id = IDENTIFIER)) then ret None
     else let* h := cd_read c_header (mkHeader MAIN (mkV 0 0 0)) in ret (Some h)) b p) (fun _ => True)).
    { change (inside exn 0 0 (let* t := curr_type in
       if negb (t =? T_ARR32) then ret None else let* id := cd_read c_string [] in
       if negb (bool_decide (id = IDENTIFIER)) then ret None
       else let* h := cd_read c_header (mkHeader MAIN (mkV 0 0 0)) in ret (Some h)) (fun _ => True)).
      apply ins_curr; [reflexivity|]. intros t _. destruct (negb _); [apply ins_ret; exact I|].
      eapply (ins_weaken exn 0 (1 + 0)); [lia|lia|intros a H; exact H|].
      eapply ins_bind; [apply ci_string; reflexivity|]. intros s _. destruct (negb _); [apply ins_ret; exact I|].
      eapply (ins_weaken exn 0 (1 + 0)); [lia|lia|intros a H; exact H|].
      eapply ins_bind; [apply inside_header; reflexivity|]. intros h _. apply ins_ret. exact I. }
    assert (K : match header_parse buf with Val _ p => 0 + 0 <= p <= len buf /\ True | Fail f => exn f end).
    { apply (Hi buf 0 Hb Hl). lia. }
    rewrite E in K. exact K.
Qed.

(** ** File names *)
Lemma filename_acc_split path : forall acc, filename_acc acc path = match decide (SLASH ∈ path) with
  | left _ => filename_acc [] path | right _ => rev acc ++ path end.
Proof.
  induction path as [|c r IH]; intros acc; cbn [filename_acc].
  - rewrite decide_False by apply not_elem_of_nil. rewrite app_nil_r. reflexivity.
  - destruct (N.eqb_spec c SLASH) as [->|Hc].
    + rewrite decide_True by (apply elem_of_cons; auto). reflexivity.
    + rewrite (IH (c :: acc)), (IH [c]). destruct (decide (SLASH ∈ r)) as [H|H].
      * rewrite decide_True by (apply elem_of_cons; auto). reflexivity.
      * rewrite decide_False by (rewrite elem_of_cons; intros [?|?]; [congruence|contradiction]).
        cbn [rev]. rewrite <- app_assoc. reflexivity.
Qed.
Lemma filename_noslash file : SLASH ∉ file -> filename file = file.
Proof. intros H. unfold filename. rewrite filename_acc_split. rewrite decide_False by exact H. reflexivity. Qed.
Lemma filename_dir d file : SLASH ∉ file -> forall acc, filename_acc acc (d ++ SLASH :: file) = file.
Proof.
  intros H. induction d as [|c d IH]; intros acc; cbn [app filename_acc].
  - rewrite N.eqb_refl. apply filename_noslash, H.
  - destruct (c =? SLASH); apply IH.
Qed.
Lemma filename_splits path dir file : splits path dir file -> filename path = file.
Proof.
  intros (-> & Hs & [->|[d ->]]).
  - apply filename_noslash, Hs.
  - rewrite <- app_assoc. apply (filename_dir d file Hs).
Qed.
Lemma splits_exists path : exists dir file, splits path dir file.
Proof.
  induction path as [|c r (dir & file & -> & Hs & Hd)].
  - exists [], []. split; [reflexivity|]. split; [apply not_elem_of_nil|auto].
  - destruct Hd as [->|[d ->]].
    + destruct (decide (c = 47)) as [->|Hc].
      * exists [47], file. split; [reflexivity|]. split; [exact Hs|]. right. exists []. reflexivity.
      * exists [], (c :: file). split; [reflexivity|]. split; [|auto]. rewrite elem_of_cons. intros [?|?]; [congruence|contradiction].
    + exists (c :: d ++ [47]), file. split; [reflexivity|]. split; [exact Hs|]. right. exists (c :: d). reflexivity.
Qed.
Lemma last_dot_none l : last_dot l = None <-> DOT ∉ l.
Proof.
  induction l as [|c r IH]; cbn [last_dot]; [split; [intros _; apply not_elem_of_nil|reflexivity]|].
  rewrite elem_of_cons. destruct (last_dot r) as [s|].
  - split; [discriminate|]. intros H. exfalso. destruct IH as [_ IH]. assert (K : DOT ∉ r) by tauto. apply IH in K. discriminate.
  - destruct (N.eqb_spec c DOT) as [->|Hc].
    + split; [discriminate|]. intros H. exfalso. apply H. auto.
    + split; [|reflexivity]. intros _ [?|?]; [congruence|]. apply IH in H; [exact H|reflexivity].
Qed.
Lemma last_dot_some a ext : DOT ∉ ext -> last_dot (a ++ DOT :: ext) = Some (DOT :: ext).
Proof.
  intros H. induction a as [|c a IH]; cbn [app last_dot].
  - rewrite (proj2 (last_dot_none ext) H). rewrite N.eqb_refl. reflexivity.
  - rewrite IH. reflexivity.
Qed.
Lemma last_dot_inv l s : last_dot l = Some s -> exists a ext, l = a ++ DOT :: ext /\ s = DOT :: ext /\ DOT ∉ ext.
Proof.
  revert s. induction l as [|c r IH]; intros s; cbn [last_dot]; [discriminate|].
  destruct (last_dot r) as [s'|] eqn:E.
  - intros [= ->]. destruct (IH _ eq_refl) as (a & ext & -> & -> & H). exists (c :: a), ext. auto.
  - destruct (N.eqb_spec c DOT) as [->|]; [|discriminate]. intros [= <-]. exists [], r. split; [reflexivity|]. split; [reflexivity|].
    apply last_dot_none, E.
Qed.
Lemma extension_some path dir file ext : splits path dir file -> has_ext file ext -> extension path = DOT :: ext.
Proof.
  intros Hs (stem & Hf & Hne & Hd & Hdd). unfold extension. rewrite (filename_splits _ _ _ Hs).
  rewrite bool_decide_eq_false_2, bool_decide_eq_false_2.
  - cbn [orb]. destruct stem as [|c stem]; [contradiction|]. subst file. cbn [app]. rewrite last_dot_some by exact Hd. reflexivity.
  - exact Hdd.
  - subst file. intros E. destruct stem as [|c [|? ?]]; [contradiction|discriminate|discriminate].
Qed.
Lemma extension_none path dir file : splits path dir file -> no_ext file -> extension path = [].
Proof.
  intros Hs Hn. unfold extension. rewrite (filename_splits _ _ _ Hs).
  destruct (bool_decide_reflect (file = [DOT])); [reflexivity|]. destruct (bool_decide_reflect (file = [DOT; DOT])) as [|Hdd]; [reflexivity|].
  cbn [orb]. destruct file as [|c r]; [reflexivity|]. destruct (last_dot r) as [s|] eqn:E; [|reflexivity].
  apply last_dot_inv in E as (a & ext & -> & -> & Hd). exfalso. apply (Hn ext). exists (c :: a). split; [reflexivity|]. split; [discriminate|]. split; [exact Hd|exact Hdd].
Qed.
Lemma ext_or_none file : (exists ext, has_ext file ext) \/ no_ext file.
Proof.
  destruct (decide (file = [46; 46])) as [->|Hdd].
  - right. intros ext (stem & _ & _ & _ & H). contradiction.
  - destruct file as [|c r].
    + right. intros ext (stem & H & _). destruct stem; discriminate.
    + destruct (last_dot r) as [s|] eqn:E.
      * left. apply last_dot_inv in E as (a & ext & -> & -> & Hd). exists ext, (c :: a). split; [reflexivity|]. split; [discriminate|]. auto.
      * right. intros ext (stem & H & Hne & _). apply last_dot_none in E. apply E. destruct stem as [|x stem]; [contradiction|].
        injection H as _ ->. apply elem_of_app. right. apply elem_of_cons. auto.
Qed.
Lemma has_ext_unique file e1 e2 : has_ext file e1 -> has_ext file e2 -> e1 = e2.
Proof.
  intros H1 H2. assert (Hs : 47 ∉ file \/ 47 ∈ file) by (destruct (decide (47 ∈ file)); auto).
  destruct H1 as (s1 & -> & N1 & D1 & _), H2 as (s2 & E & N2 & D2 & _).
  assert (L1 := last_dot_some s1 e1 D1). assert (L2 := last_dot_some s2 e2 D2). change (46 :: e1) with (DOT :: e1) in E. change (46 :: e2) with (DOT :: e2) in E.
  rewrite E, L2 in L1. congruence.
Qed.
