From Coq Require Import NArith ZArith Bool List Lia.
From stdpp Require Import base list gmap.
From Verif.Model Require Import Types Registry.
From Verif.Spec Require Import RegistrySpec.
Local Open Scope N_scope.

Lemma register_all_spec {T} (l : list (Name * T)) : forall r infos r',
  register_all r l = Ok (infos, r') ->
  rg_names r' = rg_names r ++ l.*1 /\
  infos = imap (fun i (x : Name * T) => mkInfo x.1 (N.of_nat (length (rg_names r) + i) mod two8)) l /\
  NoDup l.*1 /\ (forall n, n ∈ l.*1 -> rg_ctors r !! n = None) /\
  rg_ctors r' = list_to_map l ∪ rg_ctors r.
Proof.
  induction l as [|[n c] l IH]; intros r infos r' H.
  - cbn in H. injection H as <- <-. cbn. rewrite app_nil_r. split; [done|]. split; [done|]. split; [constructor|].
    split; [intros ? Hn; inversion Hn|]. change (list_to_map []) with (∅ : gmap Name T). by rewrite left_id_L by apply _.
  - cbn [register_all] in H. unfold register, reg_add in H.
    destruct (rg_ctors r !! n) eqn:Hn; cbn [rbind] in H; [discriminate|].
    set (r1 := mkReg (rg_names r ++ [n]) (<[n := c]> (rg_ctors r))) in *.
    destruct (register_all r1 l) as [[is r2]| |] eqn:E; cbn [rbind] in H; try discriminate.
    injection H as <- <-. destruct (IH _ _ _ E) as (H1 & H2 & H3 & H4 & H5).
    cbn [r1 rg_names rg_ctors] in H1, H2, H4, H5.
    assert (Hni : n ∉ l.*1).
    { intros Hin. specialize (H4 n Hin). by rewrite lookup_insert in H4. }
    split. { rewrite H1. cbn. by rewrite <- app_assoc. }
    split.
    { rewrite imap_cons. rewrite Nat.add_0_r. f_equal. rewrite H2. apply imap_ext. intros i [m d] _. cbn.
      f_equal. rewrite app_length. cbn. f_equal. lia. }
    split; [cbn; by apply NoDup_cons|].
    split.
    { intros m Hm. cbn in Hm. apply elem_of_cons in Hm as [->|Hm]; [done|].
      specialize (H4 m Hm). apply lookup_insert_None in H4 as [? ?]. done. }
    rewrite H5. change (list_to_map ((n, c) :: l)) with (<[n := c]> (list_to_map l : gmap Name T)).
    rewrite <- insert_union_l, <- insert_union_r; [done|]. by apply not_elem_of_list_to_map.
Qed.

Lemma registers_spec {T} (l : list (Name * T)) infos r : registers l infos r ->
  rg_names r = l.*1 /\ infos = imap (fun i (x : Name * T) => mkInfo x.1 (N.of_nat i mod two8)) l /\
  NoDup l.*1 /\ rg_ctors r = list_to_map l.
Proof.
  intros H. apply register_all_spec in H as (H1 & H2 & H3 & _ & H5). cbn in *.
  rewrite right_id_L in H5 by apply _. done.
Qed.
(** no failure iff the names are distinct *)
Lemma register_all_ok {T} (l : list (Name * T)) : forall r, NoDup l.*1 -> (forall n, n ∈ l.*1 -> rg_ctors r !! n = None) ->
  exists infos r', register_all r l = Ok (infos, r').
Proof.
  induction l as [|[n c] l IH]; intros r Hd Hf; [by eexists _, _|].
  cbn in Hd. apply NoDup_cons in Hd as [Hn Hd]. cbn [register_all]. unfold register, reg_add.
  rewrite (Hf n) by (cbn; left). cbn [rbind].
  destruct (IH (mkReg (rg_names r ++ [n]) (<[n := c]> (rg_ctors r))) Hd) as (is & r' & E).
  { intros m Hm. cbn. rewrite lookup_insert_ne; [apply Hf; cbn; by right|]. intros ->. contradiction. }
  rewrite E. by eexists _, _.
Qed.

Lemma known_lookup {T} (l : list (Name * T)) n : NoDup l.*1 -> known_as l n ((list_to_map l : gmap Name T) !! n).
Proof.
  intros Hd. unfold known_as. destruct (list_to_map l !! n) as [c|] eqn:E.
  - by apply elem_of_list_to_map in E.
  - intros c Hc. apply elem_of_list_to_map in Hc; [congruence|done].
Qed.

(** the factory's maps, as long as the indices fit in a byte *)
Lemma factory_spec {T} (ctors : gmap Name T) (names : list Name) (k : nat) : NoDup names ->
  (k + length names <= 256)%nat -> forall f,
  (forall i, N.of_nat k <= i -> fc_ctors f !! i = None) ->
  (forall n, n ∈ names -> fc_lookup f !! n = None) ->
  let f' := fold_left (fac_step ctors) (imap (fun i n => ((k + i)%nat, n)) names) f in
  (forall i n, names !! i = Some n -> fc_ctors f' !! N.of_nat (k + i) = ctors !! n /\
     fc_lookup f' !! n = match ctors !! n with Some _ => Some (N.of_nat (k + i)) | None => None end) /\
  (forall j, N.of_nat (k + length names) <= j -> fc_ctors f' !! j = None) /\
  (forall j, j < N.of_nat k -> fc_ctors f' !! j = fc_ctors f !! j) /\
  (forall n, n ∉ names -> fc_lookup f' !! n = fc_lookup f !! n).
Proof.
  revert k. induction names as [|n names IH]; intros k Hd Hl f Hf Hg; cbn zeta.
  - cbn. split; [intros i n Hn; by rewrite lookup_nil in Hn|]. split; [|by auto].
    intros j Hj. apply Hf. rewrite Nat.add_0_r in Hj. done.
  - apply NoDup_cons in Hd as [Hn Hd]. rewrite imap_cons. cbn [fold_left].
    cbn [length] in Hl.
    set (f1 := fac_step ctors f ((k + 0)%nat, n)).
    rewrite (imap_ext _ (fun i n => ((S k + i)%nat, n))).
    2: { intros i x _. cbn. f_equal. lia. }
    assert (Hk : N.of_nat (k + 0) mod two8 = N.of_nat k).
    { rewrite Nat.add_0_r. apply N.mod_small. unfold two8. change (2 ^ 8) with 256. lia. }
    assert (F1 : forall i, N.of_nat (S k) <= i -> fc_ctors f1 !! i = None).
    { intros i Hi. unfold f1, fac_step. cbn [fst snd]. destruct (ctors !! n); cbn [fc_ctors]; [|apply Hf; lia].
      rewrite Hk, lookup_insert_ne by lia. apply Hf. lia. }
    assert (G1 : forall m, m ∈ names -> fc_lookup f1 !! m = None).
    { intros m Hm. unfold f1, fac_step. cbn [fst snd]. assert (m <> n) by (intros ->; contradiction).
      destruct (ctors !! n); cbn [fc_lookup]; [rewrite lookup_insert_ne by done|]; apply Hg; by right. }
    destruct (IH (S k) Hd ltac:(lia) f1 F1 G1) as (A & B & C & D). cbn zeta in A, B, C, D.
    set (f' := fold_left (fac_step ctors) (imap (fun i n0 => ((S k + i)%nat, n0)) names) f1) in *.
    split; [|split; [|split]].
    + intros [|i] m Hm.
      * cbn in Hm. injection Hm as <-. rewrite Nat.add_0_r, (C (N.of_nat k)) by lia. rewrite (D n Hn).
        unfold f1, fac_step. cbn [fst snd]. rewrite Hk. destruct (ctors !! n) as [c|] eqn:E; cbn [fc_ctors fc_lookup].
        -- by rewrite !lookup_insert.
        -- split; [apply Hf; lia|apply Hg; left].
      * cbn in Hm. destruct (A i m Hm) as [A1 A2]. replace (k + S i)%nat with (S k + i)%nat by lia. done.
    + intros j Hj. apply B. cbn [length] in Hj. lia.
    + intros j Hj. rewrite C by lia. unfold f1, fac_step. cbn [fst snd].
      destruct (ctors !! n); cbn [fc_ctors]; [|done]. rewrite Hk, lookup_insert_ne by lia. done.
    + intros m Hm. apply not_elem_of_cons in Hm as [Hm1 Hm2]. rewrite D by done. unfold f1, fac_step. cbn [fst snd].
      destruct (ctors !! n); cbn [fc_lookup]; [|done]. by rewrite lookup_insert_ne.
Qed.

Lemma factory_lookup {T} (ctors : gmap Name T) (names : list Name) : NoDup names -> (length names <= 256)%nat ->
  (forall i n, names !! i = Some n -> create_by_id (factory names ctors) (N.of_nat i) = ctors !! n /\
     create_by_name (factory names ctors) n = ctors !! n) /\
  (forall j, N.of_nat (length names) <= j -> j < 256 -> create_by_id (factory names ctors) j = None) /\
  (forall n, n ∉ names -> create_by_name (factory names ctors) n = None).
Proof.
  intros Hd Hl. destruct (factory_spec ctors names 0 Hd ltac:(lia) (mkFac ∅ ∅)) as (A & B & _ & D);
    [intros; apply lookup_empty|intros; apply lookup_empty|]. cbn zeta in A, B, D.
  change (fold_left _ _ _) with (factory names ctors) in A, B, D.
  split; [|split].
  - intros i n Hi. destruct (A i n Hi) as [A1 A2].
    assert (i < length names)%nat by (by eapply lookup_lt_Some).
    assert (E : create_by_id (factory names ctors) (N.of_nat i) = ctors !! n).
    { unfold create_by_id. rewrite N.mod_small; [exact A1|]. unfold two8. change (2 ^ 8) with 256. lia. }
    split; [exact E|]. unfold create_by_name. rewrite A2. destruct (ctors !! n) eqn:En; [|done]. exact E.
  - intros j H1 H2. unfold create_by_id. rewrite N.mod_small by (unfold two8; change (2 ^ 8) with 256; lia).
    apply B. cbn. lia.
  - intros n Hn. unfold create_by_name. rewrite D by done. reflexivity.
Qed.
