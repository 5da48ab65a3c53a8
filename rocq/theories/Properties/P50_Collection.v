(** C80: collections of layers, LayerCollection of io.py. *)
From Coq Require Import NArith ZArith Bool List Lia String.
From stdpp Require Import base list gmap.
From Verif.Model Require Import Types Versioning Collection.
From Verif.Spec Require Import FileSpec CollectionSpec.
From Verif.Proof Require Import FileP CollectionP.
Local Open Scope Z_scope.
Local Open Scope list_scope.
Set Default Proof Using "Type".

(** Whatever is done with an object made for the path a dictionary of layers was saved to, in any
    order and as long as nobody writes to the two files of that path: opening and closing succeed,
    between them every query is answered as saved, and outside they raise. *)
Theorem C80_collection : forall L enc dec nodes edges (d : Files) (c : list (Z * L)) path,
  dict c -> c <> [] -> (forall k l, In (k, l) c -> exists b, enc l = Some b /\ b <> [] /\ dec b = Some l) ->
  exists d', save enc nodes edges d c path = (Ok tt, d') /\ other_files d d' path /\
    forall d2, f_records d2 !! record_path path = f_records d' !! record_path path ->
      f_graphs d2 !! graph_path path = f_graphs d' !! graph_path path ->
      forall ops, all_right c false ops (do_ops dec d2 path ops new).
Proof.
  intros L enc dec nodes edges d c path ND NE HE. destruct (save_ok enc dec nodes edges d c path ND NE HE) as (d' & A & B & C).
  exists d'. split; [exact A|]. split; [exact B|]. intros d2 E1 E2 ops. apply ops_right; [exact ND|apply C; assumption|reflexivity].
Qed.
Print Assumptions C80_collection.

(** If the keys are 0, 1, ..., in any order, the collection is read like a Python list: numbers from
    either end, slices and loops. *)
Theorem C80_numbered : forall L enc dec nodes edges (d : Files) (c : list (Z * L)) path ls,
  dict c -> c <> [] -> (forall k l, In (k, l) c -> exists b, enc l = Some b /\ b <> [] /\ dec b = Some l) -> numbered c ls ->
  let n := Z.of_nat (length ls) in
  exists d' o, save enc nodes edges d c path = (Ok tt, d') /\ open d' path new = (Ok tt, o) /\
    len o = Ok n /\ iter dec o = Ok ls /\
    (forall k, (exists l, item dec o k = Ok l /\ -n <= k < n /\ ls !! Z.to_nat (from_end n k) = Some l) \/ (item dec o k = Throw /\ ~ -n <= k < n)) /\
    forall s, default 1 (s_step s) <> 0 -> exists ps xs, sliced n s ps /\ items dec o s = Ok xs /\ Forall2 (fun k l => ls !! Z.to_nat k = Some l) ps xs.
Proof.
  intros L enc dec nodes edges d c path ls ND NE HE HN n.
  destruct (save_ok enc dec nodes edges d c path ND NE HE) as (d' & A & _ & C).
  destruct (C d' eq_refl eq_refl new) as (idx & m & O & R). exists d', (mkColl (Some idx) (Some m)). split; [exact A|]. split; [exact O|].
  assert (K : forall k, In k (map fst c) <-> 0 <= k < n).
  { intros k. rewrite in_keys. unfold n. split.
    - intros [l H]. apply HN in H as [H1 H2]. apply lookup_lt_Some in H2. lia.
    - intros [H1 H2]. destruct (lookup_lt_is_Some_2 ls (Z.to_nat k)) as [l Hl]; [lia|]. exists l. apply HN. auto. }
  assert (Len : Z.of_nat (length c) = n).
  { unfold n. f_equal. rewrite <- (map_length fst c). apply Nat.le_antisymm.
    - rewrite <- (Nat2Z.id (length ls)), <- (seqZ_length 0 (Z.of_nat (length ls))). apply NoDup_incl_length; [exact ND|].
      intros i Hi. apply K in Hi. apply elem_of_list_In, elem_of_seqZ. unfold n in Hi. lia.
    - rewrite <- (Nat2Z.id (length ls)) at 1. rewrite <- (seqZ_length 0 (Z.of_nat (length ls))). apply NoDup_incl_length; [apply NoDup_ListNoDup, NoDup_seqZ|].
      intros i Hi. apply K. apply elem_of_list_In, elem_of_seqZ in Hi. unfold n. lia. }
  assert (H : holds dec c true (mkColl (Some idx) (Some m))) by (exists idx, m; auto).
  assert (Q : forall op, right c true op (fst (do_op dec d' path op (mkColl (Some idx) (Some m))))).
  { intros op. destruct (do_op dec d' path op (mkColl (Some idx) (Some m))) as [s o'] eqn:E.
    destruct (op_right dec c true _ d' path s o' op ND (fun x => C d' eq_refl eq_refl x) H E) as [X _]. exact X. }
  pose proof (Q OpLen) as QL. cbn [do_op fst right] in QL. rewrite Len in QL. split; [exact QL|]. split.
  - destruct (Q OpIter) as (xs & E & X1 & X2). rewrite E. f_equal. rewrite K in X2.
    assert (length xs <= length ls)%nat.
    { destruct (decide (length ls < length xs)%nat) as [Hl|]; [|lia]. destruct (lookup_lt_is_Some_2 xs _ Hl) as [x Hx].
      apply X1 in Hx. apply HN in Hx as [_ Hx]. apply lookup_lt_Some in Hx. lia. }
    apply list_eq_same_length with (length ls); [reflexivity|unfold n in X2; lia|]. intros i x y _ Hx Hy. apply X1, HN in Hx as [_ Hx].
    rewrite Nat2Z.id in Hx. congruence.
  - split.
    + intros k. pose proof (Q (OpItem k)) as X. cbn [do_op fst right] in X. rewrite Len in X. unfold from_end. destruct (Z.ltb_spec k 0).
      * destruct X as [(l & X1 & X2)|[X1 X2]]; rewrite X2.
        -- left. exists l. apply HN in X1 as [X1 X3]. split; [reflexivity|]. split; [lia|exact X3].
        -- right. split; [reflexivity|]. rewrite K in X1. lia.
      * destruct X as [(l & X1 & X2)|[X1 X2]]; rewrite X2.
        -- left. exists l. apply HN in X1 as [X1 X3]. apply lookup_lt_Some in X3 as X4. split; [reflexivity|]. split; [unfold n; lia|exact X3].
        -- right. split; [reflexivity|]. rewrite K in X1. lia.
    + intros s Hs. destruct (Q (OpItems s)) as [[X _]|(ps & X1 & X2)]; [contradiction|]. rewrite Len in X1. cbn in X2.
      destruct X2 as [(xs & X2 & X3)|[_ (k & X3 & X4)]].
      * exists ps, xs. split; [exact X1|]. split; [exact X2|]. eapply Forall2_impl; [exact X3|]. intros k l Hk. apply HN in Hk. tauto.
      * destruct X4. apply K. destruct X1 as [_ X1]. apply X1 in X3. tauto.
Qed.
Print Assumptions C80_numbered.

(** The record has, for every layer, its numbers of nodes and edges and where its bytes are. *)
Theorem C80_record : forall L enc nodes edges (d : Files) (c : list (Z * L)) path, (forall k l, In (k, l) c -> is_Some (enc l)) ->
  exists d' infos bytes, save enc nodes edges d c path = (Ok tt, d') /\
    f_records d' !! record_path path = Some (Some infos) /\ f_graphs d' !! graph_path path = Some bytes /\
    map i_index infos = map fst c /\
    forall k l, In (k, l) c -> exists i, In i infos /\ i_index i = k /\ i_nodes i = nodes l /\ i_edges i = edges l /\
      Some (take (i_size i) (drop (i_offset i) bytes)) = enc l.
Proof.
  intros L enc nodes edges d c path H. destruct (write_ok enc nodes edges c [] [] H) as (bs & infos & W & I & _ & R).
  unfold save. change 0%nat with (@List.length N []). rewrite W. cbn [app]. eexists _, infos, bs. split; [reflexivity|]. cbn. rewrite !lookup_insert.
  split; [reflexivity|]. split; [reflexivity|]. split; [exact I|exact R].
Qed.
Print Assumptions C80_record.

(** Whatever two files are there: an object that could be opened reads, for an index that is not
    negative, the bytes the last entry of the record with this index describes. *)
Theorem C80_any_files : forall L (dec : list N -> option L) (d : Files) path infos bytes,
  f_records d !! record_path path = Some (Some infos) -> f_graphs d !! graph_path path = Some bytes -> bytes <> [] ->
  exists o, open d path new = (Ok tt, o) /\
  forall k, 0 <= k ->
    (forall a i b l, infos = a ++ i :: b -> i_index i = k -> ~ In k (map i_index b) ->
       dec (take (i_size i) (drop (i_offset i) bytes)) = Some l -> item dec o k = Ok l) /\
    (~ In k (map i_index infos) -> item dec o k = Throw).
Proof.
  intros L dec d path infos bytes E1 E2 N. unfold open. rewrite E1, E2. destruct bytes as [|b0 bytes]; [contradiction|].
  eexists. split; [reflexivity|]. intros k Hk. unfold item. cbn [opened c_index c_mmap rbind]. destruct (Z.ltb_spec k 0); [lia|].
  unfold get_graph. rewrite find_fold. split.
  - intros a i b l -> Ei Hb D. replace (List.find (fun i0 => i_index i0 =? k) (rev (a ++ i :: b))) with (Some i); [cbn [mbind option_bind]; rewrite D; reflexivity|].
    rewrite rev_app_distr. cbn. rewrite <- app_assoc. cbn. assert (K : ~ In k (map i_index (rev b))) by (rewrite map_rev, <- in_rev; exact Hb).
    induction (rev b) as [|y r IH]; cbn; [rewrite Ei, Z.eqb_refl; reflexivity|]. cbn in K. destruct (Z.eqb_spec (i_index y) k); [tauto|]. apply IH. tauto.
  - intros Hn. assert (K : ~ In k (map i_index (rev infos))) by (rewrite map_rev, <- in_rev; exact Hn).
    replace (List.find (fun i0 => i_index i0 =? k) (rev infos)) with (@None Info); [reflexivity|].
    induction (rev infos) as [|y r IH]; cbn; [reflexivity|]. cbn in K. destruct (Z.eqb_spec (i_index y) k); [tauto|]. apply IH. tauto.
Qed.
Print Assumptions C80_any_files.

(** The files of a path: the extension of its name is replaced. *)
Theorem C80_files : forall path dir file, splits path dir file -> file <> [] ->
  (forall stem ext, file = stem ++ 46%N :: ext -> stem <> [] -> ext <> [] -> 46%N ∉ ext ->
     record_path path = dir ++ stem ++ str ".json" /\ graph_path path = dir ++ stem ++ str ".graphs") /\
  ((forall stem ext, file = stem ++ 46%N :: ext -> stem = [] \/ ext = []) ->
     record_path path = path ++ str ".json" /\ graph_path path = path ++ str ".graphs").
Proof.
  intros path dir file Hs Hf. unfold record_path, graph_path, with_suffix, py_suffix. split.
  - intros stem ext -> H1 H2 H3. rewrite (extension_some path dir _ ext Hs).
    + rewrite bool_decide_eq_false_2 by (intros E; injection E as ->; contradiction). destruct Hs as (-> & _).
      rewrite (app_assoc dir), (app_length (dir ++ stem)), Nat.add_sub, take_app, <- !app_assoc. auto.
    + exists stem. repeat (split; [assumption || reflexivity|]). intros E. destruct stem as [|x [|y stem]]; [contradiction| |];
        cbn in E; injection E as E1 E2; [contradiction|]. destruct stem; discriminate.
  - intros H.
    assert (E : (if bool_decide (extension path = [DOT]) then [] else extension path) = []).
    { case_bool_decide as D; [reflexivity|]. apply (extension_none path dir file Hs). intros ext (stem & E & N1 & N2 & N3).
      destruct (H stem ext E) as [X|X]; [contradiction|]. subst ext.
      apply D. apply (extension_some path dir file [] Hs). exists stem. auto. }
    rewrite E. cbn [length]. rewrite Nat.sub_0_r, firstn_all. auto.
Qed.
Print Assumptions C80_files.

(** ** Deviations *)
(** With the bindings as they are there is no to_bson: nothing but the empty dictionary can be
    saved, and an attempt empties the file of the graphs while the record stays. *)
Theorem C80_bindings_refuted : forall L nodes edges (d : Files) (c : list (Z * L)) path, c <> [] ->
  exists d', save (fun _ => None) nodes edges d c path = (Throw, d') /\
    f_graphs d' !! graph_path path = Some [] /\ f_records d' = f_records d.
Proof.
  intros L nodes edges d [|[k l] r] path H; [contradiction|]. eexists. split; [reflexivity|]. cbn. rewrite lookup_insert. auto.
Qed.
Print Assumptions C80_bindings_refuted.
(** ... and there is no from_bson: nothing can be read. *)
Theorem C80_bindings_reader_refuted : forall L o k (l : L), item (fun _ => None) o k <> Ok l.
Proof.
  intros L [[idx|] [m|]] k l; unfold item; cbn; try discriminate. unfold get_graph.
  destruct (find idx (if k <? 0 then Z.of_nat (length idx) + k else k)); discriminate.
Qed.
Print Assumptions C80_bindings_reader_refuted.
(** The empty collection can be saved but not opened. *)
Theorem C80_empty_refuted : forall L enc nodes edges (d : Files) path,
  exists d', save (L := L) enc nodes edges d [] path = (Ok tt, d') /\ forall o, exists o', open d' path o = (Throw, o').
Proof.
  intros L enc nodes edges d path. eexists. split; [reflexivity|]. intros o. unfold open. cbn. rewrite !lookup_insert. eauto.
Qed.
Print Assumptions C80_empty_refuted.
(** Saving is not all-or-nothing: if it raises half-way, a record from before describes the new
    bytes, and a layer of neither dictionary can be read. *)
Theorem C80_failed_save_refuted : exists (enc : list N -> option (list N)) dec nodes edges (c1 c2 : list (Z * list N)) path d1 d2 o l,
  (forall x b, enc x = Some b -> dec b = Some x) /\ dict c1 /\ dict c2 /\
  save enc nodes edges (mkFiles ∅ ∅) c1 path = (Ok tt, d1) /\ save enc nodes edges d1 c2 path = (Throw, d2) /\
  open d2 path new = (Ok tt, o) /\ item dec o 0 = Ok l /\ ~ In l (map snd c1) /\ ~ In l (map snd c2).
Proof.
  exists (fun x => match x with [] => None | _ => Some x end), Some, (@List.length N), (@List.length N),
    [(0, [1; 2]%N)], [(0, [3]%N); (1, [4; 5; 6]%N); (2, [])], (str "c").
  eexists _, _, _, [3; 4]%N. split; [intros [|? ?] b E; [discriminate|congruence]|].
  split; [apply NoDup_ListNoDup, (bool_decide_unpack _); vm_compute; exact I|]. split; [apply NoDup_ListNoDup, (bool_decide_unpack _); vm_compute; exact I|].
  split; [vm_compute; reflexivity|]. split; [vm_compute; reflexivity|]. split; [vm_compute; reflexivity|]. split; [vm_compute; reflexivity|].
  cbn. split; intros H; repeat destruct H as [H|H]; discriminate || contradiction.
Qed.
Print Assumptions C80_failed_save_refuted.
(** If a key is missing from 0, 1, ..., loops end before it without an error: if 0 is missing, at
    once.  Slices that reach it raise, and negative numbers stand for keys, not for the layers
    counted from the end. *)
Theorem C80_keys_refuted : forall L enc dec nodes edges (d : Files) (c : list (Z * L)) path,
  dict c -> c <> [] -> (forall k l, In (k, l) c -> exists b, enc l = Some b /\ b <> [] /\ dec b = Some l) ->
  (forall k, In k (map fst c) -> Z.of_nat (length c) <= k) ->
  exists d' o, save enc nodes edges d c path = (Ok tt, d') /\ open d' path new = (Ok tt, o) /\
    iter dec o = Ok [] /\ (forall k, k < 0 -> item dec o k = Throw) /\ items dec o (mkSlice None None None) = Throw.
Proof.
  intros L enc dec nodes edges d c path ND NE HE HK.
  destruct (save_ok enc dec nodes edges d c path ND NE HE) as (d' & A & _ & C).
  destruct (C d' eq_refl eq_refl new) as (idx & m & O & R). exists d', (mkColl (Some idx) (Some m)). split; [exact A|]. split; [exact O|].
  assert (H : holds dec c true (mkColl (Some idx) (Some m))) by (exists idx, m; auto).
  assert (Q : forall op, right c true op (fst (do_op dec d' path op (mkColl (Some idx) (Some m))))).
  { intros op. destruct (do_op dec d' path op (mkColl (Some idx) (Some m))) as [s o'] eqn:E.
    destruct (op_right dec c true _ d' path s o' op ND (fun x => C d' eq_refl eq_refl x) H E) as [X _]. exact X. }
  assert (Hc : 0 < Z.of_nat (length c)) by (destruct c; [contradiction|cbn; lia]). split; [|split].
  - destruct (Q OpIter) as ([|l ls] & E & X1 & X2); [exact E|]. specialize (X1 0%nat l eq_refl).
    specialize (HK 0 (proj2 (in_keys _ _) (ex_intro _ l X1))). lia.
  - intros k Hk. pose proof (Q (OpItem k)) as X. cbn [do_op fst right] in X. destruct (Z.ltb_spec k 0); [|lia].
    destruct X as [(l & X1 & _)|[_ X]]; [|exact X]. specialize (HK _ (proj2 (in_keys _ _) (ex_intro _ l X1))). lia.
  - destruct (Q (OpItems (mkSlice None None None))) as [[X _]|(ps & X1 & [(xs & X2 & X3)|[X _]])]; [discriminate| |exact X].
    assert (H0 : In 0 ps). { apply X1. cbn. split; [lia|]. split; [lia|]. split; [discriminate|]. exists 0. lia. }
    apply elem_of_list_In, elem_of_list_lookup in H0 as [i Hi]. destruct (Forall2_lookup_l _ _ _ _ _ X3 Hi) as (l & _ & X4).
    specialize (HK 0 (proj2 (in_keys _ _) (ex_intro _ l X4))). lia.
Qed.
Print Assumptions C80_keys_refuted.
(** Paths that differ only in what follows the last dot of the name have the same files. *)
Theorem C80_names_refuted : exists p q, p <> q /\ p = str "run.1" /\ q = str "run.2" /\ record_path p = record_path q /\ graph_path p = graph_path q.
Proof. exists (str "run.1"), (str "run.2"). split; [discriminate|]. split; [reflexivity|]. split; [reflexivity|]. split; vm_compute; reflexivity. Qed.
Print Assumptions C80_names_refuted.

(** A collection of three layers saved in another order than that of their keys, and what a session
    with it sees; the hypotheses of the theorems hold of it. *)
Definition ex_c : list (Z * list N) := [(1, [7; 8]%N); (0, [9]%N); (2, [4; 5; 6]%N)].
Definition ex_f : Files := snd (save Some (@List.length N) (fun _ => 1%nat) (mkFiles ∅ ∅) ex_c (str "dir/layers")).
Theorem C80_case :
  dict ex_c /\ ex_c <> [] /\ (forall k l, In (k, l) ex_c -> exists b, Some l = Some b /\ b <> [] /\ Some b = Some l) /\
  numbered ex_c [[9]; [7; 8]; [4; 5; 6]]%N /\
  do_ops Some ex_f (str "dir/layers") [OpItem 0; OpOpen; OpItem 0; OpItem (-1); OpItem 3; OpItems (mkSlice None None (Some (-2))); OpIter; OpIndices; OpClose; OpLen] new =
    [SawItem Throw; Done (Ok tt); SawItem (Ok [9]%N); SawItem (Ok [4; 5; 6]%N); SawItem Throw; SawItems (Ok [[4; 5; 6]; [9]]%N);
     SawItems (Ok [[9]; [7; 8]; [4; 5; 6]]%N); SawIndices (Ok [1; 0; 2]); Done (Ok tt); SawLen Throw].
Proof.
  split; [apply NoDup_ListNoDup, (bool_decide_unpack _); vm_compute; exact I|]. split; [discriminate|]. split.
  { intros k l H. exists l. split; [reflexivity|]. split; [|reflexivity]. cbn in H. repeat destruct H as [H|H]; try contradiction; injection H as <- <-; discriminate. }
  split; [|vm_compute; reflexivity].
  intros k l. split.
  - cbn. intros H. repeat destruct H as [H|H]; try contradiction; injection H as <- <-; split; try lia; reflexivity.
  - intros [H0 H]. apply lookup_lt_Some in H as H1. cbn in H1. assert (K : k = 0 \/ k = 1 \/ k = 2) by lia.
    destruct K as [K|[K|K]]; subst k; cbn in H; injection H as <-; cbn; auto.
Qed.
Print Assumptions C80_case.
