(** Reading a binary graph is: reading its entries, then calling the API for each of them. *)
From Coq Require Import NArith ZArith Bool List Lia.
From stdpp Require Import base list gmap fin_maps tactics.
From Verif.Model Require Import Types Mesh Attrs Node EdgeContainer SLayer DLayer Graph Binary Versioning AttrCodec Registry GraphCodec.
From Verif.Spec Require Import BinarySpec AbstractGraph GraphHistory GraphObs MessageSpec.
From Verif.Proof Require Import BinaryP BinarySafe.
Local Open Scope N_scope.

Definition add_node (st : Graph * gset N) (r : NodeRec) : result (Graph * gset N) :=
  match nr_attrs r with
  | None => Ok (fst st, snd st ∖ {[nr_id r]})
  | Some a => let! (_, g') := g_add_or_update_node (fst st) (nr_layer r) (nr_id r) a (nr_time r) in Ok (g', snd st ∖ {[nr_id r]})
  end.
Definition add_edge (g : Graph) (r : EdgeRec) : result Graph :=
  match er_attrs r with
  | Some a => let! (_, g') := g_add_or_update_edge g (er_src r) (er_tgt r) a in Ok g'
  | None => let! has := g_has_edge g (er_src r) (er_tgt r) in
            if (has : bool) then UB else let! (_, g') := g_insert_edge g (er_src r) (er_tgt r) None in Ok g'
  end.
Definition drop_node (g : Graph) (x : N) : result Graph := let! (_, g') := g_remove_node g x in Ok g'.
Definition applied (m : Message) (g : Graph) : result Graph :=
  let! st := rfold add_node (mg_nodes m) (g, dom (g_lookup g)) in
  let! g3 := rfold drop_node (elements (snd st)) (fst st) in
  let! g4 := rfold add_edge (mg_edges m) (g_mark_stale g3) in
  let! g5 := g_remove_all_stale g4 in
  Ok (match mg_mesh m with Some mesh => g_set_mesh g5 (Some mesh) | None => g5 end).

Lemma bind_val {A B} (m : Reader A) (k : A -> Reader B) buf pos b n :
  bind m k buf pos = Val b n <-> exists a p, m buf pos = Val a p /\ k a buf p = Val b n.
Proof.
  unfold bind. destruct (m buf pos) as [a p|f].
  - split; [eauto|]. intros (a' & p' & [= <- <-] & H). exact H.
  - split; [discriminate|]. intros (? & ? & ? & _). discriminate.
Qed.
Lemma ret_val {A} (a b : A) buf pos n : ret a buf pos = Val b n <-> a = b /\ pos = n.
Proof. unfold ret. split; [intros [= -> ->]; auto|intros [-> ->]; reflexivity]. Qed.
Lemma lift_val {A} (r : result A) b buf pos n : lift r buf pos = Val b n <-> r = Ok b /\ pos = n.
Proof.
  destruct r as [x| |]; cbn; unfold fail.
  - rewrite ret_val. split; intros [H H2]; [subst; auto|]. injection H as ->. auto.
  - split; [discriminate|]. intros [? _]. discriminate.
  - split; [discriminate|]. intros [? _]. discriminate.
Qed.

Definition reads_as {S R} (step : S -> Reader S) (one : Reader R) (act : S -> R -> result S) : Prop :=
  forall s buf pos s' n, step s buf pos = Val s' n <-> exists r, one buf pos = Val r n /\ act s r = Ok s'.

Lemma node_round_as env f : reads_as (node_round env f) (node_record env f) add_node.
Proof.
  intros [g S] buf pos [g' S'] n. unfold node_round, parse_node, node_record. cbn [fst snd]. split.
  - intros H. apply bind_val in H as ([x gg] & p6 & H & R). apply bind_val in H as (a1 & p1 & H1 & H). apply ret_val in R as [[= <- <-] <-].
    apply bind_val in H as (l & p2 & H2 & H). apply bind_val in H as (i & p3 & H3 & H). apply bind_val in H as (t & p4 & H4 & H).
    apply bind_val in H as (o & p5 & H5 & H). exists (mkNodeRec l i t o). split.
    + apply bind_val. exists a1, p1. split; [exact H1|]. apply bind_val. exists l, p2. split; [exact H2|]. apply bind_val. exists i, p3. split; [exact H3|]. apply bind_val. exists t, p4. split; [exact H4|].
      apply bind_val. exists o, p5. split; [exact H5|]. apply ret_val. split; [reflexivity|].
      destruct o as [a|]; [apply bind_val in H as ([b g1] & p7 & H6 & H7); apply lift_val in H6 as [_ <-]; apply ret_val in H7 as [_ <-]; reflexivity|apply ret_val in H as [_ <-]; reflexivity].
    + unfold add_node. cbn [nr_attrs nr_layer nr_id nr_time fst snd]. destruct o as [a|].
      * apply bind_val in H as ([b g1] & p7 & H6 & H7). apply lift_val in H6 as [-> <-]. apply ret_val in H7 as [[= <- <-] <-]. reflexivity.
      * apply ret_val in H as [[= <- <-] <-]. reflexivity.
  - intros (r & H & A). apply bind_val in H as (a1 & p1 & H1 & H). apply bind_val in H as (l & p2 & H2 & H). apply bind_val in H as (i & p3 & H3 & H). apply bind_val in H as (t & p4 & H4 & H).
    apply bind_val in H as (o & p5 & H5 & H). apply ret_val in H as [<- <-]. unfold add_node in A. cbn [nr_attrs nr_layer nr_id nr_time fst snd] in A.
    assert (K : exists g1, (match o with Some a => let* (_, g1) := lift (g_add_or_update_node g l i a t) in ret (i, g1) | None => ret (i, g) end) buf p5 = Val (i, g1) p5 /\ g1 = g' /\ S' = S ∖ {[i]}).
    { destruct o as [a|].
      - destruct (g_add_or_update_node g l i a t) as [[b g1]| |]; cbn in A; [|discriminate..]. injection A as <- <-. exists g1. cbn. auto.
      - injection A as <- <-. exists g. auto. }
    destruct K as (g1 & K & -> & ->). apply bind_val. exists (i, g'), p5. split; [|apply ret_val; auto].
    apply bind_val. exists a1, p1. split; [exact H1|]. apply bind_val. exists l, p2. split; [exact H2|]. apply bind_val. exists i, p3. split; [exact H3|]. apply bind_val. exists t, p4. split; [exact H4|].
    apply bind_val. exists o, p5. split; [exact H5|]. exact K.
Qed.
Lemma parse_edge_as f : reads_as (parse_edge f) (edge_record f) add_edge.
Proof.
  intros g buf pos g' n. unfold parse_edge, edge_record. split.
  - intros H. apply bind_val in H as (a1 & p1 & H1 & H). apply bind_val in H as (s & p2 & H2 & H). apply bind_val in H as (t & p3 & H3 & H). apply bind_val in H as (o & p4 & H4 & H).
    assert (K : p4 = n /\ add_edge g (mkEdgeRec s t o) = Ok g').
    { unfold add_edge. cbn [er_attrs er_src er_tgt]. destruct o as [a|].
      - apply bind_val in H as ([b g1] & p5 & H5 & H6). apply lift_val in H5 as [-> <-]. apply ret_val in H6 as [<- <-]. auto.
      - apply bind_val in H as (has & p5 & H5 & H6). apply lift_val in H5 as [-> <-]. cbn [rbind]. destruct has; [discriminate|].
        apply bind_val in H6 as ([b g1] & p5 & H5 & H6). apply lift_val in H5 as [-> <-]. apply ret_val in H6 as [<- <-]. auto. }
    destruct K as [<- K]. exists (mkEdgeRec s t o). split; [|exact K]. apply bind_val. exists a1, p1. split; [exact H1|]. apply bind_val. exists s, p2. split; [exact H2|].
    apply bind_val. exists t, p3. split; [exact H3|]. apply bind_val. exists o, p4. split; [exact H4|]. apply ret_val. auto.
  - intros (r & H & A). apply bind_val in H as (a1 & p1 & H1 & H). apply bind_val in H as (s & p2 & H2 & H). apply bind_val in H as (t & p3 & H3 & H). apply bind_val in H as (o & p4 & H4 & H).
    apply ret_val in H as [<- <-]. apply bind_val. exists a1, p1. split; [exact H1|]. apply bind_val. exists s, p2. split; [exact H2|].
    apply bind_val. exists t, p3. split; [exact H3|]. apply bind_val. exists o, p4. split; [exact H4|]. unfold add_edge in A. cbn [er_attrs er_src er_tgt] in A. destruct o as [a|].
    + destruct (g_add_or_update_edge g s t a) as [[b g1]| |]; cbn in A; [|discriminate..]. injection A as <-. reflexivity.
    + destruct (g_has_edge g s t) as [[|]| |]; cbn [rbind] in A; try discriminate. destruct (g_insert_edge g s t None) as [[b g1]| |] eqn:E; cbn in A; [|discriminate..]. injection A as <-.
      apply bind_val. exists false, p4. split; [reflexivity|]. apply bind_val. exists (b, g1), p4. split; [apply lift_val; auto|reflexivity].
Qed.

Lemma rfold_snoc {A B} (f : B -> A -> result B) l x b : rfold f (l ++ [x]) b = let! c := rfold f l b in f c x.
Proof.
  revert b. induction l as [|a l IH]; intros b; cbn; [destruct (f b x); reflexivity|]. destruct (f b a); cbn; [apply IH|reflexivity|reflexivity].
Qed.
Lemma loop_as {S R} (step : S -> Reader S) (one : Reader R) act : reads_as step one act -> forall fuel s0 acc s buf pos s' n,
  rfold act acc s0 = Ok s ->
  read_loop step fuel s buf pos = Val s' n <->
  exists rs, read_loop (fun l => let* r := one in ret (l ++ [r])) fuel acc buf pos = Val rs n /\ rfold act rs s0 = Ok s'.
Proof.
  intros HA. induction fuel as [|fuel IH]; intros s0 acc s buf pos s' n Hs; cbn [read_loop].
  - unfold fail. split; [discriminate|]. intros (? & ? & _). discriminate.
  - split.
    + intros H. apply bind_val in H as (e & p & He & H). destruct e.
      * apply ret_val in H as [<- <-]. exists acc. split; [|exact Hs]. apply bind_val. exists true, p. split; [exact He|]. apply ret_val. auto.
      * apply bind_val in H as (s1 & p1 & H1 & H2). apply HA in H1 as (r & H1 & A1).
        assert (Hs1 : rfold act (acc ++ [r]) s0 = Ok s1) by (rewrite rfold_snoc, Hs; exact A1).
        apply (IH s0 _ s1 _ _ _ _ Hs1) in H2 as (rs & H2 & H3). exists rs. split; [|exact H3]. apply bind_val. exists false, p. split; [exact He|]. apply bind_val. exists (acc ++ [r]), p1.
        split; [apply bind_val; exists r, p1; split; [exact H1|reflexivity]|exact H2].
    + intros (rs & H & H3). apply bind_val in H as (e & p & He & H). apply bind_val. exists e, p. split; [exact He|]. destruct e.
      * apply ret_val in H as [<- <-]. apply ret_val. split; [congruence|reflexivity].
      * apply bind_val in H as (l1 & p1 & H1 & H2). apply bind_val in H1 as (r & p2 & H1 & Hr). apply ret_val in Hr as [<- <-].
        apply bind_val. assert (K : exists s1, act s r = Ok s1).
        { (* the loop only appends *)
          assert (L : forall fuel l buf pos rs n, read_loop (fun l => let* r := one in ret (l ++ [r])) fuel l buf pos = Val rs n -> exists t, rs = l ++ t).
          { clear. induction fuel as [|fuel IH]; intros l buf pos rs n H; [discriminate|]. cbn [read_loop] in H. apply bind_val in H as (e & p & _ & H). destruct e.
            - apply ret_val in H as [<- _]. exists []. rewrite app_nil_r. reflexivity.
            - apply bind_val in H as (l1 & p1 & H1 & H). apply bind_val in H1 as (r & p2 & _ & Hr). apply ret_val in Hr as [<- _]. apply IH in H as [t ->]. exists ([r] ++ t). rewrite app_assoc. reflexivity. }
          destruct (L _ _ _ _ _ _ H2) as [t ->]. clear - H3 Hs. rewrite <- app_assoc in H3. cbn [app] in H3.
          revert s0 Hs H3. induction acc as [|a acc IH]; intros s0 Hs H3; cbn in *.
          - injection Hs as <-. destruct (act s0 r) as [s1| |]; [eauto|discriminate..].
          - destruct (act s0 a) as [s1| |]; [|discriminate..]. cbn in *. apply (IH s1); assumption. }
        destruct K as [s1 K]. exists s1, p2. split; [apply HA; eauto|].
        assert (Hs1 : rfold act (acc ++ [r]) s0 = Ok s1) by (rewrite rfold_snoc, Hs; exact K). apply (IH s0 _ s1 _ _ _ _ Hs1). eauto.
Qed.
Lemma array_as {S R} (step : S -> Reader S) (one : Reader R) act s buf pos s' n : reads_as step one act ->
  read_dynamic_array step s buf pos = Val s' n <-> exists rs, records one buf pos = Val rs n /\ rfold act rs s = Ok s'.
Proof.
  intros HA. unfold records, read_dynamic_array. split.
  - intros H. apply bind_val in H as (e & p & He & H). apply (loop_as step one act HA _ s [] s) in H as (rs & H1 & H2); [|reflexivity]. exists rs. split; [|exact H2]. apply bind_val. exists e, p. auto.
  - intros (rs & H1 & H2). apply bind_val in H1 as (e & p & He & H1). apply bind_val. exists e, p. split; [exact He|]. apply (loop_as step one act HA _ s [] s); [reflexivity|]. eauto.
Qed.
Lemma rfold_app' {A B} (f : B -> A -> result B) l l' b : rfold f (l ++ l') b = let! c := rfold f l b in rfold f l' c.
Proof. revert b. induction l as [|a l IH]; intros b; cbn; [reflexivity|]. destruct (f b a); cbn; [apply IH|reflexivity|reflexivity]. Qed.

(** Reading into a graph is reading the message and applying it. *)
Lemma update_applied env p ids g buf pos g' n : update_graph env p g buf pos = Val g' n <->
  exists m, body env p ids buf pos = Val m n /\ mg_ids m = ids /\ applied m g = Ok g'.
Proof.
  unfold update_graph, body. split.
  - intros H. apply bind_val in H as (a1 & p1 & H1 & H). apply bind_val in H as (nf & p2 & H2 & H). apply bind_val in H as (ef & p3 & H3 & H).
    apply bind_val in H as (st1 & p4 & H4 & H). apply bind_val in H as (st2 & p5 & H5 & H). apply bind_val in H as (g3 & p6 & H6 & H). apply lift_val in H6 as [H6 <-].
    apply bind_val in H as (g4 & p7 & H7 & H). apply bind_val in H as (g5 & p8 & H8 & H). apply lift_val in H8 as [H8 <-]. apply bind_val in H as (has & p9 & H9 & H).
    apply (array_as _ _ _ _ _ _ _ _ (node_round_as env nf)) in H4 as (ns1 & H4 & A1). apply (array_as _ _ _ _ _ _ _ _ (node_round_as env nf)) in H5 as (ns2 & H5 & A2).
    apply (array_as _ _ _ _ _ _ _ _ (parse_edge_as ef)) in H7 as (es & H7 & A3).
    assert (AA : forall mo, applied (mkMessage ids (ns1 ++ ns2) es mo) g = Ok (match mo with Some mesh => g_set_mesh g5 (Some mesh) | None => g5 end)).
    { intros mo. unfold applied. cbn [mg_nodes mg_edges mg_mesh]. rewrite rfold_app', A1. cbn [rbind]. rewrite A2. cbn [rbind].
      change (fun (g : Graph) (x : N) => let! (_, g') := g_remove_node g x in Ok g') with drop_node in H6. rewrite H6. cbn [rbind]. rewrite A3. cbn [rbind]. rewrite H8. reflexivity. }
    assert (BB : forall m k, (if has then let* m := cd_read c_mesh (mesh_new true false false false) in ret (mkMessage ids (ns1 ++ ns2) es (Some m)) else ret (mkMessage ids (ns1 ++ ns2) es None)) buf p9 = Val m k ->
      (let* _ := (if version_ltb (ev_version env) (mkV 1 0 2) then cd_read c_u64 0 else ret 0) in let* nf := load_factory env (pg_nodes p) in let* ef := load_factory env (pg_edges p) in
       let* ns1 := records (node_record env nf) in let* ns2 := records (node_record env nf) in let* es := records (edge_record ef) in let* has := check_if_true in
       if (has : bool) then let* m := cd_read c_mesh (mesh_new true false false false) in ret (mkMessage ids (ns1 ++ ns2) es (Some m)) else ret (mkMessage ids (ns1 ++ ns2) es None)) buf pos = Val m k).
    { intros m k K. apply bind_val. exists a1, p1. split; [exact H1|]. apply bind_val. exists nf, p2. split; [exact H2|]. apply bind_val. exists ef, p3. split; [exact H3|].
      apply bind_val. exists ns1, p4. split; [exact H4|]. apply bind_val. exists ns2, p5. split; [exact H5|]. apply bind_val. exists es, p7. split; [exact H7|].
      apply bind_val. exists has, p9. split; [exact H9|]. exact K. }
    destruct has.
    + apply bind_val in H as (m & p10 & H10 & H). apply ret_val in H as [<- <-]. exists (mkMessage ids (ns1 ++ ns2) es (Some m)). split; [|split; [reflexivity|apply AA]].
      apply BB. apply bind_val. exists m, p10. split; [exact H10|reflexivity].
    + apply ret_val in H as [<- <-]. exists (mkMessage ids (ns1 ++ ns2) es None). split; [|split; [reflexivity|apply AA]]. apply BB. reflexivity.
  - intros (m & H & _ & A). apply bind_val in H as (a1 & p1 & H1 & H). apply bind_val in H as (nf & p2 & H2 & H). apply bind_val in H as (ef & p3 & H3 & H).
    apply bind_val in H as (ns1 & p4 & H4 & H). apply bind_val in H as (ns2 & p5 & H5 & H). apply bind_val in H as (es & p7 & H7 & H). apply bind_val in H as (has & p9 & H9 & H).
    assert (M : mg_nodes m = ns1 ++ ns2 /\ mg_edges m = es /\ match mg_mesh m with
      | Some mesh => has = true /\ cd_read c_mesh (mesh_new true false false false) buf p9 = Val mesh n | None => has = false /\ p9 = n end).
    { destruct has; [apply bind_val in H as (mm & p10 & H10 & H)|]; apply ret_val in H as [<- <-]; cbn; auto. }
    clear H. destruct M as (M1 & M2 & M3). unfold applied in A. rewrite M1, M2, rfold_app' in A.
    destruct (rfold add_node ns1 _) as [st1| |] eqn:A1; [|discriminate..]. cbn [rbind] in A. destruct (rfold add_node ns2 _) as [st2| |] eqn:A2; [|discriminate..]. cbn [rbind] in A.
    destruct (rfold drop_node _ _) as [g3| |] eqn:A3; [|discriminate..]. cbn [rbind] in A. destruct (rfold add_edge _ _) as [g4| |] eqn:A4; [|discriminate..]. cbn [rbind] in A.
    destruct (g_remove_all_stale g4) as [g5| |] eqn:A5; [|discriminate..]. cbn [rbind] in A.
    apply bind_val. exists a1, p1. split; [exact H1|]. apply bind_val. exists nf, p2. split; [exact H2|]. apply bind_val. exists ef, p3. split; [exact H3|].
    apply bind_val. exists st1, p4. split; [apply (array_as _ _ _ _ _ _ _ _ (node_round_as env nf)); eauto|]. apply bind_val. exists st2, p5. split; [apply (array_as _ _ _ _ _ _ _ _ (node_round_as env nf)); eauto|].
    apply bind_val. exists g3, p5. split; [change (fun (g : Graph) (x : N) => let! (_, g') := g_remove_node g x in Ok g') with drop_node; rewrite A3; reflexivity|].
    apply bind_val. exists g4, p7. split; [apply (array_as _ _ _ _ _ _ _ _ (parse_edge_as ef)); eauto|]. apply bind_val. exists g5, p7. split; [rewrite A5; reflexivity|].
    apply bind_val. exists has, p9. split; [exact H9|]. injection A as <-. destruct (mg_mesh m) as [mesh|]; destruct M3 as [-> M3].
    + apply bind_val. exists mesh, n. split; [exact M3|reflexivity].
    + rewrite M3. reflexivity.
Qed.
