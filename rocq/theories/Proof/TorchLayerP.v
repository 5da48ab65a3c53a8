(** Proofs about the conversion of one layer to pytorch geometric. *)
From Coq Require Import NArith Bool List Lia.
From stdpp Require Import base list gmap fin_maps sorting.
From Verif.Model Require Import Types Mesh Attrs Node EdgeContainer SLayer DLayer Graph Views Queries Iterators PyConvert Torch TorchLayer.
From Verif.Spec Require Import GraphObs IterSpec ConvertSpec TorchSpec.
From Verif.Proof Require Import Arith Keys SLayerP MatrixP GraphCounts IterP ConvertP TorchP.
Local Open Scope N_scope.
Local Open Scope list_scope.
#[local] Arguments edge_key : simpl never.
Set Default Proof Using "Type".

Section torch.
Context {F : Type} (nc : SLayer -> Node -> result F) (precision : Vec3 -> Vec3) (L : SLayer).

Record LInv (M : nat) (done : list Node) (s : LState (F := F)) : Prop := {
  li_feat : Forall2 (fun n f => nc L n = Ok f) done (l_feat s);
  li_poslen : length (l_pos s) = M;
  li_pos : forall i n, done !! i = Some n -> l_pos s !! i = Some (precision (attrs_position (n_attrs n)));
  li_map : forall x i, l_map s !! x = Some i <-> exists n, done !! i = Some n /\ n_id n = x }.
Lemma layer_row_step M done s n : LInv M done s -> (length done < M)%nat -> ~ In (n_id n) (map n_id done) ->
  (exists f, nc L n = Ok f) -> exists s', put_layer_row nc precision L s n = Ok s' /\ LInv M (done ++ [n]) s'.
Proof.
  intros I HM HD [f Hf]. pose proof (Forall2_length _ _ _ (li_feat _ _ _ I)) as LF. unfold put_layer_row. cbv zeta. rewrite <- LF.
  rewrite assign_ok by (rewrite (li_poslen _ _ _ I); exact HM). cbn [rbind]. rewrite Hf. cbn [rbind]. eexists. split; [reflexivity|]. split; cbn.
  - apply Forall2_app; [apply (li_feat _ _ _ I)|]. constructor; [exact Hf|constructor].
  - rewrite insert_length. apply (li_poslen _ _ _ I).
  - intros i m. rewrite lookup_snoc. intros [H|[-> <-]].
    + rewrite list_lookup_insert_ne; [apply (li_pos _ _ _ I), H|]. apply lookup_lt_Some in H. lia.
    + apply list_lookup_insert. rewrite (li_poslen _ _ _ I). exact HM.
  - intros x i. destruct (decide (x = n_id n)) as [->|Hx].
    + rewrite lookup_insert. split.
      * intros [= <-]. exists n. split; [apply lookup_snoc; auto|reflexivity].
      * intros (m & Hm' & Ex). apply lookup_snoc in Hm' as [Hm'|[-> <-]]; [|reflexivity]. exfalso. apply HD. rewrite <- Ex. apply in_map, elem_of_list_In. eapply elem_of_list_lookup_2, Hm'.
    + rewrite lookup_insert_ne by congruence. rewrite (li_map _ _ _ I). split.
      * intros (m & Hm' & Ex). exists m. split; [apply lookup_snoc; auto|exact Ex].
      * intros (m & Hm' & Ex). apply lookup_snoc in Hm' as [Hm'|[-> <-]]; [eauto|congruence].
Qed.
Lemma layer_rows_fold M todo : forall done s, LInv M done s -> (length done + length todo <= M)%nat -> NoDup (map n_id (done ++ todo)) ->
  (forall n, n ∈ todo -> exists f, nc L n = Ok f) ->
  exists s', rfold (put_layer_row nc precision L) todo s = Ok s' /\ LInv M (done ++ todo) s'.
Proof.
  induction todo as [|n todo IH]; intros done s I HM HN HT; cbn [rfold].
  - exists s. rewrite app_nil_r. auto.
  - cbn in HM. destruct (layer_row_step M done s n I) as (s1 & E1 & I1); [lia| |apply HT; left|].
    { rewrite map_app in HN. cbn in HN. apply NoDup_app in HN as (_ & HN & _). intros Hin. apply elem_of_list_In in Hin. apply (HN _ Hin). left. }
    rewrite E1. cbn [rbind]. destruct (IH (done ++ [n]) s1 I1) as (s2 & E2 & I2).
    { rewrite app_length. cbn. lia. }
    { rewrite <- app_assoc. exact HN. }
    { intros m Hm. apply HT. right. exact Hm. }
    exists s2. split; [exact E2|]. rewrite <- app_assoc in I2. exact I2.
Qed.

End torch.
Section columns.
Context {E : Type} (L : SLayer) (ec : option (SLayer -> Edge -> result E)).
Record CInv (id_map : gmap N nat) (M : nat) (done : list Edge) (s : nat * list (nat * nat)) : Prop := {
  ci_idx : s.1 = length done;
  ci_len : length s.2 = M;
  ci_col : forall i e, done !! i = Some e -> exists c, s.2 !! i = Some c /\ directed_layer_edge L id_map e = Ok c }.
Lemma layer_edges_fold id_map M todo : forall done s, CInv id_map M done s -> (length done + length todo <= M)%nat ->
  (forall e, e ∈ todo -> exists c, directed_layer_edge L id_map e = Ok c) ->
  (exists s', rfold (put_layer_column ec L id_map) todo s = Ok s' /\ CInv id_map M (done ++ todo) s') \/
  (exists f e, ec = Some f /\ e ∈ todo /\ (f L e = Throw \/ f L e = UB) /\ rfold (put_layer_column ec L id_map) todo s = match f L e with UB => UB | _ => Throw end).
Proof.
  induction todo as [|e todo IH]; intros done s I HM HT; cbn [rfold].
  - left. exists s. rewrite app_nil_r. auto.
  - cbn in HM. destruct (HT e ltac:(left)) as [c Hc]. destruct I as [I1 I2 I3]. destruct s as [idx cols]. cbn in *.
    assert (K : put_layer_column ec L id_map (idx, cols) e = Ok (S idx, <[idx := c]> cols) \/
      exists f, ec = Some f /\ (f L e = Throw \/ f L e = UB) /\ put_layer_column ec L id_map (idx, cols) e = match f L e with UB => UB | _ => Throw end).
    { unfold put_layer_column. rewrite Hc. cbn [rbind fst snd]. rewrite assign_ok by lia. cbn [rbind]. destruct ec as [f|]; [|left; reflexivity].
      destruct (f L e) eqn:Ef; cbn [rbind]; [left; reflexivity| |]; right; exists f; rewrite Ef; auto. }
    destruct K as [E1|(f & E1 & E2 & E3)].
    + rewrite E1. cbn [rbind]. destruct (IH (done ++ [e]) (S idx, <[idx := c]> cols)) as [(s2 & E3 & J)|(f & e' & A1 & A2 & A3 & A4)].
      { split; cbn.
        - rewrite app_length. cbn. lia.
        - rewrite insert_length. exact I2.
        - intros i e'. rewrite lookup_snoc. intros [H|[-> <-]].
          + destruct (I3 i e' H) as (c' & Q1 & Q2). exists c'. split; [|exact Q2]. rewrite list_lookup_insert_ne; [exact Q1|]. apply lookup_lt_Some in H. lia.
          + exists c. split; [|exact Hc]. rewrite <- I1. apply list_lookup_insert. lia. }
      { rewrite app_length. cbn. lia. }
      { intros m Hm. apply HT. right. exact Hm. }
      * left. exists s2. split; [exact E3|]. rewrite <- app_assoc in J. exact J.
      * right. exists f, e'. split; [exact A1|]. split; [right; exact A2|]. auto.
    + right. exists f, e. split; [exact E1|]. split; [left|]. split; [exact E2|]. rewrite E3. destruct E2 as [-> | ->]; reflexivity.
Qed.
End columns.
Lemma torch_layer_fun {F E} (nc : SLayer -> Node -> result F) (ec : option (SLayer -> Edge -> result E)) precision L : forall r, torch_layer nc ec precision L r <-> r =
  rbind (rfold (put_layer_row nc precision L) (map snd (node_iter L)) (mkLS [] (replicate (sl_num_nodes L) (mkVec3 0 0 0)) ∅)) (fun s =>
  rbind (rfold (put_layer_column ec L (l_map s)) (map snd (edge_iter (sl_edges L))) (0%nat, replicate (sl_num_edges L) (0%nat, 0%nat))) (fun c =>
  layer_finish ec s c.2)).
Proof.
  intros r. unfold torch_layer. apply then_ok.
  - intros q. apply (for_visits NodeIter _ (put_layer_row nc precision L) _ _ (list_visits snd (node_iter L))). reflexivity.
  - intros s q. apply then_ok; [|intros c w; split; intros ->; reflexivity].
    intros w. apply (for_visits EdgeIter _ (put_layer_column ec L (l_map s)) _ _ (list_visits snd (edge_iter (sl_edges L)))). reflexivity.
Qed.

(** ** Nodes and edges of a layer *)
Section layer.
Context (L : SLayer) (W : sl_wf L).
Lemma layer_node_in n : n ∈ map snd (node_iter L) <-> sl_nodes L !! n_id n = Some n.
Proof using W.
  rewrite elem_of_list_In, in_map_iff. unfold node_iter. split.
  - intros ([x n'] & <- & H). apply elem_of_list_In, elem_ascending in H. cbn in H |- *. destruct (slw_node _ W _ _ H) as [-> _]. exact H.
  - intros H. exists (n_id n, n). split; [reflexivity|]. apply elem_of_list_In, elem_ascending. exact H.
Qed.
Lemma layer_ids : map n_id (map snd (node_iter L)) = map fst (node_iter L).
Proof using W.
  rewrite map_map. apply map_ext_in. intros [x n] H. apply elem_of_list_In, (elem_ascending (sl_nodes L) (x, n)) in H. cbn in *. apply (slw_node _ W _ _ H).
Qed.
Lemma layer_count : length (map snd (node_iter L)) = sl_num_nodes L.
Proof using Type. rewrite map_length. unfold node_iter, ascending. rewrite (Permutation_length (merge_sort_Permutation _ _)). apply map_to_list_len. Qed.
Lemma layer_edge_count : length (map snd (edge_iter (sl_edges L))) = sl_num_edges L.
Proof using Type. unfold edge_iter, ascending_edges. rewrite map_length, (Permutation_length (merge_sort_Permutation _ _)). apply map_to_list_len. Qed.
Lemma layer_edge_ends e : e ∈ map snd (edge_iter (sl_edges L)) <-> ec_edges (sl_edges L) !! edge_key (e_src e) (e_tgt e) = Some e.
Proof using W.
  rewrite edge_list_in. split; [|eauto]. intros [k H]. pose proof (ecw_key _ (slw_ec _ W) _ _ H) as <-. exact H.
Qed.
Lemma sorted_ids : Sorting.Sorted.StronglySorted N.lt (map fst (node_iter L)).
Proof using Type.
  pose proof (ascending_sorted (sl_nodes L)) as H. fold (node_iter L) in H. induction H as [|x r H1 IH H2]; cbn; constructor; [exact IH|].
  apply List.Forall_forall. intros y Hy. apply in_map_iff in Hy as (z & <- & Hz). apply (proj1 (List.Forall_forall _ _) H2 z Hz).
Qed.
End layer.
