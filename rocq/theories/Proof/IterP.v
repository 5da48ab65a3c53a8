(** The Python iterators see what they should. *)
From Coq Require Import NArith Bool List Lia.
From stdpp Require Import base list gmap fin_maps sorting tactics.
From Verif.Model Require Import Types Attrs Node EdgeContainer SLayer DLayer Graph Views Iterators.
From Verif.Spec Require Import AbstractGraph GraphHistory GraphObs IterSpec.
From Verif.Proof Require Import Arith Keys SLayerP DLayerP GraphRep GraphEdges GraphAttrs GraphObsP GraphCounts MatrixP StaleP StaleP2 CloneP.
Local Open Scope N_scope.
Local Open Scope list_scope.

(** ** Loops *)
Lemma yields_rest {I A} (c : IterClass I A) (Inv : I -> Prop) (rest : I -> list A) :
  (forall it, Inv it -> match rest it with
    | [] => ic_done c it = true
    | x :: r => ic_done c it = false /\ ic_get c it = Ok x /\ exists it', ic_next c it = Ok it' /\ Inv it' /\ rest it' = r end) ->
  forall it, Inv it -> visits c it (rest it).
Proof.
  intros H. assert (K : forall l it it0 b, (if b : bool then Ok it0 else ic_next c it0) = Ok it -> Inv it -> rest it = l -> exists s, yields c (it0, b) l s /\ py_next c s = Ok (None, s)).
  { induction l as [|x r IH]; intros it it0 b E Hi Hl; specialize (H it Hi); rewrite Hl in H.
    - exists (it, true). split.
      + apply yields_stop. unfold py_next. cbn [fst snd]. rewrite E. cbn [rbind]. rewrite H. reflexivity.
      + unfold py_next. cbn [fst snd rbind]. rewrite H. reflexivity.
    - destruct H as (H1 & H2 & it' & H3 & H4 & H5). destruct (IH it' it false H3 H4 H5) as (s & Y & S). exists s. split; [|exact S].
      eapply yields_item; [|exact Y]. unfold py_next. cbn [fst snd]. rewrite E. cbn [rbind]. rewrite H1, H2. reflexivity. }
  intros it Hi. apply (K (rest it) it it true); auto.
Qed.

Lemma list_visits {X A} (f : X -> A) (it : list X) : visits (mkIter list_next at_end (fun it => let! x := list_get it in Ok (f x))) it (map f it).
Proof.
  apply (yields_rest _ (fun _ => True) (map f)); [|exact I]. intros [|x r] _; cbn; [reflexivity|]. eauto 6.
Qed.

Section TwoLevel.
  Definition gn_all (ls : list (LayerId * SLayer)) : list Node := concat (map (fun x => map snd (node_iter (snd x))) ls).
  Definition gn_ok (it : GNIter) : Prop := gn_valid it = true -> gn_nodes it <> [] /\ gn_layers it <> [].
  Definition gn_rest (it : GNIter) : list Node := if gn_valid it then map snd (gn_nodes it) ++ gn_all (tail (gn_layers it)) else [].
  Lemma gn_set_ok ls : gn_ok (gn_set ls) /\ gn_rest (gn_set ls) = gn_all ls.
  Proof.
    unfold gn_ok, gn_rest, gn_all. induction ls as [|x r IH]; cbn; [split; [discriminate|reflexivity]|].
    unfold node_iter. destruct (ascending (sl_nodes (snd x))) as [|y q] eqn:E; cbn; [exact IH|]. split; [intros _; split; discriminate|reflexivity].
  Qed.
  Lemma global_nodes_visited g : visits GlobalNodeIter (gn_begin g) (gn_all (layer_iter g)).
  Proof.
    destruct (gn_set_ok (layer_iter g)) as [H <-]. apply (yields_rest GlobalNodeIter gn_ok gn_rest); [|exact H].
    intros [v ns ls] Hi. unfold gn_ok, gn_rest in *. cbn in Hi |- *. destruct v; [|reflexivity]. destruct (Hi eq_refl) as [Hn Hl].
    destruct ns as [|x r]; [congruence|]. destruct ls as [|y q]; [congruence|]. cbn. split; [reflexivity|]. split; [reflexivity|].
    unfold gn_next. cbn. destruct r as [|z r]; cbn.
    - exists (gn_set q). destruct (gn_set_ok q). auto.
    - exists (mkGN true (z :: r) (y :: q)). split; [reflexivity|]. split; [|reflexivity]. intros _. split; discriminate.
  Qed.

  Definition di_all (ls : list (LayerId * gmap N DLayer)) : list DLayer := concat (map (fun x => map snd (ascending (snd x))) ls).
  Definition di_ok (it : DLIter) : Prop := di_valid it = true -> di_inner it <> [] /\ di_outer it <> [].
  Definition di_rest (it : DLIter) : list DLayer := if di_valid it then map snd (di_inner it) ++ di_all (tail (di_outer it)) else [].
  Lemma di_set_ok ls : di_ok (di_set ls) /\ di_rest (di_set ls) = di_all ls.
  Proof.
    unfold di_ok, di_rest, di_all. induction ls as [|x r IH]; cbn; [split; [discriminate|reflexivity]|].
    destruct (ascending (snd x)) as [|y q] eqn:E; cbn; [exact IH|]. split; [intros _; split; discriminate|reflexivity].
  Qed.
  Lemma dynamic_layers_visited g : visits DynamicLayerIter (di_begin g) (di_all (ascending (g_dlayers g))).
  Proof.
    destruct (di_set_ok (ascending (g_dlayers g))) as [H <-]. apply (yields_rest DynamicLayerIter di_ok di_rest); [|exact H].
    intros [v ns ls] Hi. unfold di_ok, di_rest in *. cbn in Hi |- *. destruct v; [|reflexivity]. destruct (Hi eq_refl) as [Hn Hl].
    destruct ns as [|x r]; [congruence|]. destruct ls as [|y q]; [congruence|]. cbn. split; [reflexivity|]. split; [reflexivity|].
    unfold di_next. cbn. destruct r as [|z r]; cbn.
    - exists (di_set q). destruct (di_set_ok q). auto.
    - exists (mkDLI true (z :: r) (y :: q)). split; [reflexivity|]. split; [|reflexivity]. intros _. split; discriminate.
  Qed.

  Definition ge_all (ls : list (LayerId * SLayer)) : list Edge := concat (map (fun x => map snd (edge_iter (sl_edges (snd x)))) ls).
  Definition ge_ok (it : GEIter) : Prop := ge_started it = false -> ge_edges it <> [] /\ ge_layers it <> [].
  Definition ge_rest (it : GEIter) : list Edge :=
    (if ge_started it then [] else map snd (ge_edges it) ++ ge_all (tail (ge_layers it))) ++ map snd (ge_inter it).
  Lemma ge_set_ok ls inter : ge_ok (ge_set ls inter) /\ ge_rest (ge_set ls inter) = ge_all ls ++ map snd inter.
  Proof.
    unfold ge_ok, ge_rest, ge_all. induction ls as [|x r IH]; cbn; [split; [discriminate|reflexivity]|].
    unfold edge_iter. destruct (ascending_edges (ec_edges (sl_edges (snd x)))) as [|y q] eqn:E; cbn; [exact IH|]. split; [intros _; split; discriminate|reflexivity].
  Qed.
  Lemma global_edges_visited g : visits GlobalEdgeIter (ge_begin g) (ge_all (layer_iter g) ++ map snd (edge_iter (g_inter g))).
  Proof.
    destruct (ge_set_ok (layer_iter g) (edge_iter (g_inter g))) as [H <-]. apply (yields_rest GlobalEdgeIter ge_ok ge_rest); [|exact H].
    intros [v es ls is] Hi. unfold ge_ok, ge_rest in *. cbn in Hi |- *. destruct v.
    - cbn. destruct is as [|x r]; cbn; [reflexivity|]. split; [reflexivity|]. split; [reflexivity|]. exists (mkGE true es ls r).
      split; [reflexivity|]. split; [discriminate|reflexivity].
    - destruct (Hi eq_refl) as [Hn Hl]. destruct es as [|x r]; [congruence|]. destruct ls as [|y q]; [congruence|]. cbn.
      split; [reflexivity|]. split; [reflexivity|]. unfold ge_next. cbn. destruct r as [|z r]; cbn.
      + exists (ge_set q is). destruct (ge_set_ok q is). auto.
      + exists (mkGE false (z :: r) (y :: q) is). split; [reflexivity|]. split; [intros _; split; discriminate|reflexivity].
  Qed.
End TwoLevel.

(** *** DynamicNodeIter *)
Fixpoint live (l : list (option Node)) : list (option Node) :=
  match l with [] => [] | Some n :: r => Some n :: live r | None :: r => live r end.
Lemma skip_null_ok b l : exists r, skip_null (Ok b) l = Ok r /\ live r = live l /\ (r = [] \/ exists n q, r = Some n :: q).
Proof.
  induction l as [|[n|] r IH]; cbn.
  - exists []. destruct b; auto.
  - exists (Some n :: r). split; [reflexivity|]. split; [reflexivity|]. right. eauto.
  - destruct IH as (q & -> & E & H). exists q. auto.
Qed.
Lemma dynamic_nodes_visited b d : exists it, dnode_iter (Ok b) d = Ok it /\ visits (DynamicNodeIter (Ok b)) it (live (dl_nodes d)).
Proof.
  destruct (skip_null_ok b (dl_nodes d)) as (r & E & H1 & H2). exists r. split; [exact E|]. rewrite <- H1.
  apply (yields_rest _ (fun it => it = [] \/ exists n q, it = Some n :: q)); [|exact H2].
  intros it [->|(n & q & ->)]; [reflexivity|]. cbn [live]. split; [reflexivity|]. split; [reflexivity|].
  destruct (skip_null_ok b q) as (r' & E' & H1' & H2'). exists r'. split; [exact E'|]. split; [exact H2'|exact H1'].
Qed.
Lemma skip_null_ub l : (live l = [] /\ skip_null UB l = UB) \/ exists n q, skip_null UB l = Ok (Some n :: q) /\ live l = Some n :: live q /\ (length q < length l)%nat.
Proof.
  induction l as [|[n|] r IH]; cbn; [left; auto|right; exists n, r; split; [reflexivity|]; split; [reflexivity|lia]|].
  destruct IH as [IH|(n & q & E & H & Hl)]; [left; exact IH|].
  right. exists n, q. split; [exact E|]. split; [exact H|lia].
Qed.
Lemma dynamic_nodes_break d :
  (live (dl_nodes d) = [] /\ dnode_iter UB d = UB) \/
  exists it, dnode_iter UB d = Ok it /\ breaks (DynamicNodeIter UB) (py_iter it) (live (dl_nodes d)).
Proof.
  assert (K : forall m n q s, (length q < m)%nat -> (if snd s : bool then Ok (fst s) else ic_next (DynamicNodeIter UB) (fst s)) = Ok (Some n :: q) -> breaks (DynamicNodeIter UB) s (Some n :: live q)).
  { induction m as [|m IH]; intros n q s Hm E; [lia|]. eapply breaks_item.
    - unfold py_next. rewrite E. cbn [rbind ic_done DynamicNodeIter at_end ic_get list_get]. reflexivity.
    - destruct (skip_null_ub q) as [[H1 H2]|(n' & q' & H1 & H2 & H3)].
      + rewrite H1. apply breaks_now. unfold py_next. cbn. rewrite H2. reflexivity.
      + rewrite H2. apply IH; [lia|]. cbn. exact H1. }
  unfold dnode_iter. destruct (skip_null_ub (dl_nodes d)) as [H|(n & q & H1 & H2 & H3)]; [left; exact H|].
  right. exists (Some n :: q). split; [exact H1|]. rewrite H2. apply (K (S (length q))); [lia|reflexivity].
Qed.

(** ** What the containers hold *)
Lemma ascending_edges_perm m : ascending_edges m ≡ₚ map_to_list m.
Proof. apply merge_sort_Permutation. Qed.
Lemma edge_list_in c e : e ∈ map snd (edge_iter c) <-> exists k, ec_edges c !! k = Some e.
Proof.
  rewrite elem_of_list_In, in_map_iff. unfold edge_iter. split.
  - intros ([k e'] & <- & H). apply elem_of_list_In in H. rewrite (ascending_edges_perm _) in H. apply elem_of_map_to_list in H. eauto.
  - intros [k H]. exists (k, e). split; [reflexivity|]. apply elem_of_list_In. rewrite (ascending_edges_perm _). apply elem_of_map_to_list, H.
Qed.

Section Graph.
  Context (g : Graph) (a : AGraph) (HR : Rep g a).

  Definition edge_pair (e : Edge) : EdgeKey := edge_key (e_src e) (e_tgt e).
  Lemma cont_lists c ec : g_cont g c = Some ec ->
    NoDup (map edge_pair (map snd (edge_iter ec))) /\
    forall e, e ∈ map snd (edge_iter ec) <-> edge_at g (e_src e) (e_tgt e) = Some e /\ cont g (e_src e) (e_tgt e) = Some c.
  Proof.
    intros Hc. assert (HK : forall k e, ec_edges ec !! k = Some e -> k = edge_pair e) by (intros k e He; apply (cont_edge g a c ec k e HR Hc He)). split.
    - assert (E : map edge_pair (map snd (edge_iter ec)) = map fst (edge_iter ec)).
      { rewrite map_map. apply map_ext_in. intros [k e] Hin. apply elem_of_list_In in Hin. unfold edge_iter in Hin. rewrite (ascending_edges_perm _) in Hin.
        apply elem_of_map_to_list in Hin. symmetry. apply HK, Hin. }
      rewrite E. unfold edge_iter. change (NoDup ((ascending_edges (ec_edges ec)).*1)). rewrite (ascending_edges_perm _). apply NoDup_fst_map_to_list.
    - intros e. rewrite edge_list_in, (obs_edge g a HR). split.
      + intros [k Hk]. destruct (cont_edge g a c ec k e HR Hc Hk) as (E & _ & Hcc). split; [|exact Hcc]. rewrite <- E. apply (cont_edge_val g a c ec k e HR Hc Hk).
      + intros [H1 H2]. destruct (cont_linked g a (e_src e) (e_tgt e) HR) as (c' & ec' & H3 & H4 & [x Hx]); [unfold a_linked; rewrite H1; eauto|].
        assert (c' = c) as -> by congruence. assert (ec' = ec) as -> by congruence. exists (edge_key (e_src e) (e_tgt e)).
        pose proof (cont_edge_val g a c ec _ x HR Hc Hx) as H5. congruence.
  Qed.
  Lemma pairs_distinct l : NoDup (map edge_pair l) ->
    forall i j e f, l !! i = Some e -> l !! j = Some f -> same_pair (e_src e) (e_tgt e) (e_src f) (e_tgt f) -> i = j.
  Proof.
    intros HN i j e f He Hf Hs. apply (NoDup_lookup _ i j (edge_pair e) HN).
    - change (map edge_pair l) with (edge_pair <$> l). rewrite list_lookup_fmap, He. reflexivity.
    - change (map edge_pair l) with (edge_pair <$> l). rewrite list_lookup_fmap, Hf. cbn. f_equal. unfold edge_pair. symmetry.
      destruct Hs as [[-> ->]|[-> ->]]; [reflexivity|apply edge_key_comm].
  Qed.
End Graph.

Section Nodes.
  Context (g : Graph) (a : AGraph) (HR : Rep g a).
  Lemma part_lists k L : canon k -> g_part g k = Some L ->
    map n_id (map snd (node_iter L)) = map fst (node_iter L) /\ lists_nodes g (eq k) (map snd (node_iter L)) /\ (forall n, n ∈ map snd (node_iter L) -> n_layer n = lk_layer k).
  Proof using HR.
    intros Hk HL. assert (HI : forall x n, sl_nodes L !! x = Some n -> layer_of g x = Some k /\ node_at g x = Some n /\ n_id n = x /\ n_layer n = lk_layer k).
    { intros x n Hn. assert (K : layer_of g x = Some k) by (apply (rp_home _ _ HR x k Hk); eauto). destruct (Rep_node_ptr _ _ _ _ HR K) as (L' & n' & HL' & Hn' & E' & _).
      assert (L' = L) as -> by congruence. assert (n' = n) as -> by congruence.
      assert (Hat : node_at g x = Some n) by (unfold node_at, g_find_node; change (g_lookup g !! x = Some k) in K; rewrite K, E'; reflexivity).
      split; [exact K|]. split; [exact Hat|]. pose proof (obs_node g a HR x) as H. rewrite Hat in H. destruct H as (k' & Hk' & _ & Hid & Hly). rewrite (obs_layer g a HR) in K. split; [exact Hid|congruence]. }
    assert (Hin : forall x n, (x, n) ∈ node_iter L <-> sl_nodes L !! x = Some n) by (intros x n; apply (elem_ascending (sl_nodes L) (x, n))).
    assert (E : map n_id (map snd (node_iter L)) = map fst (node_iter L)).
    { rewrite map_map. apply map_ext_in. intros [x n] H. apply elem_of_list_In, Hin, HI in H. apply H. }
    split; [exact E|]. split; [split|].
    - rewrite E. apply ascending_nodup.
    - intros n. rewrite elem_of_list_In, in_map_iff. split.
      + intros ([x n'] & <- & H). apply elem_of_list_In, Hin, HI in H as (H1 & H2 & H3 & _). cbn. rewrite H3. split; [exact H2|]. eauto.
      + intros [H1 (k' & H2 & <-)]. exists (n_id n, n). split; [reflexivity|]. apply elem_of_list_In, Hin.
        destruct (Rep_node_ptr _ _ _ _ HR H2) as (L' & n' & HL' & Hn' & E' & _). assert (L' = L) as -> by congruence.
        unfold node_at, g_find_node in H1. change (g_lookup g !! n_id n = Some k) in H2. rewrite H2, E' in H1. congruence.
    - intros n H. apply elem_of_list_In, in_map_iff in H as ([x n'] & <- & H). apply elem_of_list_In, Hin, HI in H. apply H.
  Qed.
End Nodes.

Lemma live_in d n : Some n ∈ live d <-> Some n ∈ d.
Proof.
  induction d as [|[m|] r IH]; cbn; [reflexivity| |]; rewrite !elem_of_cons, ?IH; [reflexivity|]. split; [auto|]. intros [?|?]; [discriminate|auto].
Qed.
Lemma live_some l : exists ns, live l = map Some ns.
Proof. induction l as [|[m|] r [ns IH]]; cbn; [exists []; reflexivity|exists (m :: ns); cbn; rewrite IH; reflexivity|eauto]. Qed.
