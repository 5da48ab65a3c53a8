(** Proofs about expand_rooms (Model/Expand.v). *)
From Coq Require Import NArith Bool List Lia.
From stdpp Require Import base list gmap.
From Verif.Model Require Import Types Attrs Node EdgeContainer SLayer DLayer Graph PyConvert Expand.
From Verif.Spec Require Import AbstractGraph GraphHistory GraphObs ExpandSpec.
From Verif.Proof Require Import GraphProps GraphRep GraphObsP.
From Verif.Properties Require Import P21_Queries P26_LayerQueries.
Local Open Scope N_scope.
Set Default Proof Using "Type".

(** ** Programs that always succeed *)
Definition total {S} (P : result S -> Prop) (Post : S -> Prop) : Prop :=
  (exists r, P r) /\ forall r, P r -> exists s, r = Ok s /\ Post s.
Lemma total_then {S T} (P : result S -> Prop) (Q : S -> result T -> Prop) G Post :
  total P G -> (forall s, G s -> total (Q s) Post) -> total (py_then P Q) Post.
Proof.
  intros [[r0 H0] H1] H2. split.
  - destruct (H1 _ H0) as (s & -> & HG). destruct (H2 s HG) as [[r Hr] _]. exists r. left. eauto.
  - intros r [(s & HP & HQ)|[[HP _]|[HP _]]].
    + destruct (H1 _ HP) as (s' & E & HG). injection E as <-. destruct (H2 s HG) as [_ H]. eauto.
    + destruct (H1 _ HP) as (s' & E & _). discriminate.
    + destruct (H1 _ HP) as (s' & E & _). discriminate.
Qed.
Lemma total_eq {S} (p : result S) a (Post : S -> Prop) : p = Ok a -> Post a -> total (eq p) Post.
Proof. intros -> HP. split; [eauto|]. intros r <-. eauto. Qed.
Lemma total_ret {S} (a : S) (Post : S -> Prop) : Post a -> total (fun r => r = Ok a) Post.
Proof. intros HP. split; [eauto|]. intros r ->. eauto. Qed.
Lemma total_weaken {S} (P : result S -> Prop) (G Post : S -> Prop) : total P G -> (forall s, G s -> Post s) -> total P Post.
Proof. intros [H1 H2] H. split; [exact H1|]. intros r Hr. destruct (H2 r Hr) as (s & E & Hs). eauto. Qed.
Lemma total_iff {S} (P Q : result S -> Prop) Post : (forall r, P r <-> Q r) -> total P Post -> total Q Post.
Proof. intros H [[r H1] H2]. split; [exists r; apply H, H1|]. intros r' Hr. apply H2, H, Hr. Qed.
Section over.
Context {A S : Type} (body : S -> A -> result S -> Prop) (Inv : list A -> S -> Prop).
Lemma total_each l : forall d s, Inv d s -> (forall d s x, x ∈ l -> Inv d s -> total (body s x) (Inv (x :: d))) ->
  total (py_each body l s) (fun s' => Inv (rev_append l d) s').
Proof.
  induction l as [|x l IH]; intros d s Hs HB.
  - split; [eexists; constructor|]. intros r H. inversion H; subst. eauto.
  - destruct (HB d s x) as [[r0 H0] H1]; [left|exact Hs|]. destruct (H1 _ H0) as (s1 & -> & Hs1).
    assert (HB' : forall d s y, y ∈ l -> Inv d s -> total (body s y) (Inv (y :: d))) by (intros; apply HB; [right|]; assumption).
    split.
    + destruct (IH (x :: d) s1 Hs1 HB') as [[r Hr] _]. exists r. eapply each_step; eauto.
    + intros r H. inversion H as [|? ? ? s2 ? B1 E1|? ? ? B1|? ? ? B1]; subst.
      * destruct (H1 _ B1) as (s' & E & Hs'). injection E as <-. exact (proj2 (IH _ _ Hs' HB') _ E1).
      * destruct (H1 _ B1) as (s' & E & _). discriminate.
      * destruct (H1 _ B1) as (s' & E & _). discriminate.
Qed.
Lemma total_over xs s : Inv [] s -> (forall d s x, x ∈ xs -> Inv d s -> total (body s x) (Inv (x :: d))) ->
  total (py_over body xs s) (fun s' => exists d, Inv d s' /\ forall x, x ∈ d <-> x ∈ xs).
Proof.
  intros Hs HB. split.
  - destruct (total_each xs [] s Hs HB) as [[r Hr] _]. exists r, xs. auto.
  - intros r (l & Hl & Hr). assert (HB' : forall d s x, x ∈ l -> Inv d s -> total (body s x) (Inv (x :: d))).
    { intros d s0 x Hx. apply HB. rewrite <- Hl. exact Hx. }
    destruct (total_each l [] s Hs HB') as [_ H]. destruct (H r Hr) as (s' & -> & HI). exists s'. split; [reflexivity|].
    eexists. split; [exact HI|]. intros x. rewrite <- Hl, rev_append_rev, !elem_of_list_In, app_nil_r, <- in_rev. reflexivity.
Qed.
End over.

(** ** What nodes show *)
Lemma known_node g x : reachable g -> (g_has_node g x = true <-> exists k, layer_of g x = Some k).
Proof. intros _. unfold g_has_node, layer_of, g_layer_for_node. rewrite bool_decide_eq_true. split; intros [k Hk]; eauto. Qed.
Lemma get_node g x : reachable g -> g_has_node g x = true -> exists n, g_get_node g x = Ok n /\ node_at g x = Some n /\ n_id n = x.
Proof.
  intros Hr Hx. destruct (node_storage g x Hr) as (H1 & H2 & _). apply H1 in Hx as [n Hn]. exists n. split; [exact Hn|].
  split; [|apply (H2 _ Hn)]. unfold g_get_node in Hn. unfold node_at. destruct (g_find_node g x) as [[m|]| |]; cbn in Hn; congruence.
Qed.
Lemma node_at_known g x n : reachable g -> node_at g x = Some n -> g_has_node g x = true.
Proof.
  intros Hr Hn. apply node_storage; [exact Hr|]. exists n. unfold g_get_node. unfold node_at in Hn.
  destruct (g_find_node g x) as [[m|]| |]; cbn; congruence.
Qed.
Lemma same_nodes_layer g h x : reachable g -> reachable h -> same_nodes g h -> layer_of h x = layer_of g x.
Proof.
  intros Hg Hh H. specialize (H x). unfold node_data in H.
  assert (K : forall f, reachable f -> (exists k, layer_of f x = Some k) -> exists n, node_at f x = Some n).
  { intros f Hf Hk. apply known_node in Hk; [|exact Hf]. destruct (get_node f x Hf Hk) as (n & _ & Hn & _). eauto. }
  pose proof (K g Hg) as Kg. pose proof (K h Hh) as Kh.
  destruct (layer_of g x) as [kg|] eqn:Eg, (layer_of h x) as [kh|] eqn:Eh; try reflexivity.
  - destruct Kg as [n Hn]; [eauto|]. destruct Kh as [m Hm]; [eauto|]. rewrite Hn, Hm in H. injection H as -> _ _. reflexivity.
  - destruct Kg as [n Hn]; [eauto|]. rewrite Hn in H. discriminate.
  - destruct Kh as [n Hn]; [eauto|]. rewrite Hn in H. discriminate.
Qed.
Lemma sib_shown g x n y : reachable g -> node_at g x = Some n -> (y ∈ n_sib n <-> siblings g x y).
Proof.
  intros Hr Hn. pose proof (node_at_known g x n Hr Hn) as Hx. apply known_node in Hx as [kx Hkx]; [|exact Hr].
  assert (M : forall m ky, node_at g y = Some m -> layer_of g y = Some ky -> (y ∈ n_sib n <-> adjacent g x y /\ lk_layer ky = lk_layer kx))
    by (intros m ky Hm Hky; exact (proj2 (proj2 (links_mirror g x y n m kx ky Hr Hn Hm Hkx Hky)))).
  split.
  - intros Hy. pose proof (links_known g x n y Hr Hn (or_intror (or_intror Hy))) as Hk.
    destruct (get_node g y Hr Hk) as (m & _ & Hm & _). apply known_node in Hk as [ky Hky]; [|exact Hr].
    destruct (proj1 (M m ky Hm Hky) Hy) as [Ha Hl]. split; [exact Ha|]. exists kx, ky. auto.
  - intros [Ha (kx' & ky & Hkx' & Hky & Hl)]. destruct (edge_ends g x y Hr Ha) as (_ & _ & Hk).
    destruct (get_node g y Hr Hk) as (m & _ & Hm & _). apply (M m ky Hm Hky). split; [exact Ha|]. congruence.
Qed.
Lemma parent_shown g x n p : reachable g -> node_at g x = Some n -> (node_get_parent n = Some p <-> room_of g x p).
Proof. intros Hr Hn. apply (C22_parent_queries g x n Hr Hn). Qed.
Lemma has_parent_shown g x n : reachable g -> node_at g x = Some n -> (node_has_parent n = false <-> unassigned g x).
Proof.
  intros Hr Hn. pose proof (proj1 (C22_parent_queries g x n Hr Hn)) as H. rewrite <- not_true_iff_false, H. unfold unassigned, room_of. split; [intros K p Hp; apply K; exists p; exact Hp|intros K [p Hp]; exact (K p Hp)].
Qed.
Lemma no_parent_shown g x n : reachable g -> node_at g x = Some n -> (node_get_parent n = None <-> unassigned g x).
Proof.
  intros Hr Hn. split.
  - intros E p Hp. apply (parent_shown g x n p Hr Hn) in Hp. congruence.
  - intros H. destruct (node_get_parent n) as [p|] eqn:E; [|reflexivity]. apply (parent_shown g x n p Hr Hn) in E. destruct (H p E).
Qed.

(** ** Adding edges without attributes *)
Record ext (h : Graph) (E : N -> N -> Prop) (k : Graph) : Prop := {
  ext_reach : reachable k;
  ext_nodes : same_nodes h k;
  ext_layers : forall l, g_has_layer k l = g_has_layer h l;
  ext_adj : forall u v, adjacent k u v <-> adjacent h u v \/ E u v \/ E v u;
  ext_old : forall u v e, edge_at h u v = Some e -> edge_at k u v = Some e;
  ext_new : forall u v e, edge_at h u v = None -> edge_at k u v = Some e -> e_info e = ea_default
}.
Lemma ext_refl h : reachable h -> ext h (fun _ _ => False) h.
Proof. intros Hr. split; [exact Hr|intros x; reflexivity|reflexivity|tauto|auto|]. intros u v e H1 H2. congruence. Qed.
Lemma ext_trans h E k E' l : ext h E k -> ext k E' l -> ext h (fun u v => E u v \/ E' u v) l.
Proof.
  intros [A1 A2 A3 A4 A5 A6] [B1 B2 B3 B4 B5 B6]. split.
  - exact B1.
  - intros x. rewrite (B2 x). apply A2.
  - intros x. rewrite B3. apply A3.
  - intros u v. rewrite B4, A4. tauto.
  - auto.
  - intros u v e H1 H2. destruct (edge_at k u v) as [e'|] eqn:E1; [|eauto]. pose proof (B5 _ _ _ E1). assert (e = e') as -> by congruence. eauto.
Qed.
Lemma ext_iff h E E' k : ext h E k -> (forall u v, E u v \/ E v u <-> E' u v \/ E' v u) -> ext h E' k.
Proof. intros [A1 A2 A3 A4 A5 A6] H. split; auto. intros u v. rewrite A4, H. reflexivity. Qed.
Lemma ext_layer h E k x : reachable h -> ext h E k -> layer_of k x = layer_of h x.
Proof. intros Hh [A1 A2 _ _ _ _]. apply same_nodes_layer; assumption. Qed.
Lemma ext_known h E k x : reachable h -> ext h E k -> g_has_node k x = g_has_node h x.
Proof. intros Hh HE. unfold g_has_node. change (g_lookup k !! x) with (layer_of k x). rewrite (ext_layer h E k x Hh HE). reflexivity. Qed.
Lemma has_layer_rep g g' a : Rep g a -> forall a', Rep g' a' -> ag_layers a' = ag_layers a -> forall l, g_has_layer g' l = g_has_layer g l.
Proof. intros H a' H' E l. unfold g_has_layer. apply bool_decide_ext. rewrite (rp_layers _ _ H), (rp_layers _ _ H'), E. reflexivity. Qed.

Lemma insert_ext h u v : reachable h -> u <> v -> g_has_node h u = true -> g_has_node h v = true ->
  exists b k, g_insert_edge h u v None = Ok (b, k) /\ ext h (fun x y => x = u /\ y = v) k.
Proof.
  intros Hr Huv Hu Hv. destruct (insert_edge_effect h u v None Hr) as (b & k & E & Hk & Hs & Hb & Hf & Ht).
  exists b, k. split; [exact E|].
  assert (HL : forall l, g_has_layer k l = g_has_layer h l).
  { assert (Ha : allowed h (GInsertEdge u v None)) by exact Logic.I. destruct (reachable_step h _ Hr Ha) as (a & [HR _] & H). cbn [g_step] in H. rewrite E in H.
    destruct H as (_ & [HR' _] & _). eapply has_layer_rep; [exact HR|exact HR'|]. cbn. unfold a_insert_edge. destruct (decide _); reflexivity. }
  assert (AH : forall x y, adjacent h x y <-> is_Some (edge_at h x y)) by (intros; apply edges_symmetric; exact Hr).
  assert (AK : forall x y, adjacent k x y <-> is_Some (edge_at k x y)) by (intros; apply edges_symmetric; exact Hk).
  destruct b.
  - specialize (Ht eq_refl). destruct (proj1 Hb eq_refl) as (_ & _ & _ & Hn). split; [exact Hk|exact Hs|exact HL| | |].
    + intros x y. rewrite AK, AH, Ht. destruct (decide (same_pair x y u v)) as [Hp|Hp]; unfold same_pair in Hp.
      * split; [intros _|eauto]. tauto.
      * tauto.
    + intros x y e He. rewrite Ht. destruct (decide _) as [Hp|Hp]; [|exact He]. exfalso. apply Hn, AH.
      destruct Hp as [[-> ->]|[-> ->]]; [eauto|]. rewrite (proj1 (proj2 (edges_symmetric h u v Hr))). eauto.
    + intros x y e He. rewrite Ht. destruct (decide _) as [Hp|Hp]; [|congruence]. intros [= <-]. reflexivity.
  - specialize (Hf eq_refl). assert (Hn : adjacent h u v).
    { destruct (edge_at h u v) eqn:Ee; [apply AH; eauto|]. assert (false = true); [|discriminate]. apply Hb. split; [exact Huv|]. split; [exact Hu|]. split; [exact Hv|].
      rewrite AH, Ee. intros [? ?]. discriminate. }
    split; [exact Hk|exact Hs|exact HL| | |].
    + intros x y. rewrite AK, AH, (Hf x y). split; [tauto|]. intros [H|[[-> ->]|[-> ->]]]; [exact H|apply AH, Hn|]. apply AH in Hn.
      rewrite <- (proj1 (proj2 (edges_symmetric h u v Hr))). exact Hn.
    + intros x y e He. rewrite (Hf x y). exact He.
    + intros x y e He. rewrite (Hf x y). congruence.
Qed.
Lemma get_edge_ext h x s : reachable h -> adjacent h x s -> exists e k, g_get_edge h x s = Ok (e, k) /\ ext h (fun _ _ => False) k.
Proof.
  intros Hr Ha. pose proof (proj2 (proj2 (C24_edge_queries h x s Hr))) as H.
  apply edges_symmetric in Ha; [|exact Hr]. destruct Ha as [e He]. rewrite He in H. destruct H as (k & E & Hk & Hn & Hs & _).
  exists e, k. split; [exact E|]. split; [exact Hk|exact Hn| | | |].
  - unfold g_get_edge in E. destruct (g_find_edge h x s) as [[o k']| |] eqn:Ef; [|discriminate|discriminate]. cbn in E. destruct o; [|discriminate]. cbn in E.
    injection E as _ <-. assert (AL : allowed h (GFindEdge x s)) by exact Logic.I. destruct (reachable_step h _ Hr AL) as (a & [HR _] & H). cbn [g_step] in H. rewrite Ef in H. cbn in H.
    destruct H as (_ & [HR' _] & _). eapply has_layer_rep; [exact HR|exact HR'|]. destruct (decide _); reflexivity.
  - intros u v. rewrite (proj1 (proj2 (proj2 (edges_symmetric k u v Hk)))), (proj1 (proj2 (proj2 (edges_symmetric h u v Hr)))), (Hs u v). tauto.
  - intros u v e' He'. rewrite (Hs u v). exact He'.
  - intros u v e' He'. rewrite (Hs u v). congruence.
Qed.
