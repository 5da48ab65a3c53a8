(** The functions of mp3d.py keep the mesh. *)
From Coq Require Import NArith ZArith Bool List Lia.
From stdpp Require Import base list gmap.
From Verif.Model Require Import Types Mesh Attrs Node EdgeContainer SLayer DLayer Graph PyConvert Expand Repartition Label.
From Verif.Spec Require Import AbstractGraph GraphHistory GraphObs.
From Verif.Proof Require Import GraphProps GraphMesh CloneP.
Local Open Scope N_scope.
Local Open Scope list_scope.
Set Default Proof Using "Type".

Lemma then_ok {S T} (P : result S -> Prop) (Q : S -> result T -> Prop) t : py_then P Q (Ok t) -> exists s, P (Ok s) /\ Q s (Ok t).
Proof. intros [H|[[_ H]|[_ H]]]; [exact H|discriminate|discriminate]. Qed.
Lemma each_ok {A S X} (f : S -> X) (body : S -> A -> result S -> Prop) l : (forall s x s', body s x (Ok s') -> f s' = f s) ->
  forall s s', py_each body l s (Ok s') -> f s' = f s.
Proof.
  intros HB. induction l as [|x l IH]; intros s s' H; inversion H as [|? ? ? s1 ? H1 H2| |]; subst; [reflexivity|].
  rewrite (IH _ _ H2). apply (HB _ _ _ H1).
Qed.
Lemma over_ok {A S X} (f : S -> X) (body : S -> A -> result S -> Prop) l : (forall s x s', body s x (Ok s') -> f s' = f s) ->
  forall s s', py_over body l s (Ok s') -> f s' = f s.
Proof. intros HB s s' (l' & _ & H). apply (each_ok f body l' HB s s' H). Qed.
Lemma insert_mesh g u v i b g' : g_insert_edge g u v i = Ok (b, g') -> g_mesh g' = g_mesh g.
Proof. intros E. pose proof (keepm_insert_edge g u v i) as K. rewrite E in K. exact K. Qed.
Lemma remove_mesh g x b g' : g_remove_node g x = Ok (b, g') -> g_mesh g' = g_mesh g.
Proof. intros E. pose proof (keepm_remove_node g x) as K. rewrite E in K. exact K. Qed.
Lemma set_attrs_mesh g x a b g' : g_set_node_attributes g x a = Ok (b, g') -> g_mesh g' = g_mesh g.
Proof.
  intros E. assert (K : keepm g (g_step g (GSetNodeAttrs x a)) snd) by (apply step_mesh; discriminate). cbn in K. rewrite E in K. exact K.
Qed.
Lemma get_edge_mesh g u v e g' : g_get_edge g u v = Ok (e, g') -> g_mesh g' = g_mesh g.
Proof.
  unfold g_get_edge, g_find_edge. intros E. destruct (g_lookup g !! u) as [sk|]; [|discriminate]. destruct (g_lookup g !! v) as [tk|]; [|discriminate]. cbn in E.
  destruct (key_eqb sk tk).
  - destruct (g_layer_at g sk) as [b| |]; [|discriminate|discriminate]. cbn in E. destruct (at_ _) as [e0| |]; [|discriminate|discriminate]. cbn in E. injection E as E1 E2; subst g'. apply mesh_put_layer.
  - cbn in E. destruct (at_ _) as [e0| |]; [|discriminate|discriminate]. cbn in E. injection E as E1 E2; subst g'. apply mesh_with_pair.
Qed.
Lemma clone_mesh g c : reachable g -> g_clone g = Ok c -> g_mesh c = g_mesh g.
Proof.
  intros Hr E. destruct (clone_behaves g [] [] g Hr) as (c' & _ & E2 & _ & _ & M & _); [exact Logic.I|constructor|reflexivity|]. congruence.
Qed.

(** ** expand_rooms *)
Lemma expand_one_mesh node room s x s' : expand_one node room s x (Ok s') -> g_mesh (snd s') = g_mesh (snd s).
Proof.
  unfold expand_one. intros H. apply then_ok in H as (n & _ & H). destruct (node_has_parent n); [injection H as ->; reflexivity|].
  apply then_ok in H as ([e h] & E & H). injection H as ->. cbn. exact (get_edge_mesh _ _ _ _ _ E).
Qed.
Lemma expand_node_mesh node room s s' : expand_node node room s (Ok s') -> g_mesh (snd s') = g_mesh (snd s).
Proof. intros H. apply (over_ok (fun s => g_mesh (snd s)) _ _ (expand_one_mesh node room) _ _ H). Qed.
Lemma first_one_mesh s x s' : first_one s x (Ok s') -> g_mesh (snd s') = g_mesh (snd s).
Proof.
  unfold first_one. intros H. apply then_ok in H as (n & _ & H). destruct (node_get_parent n); [exact (expand_node_mesh _ _ _ _ H)|injection H as ->; reflexivity].
Qed.
Lemma flood_step_mesh s r : flood_step s r -> forall s', r = Ok s' -> g_mesh (fl_graph s') = g_mesh (fl_graph s).
Proof.
  intros H s' ->. inversion H as [|f f' w x room vis g r' _ _ K]; subst; [reflexivity|].
  apply then_ok in K as ([b h] & E & K). apply then_ok in K as (n & _ & K). apply then_ok in K as (s2 & E2 & K). injection K as ->. cbn.
  rewrite (expand_node_mesh _ _ _ _ E2). exact (insert_mesh _ _ _ _ _ _ E).
Qed.
Lemma flood_mesh s r : flood_loop s r -> forall g', r = Ok g' -> g_mesh g' = g_mesh (fl_graph s).
Proof.
  induction 1 as [vis g|s s' r H1 _ IH|s _|s _]; intros g' E; try discriminate.
  - injection E as <-. reflexivity.
  - rewrite (IH g' E). exact (flood_step_mesh s _ H1 s' eq_refl).
Qed.
Lemma join_mesh x g y g' : join_room x g y (Ok g') -> g_mesh g' = g_mesh g.
Proof. unfold join_room. intros H. apply then_ok in H as ([b h] & E & H). injection H as ->. exact (insert_mesh _ _ _ _ _ _ E). Qed.
Lemma room_edges_mesh g x g' : room_edges_of g x (Ok g') -> g_mesh g' = g_mesh g.
Proof.
  unfold room_edges_of. intros H. apply then_ok in H as (n & _ & H). destruct (node_get_parent n) as [p|]; [|injection H as ->; reflexivity].
  apply then_ok in H as (ns & _ & H). exact (over_ok g_mesh _ _ (join_mesh p) _ _ H).
Qed.
Lemma assign_mesh g g' : assign_room_edges g (Ok g') -> g_mesh g' = g_mesh g.
Proof. unfold assign_room_edges. intros H. apply then_ok in H as (ids & _ & H). exact (over_ok g_mesh _ _ room_edges_mesh _ _ H). Qed.
Lemma expand_rooms_mesh g g' : reachable g -> expand_rooms g (Ok g') -> g_mesh g' = g_mesh g.
Proof.
  intros Hr H. unfold expand_rooms in H. apply then_ok in H as (s & S & H). apply then_ok in H as (h & F & H). apply then_ok in H as (ids & _ & H).
  rewrite (assign_mesh _ _ H), (flood_mesh _ _ F h eq_refl). cbn. unfold expand_start in S. apply then_ok in S as (c & C & S). apply then_ok in S as (l & _ & S).
  rewrite (over_ok (fun s => g_mesh (snd s)) _ _ first_one_mesh _ _ S). exact (clone_mesh g c Hr C).
Qed.

(** ** repartition_rooms *)
Lemma drop_mesh g x g' : drop_node g x (Ok g') -> g_mesh g' = g_mesh g.
Proof. unfold drop_node. intros H. apply then_ok in H as ([b h] & E & H). injection H as ->. exact (remove_mesh _ _ _ _ E). Qed.
Lemma add_room_mesh b g room g' : add_room b g room (Ok g') -> g_mesh g' = g_mesh g.
Proof.
  unfold add_room. intros H. rewrite <- (keepm_emplace g ROOMS (nr_id room) (nr_attrs room)).
  destruct b as [b|]; [exact (join_mesh _ _ _ _ H)|injection H as ->; reflexivity].
Qed.
Lemma place_room_mesh rooms g x g' : place_room rooms g x (Ok g') -> g_mesh g' = g_mesh g.
Proof.
  unfold place_room. intros H. apply then_ok in H as (pos & _ & H). destruct (List.find _ rooms); [exact (join_mesh _ _ _ _ H)|injection H as ->; reflexivity].
Qed.
Lemma repartition_mesh rooms check bad g g' : reachable g -> repartition_rooms rooms check bad g (Ok g') -> g_mesh g' = g_mesh g.
Proof.
  intros Hr H. unfold repartition_rooms in H. apply then_ok in H as (c1 & H1 & H). apply then_ok in H as (c2 & H2 & H). apply then_ok in H as (c3 & H3 & H).
  apply then_ok in H as (c4 & H4 & H). apply then_ok in H as (bad' & _ & H).
  rewrite (each_ok g_mesh _ _ drop_mesh _ _ H), (assign_mesh _ _ H4).
  apply then_ok in H3 as (ids & _ & H3). rewrite (over_ok g_mesh _ _ (place_room_mesh rooms) _ _ H3).
  unfold with_rooms in H2. apply then_ok in H2 as (bs & _ & l & _ & H2). rewrite (each_ok g_mesh _ _ (add_room_mesh (head l)) _ _ H2).
  unfold without_rooms in H1. apply then_ok in H1 as (c & C & H1). apply then_ok in H1 as (old & _ & H1).
  rewrite (over_ok g_mesh _ _ drop_mesh _ _ H1). exact (clone_mesh g c Hr C).
Qed.

(** ** add_gt_room_label *)
Lemma label_loop_mesh {P S} (area : list NodeAttrs -> option P) (iou : GtRoom -> P -> option S) less below gts polygon l g r :
  label_loop area iou less below gts polygon l g r -> g_mesh (fst r) = g_mesh g.
Proof.
  induction 1 as [|? ? ? ? _ _ IH|? ? ? ? ? ? ? _ E _ IH|? ? ? _|? ? ? _]; try reflexivity; [exact IH|].
  rewrite IH. exact (set_attrs_mesh _ _ _ _ _ E).
Qed.
Lemma label_mesh {P S} (area : list NodeAttrs -> option P) (iou : GtRoom -> P -> option S) less below gts polygon g r :
  add_gt_room_label area iou less below gts polygon g r -> g_mesh (fst r) = g_mesh g.
Proof.
  unfold add_gt_room_label. destruct (layer_nodes g ROOMS); [intros (l & _ & H); exact (label_loop_mesh _ _ _ _ _ _ _ _ _ H)|intros ->; reflexivity|intros ->; reflexivity].
Qed.
