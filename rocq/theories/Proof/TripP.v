(** A loaded graph can be saved again. *)
From Coq Require Import NArith ZArith Bool List Lia.
From stdpp Require Import base list gmap fin_maps tactics.
From Verif.Model Require Import Types Mesh Attrs Node EdgeContainer SLayer DLayer Graph Binary Versioning AttrCodec Registry GraphCodec Json Rotation JsonCodec GraphJson Disk.
From Verif.Spec Require Import BinarySpec AttrSpec RegistrySpec ProgramSpec AbstractGraph GraphHistory GraphObs GraphFileSpec JsonSpec TripSpec.
From Verif.Proof Require Import Arith Keys SLayerP DLayerP GraphRep GraphSim GraphObsP CloneP TransferP TightP.
Local Open Scope N_scope.

(** *** attributes *)
Lemma kept_twice a : kept (kept a) = kept a. Proof. destruct a; reflexivity. Qed.
Lemma attrs_ok_kept a : attrs_ok a -> attrs_ok (kept a).
Proof.
  destruct a as [b|s|o|r|p|d|g|k]; try (intros H; exact H). cbn [attrs_ok kept]. unfold khronos_ok, obj_ok. cbn. intros [[H1 _] H2].
  split; [|exact H2]. split; [exact H1|]. split; [split; [reflexivity|constructor]|]. repeat split.
Qed.
Lemma json_ok_kept a : json_ok a -> json_ok (kept a).
Proof. destruct a as [b|s|o|r|p|d|g|k]; intros H; exact H. Qed.
Lemma json_exact_kept a : json_exact a -> json_exact (kept a).
Proof. destruct a as [b|s|o|r|p|d|g|k]; intros H; exact H. Qed.

(** *** slots *)
Lemma slot_used g b l p d i : Rep g b -> g_dlayer g l p = Some d ->
  ((exists n, dl_nodes d !! i = Some (Some n)) <-> N.of_nat i < two32 /\ g_lookup g !! prefix_make_id p (N.of_nat i) = Some (key_dynamic l p)).
Proof.
  intros HR Hd. destruct (rp_dinv _ _ HR _ _ _ Hd) as (Hc & _ & Hp & _).
  assert (HP : g_part g (key_dynamic l p) = Some (dl_view d)) by (unfold g_part; cbn; rewrite Hd; reflexivity).
  rewrite (rp_home _ _ HR _ _ (canon_dynamic l p)). split.
  - intros [n Hn]. split; [eapply dl_index_lt; eassumption|]. exists (dl_view d). split; [exact HP|]. cbn [dl_view sl_nodes]. exists n. apply dl_nmap_Some; [exact Hc|].
    exists i. rewrite Hp. auto.
  - intros [Hlt (L & HL & [n Hn])]. assert (L = dl_view d) as -> by congruence. cbn [dl_view sl_nodes] in Hn. apply (dl_nmap_slot d _ _ Hc) in Hn as [Hs _].
    rewrite make_id_index in Hs; [|rewrite <- Hp; apply Hc|exact Hlt]. rewrite Nat2N.id in Hs. eauto.
Qed.
Lemma slots_again h ah g b : Rep h ah -> Rep g b -> tight g -> (forall x, g_lookup g !! x = g_lookup h !! x) ->
  (forall l p d, g_dlayer h l p = Some d -> None ∉ dl_nodes d) -> forall l p d, g_dlayer g l p = Some d -> None ∉ dl_nodes d.
Proof.
  intros HRh HRg HT HL Hh l p d Hd Hin. apply elem_of_list_lookup in Hin as [i Hi]. pose proof (lookup_lt_Some _ _ _ Hi) as Hlt.
  specialize (HT l p d Hd). destruct HT as [HT _]. rewrite last_lookup in HT.
  destruct (dl_nodes d !! pred (length (dl_nodes d))) as [o|] eqn:El; [|apply lookup_ge_None in El; lia]. destruct o as [n|]; [|elim HT; reflexivity].
  destruct (proj1 (slot_used g b l p d _ HRg Hd) (ex_intro _ n El)) as [H1 H2]. rewrite HL in H2.
  destruct (proj1 (rp_home _ _ HRh _ _ (canon_dynamic l p)) H2) as (L & HP & _). unfold g_part in HP. cbn in HP. destruct (g_dlayer h l p) as [d0|] eqn:Ed0; [|discriminate].
  destruct (proj2 (slot_used h ah l p d0 _ HRh Ed0) (conj H1 H2)) as [n0 Hn0]. apply lookup_lt_Some in Hn0.
  destruct (lookup_lt_is_Some_2 (dl_nodes d0) i) as [o0 Ho0]; [lia|]. destruct o0 as [m|]; [|apply (Hh l p d0 Ed0); eapply elem_of_list_lookup_2; exact Ho0].
  destruct (proj1 (slot_used h ah l p d0 _ HRh Ed0) (ex_intro _ m Ho0)) as [H3 H4]. rewrite <- HL in H4.
  destruct (proj2 (slot_used g b l p d _ HRg Hd) (conj H3 H4)) as [m' Hm']. congruence.
Qed.

(** *** graphs *)
Lemma loaded_data h g x k t a : loaded_from h g -> node_data g x = Some (k, t, a) -> exists a0, node_data h x = Some (k, t, a0) /\ a = kept a0.
Proof.
  intros (_ & _ & HN & _) H. rewrite HN in H. destruct (node_data h x) as [[[k0 t0] a0]|]; [|discriminate]. cbn in H. injection H as <- <- <-. eauto.
Qed.
Lemma loaded_trans a b c : loaded_from a b -> loaded_from b c -> loaded_from a c.
Proof.
  intros (A1 & A2 & A3 & A4) (B1 & B2 & B3 & B4). split; [congruence|]. split; [intros l; rewrite B2; apply A2|]. split.
  - intros x. rewrite B3, A3. destruct (node_data a x) as [[[k t] at0]|]; [|reflexivity]. cbn. rewrite kept_twice. reflexivity.
  - intros u v. rewrite B4. apply A4.
Qed.
Lemma lookup_of_data h ah x : Rep h ah -> g_lookup h !! x = (fun d => fst (fst d)) <$> node_data h x.
Proof. intros HR. rewrite (rp_lookup _ _ HR), (obs_data h ah HR). unfold a_key. destruct (ag_nodes ah !! x); reflexivity. Qed.
Lemma saveable_again h g : reachable h -> saveable h -> reachable g -> loaded_from h g -> tight g -> (g_mesh g = g_mesh h \/ g_mesh g = None) -> saveable g.
Proof.
  intros Hh HS Hg HL HT HM. destruct (reachable_RepL h Hh) as [ah HRh]. destruct (reachable_RepL g Hg) as [b HRg]. pose proof HL as (L1 & L2 & L3 & L4).
  constructor.
  - rewrite L1. apply HS.
  - intros x k t a H. destruct (loaded_data h g x k t a HL H) as (a0 & H0 & ->). destruct (sv_node h HS _ _ _ _ H0) as (F1 & F2 & F3 & F4). auto using attrs_ok_kept.
  - intros u v e H. rewrite L4 in H. apply (sv_edge h HS _ _ _ H).
  - intros m H. destruct HM as [E|E]; rewrite E in H; [|discriminate]. apply (sv_mesh h HS _ H).
  - intros x k t a H. destruct (loaded_data h g x k t a HL H) as (a0 & H0 & ->). apply (sv_static h HS _ _ _ _ H0).
  - intros x k t a H. destruct (loaded_data h g x k t a HL H) as (a0 & H0 & ->). rewrite L1. apply (sv_dynamic h HS _ _ _ _ H0).
  - apply (slots_again h ah g b (proj1 HRh) (proj1 HRg) HT); [|apply (sv_slots h HS)].
    intros x. rewrite (lookup_of_data g b x (proj1 HRg)), (lookup_of_data h ah x (proj1 HRh)), L3. destruct (node_data h x) as [[[k t] a]|]; reflexivity.
Qed.
Lemma lossless_again h g : json_lossless h -> loaded_from h g -> (g_mesh g = g_mesh h \/ g_mesh g = None) -> json_lossless g.
Proof.
  intros (HS & HX & HMX) HL HM. pose proof HL as (L1 & L2 & L3 & L4). split; [constructor|split].
  - rewrite L1. apply HS.
  - intros x k t a H. destruct (loaded_data h g x k t a HL H) as (a0 & H0 & ->). destruct (js_node h HS _ _ _ _ H0) as (F1 & F2 & F3 & F4). auto using json_ok_kept.
  - intros u v e H. rewrite L4 in H. apply (js_edge h HS _ _ _ H).
  - intros m H. destruct HM as [E|E]; rewrite E in H; [|discriminate]. apply (js_mesh h HS _ H).
  - intros x k t a H. destruct (loaded_data h g x k t a HL H) as (a0 & H0 & ->). apply (js_static h HS _ _ _ _ H0).
  - intros x k t a H. destruct (loaded_data h g x k t a HL H) as (a0 & H0 & ->). apply json_exact_kept, (HX _ _ _ _ H0).
  - intros m H. destruct HM as [E|E]; rewrite E in H; [|discriminate]. apply (HMX _ H).
Qed.
