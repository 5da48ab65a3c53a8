(** Attribute, mesh and header readers stay inside the buffer. *)
From Coq Require Import NArith ZArith Bool List Lia.
From stdpp Require Import base list gmap.
From Verif.Model Require Import Types Mesh Attrs Binary Versioning AttrCodec.
From Verif.Spec Require Import BinarySpec.
From Verif.Proof Require Import BinaryP BinarySafe.
Local Open Scope N_scope.

Lemma ser_inside (E : fault -> Prop) (HE : E Exception) (b : bool) (HU : b = true -> E Undefined) A (c : Codec A) :
  serialisable b A c -> codec_inside E c.
Proof.
  intros H. induction H.
  - apply ci_uint; [exact HE|reflexivity].
  - apply ci_uint; [exact HE|reflexivity].
  - apply ci_uint; [exact HE|reflexivity].
  - apply ci_uint; [exact HE|reflexivity].
  - apply ci_uint; [exact HE|reflexivity].
  - apply ci_uint; [exact HE|reflexivity].
  - apply ci_int; [exact HE|reflexivity].
  - apply ci_int; [exact HE|reflexivity].
  - apply ci_int; [exact HE|reflexivity].
  - apply ci_int; [exact HE|reflexivity].
  - apply ci_int; [exact HE|reflexivity].
  - apply ci_bool; exact HE.
  - apply ci_string; exact HE.
  - apply ci_option; assumption.
  - apply ci_vector; assumption.
  - apply ci_list; assumption.
  - apply ci_array; assumption.
  - apply ci_set; assumption.
  - apply ci_map; assumption.
  - apply ci_vec3; assumption.
  - apply ci_quat; assumption.
  - apply ci_matrix; auto.
Qed.

Section Attr.
  Context (E : fault -> Prop) (HE : E Exception).
  Notation ins := (inside E).
  Notation ci := (codec_inside E).

  Ltac ser b := apply (ser_inside E HE b); [discriminate || assumption|repeat constructor].

  Lemma ci_fields {T} (fs : list (Field T)) f : Forall (fun f => ci (fd_codec f)) (f :: fs) -> ci (codec_fields (f :: fs)).
  Proof using HE.
    intros H t. inversion H as [|? ? Hf Hr]; subst. cbn [codec_fields cd_read read_fields].
    eapply (ins_weaken E 0 (1 + 0)); [reflexivity|lia|intros a H'; exact H'|].
    eapply ins_bind; [apply Hf|]. intros v _. apply ins_fields; assumption.
  Qed.
  Lemma ci_color : ci c_color.
  Proof using HE. apply ci_fields. repeat constructor; cbn [fd_codec]; ser false. Qed.
  Lemma ci_color_legacy : ci c_color_legacy.
  Proof using HE.
    intros t. cbn [cd_read c_color_legacy]. rewrite <- (N.add_0_r 1). eapply ins_bind.
    - assert (H : ci (codec_vec3 c_u8)) by ser false. apply H.
    - intros. apply ins_ret. exact I.
  Qed.
  Lemma ci_bbox env : E Undefined -> ci (c_bbox env).
  Proof using HE.
    intros HU t. cbn [cd_read c_bbox]. eapply (ins_weaken E 0 (5 + (1 + (0 + (1 + (1 + 0)))))); [reflexivity|lia|intros a H; exact H|].
    assert (Hv : ci c_vec3f) by ser false.
    eapply ins_bind; [apply ins_check_length, HE|]. intros _ _. eapply ins_bind; [apply (ci_int E HE T_INT32 4); reflexivity|]. intros ty _.
    eapply (ins_bind E 0 0) with (Q1 := fun _ => True).
    { destruct (version_ltb _ _).
      - eapply (ins_weaken E 0 (1 + (1 + 0))); [reflexivity|lia|intros a H; exact H|].
        eapply ins_bind; [apply Hv|]. intros mn _. eapply ins_bind; [apply Hv|]. intros mx _. apply ins_ret. exact I.
      - eapply ins_weaken; [| | |apply Hv]; [reflexivity|lia|intros; exact I]. }
    intros d _. eapply ins_bind; [apply Hv|]. intros c _. eapply ins_bind; [apply (ci_matrix E HE (Some 3) (Some 3) c_f32 HU); ser false|].
    intros r _. apply ins_ret. exact I.
  Qed.
  Lemma ci_nvi : ci c_nvi.
  Proof using HE.
    intros t. cbn [cd_read c_nvi]. eapply (ins_weaken E 0 (5 + (5 + (0 + (5 + (0 + (1 + (1 + 0)))))))); [reflexivity|lia|intros a H; exact H|].
    eapply ins_bind; [apply ins_check_length, HE|]. intros _ _. eapply ins_bind; [apply ins_check_length, HE|]. intros _ _.
    eapply ins_bind; [apply ins_each; ser false|]. intros b _. eapply ins_bind; [apply ins_check_length, HE|]. intros _ _.
    eapply ins_bind; [apply ins_each; ser false|]. intros p _. eapply ins_bind; [apply (ser_inside E HE false) with (c := c_u64); [discriminate|constructor]|].
    intros v _. eapply ins_bind; [apply (ser_inside E HE false) with (c := codec_option 0 c_u32); [discriminate|repeat constructor]|].
    intros l _. apply ins_ret. exact I.
  Qed.
  Lemma ci_face : ci c_face.
  Proof using HE.
    intros t. cbn [cd_read c_face]. eapply (ins_weaken E 0 (1 + 0)); [reflexivity|lia|intros a H; exact H|].
    eapply ins_bind; [apply (ser_inside E HE false) with (c := codec_array 3 c_u64); [discriminate|repeat constructor]|]. intros l _. apply ins_ret. exact I.
  Qed.
  Lemma ci_bools : ci c_bool. Proof using HE. ser false. Qed.
  Lemma ci_u64s : ci c_u64s. Proof using HE. ser false. Qed.
  Lemma ci_u32s : ci c_u32s. Proof using HE. ser false. Qed.
  Lemma ci_points : ci c_points. Proof using HE. ser false. Qed.
  Lemma ci_mesh : ci c_mesh.
  Proof using HE.
    intros t. cbn [cd_read c_mesh].
    eapply (ins_weaken E 0 (1 + (1 + (1 + (1 + (1 + (1 + (1 + (1 + (1 + (1 + 0))))))))))); [reflexivity|lia|intros a H; exact H|].
    do 4 (eapply ins_bind; [apply ci_bools|]; intros ? _). eapply ins_bind; [apply ci_points|]; intros ? _.
    eapply ins_bind; [apply ci_vector, ci_color; exact HE|]; intros ? _.
    eapply ins_bind; [apply ci_u64s|]; intros ? _. eapply ins_bind; [apply ci_u32s|]; intros ? _.
    eapply ins_bind; [apply ci_u64s|]; intros ? _. eapply ins_bind; [apply ci_vector, ci_face; exact HE|]; intros ? _.
    apply ins_ret. exact I.
  Qed.

  Definition good {T} (fs : list (Field T)) : Prop := Forall (fun f => ci (fd_codec f)) fs.
  Lemma good_lift {S T} (up : T -> S) put (fs : list (Field S)) : good fs -> good (map (lift_field up put) fs).
  Proof using. intros H. apply List.Forall_map. eapply Forall_impl; [exact H|]. intros f Hf. exact Hf. Qed.
  Lemma good_app {T} (fs gs : list (Field T)) : good fs -> good gs -> good (fs ++ gs).
  Proof using. apply Forall_app_2. Qed.
  Lemma good_base env : good (base_fields env).
  Proof using HE. apply good_app; [repeat constructor; cbn [fd_codec]; ser false|]. destruct (version_ltb _ _); repeat constructor. ser false. Qed.
  Lemma good_edge : good edge_fields.
  Proof using HE. repeat constructor; cbn [fd_codec]; ser false. Qed.
  Lemma inside_header old : ins 0 1 (cd_read c_header old) (fun _ => True).
  Proof using HE.
    cbn [cd_read c_header]. eapply (ins_weaken E 0 (1 + (1 + (1 + (1 + 0))))); [reflexivity|lia|intros a H; exact H|].
    eapply ins_bind; [apply ci_string, HE|]; intros ? _. do 3 (eapply ins_bind; [apply (ci_uint E HE T_UINT8 1); reflexivity|]; intros ? _).
    apply ins_ret. exact I.
  Qed.

  Context (HU : E Undefined).
  Ltac serm := apply (ser_inside E HE true); [intros _; exact HU|repeat constructor].
  Lemma good_sem env : good (sem_fields env).
  Proof using HE HU.
    apply good_app; [apply good_lift, good_base|]. constructor; [serm|]. constructor; [cbn [fd_codec]; destruct (version_leb _ _); [apply ci_color_legacy|apply ci_color]|].
    constructor; [apply ci_bbox, HU|]. constructor; [serm|]. constructor; [serm|]. constructor.
  Qed.
  Lemma good_nvis : ci c_nvis. Proof using HE. apply ci_vector; [exact HE|apply ci_nvi]. Qed.
  Lemma ins_attr_fields env k : ins 0 0 (read_attr_fields env k) (fun _ => True).
  Proof using HE HU.
    assert (Hg : forall T (f : T -> NodeAttrs) fs o, good fs -> ins 0 0 (rmapr f (read_fields fs o)) (fun _ => True)).
    { intros T f fs o H. unfold rmapr. change 0 with (0 + 0) at 2. eapply ins_bind; [apply ins_fields; exact H|]. intros. apply ins_ret. exact I. }
    assert (Hs := good_sem env).
    destruct k; cbn [read_attr_fields]; apply Hg.
    - apply good_base.
    - exact Hs.
    - apply good_app; [apply good_lift, Hs|]. repeat (constructor; [serm|]). constructor.
    - apply good_app; [apply good_lift, Hs|]. repeat (constructor; [serm|]). constructor.
    - apply good_app; [apply good_lift, Hs|]. repeat (constructor; [first [apply good_nvis|serm]|]). constructor.
    - apply good_app; [apply good_lift, Hs|]. repeat (constructor; [first [apply good_nvis|serm]|]). constructor.
    - apply good_app; [apply good_lift, good_base|]. repeat (constructor; [serm|]). constructor.
    - apply good_app; [apply good_lift, Hs|]. repeat (constructor; [first [apply ci_mesh|serm]|]). constructor.
  Qed.
End Attr.
