(** Files by name. *)
From Coq Require Import NArith ZArith Bool List Lia String.
From stdpp Require Import base list gmap.
From Verif.Model Require Import Types Mesh Attrs Node EdgeContainer SLayer DLayer Graph Binary Versioning AttrCodec Registry GraphCodec Json Rotation JsonCodec GraphJson Disk.
From Verif.Spec Require Import BinarySpec FileSpec DiskSpec.
From Verif.Proof Require Import FileP.
From Verif.Properties Require Import P12_Files.
Local Open Scope N_scope.

Lemma put_same os d f c : can_write os d f -> file_put os d f c !! f = Some c.
Proof.
  intros [H1 H2]. unfold file_put. rewrite H1. destruct (d !! f) as [[b|j| |]|]; try (apply lookup_insert). contradiction.
Qed.
Lemma put_other os d f c f' : f <> f' -> file_put os d f c !! f' = d !! f'.
Proof.
  intros H. unfold file_put. destruct (d !! f) as [[b|j| |]|]; try reflexivity; destruct (os f); try reflexivity; apply lookup_insert_ne, H.
Qed.
Lemma put_can os d f c f' : c <> Folder -> can_write os d f' -> can_write os (file_put os d f c) f'.
Proof.
  intros Hc [H1 H2]. split; [exact H1|]. destruct (decide (f = f')) as [->|Hn]; [|rewrite put_other by exact Hn; exact H2].
  rewrite put_same by (split; assumption). congruence.
Qed.
Lemma verify_writes path t f : verify_file path = Ok (t, f) -> may_write path f.
Proof.
  intros H. destruct (proj1 (C47_resolving_twice path)) as (dir & file & Hs). destruct (C47_file_type path dir file Hs) as (H1 & H2 & [[ext He]|Hn]).
  - exists dir, file. split; [exact Hs|]. left. split; [exists ext; exact He|]. rewrite (H1 ext He) in H.
    destruct (bool_decide (ext = str "json") || _); [congruence|]. destruct (bool_decide _); congruence.
  - exists dir, file. split; [exact Hs|]. right. split; [exact Hn|]. rewrite (H2 Hn) in H. congruence.
Qed.
Lemma json_put_other os d f r k f' : f <> f' -> (put_json os d f r k).2 !! f' = d !! f'.
Proof. intros H. unfold put_json. destruct k; [destruct r| |]; cbn; rewrite ?put_other by exact H; reflexivity. Qed.
Lemma bin_put_other os d f bs k f' : f <> f' -> put_binary os d f bs k !! f' = d !! f'.
Proof. intros H. unfold put_binary. destruct k; rewrite ?put_other by exact H; reflexivity. Qed.
Lemma save_other env p os d g path im k f : ~ may_write path f -> (save_graph env p os d g path im k).2 !! f = d !! f.
Proof.
  intros H. unfold save_graph. destruct (verify_file path) as [[t f']| |] eqn:E; [|reflexivity..].
  assert (Hn : f' <> f) by (intros ->; apply H, (verify_writes _ t), E).
  destruct t; [apply json_put_other, Hn|..]; destruct (save_binary env p g im); try reflexivity; apply bin_put_other, Hn.
Qed.
Lemma save_mesh_other os d m path k f : ~ may_write path f -> (save_mesh os d m path k).2 !! f = d !! f.
Proof.
  intros H. unfold save_mesh. destruct (verify_file path) as [[t f']| |] eqn:E; [|reflexivity..].
  assert (Hn : f' <> f) by (intros ->; apply H, (verify_writes _ t), E).
  destruct t; [apply json_put_other, Hn|..]; destruct (seq_writes _); try reflexivity; apply bin_put_other, Hn.
Qed.
Lemma run_untouched env os f : forall l d, untouched f l -> disk_run env os d l !! f = d !! f.
Proof.
  induction l as [|o l IH]; intros d H; [reflexivity|]. inversion H as [|? ? H1 H2]; subst. change (disk_run env os d (o :: l)) with (disk_run env os (disk_step env os d o) l).
  rewrite IH by exact H2. destruct o as [p g path im k|m path k|p path|path|f' c]; cbn [disk_step writes] in *; try reflexivity.
  - apply save_other, H1.
  - apply save_mesh_other, H1.
  - destruct c; [apply lookup_insert_ne, H1|apply lookup_delete_ne, H1].
Qed.
Lemma run_app env os d l1 l2 : disk_run env os d (l1 ++ l2) = disk_run env os (disk_run env os d l1) l2.
Proof. unfold disk_run. apply fold_left_app. Qed.

Lemma names_verify path js f : names path js f -> verify_file path = Ok (if js then FT_JSON else FT_BINARY, f) /\ verify_file f = Ok (if js then FT_JSON else FT_BINARY, f).
Proof.
  intros (dir & file & Hs & Hf & H).
  assert (V : verify_file path = Ok (if js then FT_JSON else FT_BINARY, f)).
  { destruct (C47_file_type path dir file Hs) as (H1 & H2 & _). destruct H as [(ext & He & -> & Hx)|(Hn & -> & ->)]; [|rewrite (H2 Hn); reflexivity].
    rewrite (H1 ext He). destruct js; [|subst ext; vm_compute; reflexivity]. destruct Hx as [->| ->]; vm_compute; reflexivity. }
  split; [exact V|]. exact (proj2 (C47_resolving_twice path) dir file _ _ Hs Hf V).
Qed.
