(** Bytes that end too early: a beginning of what was written. *)
From Coq Require Import NArith List.
From stdpp Require Import base list.
From Verif.Model Require Import Types Mesh Attrs Node EdgeContainer Graph Binary.
From Verif.Spec Require Import BinarySpec.
Local Open Scope N_scope.

(** [P] is a beginning of [buf] that ends before position [n]. *)
Definition cut_before (n : N) (buf P : list N) : Prop := (exists S, buf = P ++ S) /\ len P < n.
(** Whenever the reader gets a value from a buffer, it throws on every cut of it that lacks bytes
    which were used. *)
Definition refuses_cuts {A} (r : Reader A) : Prop :=
  forall buf P pos a n, Forall is_byte buf -> len buf < max_object ->
    r buf pos = Val a n -> cut_before n buf P -> pos <= len P -> r P pos = Fail Exception.
(** [big] is [small], up to the mesh. *)
Definition but_mesh (small big : Graph) : Prop := exists m, big = g_set_mesh small m.
(** As [refuses_cuts], with one place where a cut is not noticed: there the graph that is read is
    complete but for the mesh, which is then as [mesh] says. *)
Definition refuses_cuts_but_mesh (r : Reader Graph) (mesh : option Mesh -> Prop) : Prop :=
  forall buf pos g n, Forall is_byte buf -> len buf < max_object -> pos <= len buf -> r buf pos = Val g n ->
    exists g0 k, but_mesh g0 g /\ mesh (g_mesh g0) /\ k <= n /\
      forall P, cut_before n buf P -> pos <= len P -> r P pos = Fail Exception \/ len P = k /\ r P pos = Val g0 k.
