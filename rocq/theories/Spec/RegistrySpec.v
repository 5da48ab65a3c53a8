(** What a program registered: a list of (name, type) pairs. *)
From Coq Require Import NArith List.
From stdpp Require Import base list.
From Verif.Model Require Import Types Registry.

(** the program registers [l], in this order, without failing *)
Definition registers {T} (l : list (Name * T)) (infos : list RegistrationInfo) (r : Registry T) : Prop :=
  register_all reg_empty l = Ok (infos, r).
(** the type a program knows under a name *)
Definition known_as {T} (l : list (Name * T)) (n : Name) (o : option T) : Prop :=
  match o with Some c => (n, c) ∈ l | None => forall c, (n, c) ∉ l end.
