(** The attribute type registries and factories.
    Source: include/spark_dsg/serialization/attribute_registry.h.
    [T] stands for the registered constructors (std::make_unique<Derived>); a registry that
    holds a null constructor cannot be built by addAttributes.  Names are byte strings. *)
From Coq Require Import NArith ZArith Bool List.
From stdpp Require Import base list gmap.
From Verif.Model Require Import Types.
Local Open Scope N_scope.

Definition Name := list N.

(** AttributeRegistry, 90-115 *)
Record Registry (T : Type) := mkReg { rg_names : list Name; rg_ctors : gmap Name T }.
Arguments mkReg {T}. Arguments rg_names {T}. Arguments rg_ctors {T}.
Definition reg_empty {T} : Registry T := mkReg [] ∅.

(** addAttributes, 126-138: returns the index of the name *)
Definition reg_add {T} (r : Registry T) (name : Name) (ctor : T) : result (N * Registry T) :=
  match rg_ctors r !! name with
  | Some _ => Throw
  | None => Ok (N.of_nat (length (rg_names r)), mkReg (rg_names r ++ [name]) (<[name := ctor]> (rg_ctors r)))
  end.

(** RegistrationInfo, AttributeRegistration, 153-171: the index is narrowed to uint8_t *)
Record RegistrationInfo := mkInfo { ri_name : Name; ri_type : N }.
Definition register {T} (r : Registry T) (name : Name) (ctor : T) : result (RegistrationInfo * Registry T) :=
  let! (i, r') := reg_add r name ctor in Ok (mkInfo name (i mod two8), r').
(** the static registrations of a program, in order of initialisation *)
Fixpoint register_all {T} (r : Registry T) (l : list (Name * T)) : result (list RegistrationInfo * Registry T) :=
  match l with
  | [] => Ok ([], r)
  | (n, c) :: rest => let! (i, r1) := register r n c in let! (is, r2) := register_all r1 rest in Ok (i :: is, r2)
  end.

(** AttributeFactory, 46-88: both maps are keyed by the index narrowed to uint8_t *)
Record Factory (T : Type) := mkFac { fc_lookup : gmap Name N; fc_ctors : gmap N T }.
Arguments mkFac {T}. Arguments fc_lookup {T}. Arguments fc_ctors {T}.
Definition fac_step {T} (ctors : gmap Name T) (f : Factory T) (x : nat * Name) : Factory T :=
  match ctors !! x.2 with
  | None => f
  | Some c => mkFac (<[x.2 := N.of_nat x.1 mod two8]> (fc_lookup f)) (<[N.of_nat x.1 mod two8 := c]> (fc_ctors f))
  end.
Definition factory {T} (names : list Name) (ctors : gmap Name T) : Factory T :=
  fold_left (fac_step ctors) (imap pair names) (mkFac ∅ ∅).
Definition create_by_id {T} (f : Factory T) (type_id : N) : option T := fc_ctors f !! (type_id mod two8). (* 67-74 *)
Definition create_by_name {T} (f : Factory T) (name : Name) : option T :=                                 (* 76-83 *)
  match fc_lookup f !! name with None => None | Some i => create_by_id f i end.
(** current / fromNames, 140-151 *)
Definition reg_current {T} (r : Registry T) : Factory T := factory (rg_names r) (rg_ctors r).
Definition reg_from_names {T} (r : Registry T) (names : list Name) : Factory T := factory names (rg_ctors r).
