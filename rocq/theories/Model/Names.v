(** The texts the library uses for ids and layers.
    Sources: src/node_symbol.cpp:46-53, include/spark_dsg/node_symbol.h:90-94, 114-139,
    src/scene_graph_types.cpp:59-71, 108-148.
    Text is a Coq string (a list of bytes). *)
From Coq Require Import NArith Bool List String Ascii.
From Coq Require Import DecimalString.
From Verif.Model Require Import Types Node.
Local Open Scope string_scope.
Local Open Scope N_scope.

(** operator<< of an unsigned number *)
Definition show_N (n : N) : string := NilZero.string_of_uint (N.to_uint n).
(** std::isalpha in the "C" locale; a [char] with the top bit set is not a letter *)
Definition is_alpha (c : N) : bool := ((65 <=? c) && (c <=? 90)) || ((97 <=? c) && (c <=? 122)).
Definition char (c : N) : string := String (ascii_of_N c) "".

(** operator<<(NodeSymbol) and getLabel, node_symbol.cpp:46-53, node_symbol.h:90-94 *)
Definition sym_label (id : N) : string :=
  if is_alpha (sym_category id) then char (sym_category id) ++ "(" ++ show_N (sym_index id) ++ ")" else show_N id.

(** displayNodeSymbolContainer, node_symbol.h:125-139 *)
Fixpoint show_rest (ids : list N) : string :=
  match ids with
  | nil => ""
  | cons x nil => sym_label x
  | cons x r => sym_label x ++ ", " ++ show_rest r
  end.
Definition show_ids (ids : list N) : string := "[" ++ show_rest ids ++ "]".

(** std::stoull(text): strtoull in base 10.  White space, then an optional sign, then digits;
    the rest is ignored.  A minus sign negates modulo 2^64.  No digits and values of 2^64 and
    more throw. *)
Definition is_space (c : ascii) : bool := let n := N_of_ascii c in (n =? 32) || ((9 <=? n) && (n <=? 13)).
Definition digit_of (c : ascii) : option N := let n := N_of_ascii c in if (48 <=? n) && (n <=? 57) then Some (n - 48) else None.
Fixpoint skip_space (s : string) : string :=
  match s with String c r => if is_space c then skip_space r else s | EmptyString => s end.
Fixpoint read_digits (s : string) (acc : N) : N :=
  match s with
  | String c r => match digit_of c with Some d => read_digits r (acc * 10 + d) | None => acc end
  | EmptyString => acc
  end.
Definition starts_with_digit (s : string) : bool :=
  match s with String c _ => match digit_of c with Some _ => true | None => false end | EmptyString => false end.
Definition stoull (s : string) : result N :=
  let s := skip_space s in
  let '(neg, s) := match s with
                   | String "-"%char r => (true, r)
                   | String "+"%char r => (false, r)
                   | _ => (false, s)
                   end in
  if negb (starts_with_digit s) then Throw
  else let v := read_digits s 0 in
       if two64 <=? v then Throw else Ok (if neg then (two64 - v) mod two64 else v).
(** operator"" _id, node_symbol.h:114-123 *)
Definition id_literal (s : string) : result N :=
  match s with
  | EmptyString => Throw
  | String c number => let! index := stoull number in Ok (sym_make (N_of_ascii c) index)
  end.

(** LayerPrefix::str, scene_graph_types.cpp:59-71 *)
Definition prefix_str (p : N) (with_key : bool) : string :=
  if negb with_key then show_N p
  else char (prefix_key p) ++ (if prefix_sub p =? 0 then "" else "(" ++ show_N (prefix_sub p) ++ ")").

(** DsgLayers::LayerIdToString, scene_graph_types.cpp:108-125 *)
Definition layer_to_string (l : LayerId) : string :=
  if l =? SEGMENTS then "SEGMENTS"
  else if l =? OBJECTS then "OBJECTS"
  else if l =? PLACES then "PLACES"
  else if l =? ROOMS then "ROOMS"
  else if l =? BUILDINGS then "BUILDINGS"
  else if l =? MESH_PLACES then "MESH_PLACES"
  else "UNKNOWN".
(** std::toupper in the "C" locale *)
Definition to_upper (c : ascii) : ascii := let n := N_of_ascii c in if (97 <=? n) && (n <=? 122) then ascii_of_N (n - 32) else c.
Fixpoint upper (s : string) : string := match s with EmptyString => EmptyString | String c r => String (to_upper c) (upper r) end.
(** DsgLayers::StringToLayerId, scene_graph_types.cpp:127-148 *)
Definition layer_of_string (s : string) : LayerId :=
  let s := upper s in
  if String.eqb s "SEGMENTS" then SEGMENTS
  else if (String.eqb s "OBJECTS") || (String.eqb s "AGENTS") then OBJECTS
  else if (String.eqb s "PLACES") || (String.eqb s "STRUCTURE") then PLACES
  else if String.eqb s "ROOMS" then ROOMS
  else if String.eqb s "BUILDINGS" then BUILDINGS
  else if String.eqb s "MESH_PLACES" then MESH_PLACES
  else UNKNOWN_LAYER.
