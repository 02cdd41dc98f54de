(** Shared vocabulary of the model: outcomes, byte strings, bounds-checked access.

    Nothing here models a validator; these are the Rust core primitives
    that the generated code uses. *)
From Coq Require Export List NArith ZArith Lia Bool.
From Coq Require Export Ascii String.
From Coq Require Export ZifyBool ZifyNat ZifyN.
Export ListNotations.

(** Models [Result<A, E>] of every [v_parse_*] function in
    /repo/validators-derive/src/validator_handlers, plus an explicit value for a
    Rust panic (out-of-bounds index, slice off a char boundary, [unwrap] on
    [None], overflow in a debug build, exhausted stack). *)
Inductive outcome (E A : Type) : Type :=
| Ok (a : A)
| Err (e : E)
| Panic.
Arguments Ok {E A} a.
Arguments Err {E A} e.
Arguments Panic {E A}.

(** Models the [?] operator and early [return Err(..)]
    (used throughout /repo/validators-derive/src/validator_handlers). *)
Definition obind {E A B} (x : outcome E A) (k : A -> outcome E B) : outcome E B :=
  match x with Ok a => k a | Err e => Err e | Panic => Panic end.
Notation "'let?' x ':=' e 'in' k" := (obind e (fun x => k))
  (at level 200, x pattern, e at level 100, k at level 200).

(** Models [Result::map] as used when a validator wraps the parsed value,
    e.g. /repo/validators-derive/src/validator_handlers/boolean/mod.rs:215-230. *)
Definition omap {E A B} (f : A -> B) (x : outcome E A) : outcome E B :=
  match x with Ok a => Ok (f a) | Err e => Err e | Panic => Panic end.

(** Models [map_err(|_| ..)] as used e.g. in
    /repo/validators-derive/src/validator_handlers/ipv4/mod.rs:176-183. *)
Definition omap_err {E E' A} (f : E -> E') (x : outcome E A) : outcome E' A :=
  match x with Ok a => Ok a | Err e => Err (f e) | Panic => Panic end.

(** Specification vocabulary: the call returned normally with a value.
    (core; used throughout /repo/validators-derive/src/validator_handlers.) *)
Definition is_ok {E A} (x : outcome E A) : Prop := exists a, x = Ok a.
(** Specification vocabulary: the call did not panic.
    (core; used throughout /repo/validators-derive/src/validator_handlers.) *)
Definition no_panic {E A} (x : outcome E A) : Prop := x <> Panic.

(** Byte strings written as Coq string literals (notation only).
    (core; used throughout /repo/validators-derive/src/validator_handlers.) *)
Definition bs (s : string) : list N := List.map N_of_ascii (list_ascii_of_string s).

(** A byte: models [u8].
    (core; used throughout /repo/validators-derive/src/validator_handlers.) *)
Definition is_byte (b : N) : bool := (b <? 256)%N.
(** A byte string: models [&[u8]].
    (core; used throughout /repo/validators-derive/src/validator_handlers.) *)
Definition is_bytes (l : list N) : bool := forallb is_byte l.

(** Models [bytes[i]] (panics when out of bounds).
    (core; used throughout /repo/validators-derive/src/validator_handlers.) *)
Definition idx {E} (l : list N) (i : nat) : outcome E N :=
  match nth_error l i with Some b => Ok b | None => Panic end.

(** Models [&bytes[a..b]] on a byte slice (panics when a > b or b > len).
    (core; used throughout /repo/validators-derive/src/validator_handlers.) *)
Definition slice {E} (l : list N) (a b : nat) : outcome E (list N) :=
  if ((a <=? b) && (b <=? List.length l))%nat%bool
  then Ok (firstn (b - a) (skipn a l)) else Panic.

(** Models [&bytes[a..]] on a byte slice.
    (core; used throughout /repo/validators-derive/src/validator_handlers.) *)
Definition slice_from {E} (l : list N) (a : nat) : outcome E (list N) :=
  if (a <=? List.length l)%nat then Ok (skipn a l) else Panic.

(** A UTF-8 continuation byte: 0b10xxxxxx.
    (core; used throughout /repo/validators-derive/src/validator_handlers.) *)
Definition is_cont (b : N) : bool := ((128 <=? b) && (b <? 192))%N%bool.

(** Models [str::is_char_boundary]: 0, len, or a byte that is not a continuation byte.
    (core; used throughout /repo/validators-derive/src/validator_handlers.) *)
Definition is_char_boundary (l : list N) (i : nat) : bool :=
  match i with
  | O => true
  | _ => match nth_error l i with
         | Some b => negb (is_cont b)
         | None => Nat.eqb i (List.length l)
         end
  end.

(** Models [&s[a..b]] on a [str]: panics out of bounds or off a char boundary.
    (core; used throughout /repo/validators-derive/src/validator_handlers.) *)
Definition str_slice {E} (l : list N) (a b : nat) : outcome E (list N) :=
  if ((a <=? b) && (b <=? List.length l) && is_char_boundary l a && is_char_boundary l b)%nat%bool
  then Ok (firstn (b - a) (skipn a l)) else Panic.

(** Models [&s[a..]] on a [str].
    (core; used throughout /repo/validators-derive/src/validator_handlers.) *)
Definition str_slice_from {E} (l : list N) (a : nat) : outcome E (list N) :=
  str_slice l a (List.length l).

(** Models [iter().rposition(|e| e == c)]: index of the last occurrence.
    (core; used throughout /repo/validators-derive/src/validator_handlers.) *)
Fixpoint rposition (c : N) (l : list N) : option nat :=
  match l with
  | [] => None
  | x :: r => match rposition c r with
              | Some i => Some (S i)
              | None => if (x =? c)%N then Some O else None
              end
  end.

(** Models [iter().position(|e| e == c)]: index of the first occurrence.
    (core; used throughout /repo/validators-derive/src/validator_handlers.) *)
Fixpoint position (c : N) (l : list N) : option nat :=
  match l with
  | [] => None
  | x :: r => if (x =? c)%N then Some O
              else match position c r with Some i => Some (S i) | None => None end
  end.

(** Models [u8::to_ascii_lowercase].
    (core; used throughout /repo/validators-derive/src/validator_handlers.) *)
Definition lower (b : N) : N := if ((65 <=? b) && (b <=? 90))%N%bool then (b + 32)%N else b.

(** Models [str::eq_ignore_ascii_case].
    (core; used throughout /repo/validators-derive/src/validator_handlers.) *)
Fixpoint eq_ignore_case (a b : list N) : bool :=
  match a, b with
  | [], [] => true
  | x :: a', y :: b' => ((lower x =? lower y)%N && eq_ignore_case a' b')%bool
  | _, _ => false
  end.

(** Equality of byte strings (models [==] on [&str]).
    (core; used throughout /repo/validators-derive/src/validator_handlers.) *)
Fixpoint eqbs (a b : list N) : bool :=
  match a, b with
  | [], [] => true
  | x :: a', y :: b' => ((x =? y)%N && eqbs a' b')%bool
  | _, _ => false
  end.

(** Models [str::strip_suffix(c).unwrap_or(s)] for a one-byte suffix
    (/repo/validators/src/functions/domain.rs:6,14 and ipv4.rs:20). *)
Fixpoint strip_last (c : N) (l : list N) : list N :=
  match l with
  | [] => []
  | [x] => if (x =? c)%N then [] else [x]
  | x :: r => x :: strip_last c r
  end.

(** Models [str::ends_with(c)] for a one-byte suffix.
    (core; used throughout /repo/validators-derive/src/validator_handlers.) *)
Fixpoint ends_with (c : N) (l : list N) : bool :=
  match l with
  | [] => false
  | [x] => (x =? c)%N
  | _ :: r => ends_with c r
  end.

(** Models [str::contains(c)] for a one-byte pattern.
    (core; used throughout /repo/validators-derive/src/validator_handlers.) *)
Definition contains (c : N) (l : list N) : bool := existsb (fun x => (x =? c)%N) l.

(** Three-way policy: models [TriAllow],
    /repo/validators-derive/src/common/tri_allow.rs:7-11. *)
Inductive tri := Must | Allow | Disallow.

(** Models [TriAllow::disallow] and [TriAllow::must],
    /repo/validators-derive/src/common/tri_allow.rs:24-39; [is_allow_only] is the match arm [TriAllow::Allow]. *)
Definition is_disallow (t : tri) : bool := match t with Disallow => true | _ => false end.
Definition is_must (t : tri) : bool := match t with Must => true | _ => false end.
Definition is_allow_only (t : tri) : bool := match t with Allow => true | _ => false end.

#[global] Arguments Z.mul : simpl never.
#[global] Arguments Z.add : simpl never.
#[global] Arguments Z.sub : simpl never.
#[global] Arguments Z.opp : simpl never.
#[global] Arguments Z.of_N : simpl never.
#[global] Arguments Z.pow : simpl never.
#[global] Arguments Z.leb : simpl never.
#[global] Arguments Z.ltb : simpl never.
#[global] Arguments Z.eqb : simpl never.
#[global] Arguments Z.div : simpl never.
#[global] Arguments Z.modulo : simpl never.
#[global] Arguments N.mul : simpl never.
#[global] Arguments N.add : simpl never.
#[global] Arguments N.sub : simpl never.
#[global] Arguments N.pow : simpl never.
#[global] Arguments N.leb : simpl never.
#[global] Arguments N.ltb : simpl never.
#[global] Arguments N.eqb : simpl never.
#[global] Arguments N.div : simpl never.
#[global] Arguments N.modulo : simpl never.
