(** What a user of the derive macro expects of attribute parameters. *)
From Verif Require Import Base RangeModel LengthModel.
From Coq Require Import Permutation.

(** Two outcomes agree: the same value, or both are refused (messages may differ). *)
Definition agree {E A} (x y : outcome E A) : Prop := forall a, x = Ok a <-> y = Ok a.

(** How often a key is given. *)
Definition count {P} (key : P -> bool) (ps : list P) : nat := List.length (filter key ps).

(** The keys of a range attribute. *)
Definition is_min {T} (p : rparam T) : bool := match p with PMin _ => true | _ => false end.
Definition is_max {T} (p : rparam T) : bool := match p with PMax _ => true | _ => false end.
Definition is_inclusive {T} (p : rparam T) : bool := match p with PInclusive _ => true | _ => false end.

(** The keys of a length attribute. *)
Definition is_lmin (p : lparam) : bool := match p with LMin _ => true | _ => false end.
Definition is_ltmin (p : lparam) : bool := match p with LTrimmedMin _ => true | _ => false end.
Definition is_lmax (p : lparam) : bool := match p with LMax _ => true | _ => false end.
