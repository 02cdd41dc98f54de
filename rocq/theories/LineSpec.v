(** What a user of the line and text validators expects. *)
From Verif Require Import Base LengthModel Utf8 LineModel.
Local Open Scope N_scope.

(** The control characters the documentation excludes. *)
Definition forbidden (k : line_kind) (c : N) : Prop :=
  match k with
  | Line => c <= 8 \/ 10 <= c <= 31 \/ c = 127
  | Text => c <= 8 \/ c = 12 \/ 14 <= c <= 31 \/ c = 127
  end.

(** Unicode white space. *)
Definition white (c : N) : Prop :=
  9 <= c <= 13 \/ 8192 <= c <= 8202 \/ In c [32; 133; 160; 5760; 8232; 8233; 8239; 8287; 12288].

(** The length of a string in the unit of the attribute: UTF-8 bytes or characters. *)
Definition len (byte : bool) (s : list N) : N :=
  if byte then N.of_nat (List.length (utf8 s)) else N.of_nat (List.length s).

#[global] Arguments len : simpl never.

Definition at_least (min : option N) (n : N) : Prop := forall m, min = Some m -> m <= n.
Definition at_most (max : option N) (n : N) : Prop := forall m, max = Some m -> n <= m.

(** [s] is [a ++ m ++ b]: leading white space, the trimmed string, trailing white space
    (all of a white [s] counts as leading). *)
Definition trims (s a m b : list N) : Prop :=
  s = a ++ m ++ b /\ Forall white a /\ Forall white b /\
  ((m = [] /\ b = []) \/
   ((exists c m', m = c :: m' /\ ~ white c) /\ (exists m' c, m = m' ++ [c] /\ ~ white c))).

(** The attribute is one that the macro accepts. *)
Definition accepted_attr (a : line_attr) : Prop := exists ps, utf8_attribute ps = Ok a.

(** The parts of an attribute. *)
Definition a_byte (a : line_attr) : bool := match a with Some (b, _) => b | None => false end.
Definition a_min (a : line_attr) : option N := match a with Some (_, l) => l_min l | None => None end.
Definition a_tmin (a : line_attr) : option N := match a with Some (_, l) => l_tmin l | None => None end.
Definition a_max (a : line_attr) : option N := match a with Some (_, l) => l_max l | None => None end.
