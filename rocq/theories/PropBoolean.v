(** Properties C16 and C17: the boolean validator. *)
From Verif Require Import Base IntStr IntModel Utf8 BooleanModel BooleanProofs.
Local Open Scope N_scope.

(** C16: exactly the documented words, in any case, with the documented meaning. *)
Theorem C16_boolean_words : forall s b,
  bool_parse_str s = Ok b <-> exists w, In (w, b) bool_words /\ same_but_case s w.
Proof. exact bool_str_iff. Qed.
Print Assumptions C16_boolean_words.

(** C16: anything else is an error; there is no panic. *)
Theorem C16_boolean_otherwise : forall s,
  bool_parse_str s = Err BooleanError \/ exists b, bool_parse_str s = Ok b.
Proof.
  intros s. rewrite bool_parse_str_eq. destruct (bool_str_total s) as (r & [->|[b ->]] & Hr); rewrite Hr; eauto.
Qed.
Print Assumptions C16_boolean_otherwise.

Example C16_example :
  bool_parse_str (bs "YeS") = Ok true /\ bool_parse_str (bs "oFf") = Ok false /\
  bool_parse_str (bs "F") = Ok false /\ bool_parse_str (bs "yess") = Err BooleanError /\
  bool_parse_str (bs "o") = Err BooleanError /\ bool_parse_str (bs "on ") = Err BooleanError /\
  bool_parse_str (bs "") = Err BooleanError /\ bool_parse_str (bs "tr") = Err BooleanError.
Proof. repeat split. Qed.

(** C17: a character is judged as the string of that character. *)
Theorem C17_boolean_char : forall c, bool_parse_char c = bool_parse_str (utf8_char c).
Proof. exact bool_char_lemma. Qed.
Print Assumptions C17_boolean_char.

(** C17: an integer of any type is judged as its decimal text; only 1 and 0 are booleans. *)
Theorem C17_boolean_int : forall sg pw t i, (int_min sg pw t <= i <= int_max sg pw t)%Z ->
  bool_parse_int sg pw t i = bool_parse_str (dec_of_Z i) /\
  bool_validate_int sg pw t i = omap (fun _ => tt) (bool_parse_int sg pw t i) /\
  (forall b, bool_parse_int sg pw t i = Ok b <-> (i = 1 /\ b = true)%Z \/ (i = 0 /\ b = false)%Z).
Proof. exact bool_int_lemma. Qed.
Print Assumptions C17_boolean_int.

(** C17: the remaining entry points. *)
Theorem C17_boolean_entry_points : forall s c b,
  bool_parse_string s = bool_parse_str s /\
  bool_validate_str s = omap (fun _ => tt) (bool_parse_str s) /\
  bool_validate_char c = omap (fun _ => tt) (bool_parse_char c) /\
  bool_parse_bool b = Ok b /\ bool_validate_bool b = Ok tt.
Proof. exact bool_entry_lemma. Qed.
Print Assumptions C17_boolean_entry_points.

Example C17_example :
  bool_parse_char 89 = Ok true /\ bool_parse_char 111 = Err BooleanError /\
  bool_parse_int true W64 I8 (-1) = Err BooleanError /\ bool_parse_int false W32 Isize 1 = Ok true /\
  bool_parse_int false W16 I128 (2 ^ 128 - 1) = Err BooleanError /\
  (int_min true W64 I8 <= -1 <= int_max true W64 I8)%Z.
Proof. vm_compute. repeat split; discriminate. Qed.
