(** Properties C01-C04: integer validators. *)
From Verif Require Import Base RangeModel IntStr IntStrProofs IntModel IntSpec IntProofs.
Local Open Scope Z_scope.

(** C01: an integer of the field type is accepted iff it is in the configured set,
    and is stored unchanged. *)
Theorem C01_integer_range_exact : forall sg pw t r i v, ~ degenerate sg pw t r -> fits sg pw t i ->
  (int_parse sg pw t r t i = Ok v <-> allowed r i /\ v = i).
Proof. exact range_exact_lemma. Qed.
Print Assumptions C01_integer_range_exact.

Example C01_example_inside :
  int_parse true W64 I8 (Inside (Some (-5)) (Some 7) false) I8 6 = Ok 6 /\
  int_parse true W64 I8 (Inside (Some (-5)) (Some 7) false) I8 7 = Err TooLarge /\
  int_parse true W64 I8 (Inside (Some 3) (Some 4) false) I8 3 = Ok 3 /\
  ~ degenerate true W64 I8 (Inside (Some (-5)) (Some 7) false).
Proof. repeat split. intros [[i H]|(? & ? & ? & ? & H & _)]; discriminate. Qed.

(** C01 is false for the one attribute without any bound: [range(Outside())] accepts
    every value although every value lies in the (unbounded) configured set. *)
Theorem C01_outside_without_bounds_refuted : exists sg pw t r i,
  fits sg pw t i /\ ~ allowed r i /\ int_parse sg pw t r t i = Ok i.
Proof.
  exists true, W64, I32, (Outside None None true), 5. repeat split.
  - vm_compute; discriminate.
  - vm_compute; discriminate.
  - intros H. apply H. split; intros; discriminate.
Qed.
Print Assumptions C01_outside_without_bounds_refuted.

(** C02: every entry point: accepted iff it fits the field type and is allowed;
    out-of-type integers are named TooLarge / TooSmall; no panic. *)
Theorem C02_integer_entry_points : forall sg pw t r m i, ~ degenerate sg pw t r -> fits sg pw m i ->
  (forall v, int_parse sg pw t r m i = Ok v <-> fits sg pw t i /\ allowed r i /\ v = i) /\
  (above_type sg pw t i -> int_parse sg pw t r m i = Err TooLarge) /\
  (below_type sg pw t i -> int_parse sg pw t r m i = Err TooSmall) /\
  int_parse sg pw t r m i <> Panic.
Proof. exact entry_points_lemma. Qed.
Print Assumptions C02_integer_entry_points.

(** C02: the verdict depends only on the mathematical integer, and validate agrees with parse. *)
Theorem C02_integer_entry_points_agree : forall sg pw t r m m' i,
  fits sg pw m i -> fits sg pw m' i ->
  int_parse sg pw t r m i = int_parse sg pw t r m' i /\
  int_validate sg pw t r m i = omap (fun _ => tt) (int_parse sg pw t r m' i).
Proof. exact entry_points_agree_lemma. Qed.
Print Assumptions C02_integer_entry_points_agree.

Example C02_example : fits true W64 I64 300 /\ above_type true W64 I8 300 /\
  int_parse true W64 I8 Unlimited I64 300 = Err TooLarge /\
  int_parse true W64 I8 Unlimited Isize (-3) = Ok (-3) /\
  int_parse false W32 Isize Unlimited I64 4294967296 = Err TooLarge.
Proof. repeat split; try (vm_compute; congruence). intros j [_ Hj]. lia. Qed.

(** C03: the texts accepted, with their value; the three string entry points agree. *)
Theorem C03_integer_strings : forall sg pw t r s, ~ degenerate sg pw t r ->
  (forall v, int_parse_str sg pw t r s = Ok v <->
             denotes_int sg s v /\ fits sg pw t v /\ allowed r v) /\
  int_parse_string sg pw t r s = int_parse_str sg pw t r s /\
  int_validate_str sg pw t r s = omap (fun _ => tt) (int_parse_str sg pw t r s) /\
  int_parse_str sg pw t r s <> Panic.
Proof. exact int_strings_lemma. Qed.
Print Assumptions C03_integer_strings.

(** C03: printing an accepted value in decimal and parsing it gives it back. *)
Theorem C03_integer_print_parse : forall sg pw t r v, ~ degenerate sg pw t r ->
  fits sg pw t v -> allowed r v -> int_parse_str sg pw t r (dec_of_Z v) = Ok v.
Proof. exact int_print_parse_lemma. Qed.
Print Assumptions C03_integer_print_parse.

Example C03_example :
  int_parse_str true W64 I8 (Inside (Some (-128)) None true) (bs "-128") = Ok (-128) /\
  int_parse_str true W64 I8 Unlimited (bs "-129") = Err (ParseInt INegOverflow) /\
  int_parse_str false W64 I8 Unlimited (bs "+0255") = Ok 255 /\
  int_parse_str false W64 I8 Unlimited (bs "-1") = Err (ParseInt IInvalidDigit) /\
  dec_of_Z (-128) = bs "-128".
Proof. repeat split. Qed.

(** C04: the error names the violated bound. *)
Theorem C04_integer_error_kinds : forall sg pw t r i e, ~ degenerate sg pw t r -> fits sg pw t i ->
  int_parse sg pw t r t i = Err e ->
  (exists min max incl, r = Inside min max incl /\
     ((e = TooSmall /\ exists m, min = Some m /\ i < m) \/
      (e = TooLarge /\ (forall n, min = Some n -> n <= i) /\
         exists m, max = Some m /\ if incl then m < i else m <= i))) \/
  (exists min max incl, r = Outside min max incl /\ e = Forbidden /\ in_bounds min max incl i).
Proof. exact error_kind_lemma. Qed.
Print Assumptions C04_integer_error_kinds.

Example C04_example :
  int_parse true W64 I16 (Outside (Some 5) (Some 6) false) I16 5 = Err Forbidden /\
  int_parse true W64 I16 (Inside (Some 5) (Some 6) false) I16 4 = Err TooSmall /\
  int_parse true W64 I16 (Inside (Some 5) (Some 6) false) I16 6 = Err TooLarge.
Proof. repeat split. Qed.
