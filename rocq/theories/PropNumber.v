(** Properties C05 and C06: number validators. *)
From Verif Require Import Base RangeModel NumberModel NumberSpec NumberProofs NumberCast.
From Coq Require Import Floats.SpecFloat.
Local Open Scope Z_scope.

(** C05: a number is accepted exactly when it is in the range and NaN is not required; NaN is
    accepted exactly when it is not disallowed; the value kept is the input. *)
Theorem C05_number_exact : forall t r nan f, good_range t r -> ~ x_degenerate r -> is_float_of t f ->
  (forall g, own_parse_f t r nan f = Ok g <->
     g = f /\ match xval f with
              | Some x => nan <> Must /\ x_allowed r x
              | None => nan <> Disallow
              end) /\
  own_parse_f t r nan f <> Panic.
Proof. exact number_exact_lemma. Qed.
Print Assumptions C05_number_exact.

(** C05: the error names what is wrong. *)
Theorem C05_number_errors : forall t r nan f x e, good_range t r -> ~ x_degenerate r -> is_float_of t f ->
  xval f = Some x -> own_parse_f t r nan f = Err e ->
  (e = NTooSmall /\ exists mn mx i m y, r = Inside mn mx i /\ mn = Some m /\ xval m = Some y /\ xlt x y) \/
  (e = NTooLarge /\ exists mn mx i m y, r = Inside mn mx i /\ mx = Some m /\ xval m = Some y /\
                       (if i then xlt y x else xle y x)) \/
  (e = NForbidden /\ exists mn mx i, r = Outside mn mx i /\ x_in_bounds mn mx i x) \/
  (e = NaNMust /\ nan = Must /\ x_allowed r x).
Proof. exact number_error_lemma. Qed.
Print Assumptions C05_number_errors.

(** C05: an f32 given to an f64 validator is judged by its exact value, which is kept. *)
Theorem C05_number_f32_in_f64 : forall r nan f, good_range F64 r -> ~ x_degenerate r -> is_float_of F32 f ->
  (is_ok (num_parse_f32 F64 r nan f) <->
     match xval f with Some x => nan <> Must /\ x_allowed r x | None => nan <> Disallow end) /\
  (forall g, num_parse_f32 F64 r nan f = Ok g -> is_float_of F64 g /\ xval g = xval f) /\
  num_parse_f32 F64 r nan f <> Panic.
Proof. exact number_widen_lemma. Qed.
Print Assumptions C05_number_f32_in_f64.

(** C05: a string is judged as the float it reads as, whatever the float reader does. *)
Theorem C05_number_strings : forall from_str t r nan s,
  (num_parse_str from_str r nan s =
    match from_str s with None => Err NParseFloat | Some f => own_parse_f t r nan f end) /\
  num_parse_string from_str r nan s = num_parse_str from_str r nan s /\
  num_validate_str from_str r nan s = omap (fun _ => tt) (num_parse_str from_str r nan s).
Proof. exact number_strings_lemma. Qed.
Print Assumptions C05_number_strings.

(** C05: validating is parsing with the value dropped. *)
Theorem C05_number_validate : forall t r nan f,
  num_validate_f64 t r nan f = omap (fun _ => tt) (num_parse_f64 t r nan f) /\
  num_validate_f32 t r nan f = omap (fun _ => tt) (num_parse_f32 t r nan f).
Proof. exact number_validate_lemma. Qed.
Print Assumptions C05_number_validate.

(** 1.0 and 2.0 as f64, 0.5 as f32. *)
Definition f64_one := S754_finite false (2 ^ 52)%positive (-52).
Definition f64_two := S754_finite false (2 ^ 52)%positive (-51).
Definition f32_half := S754_finite false (2 ^ 23)%positive (-24).

Example C05_example :
  good_range F64 (Inside (Some f64_one) (Some f64_two) false) /\
  ~ x_degenerate (Inside (Some f64_one) (Some f64_two) false) /\
  is_float_of F64 f64_one /\ is_float_of F32 f32_half /\
  num_parse_f64 F64 (Inside (Some f64_one) (Some f64_two) false) Disallow f64_one = Ok f64_one /\
  num_parse_f64 F64 (Inside (Some f64_one) (Some f64_two) false) Disallow f64_two = Err NTooLarge /\
  num_parse_f64 F64 (Inside (Some f64_one) (Some f64_two) false) Allow S754_nan = Ok S754_nan /\
  num_parse_f64 F64 (Inside (Some f64_one) (Some f64_two) false) Disallow S754_nan = Err NaNDisallow /\
  num_parse_f32 F64 (Inside (Some f64_one) (Some f64_two) false) Allow f32_half = Err NTooSmall /\
  num_parse_f64 F64 (Outside (Some (S754_zero false)) (Some (S754_zero false)) true) Allow (S754_zero true) = Err NForbidden /\
  num_parse_f64 F64 (Inside None (Some f64_two) true) Allow (S754_infinity true) = Ok (S754_infinity true).
Proof.
  split; [split; intros f Hf; injection Hf as <-; split; [reflexivity|discriminate|reflexivity|discriminate]|].
  split; [intros [i Hi]; discriminate|]. repeat split.
Qed.

(** C06, a finding: an f32 validator rounds an f64 before the range check, so a number beyond
    the bound is accepted.  Witness: max = 16777216 (2^24), input 16777217. *)
Theorem C06_narrowing_refuted : exists r f g x,
  good_range F32 r /\ is_float_of F64 f /\ xval f = Some x /\
  (exists min max i, r = Inside min max i) /\
  num_parse_f64 F32 r Allow f = Ok g /\ ~ x_allowed r x.
Proof.
  exists (Inside None (Some (S754_finite false (2 ^ 23)%positive 1)) true),
         (S754_finite false ((2 ^ 24 + 1) * 2 ^ 28)%positive (-28)).
  eexists. eexists.
  split; [split; [discriminate | intros f Hf; injection Hf as <-; split; [reflexivity|discriminate]]|].
  split; [reflexivity|]. split; [reflexivity|]. split; [eauto|]. split; [vm_compute; reflexivity|].
  intros [_ H]. specialize (H _ _ eq_refl eq_refl). simpl in H.
  assert (Hlt : (1 * Z.pos (2 ^ 23) * 2 ^ (1 + 1074) <? 1 * Z.pos ((2 ^ 24 + 1) * 2 ^ 28) * 2 ^ (-28 + 1074)) = true)
    by (vm_compute; reflexivity).
  apply Z.ltb_lt in Hlt. apply (Zlt_not_le _ _ Hlt). exact H.
Qed.
Print Assumptions C06_narrowing_refuted.

(** C06, what holds (1): the value kept is an f32 inside the range. *)
Theorem C06_kept_value_partial : forall r nan f g, good_range F32 r -> ~ x_degenerate r ->
  num_parse_f64 F32 r nan f = Ok g ->
  is_float_of F32 g /\ (forall x, xval g = Some x -> nan <> Must /\ x_allowed r x) /\ (xval g = None -> nan <> Disallow).
Proof. exact number_narrow_stored. Qed.
Print Assumptions C06_kept_value_partial.

(** C06, what holds (2): no number inside a closed range is refused because of the rounding. *)
Theorem C06_in_range_accepted_partial : forall min max nan f x, good_range F32 (Inside min max true) ->
  is_float_of F64 f -> xval f = Some x -> nan <> Must -> x_allowed (Inside min max true) x ->
  exists g, num_parse_f64 F32 (Inside min max true) nan f = Ok g.
Proof. exact number_narrow_complete. Qed.
Print Assumptions C06_in_range_accepted_partial.

(** C06, what holds (3): exact for numbers that an f32 can represent.  Missing: exactness for
    the others, which is false. *)
Theorem C06_representable_partial : forall r nan f b x, good_range F32 r -> ~ x_degenerate r -> is_float_of F64 f ->
  xval f = Some x -> is_float_of F32 b -> xval b = Some x ->
  (is_ok (num_parse_f64 F32 r nan f) <-> nan <> Must /\ x_allowed r x) /\
  (forall g, num_parse_f64 F32 r nan f = Ok g -> xval g = Some x).
Proof. exact number_narrow_exact. Qed.
Print Assumptions C06_representable_partial.

Example C06_example :
  let bound := S754_finite false (2 ^ 23)%positive 1 in
  is_float_of F32 bound /\ is_float_of F64 (S754_finite false (2 ^ 52)%positive (-28)) /\
  xval bound = xval (S754_finite false (2 ^ 52)%positive (-28)) /\
  num_parse_f64 F32 (Inside None (Some bound) true) Allow (S754_finite false (2 ^ 52)%positive (-28)) = Ok bound /\
  num_parse_f64 F32 (Inside None (Some bound) false) Allow (S754_finite false (2 ^ 52)%positive (-28)) = Err NTooLarge.
Proof. vm_compute. repeat split. Qed.
