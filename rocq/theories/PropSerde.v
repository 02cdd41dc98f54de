(** serde impls of the integer, number, boolean, byte, line, text, regex and length validators: C48, C59, C63 and C65. *)
From Verif Require Import Base RangeModel IntStr IntModel IntSpec IntProofs NumberModel NumberSpec NumberProofs NumberCast NumberRound
  BooleanModel SizeModel Serde DeModel ValueSerde.
From Verif Require PropInt PropNumber PropBoolean LineModel PropLine LengthModel.
Local Open Scope Z_scope.

(** C65. Every validator with a visitor (all but bit, json, length, url, semver and semver_req) deserialises a JSON string exactly as
    its [parse_str] reads the text. *)
Theorem C65_json_strings : forall E A (m : methods E A) k s,
  ~ In k [Bit; Json; Length; Semver; SemverReq; Url] ->
  own_de k m (json_input (JStr s)) = omap_err DCustom (parse_str m s).
Proof. intros E A m k s Hk. destruct k; try reflexivity; exfalso; apply Hk; cbn; tauto. Qed.
Print Assumptions C65_json_strings.

Example C65_example :
  ~ In Boolean [Bit; Json; Length; Semver; SemverReq; Url] /\
  own_de Boolean (bool_methods W64) (json_input (JStr (bs "Yes"))) = Ok true /\
  own_de Boolean (bool_methods W64) (json_input (JStr (bs "maybe"))) = Err (DCustom BooleanError).
Proof. split; [cbn; intuition discriminate|split; reflexivity]. Qed.

(** C65, every format: a text or byte string presented as an owned value is read like the borrowed one, by the validators and by
    [validators::Result] of them. *)
Theorem C65_owned_borrowed : forall E A (m : methods E A) k s l,
  parse_string m s = parse_str m s -> parse_vec_u8 m l = parse_u8_slice m l ->
  visit (own_visitor k m) (DString s) = visit (own_visitor k m) (DStr s) /\
  visit (own_visitor k m) (DByteBuf l) = visit (own_visitor k m) (DBytes l) /\
  visit (wrap_visitor k m) (DString s) = visit (wrap_visitor k m) (DStr s) /\
  visit (wrap_visitor k m) (DByteBuf l) = visit (wrap_visitor k m) (DBytes l).
Proof.
  intros E A m k s l H1 H2. destruct k; cbn [visit own_visitor wrap_visitor default_visit]; rewrite ?H1, ?H2; repeat split; reflexivity.
Qed.
Print Assumptions C65_owned_borrowed.

Example C65_owned_example :
  parse_string (bool_methods W64) (bs "Yes") = parse_str (bool_methods W64) (bs "Yes") /\
  visit (own_visitor Boolean (bool_methods W64)) (DString (bs "Yes")) = Ok true.
Proof. split; reflexivity. Qed.

Lemma fits64 (sg : bool) pw z : (if sg then - 2 ^ 63 <= z < 2 ^ 63 else 0 <= z < 2 ^ 64) -> fits sg pw I64 z.
Proof. intros H. unfold fits, int_min, int_max, bits. destruct sg; cbn [bits] in *; lia. Qed.

Lemma json_int_call z :
  (0 <= z < 2 ^ 64 /\ json_call (JInt z) = DInt false I64 z) \/
  (- 2 ^ 63 <= z < 0 /\ json_call (JInt z) = DInt true I64 z) \/
  ((z < - 2 ^ 63 \/ 2 ^ 64 <= z) /\ json_call (JInt z) = DF64 (binary_normalize 53 1024 z 0 false)).
Proof.
  unfold json_call. destruct ((0 <=? z) && (z <? 2 ^ 64))%bool eqn:E1; [left; split; [lia|reflexivity]|right].
  destruct ((- 2 ^ 63 <=? z) && (z <? 0))%bool eqn:E2; [left; split; [lia|reflexivity]|right]. split; [lia|reflexivity].
Qed.

(** C59. The JSON integers that a signed_integer validator accepts: the negative ones down to i64::MIN that its range and type
    allow ... *)
Theorem C59_signed_integers : forall pw t r z v, ~ degenerate true pw t r ->
  own_de SignedInteger (int_methods true pw t r) (json_input (JInt z)) = Ok v <->
  v = z /\ - 2 ^ 63 <= z < 0 /\ fits true pw t z /\ allowed r z.
Proof.
  intros pw t r z v Hr. unfold own_de, de. cbn [json_input human present own_hint].
  destruct (json_int_call z) as [[Hz ->]|[[Hz ->]|[Hz ->]]]; cbn [visit own_visitor default_visit].
  - split; [discriminate|lia].
  - cbn [int_methods parse_int]. change (Bool.eqb true true) with true. cbn beta iota.
    assert (F : fits true pw I64 z) by (apply fits64; lia).
    destruct (PropInt.C02_integer_entry_points true pw t r I64 z Hr F) as [H _]. specialize (H v).
    destruct (int_parse true pw t r I64 z) as [a|e|]; cbn [omap_err]; split; intros X.
    + injection X as ->. destruct (proj1 H eq_refl) as (X1 & X2 & X3). auto.
    + destruct X as (X1 & _ & X2 & X3). specialize (proj2 H (conj X2 (conj X3 X1))). congruence.
    + discriminate.
    + destruct X as (X1 & _ & X2 & X3). specialize (proj2 H (conj X2 (conj X3 X1))). congruence.
    + discriminate.
    + destruct X as (X1 & _ & X2 & X3). specialize (proj2 H (conj X2 (conj X3 X1))). congruence.
  - split; [discriminate|lia].
Qed.
Print Assumptions C59_signed_integers.

(** ... and an unsigned_integer validator: those up to u64::MAX. *)
Theorem C59_unsigned_integers : forall pw t r z v, ~ degenerate false pw t r ->
  own_de UnsignedInteger (int_methods false pw t r) (json_input (JInt z)) = Ok v <->
  v = z /\ 0 <= z < 2 ^ 64 /\ fits false pw t z /\ allowed r z.
Proof.
  intros pw t r z v Hr. unfold own_de, de. cbn [json_input human present own_hint].
  destruct (json_int_call z) as [[Hz ->]|[[Hz ->]|[Hz ->]]]; cbn [visit own_visitor default_visit].
  - cbn [int_methods parse_int]. change (Bool.eqb false false) with true. cbn beta iota.
    assert (F : fits false pw I64 z) by (apply fits64; lia).
    destruct (PropInt.C02_integer_entry_points false pw t r I64 z Hr F) as [H _]. specialize (H v).
    destruct (int_parse false pw t r I64 z) as [a|e|]; cbn [omap_err]; split; intros X.
    + injection X as ->. destruct (proj1 H eq_refl) as (X1 & X2 & X3). auto.
    + destruct X as (X1 & _ & X2 & X3). specialize (proj2 H (conj X2 (conj X3 X1))). congruence.
    + discriminate.
    + destruct X as (X1 & _ & X2 & X3). specialize (proj2 H (conj X2 (conj X3 X1))). congruence.
    + discriminate.
    + destruct X as (X1 & _ & X2 & X3). specialize (proj2 H (conj X2 (conj X3 X1))). congruence.
  - split; [discriminate|lia].
  - split; [discriminate|lia].
Qed.
Print Assumptions C59_unsigned_integers.

Example C59_example :
  ~ degenerate true W64 I8 (Inside (Some (-5)) (Some 5) true) /\
  own_de SignedInteger (int_methods true W64 I8 (Inside (Some (-5)) (Some 5) true)) (json_input (JInt (-3))) = Ok (-3) /\
  own_de SignedInteger (int_methods true W64 I8 (Inside (Some (-5)) (Some 5) true)) (json_input (JInt (-6)))
    = Err (DCustom TooSmall) /\
  own_de UnsignedInteger (int_methods false W64 I8 Unlimited) (json_input (JInt 255)) = Ok 255 /\
  own_de UnsignedInteger (int_methods false W64 I8 Unlimited) (json_input (JInt 256)) = Err (DCustom TooLarge).
Proof. split; [intros [[i H]|(? & ? & ? & ? & H & _)]; discriminate|repeat split]. Qed.

(** C59 is false of signed_integer: no non-negative JSON integer is accepted, whatever the range: the format presents it with
    [visit_u64], which the visitor does not have. *)
Theorem C59_signed_refuted : exists pw t r z, ~ degenerate true pw t r /\ 0 <= z /\
  int_parse_str true pw t r (dec_of_Z z) = Ok z /\
  own_de SignedInteger (int_methods true pw t r) (json_input (JInt z)) = Err DType.
Proof.
  exists W64, I64, Unlimited, 5. split; [intros [[i H]|(? & ? & ? & ? & H & _)]; discriminate|]. split; [lia|]. split; reflexivity.
Qed.
Print Assumptions C59_signed_refuted.

(** C59. The JSON numbers that a number validator accepts: every double is read as [parse_f64] reads it, but integers are refused
    unless they are so large that the format presents them as doubles. *)
Theorem C59_number_floats : forall from_str t r nan f,
  own_de Number (num_methods from_str t r nan) (json_input (JFloat f)) = omap_err DCustom (num_parse_f64 t r nan f).
Proof. reflexivity. Qed.
Print Assumptions C59_number_floats.

Theorem C59_number_integers_refused : forall from_str t r nan z, - 2 ^ 63 <= z < 2 ^ 64 ->
  own_de Number (num_methods from_str t r nan) (json_input (JInt z)) = Err DType.
Proof.
  intros from_str t r nan z Hz. unfold own_de, de. cbn [json_input human present own_hint].
  destruct (json_int_call z) as [[_ ->]|[[_ ->]|[H _]]]; [reflexivity..|lia].
Qed.
Print Assumptions C59_number_integers_refused.

Theorem C59_number_refuted : exists from_str t r nan z f, good_range t r /\ is_float_of t f /\
  xval f = Some (Fin (z * 2 ^ 1074)) /\ own_parse_f t r nan f = Ok f /\
  own_de Number (num_methods from_str t r nan) (json_input (JInt z)) = Err DType.
Proof.
  exists (fun _ => None), F64, Unlimited, Disallow, 1, (S754_finite false (2 ^ 52)%positive (-52)). repeat split.
Qed.
Print Assumptions C59_number_refuted.

Theorem C59_number_large_integers : forall from_str t r nan z, z < - 2 ^ 63 \/ 2 ^ 64 <= z ->
  own_de Number (num_methods from_str t r nan) (json_input (JInt z)) =
  omap_err DCustom (num_parse_f64 t r nan (binary_normalize 53 1024 z 0 false)).
Proof.
  intros from_str t r nan z Hz. unfold own_de, de. cbn [json_input human present own_hint].
  destruct (json_int_call z) as [[H _]|[[H _]|[_ ->]]]; [lia..|reflexivity].
Qed.
Print Assumptions C59_number_large_integers.

Example C59_number_example :
  let one := S754_finite false (2 ^ 52)%positive (-52) in
  own_de Number (num_methods (fun _ => Some one) F64 Unlimited Disallow) (json_input (JFloat one)) = Ok one /\
  num_parse_str (fun _ => Some one) Unlimited Disallow (bs "1") = Ok one /\
  own_de Number (num_methods (fun _ => Some one) F64 Unlimited Disallow) (json_input (JInt 1)) = Err DType /\
  own_de Number (num_methods (fun _ => Some one) F64 Unlimited Disallow) (json_input (JInt (2 ^ 64))) =
    Ok (S754_finite false (2 ^ 52)%positive 12).
Proof. repeat split. Qed.

(** C59. boolean validators: true and false, 1 and 0, and no other number. *)
Theorem C59_boolean : forall pw,
  (forall b, own_de Boolean (bool_methods pw) (json_input (JBool b)) = Ok b) /\
  (forall z b, own_de Boolean (bool_methods pw) (json_input (JInt z)) = Ok b <-> (z = 1 /\ b = true) \/ (z = 0 /\ b = false)).
Proof.
  intros pw. split; [reflexivity|]. intros z b. unfold own_de, de. cbn [json_input human present own_hint].
  destruct (json_int_call z) as [[Hz ->]|[[Hz ->]|[Hz ->]]]; cbn [visit own_visitor default_visit]; cbn [bool_methods parse_int].
  - assert (F : int_min false pw I64 <= z <= int_max false pw I64) by (apply (fits64 false pw z); exact Hz).
    destruct (PropBoolean.C17_boolean_int false pw I64 z F) as (_ & _ & H). rewrite <- H.
    destruct (bool_parse_int false pw I64 z); cbn [omap_err]; split; congruence.
  - assert (F : int_min true pw I64 <= z <= int_max true pw I64) by (apply (fits64 true pw z); lia).
    destruct (PropBoolean.C17_boolean_int true pw I64 z F) as (_ & _ & H). rewrite <- H.
    destruct (bool_parse_int true pw I64 z); cbn [omap_err]; split; congruence.
  - split; [discriminate|lia].
Qed.
Print Assumptions C59_boolean.

Example C59_boolean_example :
  own_de Boolean (bool_methods W32) (json_input (JInt 1)) = Ok true /\
  own_de Boolean (bool_methods W32) (json_input (JInt (-1))) = Err (DCustom BooleanError).
Proof. split; reflexivity. Qed.

(** C59 is false of byte: no JSON number is accepted, although the visitor announces "or a positive integer" (byte/mod.rs:203-204) and
    [parse_u128] accepts it. *)
Theorem C59_byte_numbers_refused : forall from_str cap r,
  (forall j, (forall s, j <> JStr s) -> own_de Byte (size_methods from_str cap r) (json_input j) = Err DType).
Proof. intros from_str cap r j Hj. destruct j; try reflexivity. exfalso. apply (Hj s). reflexivity. Qed.
Print Assumptions C59_byte_numbers_refused.

Theorem C59_byte_refuted : exists from_str cap r z,
  parse_int (size_methods from_str cap r) false I128 z = Ok (Z.to_N z) /\
  own_de Byte (size_methods from_str cap r) (json_input (JInt z)) = Err DType.
Proof. exists (fun _ => None), (2 ^ 64)%N, size_default, 5. split; reflexivity. Qed.
Print Assumptions C59_byte_refuted.

Example C59_byte_example :
  size_parse_u128 (2 ^ 64)%N size_default 5 = Ok 5%N /\
  own_de Byte (size_methods (fun _ => None) (2 ^ 64)%N size_default) (json_input (JInt 5)) = Err DType.
Proof. split; reflexivity. Qed.

(** C48. Signed integers: an accepted value comes back from JSON exactly if it is negative and not below i64::MIN; otherwise
    deserialisation fails. *)
Theorem C48_signed_json : forall pw t r v, ~ degenerate true pw t r -> fits true pw t v -> allowed r v ->
  (own_de SignedInteger (int_methods true pw t r) (json_input (json_of (int_ser true t v))) = Ok v <-> - 2 ^ 63 <= v < 0) /\
  (~ (- 2 ^ 63 <= v < 0) ->
     own_de SignedInteger (int_methods true pw t r) (json_input (json_of (int_ser true t v))) = Err DType).
Proof.
  intros pw t r v Hr Hf Ha. cbn [int_ser json_of]. split.
  - rewrite (C59_signed_integers pw t r v v Hr). tauto.
  - intros Hv. unfold own_de, de. cbn [json_input human present own_hint].
    destruct (json_int_call v) as [[_ ->]|[[H _]|[_ ->]]]; [reflexivity|lia|reflexivity].
Qed.
Print Assumptions C48_signed_json.

Theorem C48_signed_refuted : exists pw t r v, ~ degenerate true pw t r /\ fits true pw t v /\ allowed r v /\
  int_parse_str true pw t r (dec_of_Z v) = Ok v /\
  own_de SignedInteger (int_methods true pw t r) (json_input (json_of (int_ser true t v))) = Err DType.
Proof.
  exists W64, I32, Unlimited, 0. split; [intros [[i H]|(? & ? & ? & ? & H & _)]; discriminate|]. repeat split; cbv; congruence.
Qed.
Print Assumptions C48_signed_refuted.

(** C48. Unsigned integers: exactly below 2^64. *)
Theorem C48_unsigned_json : forall pw t r v, ~ degenerate false pw t r -> fits false pw t v -> allowed r v ->
  (own_de UnsignedInteger (int_methods false pw t r) (json_input (json_of (int_ser false t v))) = Ok v <-> v < 2 ^ 64) /\
  (2 ^ 64 <= v ->
     own_de UnsignedInteger (int_methods false pw t r) (json_input (json_of (int_ser false t v))) = Err DType).
Proof.
  intros pw t r v Hr Hf Ha. cbn [int_ser json_of].
  assert (Hv : 0 <= v) by (apply fits_iff in Hf; unfold int_min in Hf; lia). split.
  - rewrite (C59_unsigned_integers pw t r v v Hr). split; [intros (_ & [_ H] & _); exact H|auto].
  - intros H. unfold own_de, de. cbn [json_input human present own_hint].
    destruct (json_int_call v) as [[X _]|[[X _]|[_ ->]]]; [lia|lia|reflexivity].
Qed.
Print Assumptions C48_unsigned_json.

Theorem C48_unsigned_refuted : exists pw t r v, ~ degenerate false pw t r /\ fits false pw t v /\ allowed r v /\
  int_parse_str false pw t r (dec_of_Z v) = Ok v /\
  own_de UnsignedInteger (int_methods false pw t r) (json_input (json_of (int_ser false t v))) = Err DType.
Proof.
  exists W64, I128, Unlimited, (2 ^ 64). split; [intros [[i H]|(? & ? & ? & ? & H & _)]; discriminate|]. repeat split; cbv; congruence.
Qed.
Print Assumptions C48_unsigned_refuted.

(** C48. In a format that presents integers as they were written, all of them come back. *)
Theorem C48_integer_binary : forall sg pw t r v, ~ degenerate sg pw t r -> fits sg pw t v -> allowed r v ->
  own_de (int_kind sg) (int_methods sg pw t r) (binary_input (binary_call (int_ser sg t v))) = Ok v.
Proof.
  intros sg pw t r v Hr Hf Ha. unfold own_de, de, int_ser. cbn [binary_input human present binary_call].
  assert (H : forall w, w = match t with Isize => I64 | _ => t end ->
    int_parse sg pw t r w v = Ok v).
  { intros w Hw. assert (F : fits sg pw w v).
    { subst w. destruct t; try exact Hf. apply fits64. apply fits_iff in Hf. unfold int_min, int_max, bits in Hf.
      destruct sg, pw; cbn in Hf; lia. }
    apply (PropInt.C02_integer_entry_points sg pw t r w v Hr F). auto. }
  assert (V : forall w, w = match t with Isize => I64 | _ => t end ->
    own_visitor (int_kind sg) (int_methods sg pw t r) (DInt sg w v) = Some (int_parse sg pw t r w v)).
  { intros w Hw. destruct sg; cbn [int_kind own_visitor int_methods parse_int];
      destruct w; try reflexivity; destruct t; discriminate Hw. }
  unfold visit. rewrite V, H by reflexivity. reflexivity.
Qed.
Print Assumptions C48_integer_binary.

Example C48_example :
  ~ degenerate true W64 I8 (Inside (Some (-5)) (Some 5) true) /\
  own_de SignedInteger (int_methods true W64 I8 (Inside (Some (-5)) (Some 5) true))
    (json_input (json_of (int_ser true I8 (-5)))) = Ok (-5) /\
  own_de SignedInteger (int_methods true W64 I8 (Inside (Some (-5)) (Some 5) true))
    (binary_input (binary_call (int_ser true I8 5))) = Ok 5 /\
  own_de UnsignedInteger (int_methods false W64 I128 Unlimited)
    (json_input (json_of (int_ser false I128 (2 ^ 64 - 1)))) = Ok (2 ^ 64 - 1) /\
  own_de UnsignedInteger (int_methods false W32 Isize Unlimited) (binary_input (binary_call (int_ser false Isize 7))) = Ok 7.
Proof. split; [intros [[i H]|(? & ? & ? & ? & H & _)]; discriminate|repeat split]. Qed.

(** C48. Numbers: an accepted double comes back exactly if it is finite ([null] is refused); an accepted single comes back from
    whatever double the format presents for it, as long as that double rounds to it ... *)
Definition finite (f : spec_float) : Prop := match f with S754_zero _ | S754_finite _ _ _ => True | _ => False end.

Theorem C48_number_f64_json : forall from_str r nan f, good_range F64 r -> ~ x_degenerate r -> is_float_of F64 f ->
  num_parse_f64 F64 r nan f = Ok f ->
  (own_de Number (num_methods from_str F64 r nan) (json_input (json_of (num_ser F64 f))) = Ok f <-> finite f) /\
  (~ finite f -> own_de Number (num_methods from_str F64 r nan) (json_input (json_of (num_ser F64 f))) = Err DType).
Proof.
  intros from_str r nan f _ _ _ Hf. cbn [num_ser json_of].
  assert (J : forall g, own_de Number (num_methods from_str F64 r nan) (json_input (JFloat g)) = omap_err DCustom (num_parse_f64 F64 r nan g))
    by reflexivity.
  destruct f as [s|s| |s m e]; cbn [finite]; rewrite ?J, ?Hf; split; try tauto; try (split; [discriminate|tauto]); reflexivity.
Qed.
Print Assumptions C48_number_f64_json.

Theorem C48_number_f32_json : forall from_str r nan f g, num_parse_f32 F32 r nan f = Ok f -> fcast F32 g = f ->
  own_de Number (num_methods from_str F32 r nan) (json_input (JFloat g)) = Ok f.
Proof.
  intros from_str r nan f g Hf Hg.
  change (omap_err DCustom (num_parse_f64 F32 r nan g) = Ok f). cbn [num_parse_f64]. rewrite Hg. cbn [num_parse_f32] in Hf.
  rewrite Hf. reflexivity.
Qed.
Print Assumptions C48_number_f32_json.

(** ... such as the widened one. *)
Theorem C48_number_f32_widened : forall from_str r nan f, is_float_of F32 f -> finite f -> num_parse_f32 F32 r nan f = Ok f ->
  own_de Number (num_methods from_str F32 r nan) (json_input (json_of (num_ser F32 f))) = Ok f.
Proof.
  intros from_str r nan f Hv Hfin Hf.
  assert (E : json_of (num_ser F32 f) = JFloat (fcast F64 f)) by (destruct f; try destruct Hfin; reflexivity).
  rewrite E. apply C48_number_f32_json; [exact Hf|apply widen_narrow, Hv].
Qed.
Print Assumptions C48_number_f32_widened.

Theorem C48_number_binary : forall from_str t r nan f, own_parse_f t r nan f = Ok f ->
  own_de Number (num_methods from_str t r nan) (binary_input (binary_call (num_ser t f))) = Ok f.
Proof.
  intros from_str t r nan f Hf. destruct t; cbn [own_parse_f] in Hf.
  - change (omap_err DCustom (num_parse_f32 F32 r nan f) = Ok f). rewrite Hf. reflexivity.
  - change (omap_err DCustom (num_parse_f64 F64 r nan f) = Ok f). rewrite Hf. reflexivity.
Qed.
Print Assumptions C48_number_binary.

Theorem C48_number_refuted : exists from_str r nan f, good_range F64 r /\ is_float_of F64 f /\
  num_parse_f64 F64 r nan f = Ok f /\
  own_de Number (num_methods from_str F64 r nan) (json_input (json_of (num_ser F64 f))) = Err DType.
Proof. exists (fun _ => None), Unlimited, Allow, S754_nan. repeat split. Qed.
Print Assumptions C48_number_refuted.

Example C48_number_example :
  let third := S754_finite false 11184811 (-25) in
  is_float_of F32 third /\ finite third /\ num_parse_f32 F32 Unlimited Disallow third = Ok third /\
  own_de Number (num_methods (fun _ => None) F32 Unlimited Disallow) (json_input (json_of (num_ser F32 third))) = Ok third /\
  num_parse_f64 F64 Unlimited Allow (S754_zero true) = Ok (S754_zero true) /\
  own_de Number (num_methods (fun _ => None) F64 Unlimited Allow) (json_input (json_of (num_ser F64 (S754_zero true)))) = Ok (S754_zero true).
Proof. repeat split. Qed.

(** C63. boolean, line, text and regex values come back from JSON and from a format that presents what was written. *)
Theorem C63_boolean_round_trip : forall pw b,
  own_de Boolean (bool_methods pw) (json_input (json_of (bool_ser b))) = Ok b /\
  own_de Boolean (bool_methods pw) (binary_input (binary_call (bool_ser b))) = Ok b.
Proof. intros. split; reflexivity. Qed.
Print Assumptions C63_boolean_round_trip.

Theorem C63_line_round_trip : forall k a s v, LineModel.line_parse_str k a s = Ok v ->
  own_de (line_kind_of k) (line_methods k a) (json_input (json_of (text_ser v))) = Ok v /\
  own_de (line_kind_of k) (line_methods k a) (binary_input (binary_call (text_ser v))) = Ok v.
Proof.
  intros k a s v H. assert (v = s).
  { unfold LineModel.line_parse_str in H. destruct (LineModel.line_v_parse_str k a s); cbn in H; congruence. }
  subst v. destruct k; cbn [line_kind_of].
  - change (omap_err DCustom (LineModel.line_parse_str LineModel.Line a s) = Ok s /\
            omap_err DCustom (LineModel.line_parse_str LineModel.Line a s) = Ok s). rewrite H. split; reflexivity.
  - change (omap_err DCustom (LineModel.line_parse_str LineModel.Text a s) = Ok s /\
            omap_err DCustom (LineModel.line_parse_str LineModel.Text a s) = Ok s). rewrite H. split; reflexivity.
Qed.
Print Assumptions C63_line_round_trip.

Theorem C63_regex_round_trip : forall is_match s v, regex_parse_str is_match s = Ok v ->
  is_match v = true /\
  own_de Regex (regex_methods is_match) (json_input (json_of (text_ser v))) = Ok v /\
  own_de Regex (regex_methods is_match) (binary_input (binary_call (text_ser v))) = Ok v.
Proof.
  intros is_match s v H. unfold regex_parse_str, regex_v_parse_str in H. destruct (is_match s) eqn:E; [|discriminate].
  injection H as <-. split; [exact E|].
  change (omap_err DCustom (regex_parse_str is_match s) = Ok s /\ omap_err DCustom (regex_parse_str is_match s) = Ok s).
  unfold regex_parse_str, regex_v_parse_str. rewrite E. split; reflexivity.
Qed.
Print Assumptions C63_regex_round_trip.

(** C63. length: if the collection comes back, so does the validated one. *)
Theorem C63_length_round_trip : forall C (len : C -> N) min max (enc : C -> json) (dec : json -> outcome (de_err LengthModel.length_err) C) c v,
  (forall c, dec (enc c) = Ok c) -> LengthModel.parse_collection len min max c = Ok v ->
  length_own_de (LengthModel.parse_collection len min max) (dec (enc v)) = Ok v.
Proof.
  intros C len min max enc dec c v Hlaw H. rewrite Hlaw. unfold length_own_de. assert (v = c).
  { unfold LengthModel.parse_collection in H. destruct (LengthModel.length_v_parse_v min max (len c)); cbn in H; congruence. }
  subst v. cbn [obind]; rewrite H. reflexivity.
Qed.
Print Assumptions C63_length_round_trip.

Example C63_example :
  LineModel.line_parse_str LineModel.Line None (bs "a b") = Ok (bs "a b") /\
  own_de Line (line_methods LineModel.Line None) (json_input (json_of (text_ser (bs "a b")))) = Ok (bs "a b") /\
  regex_parse_str (fun s => match s with [] => false | _ => true end) (bs "x") = Ok (bs "x") /\
  LengthModel.parse_collection (fun l : list bool => N.of_nat (List.length l)) (Some 1%N) (Some 3%N) [true; false] = Ok [true; false] /\
  (forall b : bool, (fun j => match j with JBool b => Ok b | _ => Err (@DType LengthModel.length_err) end) (JBool b) = Ok b).
Proof. repeat split. Qed.
