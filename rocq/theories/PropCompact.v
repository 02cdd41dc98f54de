(** C91: values read from binary formats that store integers by value, not by type (CBOR, MessagePack). *)
From Verif Require Import Base RangeModel IntModel IntSpec IntProofs NumberModel BooleanModel SizeModel Serde DeModel ValueSerde.
From Verif Require PropInt PropSize PropSerde.
Local Open Scope Z_scope.

(** What such a format presents for the integer [v]: a call with an unsigned integer, or a signed one if [v] is negative, of some width that
    holds it (which width depends on the format: MessagePack takes the narrowest, CBOR mostly 64 bits). *)
Definition stored (pw : ptr_width) (v : Z) (c : de_call) : Prop :=
  exists w, w <> Isize /\ c = DInt (v <? 0) w v /\ fits (v <? 0) pw w v.

(** C91: an accepted unsigned integer comes back, and so does an accepted negative one ... *)
Theorem C91_unsigned_comes_back : forall pw t r v c, ~ degenerate false pw t r -> fits false pw t v -> allowed r v ->
  stored pw v c -> own_de UnsignedInteger (int_methods false pw t r) (binary_input c) = Ok v.
Proof.
  intros pw t r v c Hr Hf Ha (w & Hw & -> & F).
  assert (S : (v <? 0) = false) by (apply fits_iff in Hf; unfold int_min in Hf; lia). rewrite S in *.
  assert (H : int_parse false pw t r w v = Ok v) by (apply (PropInt.C02_integer_entry_points false pw t r w v Hr F); auto).
  unfold own_de, de. cbn [binary_input human present own_hint]. unfold visit.
  destruct w; try congruence; cbn [own_visitor int_methods parse_int Bool.eqb]; rewrite H; reflexivity.
Qed.
Print Assumptions C91_unsigned_comes_back.

Theorem C91_negative_comes_back : forall pw t r v c, ~ degenerate true pw t r -> fits true pw t v -> allowed r v -> v < 0 ->
  stored pw v c -> own_de SignedInteger (int_methods true pw t r) (binary_input c) = Ok v.
Proof.
  intros pw t r v c Hr Hf Ha Hn (w & Hw & -> & F).
  assert (S : (v <? 0) = true) by lia. rewrite S in *.
  assert (H : int_parse true pw t r w v = Ok v) by (apply (PropInt.C02_integer_entry_points true pw t r w v Hr F); auto).
  unfold own_de, de. cbn [binary_input human present own_hint]. unfold visit.
  destruct w; try congruence; cbn [own_visitor int_methods parse_int Bool.eqb]; rewrite H; reflexivity.
Qed.
Print Assumptions C91_negative_comes_back.

(** ... but no other signed one does, of any type and range: the visitor has no unsigned methods. *)
Theorem C91_signed_non_negative_refused : forall pw t r v c, 0 <= v -> stored pw v c ->
  own_de SignedInteger (int_methods true pw t r) (binary_input c) = Err DType.
Proof.
  intros pw t r v c Hv (w & Hw & -> & F). assert (S : (v <? 0) = false) by lia. rewrite S in *.
  unfold own_de, de. cbn [binary_input human present own_hint]. unfold visit.
  destruct w; try congruence; reflexivity.
Qed.
Print Assumptions C91_signed_non_negative_refused.

Theorem C91_signed_refuted : exists pw t r v c, ~ degenerate true pw t r /\ fits true pw t v /\ allowed r v /\ stored pw v c /\
  own_de SignedInteger (int_methods true pw t r) (binary_input (binary_call (int_ser true t v))) = Ok v /\
  own_de SignedInteger (int_methods true pw t r) (binary_input c) = Err DType.
Proof.
  exists W64, I8, Unlimited, 5, (DInt false I8 5).
  split; [intros [[i H]|(? & ? & ? & ? & H & _)]; discriminate|].
  split; [cbv; split; congruence|]. split; [exact I|].
  split; [exists I8; split; [discriminate|split; [reflexivity|cbv; split; congruence]]|split; reflexivity].
Qed.
Print Assumptions C91_signed_refuted.

(** C91: a byte size comes back only if the format presents it with 128 bits: the visitor has [visit_u128] and no other integer method,
    and the default of [visit_u64] is an error. *)
Theorem C91_byte : forall pw from_str cap r v c, (v <= cap)%N -> stored pw (Z.of_N v) c ->
  (c = DInt false I128 (Z.of_N v) ->
     own_de Byte (size_methods from_str cap r) (binary_input c) = omap_err DCustom (size_parse_u64 r v)) /\
  (c <> DInt false I128 (Z.of_N v) -> own_de Byte (size_methods from_str cap r) (binary_input c) = Err DType).
Proof.
  intros pw from_str cap r v c Hv (w & Hw & -> & F). assert (S : (Z.of_N v <? 0) = false) by lia. rewrite S in *.
  split; intros E.
  - injection E as ->. unfold own_de, de. cbn [binary_input human present own_hint]. unfold visit.
    cbn [own_visitor size_methods parse_int]. rewrite N2Z.id. unfold size_parse_u128, size_parse_u64, size_from_u128.
    replace (v <=? cap)%N with true by lia. reflexivity.
  - unfold own_de, de. cbn [binary_input human present own_hint]. unfold visit.
    destruct w; try congruence; reflexivity.
Qed.
Print Assumptions C91_byte.

(** So a byte validator refuses what its own [Serialize] writes with 64 bits (which is how byte_unit writes a size unless the feature
    [byte-unit-u128] is on), whatever the size; [validators::Result] of the same type reads it. *)
Theorem C91_byte_refuted : exists from_str cap r v, (v <= cap)%N /\ size_parse_u64 r v = Ok v /\
  (forall w, w <> I128 -> own_de Byte (size_methods from_str cap r) (binary_input (DInt false w (Z.of_N v))) = Err DType) /\
  (forall w, wrap_de Byte (size_methods from_str cap r) (binary_input (DInt false w (Z.of_N v))) = Ok (ROk v)).
Proof.
  exists (fun _ => None), (2 ^ 64 - 1)%N, size_default, 5%N. split; [cbv; congruence|]. split; [reflexivity|].
  split; intros w; destruct w; try congruence; reflexivity.
Qed.
Print Assumptions C91_byte_refuted.

(** C91, [validators::Result]: of an integer validator it reads such a format as the validator does; of a byte validator it reads every
    width. *)
Theorem C91_wrapped_integers : forall sg pw t r v c, ~ degenerate sg pw t r -> fits sg pw t v -> allowed r v -> stored pw v c ->
  wrap_de (int_kind sg) (int_methods sg pw t r) (binary_input c) = (if sg && (0 <=? v) then Err DType else Ok (ROk v))%bool.
Proof.
  intros sg pw t r v c Hr Hf Ha (w & Hw & -> & F).
  destruct sg; cbn [int_kind andb].
  - destruct (Z.leb_spec 0 v) as [L|L].
    + assert (S : (v <? 0) = false) by lia. rewrite S in *. unfold wrap_de, de. cbn [binary_input human present wrap_hint]. unfold visit.
      destruct w; try congruence; reflexivity.
    + assert (S : (v <? 0) = true) by lia. rewrite S in *.
      assert (H : int_parse true pw t r w v = Ok v) by (apply (PropInt.C02_integer_entry_points true pw t r w v Hr F); auto).
      unfold wrap_de, de. cbn [binary_input human present wrap_hint]. unfold visit.
      destruct w; try congruence; cbn [wrap_visitor int_methods parse_int Bool.eqb]; rewrite H; reflexivity.
  - assert (S : (v <? 0) = false) by (apply fits_iff in Hf; unfold int_min in Hf; lia). rewrite S in *.
    assert (H : int_parse false pw t r w v = Ok v) by (apply (PropInt.C02_integer_entry_points false pw t r w v Hr F); auto).
    unfold wrap_de, de. cbn [binary_input human present wrap_hint]. unfold visit.
    destruct w; try congruence; cbn [wrap_visitor int_methods parse_int Bool.eqb]; rewrite H; reflexivity.
Qed.
Print Assumptions C91_wrapped_integers.

Theorem C91_wrapped_byte : forall pw from_str cap r v c, (v <= cap)%N -> stored pw (Z.of_N v) c ->
  wrap_de Byte (size_methods from_str cap r) (binary_input c) =
  match size_parse_u64 r v with Ok a => Ok (ROk a) | Err e => Ok (RErr e) | Panic => Panic end.
Proof.
  intros pw from_str cap r v c Hv (w & Hw & -> & F).
  unfold wrap_de, de. cbn [binary_input human present]. unfold visit. cbn [u128_visitor].
  replace (0 <=? Z.of_N v) with true by lia. cbn [omap_err obind size_methods parse_int]. rewrite N2Z.id.
  unfold size_parse_u128, size_parse_u64, size_from_u128. replace (v <=? cap)%N with true by lia.
  cbn [obind]. destruct (size_v_parse_v r v) as [[]|e|]; reflexivity.
Qed.
Print Assumptions C91_wrapped_byte.

(** C91: booleans are stored as booleans and 0/1 of any width and sign are read too. *)
Theorem C91_boolean_widths : forall pw v c, v = 0 \/ v = 1 -> stored pw v c ->
  own_de Boolean (bool_methods pw) (binary_input c) = Ok (v =? 1).
Proof.
  intros pw v c Hv (w & Hw & -> & F).
  unfold own_de, de. cbn [binary_input human present own_hint]. unfold visit.
  destruct Hv as [-> | ->]; destruct w; try congruence; destruct pw; reflexivity.
Qed.
Print Assumptions C91_boolean_widths.

Example C91_example :
  let r := Inside (Some (-5)) (Some 5) true in
  ~ degenerate true W64 I8 r /\ stored W64 (-3) (DInt true I16 (-3)) /\ stored W64 3 (DInt false I8 3) /\
  own_de SignedInteger (int_methods true W64 I8 r) (binary_input (DInt true I16 (-3))) = Ok (-3) /\
  own_de SignedInteger (int_methods true W64 I8 r) (binary_input (DInt false I8 3)) = Err DType /\
  own_de UnsignedInteger (int_methods false W64 I64 Unlimited) (binary_input (DInt false I8 3)) = Ok 3 /\
  own_de Byte (size_methods (fun _ => None) (2 ^ 64 - 1)%N size_default) (binary_input (DInt false I8 3)) = Err DType /\
  own_de Byte (size_methods (fun _ => None) (2 ^ 64 - 1)%N size_default) (binary_input (DInt false I128 3)) = Ok 3%N.
Proof.
  cbv zeta. split; [intros [[i H]|(? & ? & ? & ? & H & _)]; discriminate|].
  split; [exists I16; split; [discriminate|split; [reflexivity|cbv; split; congruence]]|].
  split; [exists I8; split; [discriminate|split; [reflexivity|cbv; split; congruence]]|].
  repeat split.
Qed.

(** C92: formats that store no types (bincode, postcard). The validators that ask for any value are refused on every input, and so is
    [validators::Result] of them ... *)
Theorem C92_any_refused : forall E A (m : methods E A) k owned other c,
  In k [Base32; Base32Decoded; Base64; Base64Decoded; Base64Url; Base64UrlDecoded; Boolean; Domain; Number; SignedInteger; UnsignedInteger] ->
  own_de k m (schema_input owned other c) = Err DType /\ wrap_de k m (schema_input owned other c) = Err DType.
Proof.
  intros E A m k owned other c Hk.
  repeat (destruct Hk as [<-|Hk]; [split; reflexivity|]). destruct Hk.
Qed.
Print Assumptions C92_any_refused.

(** ... so C92 is false: every boolean, integer, number, domain and Base32/Base64 value is lost, although the same value comes back from a
    format that stores types. *)
Theorem C92_refuted : exists b : bool,
  own_de Boolean (bool_methods W64) (binary_input (binary_call (bool_ser b))) = Ok b /\
  (forall owned other, own_de Boolean (bool_methods W64) (schema_input owned other (bool_ser b)) = Err DType) /\
  exists pw t r v, ~ degenerate false pw t r /\ fits false pw t v /\ allowed r v /\
    own_de UnsignedInteger (int_methods false pw t r) (binary_input (binary_call (int_ser false t v))) = Ok v /\
    forall owned other, own_de UnsignedInteger (int_methods false pw t r) (schema_input owned other (int_ser false t v)) = Err DType.
Proof.
  exists true. split; [reflexivity|]. split; [reflexivity|].
  exists W64, I32, Unlimited, 7. split; [intros [[i H]|(? & ? & ? & ? & H & _)]; discriminate|].
  split; [cbv; split; congruence|]. split; [exact I|]. split; reflexivity.
Qed.
Print Assumptions C92_refuted.

(** C92: the validators that ask for a text read it exactly as they read a JSON string, so that a value comes back exactly if it comes back
    from JSON. *)
Theorem C92_texts : forall E A (m : methods E A) k owned other s, (forall s, parse_string m s = parse_str m s) ->
  In k [Email; Host; HttpFtpUrl; HttpUrl; Ip; Ipv4; Ipv6; Line; MacAddress; Phone; Regex; Text; Uuid] ->
  own_de k m (schema_input owned other (SStr s)) = own_de k m (json_input (JStr s)) /\
  wrap_de k m (schema_input owned other (SStr s)) = wrap_de k m (json_input (JStr s)).
Proof.
  intros E A m k owned other s H Hk.
  repeat (destruct Hk as [<-|Hk]; [unfold own_de, wrap_de, de, visit; destruct owned; cbn; rewrite ?H; split; reflexivity|]). destruct Hk.
Qed.
Print Assumptions C92_texts.

(** C92: a byte size comes back if it was written with 128 bits; if it was written with another width, the validator is given whatever the
    format reads 128 bits as. *)
Theorem C92_byte : forall from_str cap r v owned other w, (v <= cap)%N ->
  own_de Byte (size_methods from_str cap r) (schema_input owned other (SInt false w (Z.of_N v))) =
  match w with
  | I128 => omap_err DCustom (size_parse_u64 r v)
  | _ => match other HU128 with
         | Some c => visit (own_visitor Byte (size_methods from_str cap r)) c
         | None => Err DType
         end
  end.
Proof.
  intros from_str cap r v owned other w Hv. unfold own_de, de.
  destruct w; cbn [schema_input human present own_hint]; try reflexivity.
  unfold visit. cbn [own_visitor size_methods parse_int]. rewrite N2Z.id. unfold size_parse_u128, size_parse_u64, size_from_u128.
  replace (v <=? cap)%N with true by lia. reflexivity.
Qed.
Print Assumptions C92_byte.

(** So a size that byte_unit wrote with 64 bits (as it does without the feature [byte-unit-u128], when no size exceeds 64 bits) is refused if
    the 64 bits that are read along with it (as bincode does) are not all zero, or if there are none. *)
Theorem C92_byte_refuted : exists from_str r v, size_parse_u64 r v = Ok v /\
  forall owned other, other HU128 = None \/ (exists next, (0 < next)%Z /\ other HU128 = Some (DInt false I128 (Z.of_N v + 2 ^ 64 * next))) ->
  forall w, own_de Byte (size_methods from_str (2 ^ 64 - 1)%N r) (schema_input owned other (SInt false I64 (Z.of_N v))) <> Ok w.
Proof.
  exists (fun _ => None), size_default, 5%N. split; [reflexivity|].
  intros owned other [H|(next & Hn & H)] w; rewrite C92_byte by (vm_compute; discriminate); rewrite H; [discriminate|].
  unfold visit. cbn [own_visitor size_methods parse_int]. unfold size_parse_u128, size_from_u128.
  replace (Z.to_N _ <=? 2 ^ 64 - 1)%N with false by lia. discriminate.
Qed.
Print Assumptions C92_byte_refuted.

Example C92_example :
  In Regex [Email; Host; HttpFtpUrl; HttpUrl; Ip; Ipv4; Ipv6; Line; MacAddress; Phone; Regex; Text; Uuid] /\
  own_de Regex (regex_methods (fun s => match s with [] => false | _ => true end)) (schema_input true (fun _ => None) (text_ser [97]%N)) = Ok [97]%N /\
  own_de Regex (regex_methods (fun s => match s with [] => false | _ => true end)) (schema_input true (fun _ => None) (text_ser [])) = Err (DCustom RegexError) /\
  own_de Boolean (bool_methods W64) (schema_input false (fun _ => None) (bool_ser true)) = Err DType.
Proof. repeat split; cbn; tauto. Qed.
