(** json: C52 and C64. *)
From Verif Require Import Base RangeModel IntStr IntModel IntSpec IntProofs NumberModel NumberSpec NumberCast NumberProofs Serde DeModel JsonModel.
Local Open Scope Z_scope.

(** C52 is false: a json validator serialises its value as a string holding the JSON text, but deserialises the value itself. Wrapping
    a type that is not deserialised from strings, no value comes back ... *)
Theorem C52_round_trip_refuted : exists A from_value to_string (a : A) s c,
  json_ser A to_string a = Ok (SStr s) /\ json_ser A to_string a = Ok c /\
  (exists j, from_value j = Some a) /\
  json_own_de A from_value (Ok (json_of c)) = Err (DCustom SerdeJsonError).
Proof.
  exists bool, (fun j => match j with JBool b => Some b | _ => None end),
    (fun b : bool => Some (if b then bs "true" else bs "false")), true, (bs "true"), (SStr (bs "true")).
  repeat split. exists (JBool true). reflexivity.
Qed.
Print Assumptions C52_round_trip_refuted.

(** ... in fact, for any such type ... *)
Theorem C52_no_strings : forall A from_value to_string (a : A) c,
  (forall s, from_value (JStr s) = None) -> json_ser A to_string a = Ok c ->
  json_own_de A from_value (Ok (json_of c)) = Err (DCustom SerdeJsonError).
Proof.
  intros A from_value to_string a c H Hc. unfold json_ser, to_minified_json_string in Hc.
  destruct (to_string a) as [s|]; [|discriminate]. injection Hc as <-. cbn. rewrite H. reflexivity.
Qed.
Print Assumptions C52_no_strings.

(** ... and wrapping [String] or [serde_json::Value] a different value comes back, without an error, because the JSON text of a
    string is longer than the string. *)
Theorem C52_strings_change : forall to_string (s t : list N), to_string s = Some t -> (List.length s < List.length t)%nat ->
  exists c v, json_ser (list N) to_string s = Ok c /\
    json_own_de (list N) (fun j => match j with JStr s => Some s | _ => None end) (Ok (json_of c)) = Ok v /\ v <> s.
Proof.
  intros to_string s t H L. exists (SStr t), t. unfold json_ser, to_minified_json_string. rewrite H.
  repeat split. intros ->. lia.
Qed.
Print Assumptions C52_strings_change.

Theorem C52_values_change : forall to_string (j : json) t, to_string j = Some t ->
  (forall s, j = JStr s -> (List.length s < List.length t)%nat) ->
  exists c v, json_ser json to_string j = Ok c /\ json_own_de json Some (Ok (json_of c)) = Ok v /\ v <> j.
Proof.
  intros to_string j t H L. exists (SStr t), (JStr t). unfold json_ser, to_minified_json_string. rewrite H.
  repeat split. intros <-. specialize (L t eq_refl). lia.
Qed.
Print Assumptions C52_values_change.

(** What does hold: the minified and the beautified text are read back by [parse_str], if serde_json reads what it writes; and
    deserialising the value that the text denotes gives the value. *)
Theorem C52_text_partial : forall A from_str to_string to_string_pretty (a : A),
  (forall a t, to_string a = Some t \/ to_string_pretty a = Some t -> from_str t = Some a) ->
  (forall t, to_minified_json_string A to_string a = Ok t -> json_parse_str A from_str t = Ok a) /\
  (forall t, to_beautified_json_string A to_string_pretty a = Ok t -> json_parse_str A from_str t = Ok a).
Proof.
  intros A from_str to_string to_string_pretty a H.
  unfold to_minified_json_string, to_beautified_json_string, json_parse_str, json_v_parse_str. split; intros t Ht.
  - destruct (to_string a) as [s|] eqn:E; [|discriminate]. injection Ht as <-. rewrite (H a s) by auto. reflexivity.
  - destruct (to_string_pretty a) as [s|] eqn:E; [|discriminate]. injection Ht as <-. rewrite (H a s) by auto. reflexivity.
Qed.
Print Assumptions C52_text_partial.

Theorem C52_value_partial : forall A from_value (to_value : A -> json) a, (forall a, from_value (to_value a) = Some a) ->
  json_own_de A from_value (Ok (to_value a)) = Ok a.
Proof. intros A from_value to_value a H. unfold json_own_de. cbn [obind]. rewrite H. reflexivity. Qed.
Print Assumptions C52_value_partial.

Example C52_example :
  let read t := if eqbs t (bs "true") then Some true else if eqbs t (bs "false") then Some false else None in
  let write := fun b : bool => Some (if b then bs "true" else bs "false") in
  (forall a t, write a = Some t \/ write a = Some t -> read t = Some a) /\
  to_minified_json_string bool write false = Ok (bs "false") /\ json_parse_str bool read (bs "false") = Ok false /\
  (List.length (bs "x") < List.length (34%N :: bs "x" ++ [34%N]))%nat.
Proof.
  repeat split; try (cbn; lia). intros [] t [H|H]; injection H as <-; reflexivity.
Qed.

(** C64. The integer entry points agree with [parse_json_value] of the integer, for every integer that a JSON value holds ... *)
Theorem C64_integers_partial : forall A from_value sg pw t z, fits sg pw t z -> - 2 ^ 63 <= z < 2 ^ 64 ->
  json_parse_int A from_value sg pw t z = json_parse_json_value A from_value (JInt z) /\
  json_validate_int A from_value sg pw t z = omap (fun _ => tt) (json_parse_int A from_value sg pw t z).
Proof.
  intros A from_value sg pw t z Hf Hz.
  assert (V : to_value_int z = Some (JInt z)).
  { unfold to_value_int. assert (B : ((- 2 ^ 63 <=? z) && (z <? 2 ^ 64))%bool = true) by lia. rewrite B. reflexivity. }
  assert (C : forall w, fits sg pw w z -> cast sg pw w z = z).
  { intros w Hw. apply fits_iff in Hw. unfold int_min, int_max in Hw. unfold cast.
    assert (P : 0 < bits pw w) by (destruct w, pw; reflexivity).
    destruct sg.
    - assert (Q : 2 ^ bits pw w = 2 * 2 ^ (bits pw w - 1)) by (rewrite <- Z.pow_succ_r by lia; f_equal; lia).
      rewrite Z.mod_small; lia.
    - rewrite Z.mod_small; lia. }
  assert (F : forall w w', bits pw w <= bits pw w' -> fits sg pw w z -> fits sg pw w' z).
  { intros w w' Hb H. apply fits_iff in H. apply fits_iff. unfold int_min, int_max in *.
    assert (2 ^ (bits pw w - 1) <= 2 ^ (bits pw w' - 1)) by (apply Z.pow_le_mono_r; lia).
    assert (2 ^ (bits pw w) <= 2 ^ (bits pw w')) by (apply Z.pow_le_mono_r; lia).
    destruct sg; lia. }
  assert (L : json_v_parse_64 A from_value z = json_v_parse_json_value A from_value (JInt z)).
  { unfold json_v_parse_64. rewrite V. reflexivity. }
  assert (L' : json_v_parse_128 A from_value z = json_v_parse_json_value A from_value (JInt z)).
  { unfold json_v_parse_128. rewrite V. reflexivity. }
  unfold json_parse_int, json_validate_int, json_int, json_parse_json_value.
  destruct t; [| | | | |destruct pw]; repeat (rewrite C; [|solve [eapply F; [|exact Hf]; cbn; lia]]);
    rewrite ?L, ?L'; destruct (json_v_parse_json_value A from_value (JInt z)); split; reflexivity.
Qed.
Print Assumptions C64_integers_partial.

(** ... but every other 128-bit integer is refused ... *)
Theorem C64_large_integers : forall A from_value sg pw z, z < - 2 ^ 63 \/ 2 ^ 64 <= z ->
  json_parse_int A from_value sg pw I128 z = Err SerdeJsonError.
Proof.
  intros A from_value sg pw z Hz. unfold json_parse_int, json_int, json_v_parse_128, to_value_int.
  assert (B : ((- 2 ^ 63 <=? z) && (z <? 2 ^ 64))%bool = false) by lia. rewrite B. reflexivity.
Qed.
Print Assumptions C64_large_integers.

(** ... even when the wrapped type is [u128] and reads its decimal text: the entry points do not agree. *)
Theorem C64_integers_refuted : exists A from_value from_str pw z a,
  fits false pw I128 z /\ json_parse_str A from_str (dec_of_Z z) = Ok a /\
  json_parse_int A from_value false pw I128 z = Err SerdeJsonError.
Proof.
  exists Z, (fun j => match j with JInt z => Some z | _ => None end),
    (fun s => match int_from_str 0 (2 ^ 128 - 1) s with Ok z => Some z | _ => None end), W64, (2 ^ 64), (2 ^ 64).
  split; [cbv; split; congruence|]. split; reflexivity.
Qed.
Print Assumptions C64_integers_refuted.

(** C64. Finite floats: [parse_f64] agrees with [parse_json_value] of the number, [parse_f32] with the widened one, ... *)
Theorem C64_floats_partial : forall A from_value f, match f with S754_zero _ | S754_finite _ _ _ => True | _ => False end ->
  json_parse_f64 A from_value f = json_parse_json_value A from_value (JFloat f) /\
  json_validate_f64 A from_value f = omap (fun _ => tt) (json_parse_f64 A from_value f) /\
  (is_float_of F32 f -> json_parse_f32 A from_value f = json_parse_json_value A from_value (JFloat (fcast F64 f))) /\
  json_validate_f32 A from_value f = omap (fun _ => tt) (json_parse_f32 A from_value f).
Proof.
  intros A from_value f Hf.
  assert (V : forall g, json_validate_f64 A from_value g = omap (fun _ => tt) (json_parse_f64 A from_value g)).
  { intros g. unfold json_validate_f64, json_parse_f64. destruct (json_v_parse_f64 A from_value g); reflexivity. }
  split; [destruct f; try destruct Hf; reflexivity|]. split; [apply V|]. split; [|apply V].
  intros H32. unfold json_parse_f32.
  assert (X : match fcast F64 f with S754_zero _ | S754_finite _ _ _ => True | _ => False end).
  { destruct f as [s|s| |s m e]; try destruct Hf; [exact I|].
    destruct (xval (S754_finite s m e)) as [x|] eqn:Ex; [|discriminate].
    destruct (f32_is_f64 _ x H32 Ex) as (b & Hb & Hbx). pose proof (fcast_exact F64 F32 _ b x H32 Hb Ex Hbx) as H1.
    cbn [xval] in Ex. injection Ex as <-.
    destruct (fcast F64 (S754_finite s m e)) as [s'|s'| |s' m' e']; cbn [xval] in H1; try exact I; try discriminate H1.
    destruct s'; discriminate H1. }
  destruct (fcast F64 f); try destruct X; reflexivity.
Qed.
Print Assumptions C64_floats_partial.

(** ... but a NaN or an infinity is taken for [null]: accepted, as [null], by every wrapped type that accepts [null]. *)
Theorem C64_nan_is_null : forall A from_value f, f = S754_nan \/ (exists s, f = S754_infinity s) ->
  json_parse_f64 A from_value f = json_parse_json_value A from_value JNull.
Proof. intros A from_value f [->|[s ->]]; reflexivity. Qed.
Print Assumptions C64_nan_is_null.

Theorem C64_nan_refuted : exists A (from_value : json -> option A) f a,
  is_float_of F64 f /\ json_parse_f64 A from_value f = Ok a /\ from_value JNull = Some a /\ forall g, from_value (JFloat g) <> Some a.
Proof.
  exists (option spec_float), (fun j => match j with JNull => Some None | JFloat f => Some (Some f) | _ => None end), S754_nan, None.
  repeat split. discriminate.
Qed.
Print Assumptions C64_nan_refuted.

(** C64. Booleans, and the string entry points. *)
Theorem C64_others : forall A from_value from_str b s j,
  json_parse_bool A from_value b = json_parse_json_value A from_value (JBool b) /\
  json_validate_bool A from_value b = omap (fun _ => tt) (json_parse_bool A from_value b) /\
  json_parse_string A from_str s = json_parse_str A from_str s /\
  json_validate_str A from_str s = omap (fun _ => tt) (json_parse_str A from_str s) /\
  json_validate_json_value A from_value j = omap (fun _ => tt) (json_parse_json_value A from_value j) /\
  (forall a, json_parse_json_value A from_value j = Ok a <-> from_value j = Some a) /\
  (forall a, json_parse_str A from_str s = Ok a <-> from_str s = Some a).
Proof.
  intros A from_value from_str b s j.
  unfold json_parse_bool, json_validate_bool, json_validate_str, json_parse_string, json_parse_str, json_validate_json_value,
    json_parse_json_value, json_v_parse_str, json_v_parse_bool, json_v_parse_json_value.
  destruct (from_value (JBool b)), (from_str s), (from_value j); cbn; repeat split; congruence.
Qed.
Print Assumptions C64_others.

Example C64_example :
  fits true W64 I16 (-300) /\
  json_parse_int Z (fun j => match j with JInt z => Some z | _ => None end) true W64 I16 (-300) = Ok (-300) /\
  json_parse_int Z (fun j => match j with JInt z => Some z | _ => None end) false W64 I128 (2 ^ 64 - 1) = Ok (2 ^ 64 - 1) /\
  json_parse_bool Z (fun j => match j with JInt z => Some z | _ => None end) true = Err SerdeJsonError /\
  is_float_of F32 (S754_finite false (2 ^ 23)%positive (-24)) /\
  json_parse_f32 json Some (S754_finite false (2 ^ 23)%positive (-24)) = Ok (JFloat (S754_finite false (2 ^ 52)%positive (-53))).
Proof. repeat split; cbv; congruence. Qed.
