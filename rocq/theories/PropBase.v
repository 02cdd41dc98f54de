(** Properties C18-C24: base32/base64/base64_url and their decoded variants. *)
From Verif Require Import Base BaseModel BaseSpec BaseProofs CodecSpec CodecModel CodecProofs Serde BaseSerde.
Local Open Scope N_scope.

(** C18: every accepted byte is ASCII and the stored text is the input. *)
Theorem C18_base_memory_safe : forall f padding v r,
  base_parse_u8_slice f padding v = Ok r \/ base_parse_vec_u8 f padding v = Ok r ->
  r = v /\ Forall (fun b => b < 128) r.
Proof.
  intros f padding v r H.
  assert (H' : base_parse_str f padding v = Ok r) by (destruct H; assumption).
  apply base_parse_ok in H' as [-> HS]. split; [reflexivity|].
  apply base_shape_bytes in HS. eapply Forall_impl; [|exact HS].
  cbn. intros c [Hc| ->]; [|lia]. apply in_alphabet_iff, in_alphabet_ascii in Hc. lia.
Qed.
Print Assumptions C18_base_memory_safe.

(** C18: the six entry points agree, and none panics. *)
Theorem C18_base_entry_points : forall f padding v,
  base_parse_string f padding v = base_parse_str f padding v /\
  base_parse_vec_u8 f padding v = base_parse_str f padding v /\
  base_parse_u8_slice f padding v = base_parse_str f padding v /\
  base_validate_str f padding v = omap (fun _ => tt) (base_parse_str f padding v) /\
  base_validate_u8_slice f padding v = omap (fun _ => tt) (base_parse_str f padding v) /\
  base_parse_str f padding v <> Panic.
Proof.
  intros f padding v.
  unfold base_parse_string, base_parse_vec_u8, base_parse_u8_slice, base_validate_str, base_validate_u8_slice,
    base_parse_str, base_v_parse_str.
  pose proof (scanner_no_panic f padding v) as HP.
  destruct (base_v_parse_u8_slice f padding v) as [[]| |]; cbn; repeat split; congruence.
Qed.
Print Assumptions C18_base_entry_points.

Example C18_example :
  base_parse_u8_slice B64 Must (bs "aGk=") = Ok (bs "aGk=") /\
  base_parse_u8_slice B64 Allow (bs "aG" ++ [195; 169]) = Err BInvalid /\
  base_parse_vec_u8 B32 Allow (bs "NBUQ") = Ok (bs "NBUQ").
Proof. repeat split. Qed.

(** C19: the accepted language, exactly. *)
Theorem C19_base_language : forall f padding v,
  is_ok (base_parse_str f padding v) <-> base_shape f padding v.
Proof.
  intros f padding v. split.
  - intros [r H]. apply base_parse_ok in H. tauto.
  - intros H. exists v. apply base_parse_ok. tauto.
Qed.
Print Assumptions C19_base_language.

Example C19_example :
  base_shape B64 Must (bs "aGVsbG8=") /\ ~ base_shape B64 Disallow (bs "aGVsbG8=") /\
  base_shape B32 Allow (bs "MFRGG===") /\ ~ base_shape B32 Allow (bs "MFRGGA==") /\
  base_shape B64Url Disallow (bs "a-_") /\ ~ base_shape B64 Disallow (bs "a-_").
Proof.
  rewrite <- !scanner_ok. repeat split; try reflexivity; discriminate.
Qed.

(** C20: the padding policy and the truthfulness of the padding errors. *)
Theorem C20_padding_policy : forall f v,
  (is_ok (base_parse_str f Must v) -> Nat.divide (chars_per_block f) (List.length v)) /\
  (is_ok (base_parse_str f Disallow v) -> ~ In 61 v).
Proof.
  intros f v. split; intros H; apply C19_base_language in H; destruct H as (b & k & -> & _ & Hb & Hk & Hm).
  - apply Hm. reflexivity.
  - intros Hin. destruct (Nat.eq_dec k 0) as [->|Hk0]; [|destruct (Hk Hk0) as (_ & _ & X); contradiction].
    cbn [repeat] in Hin. rewrite app_nil_r in Hin. rewrite Forall_forall in Hb.
    apply Hb, in_alphabet_iff, in_alphabet_ascii in Hin. lia.
Qed.
Print Assumptions C20_padding_policy.

Theorem C20_padding_errors : forall f padding v,
  (base_parse_str f padding v = Err BPaddingMust <->
     padding = Must /\ v <> [] /\ ~ Nat.divide (chars_per_block f) (List.length v)) /\
  (base_parse_str f padding v = Err BPaddingDisallow -> padding = Disallow /\ In 61 v) /\
  base_parse_str f padding v <> Err BDecode.
Proof.
  intros f padding v. change (chars_per_block f) with (block f).
  destruct (scanner_errors f padding v) as (H1 & H2 & H3).
  unfold base_parse_str, base_v_parse_str.
  destruct (base_v_parse_u8_slice f padding v) as [[]|e|]; cbn.
  - repeat split; try discriminate; intros H; exfalso; apply H1 in H; discriminate.
  - split; [|split].
    + rewrite <- H1. split; congruence.
    + intros H. apply H2. congruence.
    + intros H. apply H3. congruence.
  - repeat split; try discriminate; intros H; exfalso; apply H1 in H; discriminate.
Qed.
Print Assumptions C20_padding_errors.

Example C20_example :
  base_parse_str B64 Must (bs "aGk") = Err BPaddingMust /\
  base_parse_str B64 Disallow (bs "aGk=") = Err BPaddingDisallow /\
  base_parse_str B64 Must (bs "aGk=") = Ok (bs "aGk=") /\
  base_parse_str B32 Must (bs "MFRGG===") = Ok (bs "MFRGG===").
Proof. repeat split. Qed.

(** C21 is false: for every alphabet and every padding policy some accepted text is the encoding of
    no byte sequence. *)
Theorem C21_decodable_refuted : forall f padding, exists v,
  base_parse_str f padding v = Ok v /\
  forall d, bytes d -> v <> encode f d /\ v <> encode_pad f d.
Proof.
  intros f padding.
  exists (match f, padding with
          | B32, Must => bs "AB======" | _, Must => bs "AB==" | _, Disallow => bs "A" | _, Allow => bs "AB"
          end).
  split; [destruct f, padding; reflexivity|].
  intros d Hd. split; intros H.
  - pose proof (decode_encode f d Hd) as HD. rewrite <- H in HD. destruct f, padding; discriminate.
  - destruct d as [|x d]; [destruct f, padding; discriminate|].
    pose proof (decode_encode_pad f (x :: d) Hd ltac:(discriminate)) as HD. rewrite <- H in HD.
    destruct f, padding; discriminate.
Qed.
Print Assumptions C21_decodable_refuted.

(** C21, the part that holds: an accepted text is an encoding exactly if the bits beyond its last whole
    byte are fewer than one character and are zero in its last character. Missing: that the validator
    checks this. *)
Theorem C21_decodable_partial : forall f padding front x k,
  let v := front ++ [nth (N.to_nat x) (alphabet f) 0] ++ repeat 61 k in
  let excess := ((bpc f * S (List.length front)) mod 8)%nat in
  base_parse_str f padding v = Ok v -> x < 2 ^ N.of_nat (bpc f) -> Forall (fun c => In c (alphabet f)) front ->
  (exists d, bytes d /\ (v = encode f d \/ v = encode_pad f d)) <->
  ((excess < bpc f)%nat /\ x mod 2 ^ N.of_nat excess = 0).
Proof.
  intros f padding front x k v excess Hv Hx Hfront.
  assert (HV : dec_validate_str f padding v = Ok tt).
  { unfold base_parse_str, base_v_parse_str, dec_validate_str, dec_v_validate_str, dec_v_validate_u8_slice in *.
    destruct (base_v_parse_u8_slice f padding v) as [[]| |]; [reflexivity|discriminate|discriminate]. }
  rewrite <- (dec_validate_parse f padding v HV).
  apply Forall_alphabet in Hfront. destruct (alphabet_chars f front Hfront) as (ds & D1 & D2).
  assert (Ev : v = chars f (ds ++ [x]) ++ repeat 61 k).
  { unfold v, chars. rewrite map_app. fold (chars f ds). rewrite <- D2. cbn [List.map].
    rewrite <- app_assoc. reflexivity. }
  assert (HS : base_shape f padding v) by (apply base_parse_ok in Hv; tauto).
  rewrite Ev in HS |- *. rewrite shape_parse.
  2:{ exact HS. }
  2:{ apply text_bits_some. rewrite text_bits_chars by (apply Forall_app; split; [exact D1|constructor; [exact Hx|constructor]]).
      eauto. }
  assert (Hlen : List.length front = List.length ds) by (rewrite D2; apply map_length).
  unfold excess. rewrite Hlen. change (bpc f) with (bit_width f).
  rewrite <- (decode_last f ds x D1 Hx). split.
  - intros [d Hd]. exists d. apply or_decode_ok. exact Hd.
  - intros [d Hd]. exists d. apply or_decode_ok. exact Hd.
Qed.
Print Assumptions C21_decodable_partial.

Example C21_example :
  base_parse_str B64 Allow (bs "aGk=") = Ok (bs "aGk=") /\ bs "aGk=" = encode_pad B64 (bs "hi") /\
  base_parse_str B64 Allow (bs "A") = Ok (bs "A").
Proof. repeat split. Qed.

(** C22: parsing the encoding of a byte sequence gives the byte sequence. *)
Theorem C22_decoded_inverts_encoder : forall f padding d, bytes d -> d <> [] ->
  (padding <> Disallow -> dec_parse_str f padding (encode_pad f d) = Ok d) /\
  (padding <> Must -> dec_parse_str f padding (encode f d) = Ok d).
Proof. exact dec_roundtrip_lemma. Qed.
Print Assumptions C22_decoded_inverts_encoder.

(** C22: any parsed value re-encodes to a text that parses to it. *)
Theorem C22_decoded_reencodes : forall f padding v d, dec_parse_str f padding v = Ok d ->
  (padding <> Disallow -> dec_parse_str f padding (encode_pad f d) = Ok d) /\
  (padding <> Must -> dec_parse_str f padding (encode f d) = Ok d).
Proof.
  intros f padding v d H. apply dec_parse_bytes in H as [H1 H2]. apply dec_roundtrip_lemma; assumption.
Qed.
Print Assumptions C22_decoded_reencodes.

(** C22: what a successful parse means, exactly: the text is the unpadded encoding of the value, or a
    concatenation of padded encodings of pieces of it. *)
Theorem C22_decoded_exact : forall f padding v d,
  dec_parse_str f padding v = Ok d <->
  v <> [] /\
  ((padding <> Must /\ bytes d /\ v = encode f d /\ (padding = Allow -> last v 0 <> 61)) \/
   (padding <> Disallow /\ (padding = Allow -> last v 0 = 61) /\
    exists ds, Forall (fun x => bytes x /\ x <> []) ds /\
               v = List.concat (List.map (encode_pad f) ds) /\ d = List.concat ds)).
Proof. exact dec_parse_exact. Qed.
Print Assumptions C22_decoded_exact.

(** C22: the entry points of the decoded validators. *)
Theorem C22_decoded_entry_points : forall f padding v,
  dec_parse_string f padding v = dec_parse_str f padding v /\
  dec_parse_vec_u8 f padding v = dec_parse_str f padding v /\
  dec_parse_u8_slice f padding v = dec_parse_str f padding v /\
  dec_validate_u8_slice f padding v = dec_validate_str f padding v /\
  dec_parse_str f padding v <> Panic /\ dec_validate_str f padding v <> Panic.
Proof.
  intros f padding v. repeat split; try apply dec_no_panic.
  unfold dec_validate_str, dec_v_validate_str, dec_v_validate_u8_slice.
  pose proof (scanner_no_panic f padding v) as HP.
  destruct (base_v_parse_u8_slice f padding v); cbn; congruence.
Qed.
Print Assumptions C22_decoded_entry_points.

Example C22_example :
  encode B64 (bs "Many hands") = bs "TWFueSBoYW5kcw" /\ encode_pad B64 (bs "Many hands") = bs "TWFueSBoYW5kcw==" /\
  encode_pad B32 (bs "foob") = bs "MZXW6YQ=" /\ encode_pad B32 (bs "foobar") = bs "MZXW6YTBOI======" /\
  encode B64Url [251; 255] = bs "-_8" /\
  dec_parse_str B64 Must (bs "TWFueSBoYW5kcw==") = Ok (bs "Many hands") /\
  dec_parse_str B32 Allow (bs "MZXW6YTBOI") = Ok (bs "foobar") /\
  dec_parse_str B64 Disallow (bs "TWFueSBoYW5kcw==") = Err BDecode.
Proof. vm_compute. repeat split. Qed.

(** C23 is false in both directions: validate accepts texts that parse rejects, and parse accepts
    texts that validate rejects. *)
Theorem C23_validate_accepts_more_refuted : forall f padding, exists v,
  dec_validate_str f padding v = Ok tt /\ dec_parse_str f padding v = Err BDecode.
Proof.
  intros f padding.
  exists (match f, padding with B32, Must => bs "AB======" | _, Must => bs "AB==" | _, _ => bs "A" end).
  destruct f, padding; split; reflexivity.
Qed.
Print Assumptions C23_validate_accepts_more_refuted.

Theorem C23_parse_accepts_more_refuted : forall f padding, padding <> Disallow -> exists v d,
  dec_parse_str f padding v = Ok d /\ dec_validate_str f padding v = Err BInvalid.
Proof.
  intros f padding Hp.
  exists (match f with B32 => bs "AA======AA======" | _ => bs "AA==AA==" end), [0; 0].
  destruct f, padding; try contradiction; split; reflexivity.
Qed.
Print Assumptions C23_parse_accepts_more_refuted.

(** C23, the part that holds, each direction with its exact condition. Missing: texts that are not
    canonical encodings, and texts with padding before the end. *)
Theorem C23_validate_implies_parse_partial : forall f padding v, dec_validate_str f padding v = Ok tt ->
  is_ok (dec_parse_str f padding v) <-> exists d, bytes d /\ (v = encode f d \/ v = encode_pad f d).
Proof. exact dec_validate_parse. Qed.
Print Assumptions C23_validate_implies_parse_partial.

Theorem C23_parse_implies_validate_partial : forall f padding v, is_ok (dec_parse_str f padding v) ->
  dec_validate_str f padding v = Ok tt <-> exists body k, v = body ++ repeat 61 k /\ ~ In 61 body.
Proof. exact dec_parse_validate. Qed.
Print Assumptions C23_parse_implies_validate_partial.

Example C23_example :
  dec_validate_str B64 Allow (bs "aGk=") = Ok tt /\ is_ok (dec_parse_str B64 Allow (bs "aGk=")) /\
  dec_validate_str B64 Allow (bs "aGl=") = Ok tt /\ dec_parse_str B64 Allow (bs "aGl=") = Err BDecode.
Proof. repeat split. exists (bs "hi"). reflexivity. Qed.

(** C24 is false: no decoded value survives serialisation and deserialisation, neither through JSON
    (an array of numbers is not accepted) nor through a format with byte strings (the data are taken
    for encoded text). *)
Theorem C24_decoded_serde_refuted : forall f padding d,
  visit (dec_visitor f padding) (json_call (json_of (dec_ser d))) <> Ok d /\
  visit (dec_visitor f padding) (binary_call (dec_ser d)) <> Ok d.
Proof.
  intros f padding d. split; [discriminate|].
  cbn [dec_ser binary_call]. unfold visit. cbn [dec_visitor].
  change (dec_parse_u8_slice f padding d) with (dec_parse_str f padding d).
  destruct (dec_parse_str f padding d) as [r|e|] eqn:E; cbn; try discriminate.
  intros H. injection H as ->. apply dec_parse_shorter in E. lia.
Qed.
Print Assumptions C24_decoded_serde_refuted.

(** C24, the part that holds: what deserialisation accepts from a text is what parsing accepts.
    Missing: the round trip. *)
Theorem C24_decoded_deserialize_partial : forall f padding s d,
  visit (dec_visitor f padding) (json_call (JStr s)) = Ok d <-> dec_parse_str f padding s = Ok d.
Proof.
  intros f padding s d. cbn [json_call]. unfold visit. cbn [dec_visitor].
  destruct (dec_parse_str f padding s); cbn; split; congruence.
Qed.
Print Assumptions C24_decoded_deserialize_partial.

(** The undecoded validators do round-trip, in both kinds of format. *)
Theorem C24_encoded_serde : forall f padding v r, base_parse_str f padding v = Ok r ->
  visit (base_visitor f padding) (json_call (json_of (base_ser r))) = Ok r /\
  visit (base_visitor f padding) (binary_call (base_ser r)) = Ok r.
Proof.
  intros f padding v r H. pose proof H as H'. apply base_parse_ok in H' as [-> _].
  cbn. unfold visit. cbn. rewrite H. split; reflexivity.
Qed.
Print Assumptions C24_encoded_serde.

Example C24_example :
  dec_parse_str B64 Allow (bs "aGk=") = Ok (bs "hi") /\
  visit (dec_visitor B64 Allow) (json_call (json_of (dec_ser (bs "hi")))) = Err DType /\
  visit (dec_visitor B64 Allow) (binary_call (dec_ser (bs "hiya"))) = Ok [134; 44; 154] /\
  visit (dec_visitor B64 Allow) (json_call (JStr (bs "aGk"))) = Ok (bs "hi").
Proof. repeat split. Qed.
