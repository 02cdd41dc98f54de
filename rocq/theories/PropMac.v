(** mac_address and uuid: C25 - C30. *)
From Verif Require Import Base MacModel MacSpec MacProofs Serde MacSerde.
Local Open Scope N_scope.

(** C25. Whatever is accepted has the described form and value (any separator byte) ... *)
Theorem C25_mac_accepts_only : forall case sep v x, mac_parse_str case sep v = Ok x ->
  exists digits, grouped sep mac_sizes v digits /\ hex_denotes case digits x.
Proof. exact (parse_sound true). Qed.
Print Assumptions C25_mac_accepts_only.

(** ... everything of that form is accepted, if an optional separator cannot be mistaken for a digit ... *)
Theorem C25_mac_accepts_exactly : forall case sep v x, sep_not_digit case sep ->
  mac_parse_str case sep v = Ok x <->
  exists digits, grouped sep mac_sizes v digits /\ hex_denotes case digits x.
Proof. exact (parse_exact true). Qed.
Print Assumptions C25_mac_accepts_exactly.

(** ... the stored value is a 48-bit number, and the other entry points agree. *)
Theorem C25_mac_48_bits : forall case sep v x, mac_parse_str case sep v = Ok x -> x < 2 ^ 48.
Proof. exact (parse_bound true). Qed.
Print Assumptions C25_mac_48_bits.

Theorem C25_mac_entry_points : forall case sep v,
  mac_parse_string case sep v = mac_parse_str case sep v /\
  mac_validate_str case sep v = omap (fun _ => tt) (mac_parse_str case sep v).
Proof. intros case sep v. split; [reflexivity|]. exact (validate_parse true case sep v). Qed.
Print Assumptions C25_mac_entry_points.

Example C25_example :
  sep_not_digit AnyCase (SepAllow 58) /\
  mac_parse_str AnyCase (SepAllow 58) (bs "08:00:27:b4:6A2b") = Ok 8796759157291 /\
  mac_parse_str UpperCase (SepAllow 58) (bs "08:00:27:b4:6A2b") = Err HInvalid /\
  mac_parse_str AnyCase (SepMust 58) (bs "08:00:27:b4:6A2b") = Err HSeparatorMust /\
  grouped (SepAllow 58) mac_sizes (bs "08:00:27:b4:6A2b") (bs "080027b46A2b").
Proof.
  split; [|repeat split].
  - intros c d H Hh. injection H as <-. apply hex_digit_iff in Hh. discriminate Hh.
  - apply (iter_sound true). reflexivity.
Qed.

(** C26 is false: an optional separator consumed early leaves too little text for the later index. *)
Theorem C26_mac_panics_refuted : exists v,
  mac_parse_str AnyCase (SepAllow 58) v = Panic /\ mac_validate_str AnyCase (SepAllow 58) v = Panic.
Proof. exists (bs "AA:BB:CC:DD:"). split; reflexivity. Qed.
Print Assumptions C26_mac_panics_refuted.

(** C26, the part that holds. Missing: texts of 12, 13 or 14 bytes with at least 2, 3 or 4 separators
    among them, under the [Allow] policy. *)
Theorem C26_mac_no_panic_partial : forall case sep v,
  (forall c, sep = SepAllow c -> (List.length v < 12 \/ List.length v > 14 \/
                                  count_occ N.eq_dec v c + 10 < List.length v)%nat) ->
  mac_parse_str case sep v <> Panic /\ mac_validate_str case sep v <> Panic.
Proof.
  intros case sep v Hc.
  assert (Hp : mac_parse_str case sep v <> Panic).
  { intros Hp. apply (parse_panic true) in Hp as (c & -> & L1 & L2 & Hp).
    apply split_allow_panic_short in Hp. specialize (Hc c eq_refl). cbn in L1, L2, Hp. lia. }
  split; [exact Hp|]. rewrite (validate_parse true). cbn [parse_of].
  destruct (mac_parse_str case sep v); try discriminate. contradiction.
Qed.
Print Assumptions C26_mac_no_panic_partial.

Example C26_example :
  mac_parse_str AnyCase (SepAllow 58) (bs "AA:BB:CCDDEE") = Panic /\
  mac_parse_str AnyCase (SepAllow 58) (bs "AA:BBCCDDEE") = Err HInvalid /\
  mac_parse_str AnyCase (SepAllow 58) (bs "AA:BBCCDDEEFF") = Ok 187723572702975 /\
  mac_parse_str AnyCase (SepMust 58) (bs "AA:BB:CC:DD:") = Err HSeparatorMust.
Proof. repeat split. Qed.

(** C27 is false: with a separator policy no value at all survives printing, because the separator is
    printed as a decimal number. The same holds through serde. *)
Theorem C27_mac_roundtrip_refuted : forall case sep c x, sep_allow sep = Some c -> c < 256 ->
  exists e, mac_parse_str case sep (to_mac_address_string case sep x) = Err e /\
    visit (mac_visitor case sep) (json_call (json_of (mac_ser case sep x))) = Err (DCustom e).
Proof.
  intros case sep c x Hs Hc. destruct (roundtrip_sep_fails true case sep c x Hs Hc) as [e He].
  cbn [parse_of show_of] in He. exists e. split; [exact He|].
  unfold mac_ser. cbn [json_of json_call]. unfold visit. cbn [mac_visitor]. rewrite He. reflexivity.
Qed.
Print Assumptions C27_mac_roundtrip_refuted.

(** C27, the part that holds: without separators. Missing: every validator that has a separator. *)
Theorem C27_mac_roundtrip_partial : forall case v x, mac_parse_str case SepDisallow v = Ok x ->
  mac_parse_str case SepDisallow (to_mac_address_string case SepDisallow x) = Ok x /\
  visit (mac_visitor case SepDisallow) (json_call (json_of (mac_ser case SepDisallow x))) = Ok x.
Proof.
  intros case v x H. apply (parse_bound true) in H. apply (roundtrip_disallow true case) in H.
  cbn [parse_of show_of] in H. split; [exact H|].
  unfold mac_ser. cbn [json_of json_call]. unfold visit. cbn [mac_visitor]. rewrite H. reflexivity.
Qed.
Print Assumptions C27_mac_roundtrip_partial.

Example C27_example :
  mac_parse_str AnyCase (SepAllow 58) (bs "08:00:27:B4:6A:2B") = Ok 8796759157291 /\
  to_mac_address_string AnyCase (SepAllow 58) 8796759157291 = bs "085800582758B4586A582B" /\
  to_mac_address_string LowerCase SepDisallow 8796759157291 = bs "080027b46a2b" /\
  mac_parse_str LowerCase SepDisallow (bs "080027b46a2b") = Ok 8796759157291.
Proof. repeat split. Qed.

(** C28. *)
Theorem C28_uuid_accepts_only : forall case sep v x, uuid_parse_str case sep v = Ok x ->
  exists digits, grouped sep uuid_sizes v digits /\ hex_denotes case digits x.
Proof. exact (parse_sound false). Qed.
Print Assumptions C28_uuid_accepts_only.

Theorem C28_uuid_accepts_exactly : forall case sep v x, sep_not_digit case sep ->
  uuid_parse_str case sep v = Ok x <->
  exists digits, grouped sep uuid_sizes v digits /\ hex_denotes case digits x.
Proof. exact (parse_exact false). Qed.
Print Assumptions C28_uuid_accepts_exactly.

Theorem C28_uuid_128_bits : forall case sep v x, uuid_parse_str case sep v = Ok x -> x < 2 ^ 128.
Proof. exact (parse_bound false). Qed.
Print Assumptions C28_uuid_128_bits.

Theorem C28_uuid_entry_points : forall case sep v,
  uuid_parse_string case sep v = uuid_parse_str case sep v /\
  uuid_validate_str case sep v = omap (fun _ => tt) (uuid_parse_str case sep v).
Proof. intros case sep v. split; [reflexivity|]. exact (validate_parse false case sep v). Qed.
Print Assumptions C28_uuid_entry_points.

Example C28_example :
  sep_not_digit AnyCase (SepAllow 45) /\
  uuid_parse_str AnyCase (SepMust 45) (bs "00000000-0000-0000-0001-0000000000fF") = Ok (2 ^ 48 + 255) /\
  uuid_parse_str AnyCase (SepAllow 45) (bs "00000000-000000000001-0000000000fF") = Ok (2 ^ 48 + 255) /\
  uuid_parse_str AnyCase SepDisallow (bs "000000000000000000010000000000fF") = Ok (2 ^ 48 + 255) /\
  uuid_parse_str LowerCase SepDisallow (bs "000000000000000000010000000000fF") = Err HInvalid.
Proof.
  split; [|repeat split].
  intros c d H Hh. injection H as <-. apply hex_digit_iff in Hh. discriminate Hh.
Qed.

(** C29. *)
Theorem C29_uuid_no_panic : forall case sep v,
  uuid_parse_str case sep v <> Panic /\ uuid_parse_string case sep v <> Panic /\
  uuid_validate_str case sep v <> Panic.
Proof.
  intros case sep v. pose proof (uuid_no_panic case sep v) as Hp. cbn [parse_of] in Hp.
  split; [exact Hp|]. split; [exact Hp|]. rewrite (validate_parse false). cbn [parse_of].
  destruct (uuid_parse_str case sep v); try discriminate. contradiction.
Qed.
Print Assumptions C29_uuid_no_panic.

Example C29_example :
  uuid_parse_str AnyCase (SepAllow 45) (bs "00000000-0000-0000-0000-00000000") = Err HInvalid /\
  uuid_parse_str AnyCase (SepAllow 45) (repeat 45 33) = Err HInvalid.
Proof. split; reflexivity. Qed.

(** C30 is false, as C27. *)
Theorem C30_uuid_roundtrip_refuted : forall case sep c x, sep_allow sep = Some c -> c < 256 ->
  exists e, uuid_parse_str case sep (to_uuid_string case sep x) = Err e /\
    visit (uuid_visitor case sep) (json_call (json_of (uuid_ser case sep x))) = Err (DCustom e).
Proof.
  intros case sep c x Hs Hc. destruct (roundtrip_sep_fails false case sep c x Hs Hc) as [e He].
  cbn [parse_of show_of] in He. exists e. split; [exact He|].
  unfold uuid_ser. cbn [json_of json_call]. unfold visit. cbn [uuid_visitor]. rewrite He. reflexivity.
Qed.
Print Assumptions C30_uuid_roundtrip_refuted.

(** C30, the part that holds: without separators. Missing: every validator that has a separator. *)
Theorem C30_uuid_roundtrip_partial : forall case v x, uuid_parse_str case SepDisallow v = Ok x ->
  uuid_parse_str case SepDisallow (to_uuid_string case SepDisallow x) = Ok x /\
  visit (uuid_visitor case SepDisallow) (json_call (json_of (uuid_ser case SepDisallow x))) = Ok x.
Proof.
  intros case v x H. apply (parse_bound false) in H. apply (roundtrip_disallow false case) in H.
  cbn [parse_of show_of] in H. split; [exact H|].
  unfold uuid_ser. cbn [json_of json_call]. unfold visit. cbn [uuid_visitor]. rewrite H. reflexivity.
Qed.
Print Assumptions C30_uuid_roundtrip_partial.

Example C30_example :
  to_uuid_string UpperCase (SepMust 45) 255 = bs "0000000045000045000045000045" ++ bs "0000000000FF" /\
  to_uuid_string LowerCase SepDisallow 255 = bs "000000000000000000000000000000ff" /\
  uuid_parse_str LowerCase SepDisallow (bs "000000000000000000000000000000ff") = Ok 255.
Proof. repeat split. Qed.
