(** ip, ipv4 and ipv6: C31 - C35. A Rust string is UTF-8 ([valid_str]). *)
From Verif Require Import EntryFacts Base IntStr IntStrProofs NetModel NetSpec NetProofs IpModel IpSpec LocalProofs IpProofs
  Utf8 StrFacts Serde.
Local Open Scope N_scope.

(** C31. *)
Theorem C31_ip_no_panic : forall port local s, valid_str s ->
  ip_parse_str port local s <> Panic /\ ip_validate_str port local s <> Panic /\
  ipv4_parse_str port local s <> Panic /\ ipv4_validate_str port local s <> Panic /\
  ipv6_parse_str port local s <> Panic /\ ipv6_validate_str port local s <> Panic.
Proof. exact ip_family_no_panic. Qed.
Print Assumptions C31_ip_no_panic.

Theorem C31_ipv4_accepts_exactly : forall port local s a p, valid_str s ->
  ipv4_parse_str port local s = Ok (a, p) <->
  v4_form s a p /\ port_ok port p /\ local_ok local (v4_local a).
Proof. exact ipv4_parse_spec. Qed.
Print Assumptions C31_ipv4_accepts_exactly.

Theorem C31_ipv6_accepts_exactly : forall port local s a p, valid_str s ->
  ipv6_parse_str port local s = Ok (a, p) <->
  v6_form s a p /\ port_ok port p /\ local_ok local (v6_local a).
Proof. exact ipv6_parse_spec. Qed.
Print Assumptions C31_ipv6_accepts_exactly.

Theorem C31_ip_accepts_exactly : forall port local s x p, valid_str s ->
  ip_parse_str port local s = Ok (x, p) <->
  match x with
  | V4 a => v4_form s a p /\ port_ok port p /\ local_ok local (v4_local a)
  | V6 a => v6_form s a p /\ port_ok port p /\ local_ok local (v6_local a)
  end.
Proof. exact ip_parse_spec. Qed.
Print Assumptions C31_ip_accepts_exactly.

Theorem C31_ip_entry_points : forall port local s, valid_str s ->
  ip_parse_string port local s = ip_parse_str port local s /\
  ipv4_parse_string port local s = ipv4_parse_str port local s /\
  ipv6_parse_string port local s = ipv6_parse_str port local s /\
  ip_validate_str port local s = omap (fun _ => tt) (ip_parse_str port local s) /\
  ipv4_validate_str port local s = omap (fun _ => tt) (ipv4_parse_str port local s) /\
  ipv6_validate_str port local s = omap (fun _ => tt) (ipv6_parse_str port local s).
Proof.
  intros port local s Hv. split; [reflexivity|]. split; [reflexivity|]. split; [reflexivity|].
  destruct (ip_validate_parse port local s Hv) as (A & B & C).
  split; [|split]; apply validate_lift; assumption.
Qed.
Print Assumptions C31_ip_entry_points.

Example C31_example :
  valid_str (bs "[::ffff:1.2.3.4]:8080") /\
  ip_parse_str Must Allow (bs "[::ffff:1.2.3.4]:8080") = Ok (V6 [0; 0; 0; 0; 0; 65535; 258; 772], Some 8080) /\
  ip_parse_str Allow Disallow (bs "8.8.8.8") = Ok (V4 [8; 8; 8; 8], None) /\
  ip_parse_str Allow Disallow (bs "10.8.8.8") = Err IpLocalDisallow /\
  ip_parse_str Disallow Allow (bs "8.8.8.8:53") = Err IpPortDisallow /\
  ip_parse_str Allow Allow (bs "8.8.8.8:65536") = Err IpInvalid /\
  ip_parse_str Allow Allow (bs "8.8.8.08") = Err IpInvalid /\
  ip_parse_str Allow Allow (bs "[::1") = Err IpInvalid /\
  ip_parse_str Allow Allow [49; 58; 195; 169] = Err IpInvalid.
Proof.
  split; [|repeat split]. apply ascii_valid. repeat constructor.
Qed.

(** C32. *)
Theorem C32_ipv4_local_blocks : forall a, v4_addr a -> is_local_ipv4 a = true <-> v4_local a.
Proof. exact is_local_ipv4_spec. Qed.
Print Assumptions C32_ipv4_local_blocks.

Theorem C32_ipv6_local_blocks : forall a, v6_addr a -> is_local_ipv6 a = true <-> v6_local a.
Proof. exact is_local_ipv6_spec. Qed.
Print Assumptions C32_ipv6_local_blocks.

(** The policies follow the classification, whatever the port policy; [Allow] ignores it. *)
Theorem C32_ip_local_policy : forall port s x p, valid_str s ->
  let is_local := match x with V4 a => v4_local a | V6 a => v6_local a end in
  (ip_parse_str port Must s = Ok (x, p) <-> ip_parse_str port Allow s = Ok (x, p) /\ is_local) /\
  (ip_parse_str port Disallow s = Ok (x, p) <-> ip_parse_str port Allow s = Ok (x, p) /\ ~ is_local).
Proof.
  intros port s x p Hv is_local.
  pose proof (ip_parse_spec port Must s x p Hv) as H1. pose proof (ip_parse_spec port Allow s x p Hv) as H2.
  pose proof (ip_parse_spec port Disallow s x p Hv) as H3.
  destruct x as [a|a]; unfold v4_accepts, v6_accepts in *; cbn [local_ok] in *; unfold is_local; tauto.
Qed.
Print Assumptions C32_ip_local_policy.

Example C32_example :
  v4_addr [172; 31; 255; 255] /\ is_local_ipv4 [172; 31; 255; 255] = true /\
  is_local_ipv4 [172; 32; 0; 0] = false /\ is_local_ipv4 [100; 64; 0; 1] = false /\
  v6_addr [65279; 0; 0; 0; 0; 0; 0; 1] /\ is_local_ipv6 [65279; 0; 0; 0; 0; 0; 0; 1] = true /\
  is_local_ipv6 [65294; 0; 0; 0; 0; 0; 0; 1] = false /\ is_local_ipv6 [65282; 0; 0; 0; 0; 0; 0; 1] = true /\
  is_local_ipv6 [0; 0; 0; 0; 0; 65535; 2570; 2570] = true /\
  is_local_ipv6 [8193; 3513; 0; 0; 0; 0; 0; 1] = false.
Proof. split; [split; repeat constructor|]. split; [reflexivity|]. split; [reflexivity|]. split; [reflexivity|].
  split; [split; repeat constructor|]. repeat split. Qed.

(** C33, through the authority string and through serde. *)
Theorem C33_ipv4_roundtrip : forall port local s v, valid_str s -> ipv4_parse_str port local s = Ok v ->
  ipv4_parse_str port local (ipv4_authority v) = Ok v /\
  visit (ipv4_visitor port local) (json_call (json_of (ipv4_ser v))) = Ok v.
Proof.
  intros port local s v Hv H. pose proof (ipv4_roundtrip_parse port local s v Hv H) as R. split; [exact R|].
  unfold ipv4_ser. cbn [json_of json_call]. unfold visit. cbn [ipv4_visitor]. rewrite R. reflexivity.
Qed.
Print Assumptions C33_ipv4_roundtrip.

Theorem C33_ipv6_roundtrip : forall port local s v, valid_str s -> ipv6_parse_str port local s = Ok v ->
  ipv6_parse_str port local (ipv6_authority v) = Ok v /\
  visit (ipv6_visitor port local) (json_call (json_of (ipv6_ser v))) = Ok v.
Proof.
  intros port local s v Hv H. pose proof (ipv6_roundtrip_parse port local s v Hv H) as R. split; [exact R|].
  unfold ipv6_ser. cbn [json_of json_call]. unfold visit. cbn [ipv6_visitor]. rewrite R. reflexivity.
Qed.
Print Assumptions C33_ipv6_roundtrip.

Theorem C33_ip_roundtrip : forall port local s v, valid_str s -> ip_parse_str port local s = Ok v ->
  ip_parse_str port local (ip_authority v) = Ok v /\
  visit (ip_visitor port local) (json_call (json_of (ip_ser v))) = Ok v.
Proof.
  intros port local s v Hv H. pose proof (ip_roundtrip_parse port local s v Hv H) as R. split; [exact R|].
  unfold ip_ser. cbn [json_of json_call]. unfold visit. cbn [ip_visitor]. rewrite R. reflexivity.
Qed.
Print Assumptions C33_ip_roundtrip.

Example C33_example :
  ip_parse_str Allow Allow (bs "2001:DB8:0:0:1:0:0:1") = Ok (V6 [8193; 3512; 0; 0; 1; 0; 0; 1], None) /\
  ip_authority (V6 [8193; 3512; 0; 0; 1; 0; 0; 1], None) = bs "[2001:db8::1:0:0:1]" /\
  ip_authority (V6 [0; 0; 0; 0; 0; 65535; 258; 772], Some 80) = bs "[::ffff:1.2.3.4]:80" /\
  ip_parse_str Allow Allow (bs "[2001:db8::1:0:0:1]") = Ok (V6 [8193; 3512; 0; 0; 1; 0; 0; 1], None).
Proof. repeat split. Qed.

(** C34. *)
Theorem C34_ip_is_union : forall port local s a p, valid_str s ->
  (ip_parse_str port local s = Ok (V4 a, p) <-> ipv4_parse_str port local s = Ok (a, p)) /\
  (ip_parse_str port local s = Ok (V6 a, p) <-> ipv6_parse_str port local s = Ok (a, p)).
Proof.
  intros port local s a p Hv.
  pose proof (ip_parse_spec port local s (V4 a) p Hv) as H1. pose proof (ip_parse_spec port local s (V6 a) p Hv) as H2.
  pose proof (ipv4_parse_spec port local s a p Hv) as H3. pose proof (ipv6_parse_spec port local s a p Hv) as H4.
  cbn iota in *. tauto.
Qed.
Print Assumptions C34_ip_is_union.

Theorem C34_never_both : forall port local port' local' s, valid_str s ->
  is_ok (ipv4_parse_str port local s) -> is_ok (ipv6_parse_str port' local' s) -> False.
Proof.
  intros port local port' local' s Hv [[a p] H4] [[b q] H6].
  apply ipv4_parse_spec in H4 as [H4 _]; [|exact Hv]. apply ipv6_parse_spec in H6 as [H6 _]; [|exact Hv].
  exact (forms_exclusive _ _ _ _ _ H4 H6).
Qed.
Print Assumptions C34_never_both.

Example C34_example :
  ip_parse_str Allow Allow (bs "1.2.3.4:5") = Ok (V4 [1; 2; 3; 4], Some 5) /\
  ipv4_parse_str Allow Allow (bs "1.2.3.4:5") = Ok ([1; 2; 3; 4], Some 5) /\
  ipv6_parse_str Allow Allow (bs "1.2.3.4:5") = Err IpInvalid /\
  ip_parse_str Allow Allow (bs "::1.2.3.4") = Ok (V6 [0; 0; 0; 0; 0; 0; 258; 772], None) /\
  ipv4_parse_str Allow Allow (bs "::1.2.3.4") = Err IpInvalid.
Proof. repeat split. Qed.

(** C35 is false: a port may be written with a plus sign, in all three validators. *)
Theorem C35_ip_port_plus_refuted : exists s a b,
  ~ Forall is_digit s /\
  ipv4_parse_str Must Allow (bs "127.0.0.1" ++ [58] ++ s) = Ok (a, Some 80) /\
  ip_parse_str Must Allow (bs "127.0.0.1" ++ [58] ++ s) = Ok (V4 a, Some 80) /\
  ipv6_parse_str Must Allow (bs "[::1]" ++ [58] ++ s) = Ok (b, Some 80).
Proof.
  exists (bs "+80"), [127; 0; 0; 1], [0; 0; 0; 0; 0; 0; 0; 1]. split; [|repeat split].
  intros H. apply Forall_inv in H. unfold is_digit in H. vm_compute in H. destruct H as [H _]. apply H. reflexivity.
Qed.
Print Assumptions C35_ip_port_plus_refuted.

(** C35, the part that holds: the port text is an optional plus sign and decimal digits of a 16-bit value,
    so it is digits only if the text has no plus sign. *)
Theorem C35_ip_port_partial : forall port local s x p, valid_str s ->
  ip_parse_str port local s = Ok (x, Some p) ->
  exists t q, s = t ++ [58] ++ q /\ p <= 65535 /\
    (denotes_digits q (Z.of_N p) \/ exists q', q = 43 :: q' /\ denotes_digits q' (Z.of_N p)).
Proof.
  intros port local s x p Hv H. apply ip_parse_spec in H; [|exact Hv].
  assert (X : exists t q, s = t ++ [58] ++ q /\ port_text q p).
  { destruct x as [a|a]; destruct H as [H _]; cbn in H.
    - destruct H as (t & q & -> & _ & Hq). exists t, q. auto.
    - destruct H as (t & q & -> & _ & Hq). exists (91 :: t ++ [93]), q. split; [|exact Hq].
      cbn [app]. rewrite <- app_assoc. reflexivity. }
  destruct X as (t & q & -> & Hq & Hp). exists t, q. split; [reflexivity|]. split; [exact Hp|].
  inversion Hq as [ds v Hd|ds v Hd|ds v Hs Hd]; try discriminate Hs.
  - left. exact Hd.
  - right. exists ds. split; [reflexivity|exact Hd].
Qed.
Print Assumptions C35_ip_port_partial.

Example C35_example :
  ip_parse_str Must Allow (bs "127.0.0.1:080") = Ok (V4 [127; 0; 0; 1], Some 80) /\
  ip_parse_str Must Allow (bs "127.0.0.1:") = Err IpInvalid /\
  ip_parse_str Must Allow (bs "127.0.0.1:-1") = Err IpInvalid.
Proof. repeat split. Qed.
