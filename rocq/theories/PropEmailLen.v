(** C94: what stands behind the [@] of an email address has at most 255 octets, as it is written and as it is printed. *)
From Verif Require Import EntryFacts Base IntStr NetModel NetSpec NetProofs IpModel IpSpec LocalProofs IpProofs Utf8 StrFacts Serde
  DomainModel DomainSpec DomainProofs IdnaFrag HostModel HostSpec HostProofs EmailModel EmailSpec EmailProofs EmailParts
  EmailDomain EmailMain EmailRound PropEmail.
Local Open Scope N_scope.

(** An accepted text has at most 320 octets, and at most 255 of them stand behind the [@] that ends the local part. *)
Theorem C94_email_written : forall idna prof c s v, valid_str s -> email_parse_str idna prof c s = Ok v ->
  exists lt r, s = ctext (ev_c1 v) ++ lt ++ ctext (ev_c2 v) ++ [64] ++ ctext (ev_c3 v) ++ r /\
    (lt = ev_local v \/ lt = [34] ++ ev_local v ++ [34]) /\
    (List.length s <= 320)%nat /\ (List.length (ctext (ev_c3 v) ++ r) <= 255)%nat.
Proof.
  intros idna prof c s v Hv H. apply email_parse_spec in H; [|exact Hv].
  destruct H as (lt & q & dt & tail & canon & Es & HL & HLT & _ & _ & _ & _ & _ & _ & [Hn _] & _).
  exists lt, (dt ++ tail). split; [exact Es|]. split; [|split; [exact HL|exact Hn]].
  destruct HLT as [(_ & -> & _)|(_ & -> & _)]; auto.
Qed.

Lemma printed_sides idna prof c s v : valid_str s -> email_parse_str idna prof c s = Ok v ->
  exists l, to_email_string c v = l ++ [64] ++ domain_side v.
Proof.
  intros Hv H. apply email_parse_spec in H; [|exact Hv].
  destruct (e_comment c) eqn:EC.
  - exists (local_side v). apply print_sides. auto.
  - exists (ev_local v). destruct (comments_off _ _ _ _ _ H EC) as (_ & _ & E3 & E4).
    unfold to_email_string, domain_side. rewrite EC, E3, E4. cbn [negb ctext app]. rewrite app_nil_r. reflexivity.
Qed.

(** The domain part as it is printed, with its comments: the limit holds where the local part needs no quotes. *)
Theorem C94_email_printed_partial : forall idna prof c s v, valid_str s -> email_parse_str idna prof c s = Ok v ->
  ev_need_quoted v = false ->
  exists l r, to_email_string c v = l ++ [64] ++ r /\
    r = ctext (ev_c3 v) ++ e_host_text (ev_domain v) ++ ctext (ev_c4 v) /\ (List.length r <= 255)%nat.
Proof.
  intros idna prof c s v Hv H EQ. destruct (printed_sides _ _ _ _ _ Hv H) as [l E]. exists l, (domain_side v).
  split; [exact E|]. split; [reflexivity|]. apply email_parse_spec in H; [|exact Hv].
  destruct H as (lt & q & dt & tail & canon & Es & HL & HLT & _ & _ & _ & K4 & _ & HH & [Hn Hcan] & _).
  assert (TL : exists junk, tail = ctext (ev_c4 v) ++ junk).
  { unfold tail_ok in K4. destruct (ev_c4 v); [destruct K4 as (_ & _ & K4); exact K4|subst; exists []; reflexivity]. }
  destruct TL as [junk ->]. pose proof (canon_len _ _ _ _ _ HH) as CL.
  rewrite EQ, andb_false_r, !Nat.add_0_r in Hcan. unfold domain_side. rewrite !app_length in *. lia.
Qed.

(** Where it needs them, two octets more are let through, and no more than that. *)
Theorem C94_email_printed_bound : forall idna prof c s v, valid_str s -> email_parse_str idna prof c s = Ok v ->
  exists l r, to_email_string c v = l ++ [64] ++ r /\
    r = ctext (ev_c3 v) ++ e_host_text (ev_domain v) ++ ctext (ev_c4 v) /\ (List.length r <= 257)%nat.
Proof.
  intros idna prof c s v Hv H. destruct (printed_sides _ _ _ _ _ Hv H) as [l E]. exists l, (domain_side v).
  split; [exact E|]. split; [reflexivity|]. apply email_parse_spec in H; [|exact Hv].
  destruct H as (lt & q & dt & tail & canon & Es & HL & HLT & _ & _ & _ & K4 & _ & HH & [Hn Hcan] & _).
  assert (TL : exists junk, tail = ctext (ev_c4 v) ++ junk).
  { unfold tail_ok in K4. destruct (ev_c4 v); [destruct K4 as (_ & _ & K4); exact K4|subst; exists []; reflexivity]. }
  destruct TL as [junk ->]. pose proof (canon_len _ _ _ _ _ HH) as CL.
  unfold domain_side. rewrite !app_length in *. destruct (q && ev_need_quoted v); lia.
Qed.

(** The bound is attained: the text is within all limits, and what is printed for it has 257 octets behind the [@]. *)
Theorem C94_email_printed_refuted : exists idna c s v, idna_laws idna /\ valid_str s /\
  email_parse_str idna Debug c s = Ok v /\ ev_domain v = HIPv6 [0; 0; 0; 0; 0; 65535; 256; 1] /\
  List.length s = 259%nat /\
  exists r, to_email_string c v = [34; 32; 34] ++ [64] ++ r /\ ~ In 64 r /\ List.length r = 257%nat.
Proof.
  exists idna_ascii, (ecfg true Allow Allow Allow false),
    ([34; 32; 34] ++ bs "@[IPv6:::ffff:100:1](" ++ List.repeat 99 234 ++ [41]). eexists.
  split; [exact idna_ascii_laws|]. split; [ascii_str|]. split; [vm_compute; reflexivity|]. split; [reflexivity|].
  split; [vm_compute; reflexivity|].
  exists (bs "[IPv6:::ffff:1.0.0.1](" ++ List.repeat 99 234 ++ [41]). split; [vm_compute; reflexivity|].
  split; [vm_compute; intuition discriminate|vm_compute; reflexivity].
Qed.

(** The limit as such: 255 octets with a comment are accepted, one more is not; and with a host that is printed longer
    than it is written the limit falls on the printed form, here with two octets less. *)
Example C94_example :
  let c := ecfg true Allow Allow Allow false in
  let text := fun dom n => bs "a@" ++ bs dom ++ [40] ++ List.repeat 99 n ++ [41] in
  (exists v, email_parse_str idna_ascii Debug c (text "b.org"%string 248%nat) = Ok v /\ ev_need_quoted v = false) /\
  email_parse_str idna_ascii Debug c (text "b.org"%string 249%nat) = Err EInvalid /\
  (exists v, email_parse_str idna_ascii Debug c (text "[IPv6:::ffff:100:1]"%string 232%nat) = Ok v /\
     List.length (to_email_string c v) = 257%nat) /\
  email_parse_str idna_ascii Debug c (text "[IPv6:::ffff:100:1]"%string 233%nat) = Err EInvalid.
Proof.
  split; [eexists; split; [vm_compute; reflexivity|reflexivity]|]. split; [vm_compute; reflexivity|].
  split; [eexists; split; [vm_compute; reflexivity|vm_compute; reflexivity]|]. vm_compute; reflexivity.
Qed.

Print Assumptions C94_email_written.
Print Assumptions C94_email_printed_partial.
Print Assumptions C94_email_printed_bound.
Print Assumptions C94_email_printed_refuted.
