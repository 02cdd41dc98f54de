(** domain: C36 - C38 and C55. The IDNA library is an arbitrary function; laws about it are hypotheses of the theorems
    that need them, and IdnaFrag.v shows that they can be met. *)
From Verif Require Import EntryFacts Base IntStr IntStrProofs NetModel NetSpec NetProofs IpModel IpSpec LocalProofs IpProofs
  Utf8 StrFacts Serde DomainModel DomainSpec DomainProofs IdnaFrag.
Local Open Scope N_scope.

(** C36. Exactly what is accepted, and with which value, for every IDNA function ... *)
Theorem C36_domain_accepts_exactly : forall idna c s v, valid_str s ->
  domain_parse_str idna c s = Ok v <-> domain_accepts idna c s v.
Proof. exact domain_parse_spec. Qed.
Print Assumptions C36_domain_accepts_exactly.

(** ... the policies and fields are about the stored name, if the IDNA mapping does not produce IPv4 addresses from
    other texts. *)
Theorem C36_domain_policies_partial : forall idna c s v, idna_no_new_ipv4 idna -> valid_str s ->
  domain_parse_str idna c s = Ok v ->
  exists name dom, split_port s name (dv_port v) /\
    (((exists a, v4_dotted name a) /\ dom = name /\ dv_domain v = s) \/
     (idna name = Some dom /\ dv_domain v = dom)) /\
    port_ok (d_port c) (dv_port v) /\ ipv4_ok (d_ipv4 c) (exists a, v4_dotted dom a) /\
    local_ok (d_local c) (domain_local dom) /\ two_ok (d_two c) (domain_local dom) dom /\
    field (ipv4_field c) (exists a, v4_dotted dom a) (dv_is_ipv4 v) /\
    field (local_field c) (domain_local dom) (dv_is_local v).
Proof. exact domain_policies. Qed.
Print Assumptions C36_domain_policies_partial.

(** 127.0.0.1 written with ideographic full stops (U+3002). *)
Definition wide_loopback : list N :=
  bs "127" ++ [227; 128; 130] ++ bs "0" ++ [227; 128; 130] ++ bs "0" ++ [227; 128; 130] ++ bs "1".

Lemma wide_valid : valid_str wide_loopback.
Proof.
  exists [49; 50; 55; 12290; 48; 12290; 48; 12290; 49]. split; [repeat constructor|reflexivity].
Qed.

Definition no_ipv4 : domain_cfg := {| d_ipv4 := Disallow; d_local := Disallow; d_port := Disallow; d_two := Allow |}.

(** C36 is false in general: an IPv4 address written with ideographic full stops is not seen as one before the IDNA
    mapping, so a local IPv4 address is stored although both are disallowed. *)
Theorem C36_domain_disallowed_ipv4_refuted : exists idna s v a, idna_laws idna /\ valid_str s /\
  domain_parse_str idna no_ipv4 s = Ok v /\ v4_text (dv_domain v) a /\ v4_local a /\
  domain_parse_str idna no_ipv4 (dv_domain v) = Err DIPv4Disallow.
Proof.
  exists idna_frag, wide_loopback. eexists. exists [127; 0; 0; 1].
  split; [exact idna_frag_laws|]. split; [exact wide_valid|]. split; [reflexivity|].
  split; [apply ipv4_from_str_spec; reflexivity|]. split; [|reflexivity].
  apply is_local_ipv4_spec; [split; repeat constructor|reflexivity].
Qed.
Print Assumptions C36_domain_disallowed_ipv4_refuted.

(** The same for is_ipv4 and is_local, which then say "no" about 127.0.0.1. *)
Theorem C36_domain_fields_refuted : exists idna c s v a, idna_laws idna /\ valid_str s /\
  domain_parse_str idna c s = Ok v /\ v4_text (dv_domain v) a /\ v4_local a /\
  dv_is_ipv4 v = Some false /\ dv_is_local v = Some false.
Proof.
  exists idna_frag, {| d_ipv4 := Allow; d_local := Allow; d_port := Allow; d_two := Must |}, wide_loopback. eexists.
  exists [127; 0; 0; 1].
  split; [exact idna_frag_laws|]. split; [exact wide_valid|]. split; [reflexivity|].
  split; [apply ipv4_from_str_spec; reflexivity|]. split; [|split; reflexivity].
  apply is_local_ipv4_spec; [split; repeat constructor|reflexivity].
Qed.
Print Assumptions C36_domain_fields_refuted.

Theorem C36_domain_entry_points : forall idna c s, valid_str s ->
  domain_parse_string idna c s = domain_parse_str idna c s /\
  domain_validate_str idna c s = omap (fun _ => tt) (domain_parse_str idna c s).
Proof. intros idna c s Hv. split; [reflexivity|]. apply validate_lift. exact (domain_validate_parse idna c s Hv). Qed.
Print Assumptions C36_domain_entry_points.

Definition cfg (i l p t : tri) : domain_cfg := {| d_ipv4 := i; d_local := l; d_port := p; d_two := t |}.

Example C36_example :
  idna_no_new_ipv4 idna_ascii /\ valid_str (bs "Tool.Magiclen.org:8080") /\
  domain_parse_str idna_ascii (cfg Disallow Disallow Must Must) (bs "Tool.Magiclen.org:8080") =
    Ok {| dv_domain := bs "tool.magiclen.org"; dv_port := Some 8080; dv_is_ipv4 := None; dv_is_local := None |} /\
  domain_parse_str idna_ascii (cfg Allow Allow Disallow Must) (bs "127.0.0.1.") =
    Ok {| dv_domain := bs "127.0.0.1."; dv_port := None; dv_is_ipv4 := Some true; dv_is_local := Some true |} /\
  domain_parse_str idna_ascii (cfg Allow Allow Disallow Must) (bs "LocalHost") =
    Ok {| dv_domain := bs "localhost"; dv_port := None; dv_is_ipv4 := Some false; dv_is_local := Some true |} /\
  domain_parse_str idna_ascii (cfg Disallow Allow Allow Must) (bs "org") = Err DTwoLabelsMust /\
  domain_parse_str idna_ascii (cfg Disallow Allow Allow Disallow) (bs "magiclen.org") = Err DTwoLabelsDisallow /\
  domain_parse_str idna_ascii (cfg Must Allow Allow Allow) (bs "magiclen.org") = Err DIPv4Must /\
  domain_parse_str idna_ascii (cfg Disallow Disallow Allow Allow) (bs "localhost.") = Err DLocalDisallow.
Proof.
  split; [exact idna_ascii_no_new|]. split; [apply ascii_valid; repeat constructor|]. repeat split.
Qed.

(** C37 is false: in the IPv4 branch the whole text, port included, is stored, and printed with the port again; the
    result is refused by the same validator. *)
Theorem C37_domain_keeps_port_refuted : forall idna, exists s v,
  domain_parse_str idna (cfg Allow Allow Must Must) s = Ok v /\ dv_port v = Some 8080 /\
  dv_domain v = bs "127.0.0.1:8080" /\ (forall E, @domain_authority E v = Ok (bs "127.0.0.1:8080:8080")) /\
  (idna (bs "127.0.0.1:8080") = None ->
   domain_parse_str idna (cfg Allow Allow Must Must) (bs "127.0.0.1:8080:8080") = Err DInvalid).
Proof.
  intros idna. exists (bs "127.0.0.1:8080"). eexists.
  split; [reflexivity|]. split; [reflexivity|]. split; [reflexivity|]. split; [intros E; reflexivity|].
  intros Hi. vm_compute in Hi. vm_compute. rewrite Hi. reflexivity.
Qed.
Print Assumptions C37_domain_keeps_port_refuted.

(** It is so for every IPv4 address with a port, and for nothing else. *)
Theorem C37_domain_stored_port : forall idna c s v, idna_laws idna -> valid_str s -> domain_parse_str idna c s = Ok v ->
  (In 58 (dv_domain v) <->
   ~ no_policy c /\ dv_port v <> None /\ dv_domain v = s /\
   exists name a, split_port s name (dv_port v) /\ v4_dotted name a).
Proof.
  intros idna c s v Hlaw Hv H. apply domain_parse_spec in H; [|exact Hv]. destruct H as (Hne & name & S1 & S2 & H). split.
  - intros Hi. destruct H as [H|[H|H]].
    + destruct H as (_ & Hd & _). destruct (Hlaw _ _ Hd) as (L & _). exfalso. apply (idna_char_not_in _ 58 L); [unfold idna_char; lia|exact Hi].
    + destruct H as (Ha & a & Hd & _ & _ & _ & E & _). split; [exact Ha|]. split.
      * intros Ep. rewrite Ep in S1. destruct S1 as [_ S1]. rewrite E in Hi. contradiction.
      * split; [exact E|]. exists name, a. auto.
    + destruct H as (_ & _ & _ & Hd & _). destruct (Hlaw _ _ Hd) as (L & _). exfalso. apply (idna_char_not_in _ 58 L); [unfold idna_char; lia|exact Hi].
  - intros (_ & Hp & E & n & a & S & _). destruct (dv_port v) as [p|]; [|contradiction].
    destruct S as (q & Eq & _). rewrite E, Eq. apply in_or_app. right. left. reflexivity.
Qed.
Print Assumptions C37_domain_stored_port.

(** C37, the part that holds: if the domain was stored without the port, the authority string gives the same value
    up to a final dot, also through serde. Missing: IPv4 addresses with a port under a non-trivial policy. *)
Theorem C37_domain_roundtrip_partial : forall idna c s v, idna_laws idna -> idna_no_new_ipv4 idna -> valid_str s ->
  domain_parse_str idna c s = Ok v -> ~ In 58 (dv_domain v) ->
  exists w t, (forall E, @domain_authority E v = Ok w) /\ undotted (dv_domain v) t /\
    let v' := {| dv_domain := t; dv_port := dv_port v; dv_is_ipv4 := dv_is_ipv4 v; dv_is_local := dv_is_local v |} in
    domain_parse_str idna c w = Ok v' /\
    (forall E, @domain_ser E v = Ok (SStr w)) /\ visit (domain_visitor idna c) (json_call (json_of (SStr w))) = Ok v'.
Proof.
  intros idna c s v L1 L2 Hv H Hc. destruct (domain_roundtrip idna c s v L1 L2 Hv H Hc) as (w & t & H1 & H2 & H3).
  exists w, t. split; [exact H1|]. split; [exact H2|]. cbv zeta. split; [exact H3|].
  split; [intros E; unfold domain_ser; rewrite H1; reflexivity|].
  cbn [json_of json_call]. unfold visit. cbn [domain_visitor]. rewrite H3. reflexivity.
Qed.
Print Assumptions C37_domain_roundtrip_partial.

Example C37_example :
  idna_laws idna_ascii /\ idna_no_new_ipv4 idna_ascii /\
  domain_parse_str idna_ascii (cfg Disallow Allow Allow Must) (bs "magiclen.org.:80") =
    Ok {| dv_domain := bs "magiclen.org."; dv_port := Some 80; dv_is_ipv4 := None; dv_is_local := Some false |} /\
  @domain_authority unit
    {| dv_domain := bs "magiclen.org."; dv_port := Some 80; dv_is_ipv4 := None; dv_is_local := Some false |} =
    Ok (bs "magiclen.org:80") /\
  domain_parse_str idna_ascii (cfg Disallow Allow Allow Must) (bs "magiclen.org:80") =
    Ok {| dv_domain := bs "magiclen.org"; dv_port := Some 80; dv_is_ipv4 := None; dv_is_local := Some false |} /\
  idna_ascii (bs "127.0.0.1:8080") = None.
Proof. split; [exact idna_ascii_laws|]. split; [exact idna_ascii_no_new|]. repeat split. Qed.

(** C38. *)
Theorem C38_domain_no_panic : forall idna c s, valid_str s ->
  domain_parse_str idna c s <> Panic /\ domain_parse_string idna c s <> Panic /\ domain_validate_str idna c s <> Panic.
Proof.
  intros idna c s Hv. destruct (domain_no_panic idna c s Hv) as [H1 H2]. auto.
Qed.
Print Assumptions C38_domain_no_panic.

(** Every field promised by the layout is there. *)
Theorem C38_domain_fields_present : forall idna c s v, valid_str s -> domain_parse_str idna c s = Ok v ->
  (d_port c = Must -> dv_port v <> None) /\
  (dv_is_ipv4 v <> None <-> d_ipv4 c = Allow /\ d_local c = Allow /\ d_two c <> Allow) /\
  (dv_is_local v <> None <-> d_local c = Allow /\ d_two c <> Allow).
Proof.
  intros idna c s v Hv H. apply domain_parse_v in H as (_ & dom & is4 & isl & H & E4 & EL); [|exact Hv].
  apply acc_port_ok in H. rewrite E4, EL. unfold has_is_ipv4, has_is_local.
  split; [intros E; rewrite E in H; exact H|].
  destruct (d_ipv4 c), (d_local c), (d_two c); cbn; repeat split; try congruence; intuition congruence.
Qed.
Print Assumptions C38_domain_fields_present.

Example C38_example :
  valid_str [195; 169; 58; 43] /\
  domain_parse_str idna_ascii (cfg Must Must Must Must) [195; 169; 58; 43] = Err DIPv4Must /\
  domain_parse_str idna_ascii (cfg Allow Allow Must Allow) (bs ":") = Err DInvalid.
Proof.
  split; [|split; reflexivity]. exists [233; 58; 43]. split; [repeat constructor|reflexivity].
Qed.

(** C55. *)
Theorem C55_non_fully_qualified : forall E d, exists t,
  @get_domain_non_fully_qualified E d = Ok t /\ undotted d t.
Proof.
  intros E d. exists (strip_last 46 d). split; [apply get_domain_ok|]. apply undotted_strip. reflexivity.
Qed.
Print Assumptions C55_non_fully_qualified.

Theorem C55_is_fully_qualified : forall d, is_fully_qualified d = true <-> exists t, d = t ++ [46].
Proof.
  intros d. unfold is_fully_qualified. destruct (ends_cases d) as [->|(l & x & ->)].
  - split; [discriminate|]. intros (t & E). destruct t; discriminate.
  - rewrite ends_with_snoc, N.eqb_eq. split; [intros ->; eauto|].
    intros (t & E). apply app_inj_tail in E as [_ E]. exact E.
Qed.
Print Assumptions C55_is_fully_qualified.

Theorem C55_local_and_labels : forall d,
  (is_local_domain d = true <-> localhost d) /\ (is_at_least_two_labels_domain d = true <-> two_labels d) /\
  (forall a, parse_ipv4_allow_an_ended_dot d = Some a <-> v4_dotted d a).
Proof. intros d. split; [apply localhost_spec|]. split; [apply two_labels_spec|]. intros a. apply v4_dotted_spec. Qed.
Print Assumptions C55_local_and_labels.

(** A final dot makes no difference to a name that has none. *)
Theorem C55_final_dot : forall d, (forall u, d <> u ++ [46]) ->
  is_local_domain (d ++ [46]) = is_local_domain d /\
  is_at_least_two_labels_domain (d ++ [46]) = is_at_least_two_labels_domain d /\
  parse_ipv4_allow_an_ended_dot (d ++ [46]) = parse_ipv4_allow_an_ended_dot d.
Proof.
  intros d H. unfold is_local_domain, is_at_least_two_labels_domain, parse_ipv4_allow_an_ended_dot.
  rewrite strip_last_snoc. change (46 =? 46) with true. cbn iota.
  destruct (strip_cases d) as [E|E]; [rewrite <- E; auto|destruct (H _ E)].
Qed.
Print Assumptions C55_final_dot.

Example C55_example :
  @get_domain_non_fully_qualified unit (bs "magiclen.org.") = Ok (bs "magiclen.org") /\
  @get_domain_non_fully_qualified unit (bs "a..") = Ok (bs "a.") /\
  @get_domain_non_fully_qualified unit [] = Ok [] /\
  is_local_domain (bs "LOCALHOST.") = true /\ is_local_domain (bs "localhost..") = false /\
  is_at_least_two_labels_domain (bs "org.") = false.
Proof. repeat split. Qed.
