(** Property C75: the guarantees that the documentation of the error types gives
    (here for domains, /repo/validators/src/errors/domain.rs:5-23). *)
From Verif Require Import Base IntStr NetModel NetSpec NetProofs IpModel IpSpec LocalProofs IpProofs Utf8 StrFacts Serde
  DomainModel DomainSpec DomainProofs IdnaFrag IdnaDigits HostModel HostSpec HostProofs EmailModel EmailSpec EmailProofs
  EmailParts PropIp PropDomain PropHost PropEmail PropUnion PropErrors.
From Verif Require EmailDomain.
Local Open Scope N_scope.

(** The part of a text before its last colon. *)
Definition domain_part (s name : list N) : Prop :=
  (s = name /\ ~ In 58 s) \/ exists q, s = name ++ [58] ++ q /\ ~ In 58 q.
(** The name a domain part stands for: an IPv4 address for itself, any other text for what IDNA makes of it. *)
Definition stands_for (idna : list N -> option (list N)) (name d : list N) : Prop :=
  ((exists a, v4_dotted name a) /\ d = name) \/ ((forall a, ~ v4_dotted name a) /\ idna name = Some d).

Lemma d_split_part c s name q : valid_str s -> d_split c s = Ok (name, q) -> domain_part s name.
Proof.
  intros Hs H. apply d_split_spec in H; [|exact Hs]. destruct q as [q|].
  - right. exists q. tauto.
  - left. tauto.
Qed.
Lemma d_split_err c s e : d_split c s = Err e ->
  (e = DPortMust /\ d_port c = Must /\ ~ In 58 s) \/ (e = DPortDisallow /\ d_port c = Disallow /\ In 58 s).
Proof.
  unfold d_split. destruct (rposition 58 s) as [n|] eqn:R.
  - assert (I : In 58 s). { destruct (in_dec N.eq_dec 58 s) as [I|I]; [exact I|]. apply rposition_none in I. congruence. }
    destruct (d_port c); [| |intros [= <-]; auto];
      (destruct (str_slice s 0 n) eqn:E1; cbn [obind]; [|noerr|discriminate]);
      (destruct (str_slice_from s (n + 1)) eqn:E2; cbn [obind]; [discriminate|noerr|discriminate]).
  - apply rposition_none in R. destruct (d_port c); [intros [= <-]; auto | discriminate | discriminate].
Qed.
Lemma d_parse_port_err c q e : d_parse_port c q = Err e -> e = DInvalid.
Proof. unfold d_parse_port. destruct (d_port c); [| |discriminate]; (destruct q as [q|]; [destruct (parse_u16 q)|]; congruence). Qed.
Lemma d_check_local_err c b e : d_check_local c b = Err e ->
  (e = DLocalMust /\ d_local c = Must /\ b = false) \/ (e = DLocalDisallow /\ d_local c = Disallow /\ b = true).
Proof. unfold d_check_local. destruct (d_local c), b; cbn; intros [= <-]; auto. Qed.
Lemma d_check_two_err c b d e : d_check_two c b d = Err e ->
  (e = DTwoLabelsMust /\ d_two c = Must /\ b = false /\ ~ two_labels d) \/
  (e = DTwoLabelsDisallow /\ d_two c = Disallow /\ b = false /\ two_labels d).
Proof.
  unfold d_check_two. destruct (d_two c); [| discriminate |]; destruct b; cbn [negb andb]; try discriminate;
    destruct (is_at_least_two_labels_domain d) eqn:E; cbn; intros [= <-].
  - left. repeat split. rewrite <- two_labels_spec. congruence.
  - right. repeat split. now apply two_labels_spec.
Qed.

(** C75, domains: every sentence of the documentation that says guaranteed. *)
Definition domain_guarantee (idna : list N -> option (list N)) (s : list N) (e : domain_err) : Prop :=
  match e with
  | DInvalid => True
  | DIPv4Must => exists name, domain_part s name /\ forall a, ~ v4_dotted name a
  | DIPv4Disallow => exists name a, domain_part s name /\ v4_dotted name a
  | DLocalMust => exists name d, domain_part s name /\ stands_for idna name d /\ ~ domain_local d
  | DLocalDisallow => exists name d, domain_part s name /\ stands_for idna name d /\ domain_local d
  | DTwoLabelsMust => exists name d, domain_part s name /\ stands_for idna name d /\ ~ two_labels d
  | DTwoLabelsDisallow => exists name d, domain_part s name /\ stands_for idna name d /\ two_labels d
  | DPortMust => ~ In 58 s
  | DPortDisallow => In 58 s
  end.

Theorem C75_domain_guarantees_partial : forall idna c s e, idna_no_new_ipv4 idna -> valid_str s ->
  domain_parse_str idna c s = Err e -> domain_guarantee idna s e.
Proof.
  intros idna c s e Hn Hs H.
  assert (V : domain_v_parse_str idna c s = Err e).
  { unfold domain_parse_str in H. destruct (domain_v_parse_str idna c s) as [[[[d q] b1] b2]|e'|]; cbn [obind] in H.
    - exfalso. revert H. unfold d_create. destruct (d_port c), q; discriminate.
    - congruence.
    - discriminate. }
  clear H. unfold domain_v_parse_str in V. destruct s as [|f r]; [injection V as <-; exact I|]. set (s := f :: r) in *. clearbody s.
  destruct (d_split c s) as [[name q]|e'|] eqn:Sp; cbn [obind] in V; [| |discriminate].
  2:{ injection V as <-. apply d_split_err in Sp. destruct Sp as [(-> & _ & K)|(-> & _ & K)]; exact K. }
  pose proof (d_split_part _ _ _ _ Hs Sp) as D. unfold d_rest in V.
  destruct (all_allow c) eqn:Aa.
  { destruct (idna name) as [d|]; [|injection V as <-; exact I].
    destruct (d_parse_port c q) as [p|e'|] eqn:Pp; cbn [obind] in V; try discriminate.
    injection V as <-. rewrite (d_parse_port_err _ _ _ Pp). exact I. }
  destruct (parse_ipv4_allow_an_ended_dot name) as [a|] eqn:P4.
  - apply v4_dotted_spec in P4.
    assert (St : stands_for idna name name) by (left; split; [exists a; exact P4 | reflexivity]).
    destruct (is_disallow (d_ipv4 c)); [injection V as <-; exists name, a; auto|].
    destruct (is_disallow (d_two c)) eqn:T; [injection V as <-; exists name, name; eauto using v4_two_labels|].
    destruct (d_parse_port c q) as [p|e'|] eqn:Pp; cbn [obind] in V; try discriminate.
    2:{ injection V as <-. rewrite (d_parse_port_err _ _ _ Pp). exact I. }
    destruct (d_check_local c _) as [u|e'|] eqn:L; cbn [obind] in V; try discriminate.
    injection V as <-. apply d_check_local_err in L.
    pose proof (is_local_ipv4_spec a (v4_dotted_addr _ _ P4)) as LS.
    assert (DL : domain_local name <-> v4_local a).
    { split; [|right; eauto]. intros [K|(b & K & K2)]; [destruct (v4_dotted_not_localhost _ _ P4 K)|].
      now rewrite (v4_dotted_fun _ _ _ P4 K). }
    unfold d_flag in L. destruct L as [(-> & L & B)|(-> & L & B)]; rewrite L in B; cbn [is_allow_only andb] in B;
      exists name, name; (split; [exact D|]); (split; [exact St|]); rewrite DL, <- LS; congruence.
  - assert (N4 : forall a, ~ v4_dotted name a) by (intros a K; apply v4_dotted_spec in K; congruence).
    destruct (is_must (d_ipv4 c)); [injection V as <-; exists name; auto|].
    destruct (idna name) as [d|] eqn:Id; [|injection V as <-; exact I].
    assert (St : stands_for idna name d) by (right; auto).
    destruct (d_parse_port c q) as [p|e'|] eqn:Pp; cbn [obind] in V; try discriminate.
    2:{ injection V as <-. rewrite (d_parse_port_err _ _ _ Pp). exact I. }
    destruct (d_check_two c _ d) as [u|e'|] eqn:T; cbn [obind] in V; try discriminate.
    2:{ injection V as <-. apply d_check_two_err in T. destruct T as [(-> & _ & _ & T)|(-> & _ & _ & T)]; exists name, d; auto. }
    destruct (d_check_local c _) as [w|e'|] eqn:L; cbn [obind] in V; try discriminate.
    injection V as <-. apply d_check_local_err in L. unfold d_flag in L.
    destruct L as [(-> & L & B)|(-> & L & B)]; rewrite L in B; cbn [is_allow_only andb] in B;
      exists name, d; (split; [exact D|]); (split; [exact St|]).
    + intros [K|(a & K & _)]; [apply localhost_spec in K; congruence|]. destruct (Hn _ _ _ Id K) as (b & Kb). exact (N4 b Kb).
    + left. now apply localhost_spec.
Qed.

(** Without the hypothesis on IDNA two guarantees fail: the loopback address in ideographic full stops is said to be
    neither an IPv4 address nor local. *)
Theorem C75_domain_guarantees_refuted : exists idna s d a, idna_laws idna /\ valid_str s /\ domain_part s s /\
  stands_for idna s d /\ v4_text d a /\ v4_local a /\
  domain_parse_str idna (cfg Must Allow Allow Allow) s = Err DIPv4Must /\
  domain_parse_str idna (cfg Allow Must Allow Allow) s = Err DLocalMust.
Proof.
  exists idna_frag, wide_loopback. eexists. exists [127; 0; 0; 1].
  split; [exact idna_frag_laws|]. split; [exact wide_valid|].
  split; [left; split; [reflexivity|]; intros K; vm_compute in K; repeat (destruct K as [K|K]; [discriminate|]); exact K|].
  split; [right; split; [|reflexivity]; intros a K; apply v4_dotted_spec in K; vm_compute in K; discriminate|].
  split; [apply ipv4_from_str_spec; reflexivity|].
  split; [apply is_local_ipv4_spec; [split; repeat constructor|reflexivity]|].
  split; vm_compute; reflexivity.
Qed.

Example C75_example :
  idna_no_new_ipv4 idna_ascii /\ valid_str (bs "example.com:80") /\
  domain_parse_str idna_ascii (cfg Must Allow Allow Allow) (bs "example.com:80") = Err DIPv4Must /\
  domain_parse_str idna_ascii (cfg Allow Must Allow Allow) (bs "example.com:80") = Err DLocalMust /\
  domain_parse_str idna_ascii (cfg Allow Disallow Allow Allow) (bs "127.0.0.1.") = Err DLocalDisallow /\
  domain_parse_str idna_ascii (cfg Allow Allow Allow Must) (bs "example:") = Err DInvalid /\
  domain_parse_str idna_ascii (cfg Allow Allow Allow Must) (bs "example:80") = Err DTwoLabelsMust /\
  domain_parse_str idna_ascii (cfg Allow Allow Disallow Must) (bs "example:80") = Err DPortDisallow.
Proof.
  split; [exact idna_ascii_no_new|]. split; [apply ascii_valid; vm_compute; repeat constructor|].
  vm_compute. repeat split; reflexivity.
Qed.
Print Assumptions C75_domain_guarantees_partial.
Print Assumptions C75_domain_guarantees_refuted.
