(** Property C88: error messages and axum responses. *)
From Verif Require Import Base StrFacts RangeModel IntStr BaseModel BaseSpec BooleanModel DomainModel EmailModel HostModel IntModel IpModel JsonModel
  LengthModel LineModel MacModel MacSpec MacProofs NumberModel PhoneModel SizeModel PropDomain PropHost PropEmail PropUnion PropErrors PropErrorsB
  PropErrorsC MessageModel.
From Verif Require HttpModel PropHttp.
From Verif Require Import IdnaFrag.
Local Open Scope N_scope.

(** What a message says about the attribute: the named parameter has the given value, and that is why the input is refused. *)
Definition rules : list (list N * (list N * tri)) := [
  (bs "must be local", (bs "local", Must)); (bs "must not be local", (bs "local", Disallow));
  (bs "port not found", (bs "port", Must)); (bs "port not allowed", (bs "port", Disallow));
  (bs "must have at least two labels", (bs "at_least_two_labels", Must));
  (bs "must have only one label", (bs "at_least_two_labels", Disallow));
  (bs "must use an IPv4", (bs "ipv4", Must)); (bs "must not use an IPv4", (bs "ipv4", Disallow));
  (bs "must use an IP", (bs "ip", Must)); (bs "must not use an IP", (bs "ip", Disallow));
  (bs "must not contain comments", (bs "comment", Disallow));
  (bs "padding not found", (bs "padding", Must)); (bs "padding not allowed", (bs "padding", Disallow));
  (bs "separators not found", (bs "separator", Must)); (bs "separators not allowed", (bs "separator", Disallow));
  (bs "must be NaN", (bs "nan", Must)); (bs "must not be NaN", (bs "nan", Disallow))].

(** The entry of a table under a text. *)
Fixpoint entry {A} (t : list (list N * A)) (x : list N) : option A :=
  match t with [] => None | (k, v) :: t => if eqbs k x then Some v else entry t x end.
Definition rule (message : list N) : option (list N * tri) := entry rules message.

(** The message, if it is about a parameter, names one that the attribute has with that very value; otherwise [hopeless] holds. *)
Definition explains (message : list N) (attribute : list (list N * tri)) (hopeless : Prop) : Prop :=
  match rule message with
  | Some (name, value) => entry attribute name = Some value
  | None => hopeless
  end.

(** C88. ip, ipv4 and ipv6: a message about a parameter names it and its value; any other message means that no value of the
    parameters would do. *)
Theorem C88_ip : forall s port local e, valid_str s ->
  let attribute := [(bs "local", local); (bs "port", port)] in
  (ip_parse_str port local s = Err e ->
     explains (ip_message AnyIp e) attribute (forall port' local', ~ is_ok (ip_parse_str port' local' s))) /\
  (ipv4_parse_str port local s = Err e ->
     explains (ip_message Ip4 e) attribute (forall port' local', ~ is_ok (ipv4_parse_str port' local' s))) /\
  (ipv6_parse_str port local s = Err e ->
     explains (ip_message Ip6 e) attribute (forall port' local', ~ is_ok (ipv6_parse_str port' local' s))).
Proof.
  intros s port local e V attribute. destruct (C74_ip_errors s V) as (A & B & C).
  repeat split; intros H; [apply A in H | apply B in H | apply C in H]; clear A B C; destruct e; cbv [explains]; try exact H;
    destruct H as [-> _]; vm_compute; reflexivity.
Qed.
Print Assumptions C88_ip.

Theorem C88_domain : forall idna s ipv4 local port two e, idna_digits idna -> valid_str s ->
  domain_parse_str idna (cfg ipv4 local port two) s = Err e ->
  explains (domain_message e)
    [(bs "ipv4", ipv4); (bs "local", local); (bs "port", port); (bs "at_least_two_labels", two)]
    (forall i l p t, ~ is_ok (domain_parse_str idna (cfg i l p t) s)).
Proof.
  intros idna s ipv4 local port two e D V H. apply (C74_domain_errors idna s D V) in H. destruct e; cbv [explains]; try exact H;
    destruct H as [-> _]; vm_compute; reflexivity.
Qed.
Print Assumptions C88_domain.

Theorem C88_host : forall idna s local port two e, valid_str s ->
  host_parse_str idna (hcfg local port two) s = Err e ->
  explains (host_message e) [(bs "local", local); (bs "port", port); (bs "at_least_two_labels", two)]
    (forall l p t, ~ is_ok (host_parse_str idna (hcfg l p t) s)).
Proof.
  intros idna s local port two e V H. apply (C74_host_errors idna s V) in H. destruct e; cbv [explains]; try exact H;
    destruct H as [-> _]; vm_compute; reflexivity.
Qed.
Print Assumptions C88_host.

(** email: beyond the other parameters; [non_ascii] is kept (see [C74_email_errors_refuted]). *)
Theorem C88_email : forall idna prof s (comment : bool) ip local two na e, valid_str s ->
  email_parse_str idna prof (ecfg comment ip local two na) s = Err e ->
  explains (email_message e)
    [(bs "comment", if comment then Allow else Disallow); (bs "ip", ip); (bs "local", local); (bs "at_least_two_labels", two)]
    (forall c i l t, ~ is_ok (email_parse_str idna prof (ecfg c i l t na) s)).
Proof.
  intros idna prof s comment ip local two na e V H. apply (C74_email_errors idna prof na s V) in H. destruct e; cbv [explains]; try exact H;
    try (destruct H as [-> _]; vm_compute; reflexivity).
  rewrite H. vm_compute. reflexivity.
Qed.
Print Assumptions C88_email.

Theorem C88_base : forall f padding v e, base_parse_str f padding v = Err e ->
  explains (base_message f e) [(bs "padding", padding)] (forall p, ~ is_ok (base_parse_str f p v)).
Proof.
  intros f padding v e H. apply C74_base_errors in H. destruct e; cbv [explains]; try (destruct H as [-> _]; vm_compute; reflexivity).
  - destruct f; exact H.
  - destruct H.
Qed.
Print Assumptions C88_base.

(** The value of [separator] without its character. *)
Definition sep_policy (sep : sep_option) : tri :=
  match sep with SepMust _ => Must | SepAllow _ => Allow | SepDisallow => Disallow end.

Theorem C88_identifiers : forall case sep v e,
  (mac_parse_str case sep v = Err e -> sep_not_digit case sep ->
   explains (hex_message true e) [(bs "separator", sep_policy sep)]
     (forall sep', same_separator sep sep' -> sep_not_digit case sep' -> ~ is_ok (mac_parse_str case sep' v))) /\
  (uuid_parse_str case sep v = Err e -> sep_not_digit case sep ->
   explains (hex_message false e) [(bs "separator", sep_policy sep)]
     (forall sep', same_separator sep sep' -> sep_not_digit case sep' -> ~ is_ok (uuid_parse_str case sep' v))).
Proof.
  intros case sep v e. destruct (C74_identifier_errors case sep v e) as [A B].
  split; intros H S; [apply A in H | apply B in H]; clear A B; destruct e; cbv [explains].
  - intros sep' X Y. exact (H sep' X S Y).
  - destruct H as [(c & ->) _]. vm_compute. reflexivity.
  - destruct H as [-> _]. vm_compute. reflexivity.
  - intros sep' X Y. exact (H sep' X S Y).
  - destruct H as [(c & ->) _]. vm_compute. reflexivity.
  - destruct H as [-> _]. vm_compute. reflexivity.
Qed.
Print Assumptions C88_identifiers.

(** http_url and http_ftp_url, when the text of a url error is none of the texts about parameters. *)
Theorem C88_http : forall url parse host s lib local e, rule lib = None ->
  (HttpModel.http_parse_str url parse host local s = Err e ->
   explains (http_message lib false e) [(bs "local", local)]
     (forall l, ~ is_ok (HttpModel.http_parse_str url parse host l s))) /\
  (HttpModel.http_ftp_parse_str url parse host local s = Err e ->
   explains (http_message lib true e) [(bs "local", local)]
     (forall l, ~ is_ok (HttpModel.http_ftp_parse_str url parse host l s))).
Proof.
  intros url parse host s lib local e L. destruct (C74_http_errors url parse host s) as [A B].
  split; intros H; [apply A in H | apply B in H]; clear A B; destruct e; cbv [explains http_message];
    try (rewrite L; intros l; rewrite (H l); apply not_ok_err); try (intros l; rewrite (H l); apply not_ok_err);
    destruct H as [-> _]; vm_compute; reflexivity.
Qed.
Print Assumptions C88_http.

(** number: a message about NaN names the value of [nan]; the other three name the bound of the range that was crossed. *)
Theorem C88_number : forall from_str lib r nan s e, num_parse_str from_str r nan s = Err e ->
  (number_message lib e = bs "must be NaN" -> rule lib = None -> nan = Must) /\
  (number_message lib e = bs "must not be NaN" -> rule lib = None -> nan = Disallow).
Proof.
  intros from_str lib r nan s e H.
  assert (X : (e = NaNMust -> nan = Must) /\ (e = NaNDisallow -> nan = Disallow)).
  { unfold num_parse_str, num_v_parse_str in H. destruct (from_str s) as [f|]; cbn [obind] in H;
      [|injection H as <-; split; discriminate].
    destruct (v_parse_f r nan f) as [u|e'|] eqn:E; cbn [obind] in H; try discriminate. injection H as ->.
    unfold v_parse_f in E. destruct (num_handle_range _ f) as [u'|e''|] eqn:E2; cbn [obind] in E; try discriminate.
    - destruct nan; cbn in E; try discriminate; destruct (is_nan f); cbn in E; try discriminate; injection E as <-;
        split; intros; congruence.
    - injection E as ->. assert (e <> NaNMust /\ e <> NaNDisallow); [|intuition congruence].
      unfold num_handle_range in E2. destruct (to_tokens _ _ _ _ _) as [mn mx i q|mn mx i q|];
      repeat match goal with
      | H : context [match ?x with _ => _ end] |- _ => destruct x; cbn [obind] in H
      end; split; congruence. }
  destruct X as [X Y]. split; intros M L.
  - apply X. destruct e; try (vm_compute in M; discriminate); [|reflexivity]. cbn [number_message] in M. subst lib. vm_compute in L. discriminate.
  - apply Y. destruct e; try (vm_compute in M; discriminate); [|reflexivity]. cbn [number_message] in M. subst lib. vm_compute in L. discriminate.
Qed.
Print Assumptions C88_number.

(** The examples: the same words from different validators. *)
Example C88_example :
  valid_str (bs "a.b:80") /\ idna_digits idna_ascii /\
  domain_parse_str idna_ascii (cfg Allow Allow Disallow Allow) (bs "a.b:80") = Err DPortDisallow /\
  host_parse_str idna_ascii (hcfg Allow Disallow Allow) (bs "a.b:80") = Err HoPortDisallow /\
  domain_message DPortDisallow = host_message HoPortDisallow /\
  rule (domain_message DPortDisallow) = Some (bs "port", Disallow) /\
  rule (bs "invalid domain") = None /\ rule (bs "relative URL without a base") = None /\
  email_parse_str idna_ascii Debug (ecfg false Disallow Allow Must false) (bs "a@b") = Err ETwoLabelsMust /\
  sep_not_digit AnyCase (SepMust 58) /\ mac_parse_str AnyCase (SepMust 58) (bs "080027b46a2b") = Err HSeparatorMust /\
  num_parse_str (fun _ => Some SpecFloat.S754_nan) Unlimited Disallow (bs "NaN") = Err NaNDisallow /\
  into_response email_message ETwoLabelsMust = (400, bs "must have at least two labels").
Proof.
  destruct C74_example as (A & B & _). destruct C74_example_c as (_ & _ & _ & _ & _ & _ & C & _).
  split; [exact B|]. split; [exact A|]. repeat split; try (vm_compute; reflexivity). all: exact C || (vm_compute; tauto).
Qed.
