(** C116: the errors that a validator can return are those that its attribute provides for. Here: addresses, domains,
    hosts and email addresses. *)
From Verif Require Import Base Utf8 StrFacts NetModel IpModel IpSpec DomainModel DomainSpec HostModel HostSpec EmailModel
  EmailSpec IdnaFrag PropIp PropDomain PropHost PropEmail PropErrors PropErrorsB PropSat.
Local Open Scope N_scope.

(** Some text gets the error [e]. *)
Definition returned {E A} (f : list N -> outcome E A) (e : E) : Prop := exists s, valid_str s /\ f s = Err e.

(** The policy named by an error is set. *)
Definition ip_expected (port local : tri) (e : ip_err) : Prop :=
  match e with
  | IpInvalid => True
  | IpPortMust => port = Must
  | IpPortDisallow => port = Disallow
  | IpLocalMust => local = Must
  | IpLocalDisallow => local = Disallow
  end.
Definition host_expected (c : host_cfg) (e : host_err) : Prop :=
  match e with
  | HoInvalid => True
  | HoPortMust => h_port c = Must
  | HoPortDisallow => h_port c = Disallow
  | HoTwoLabelsMust => h_two c = Must
  | HoTwoLabelsDisallow => h_two c = Disallow
  | HoLocalMust => h_local c = Must
  | HoLocalDisallow => h_local c = Disallow
  end.
Definition domain_expected (c : domain_cfg) (e : domain_err) : Prop :=
  match e with
  | DInvalid => True
  | DIPv4Must => d_ipv4 c = Must
  | DIPv4Disallow => d_ipv4 c = Disallow
  | DPortMust => d_port c = Must
  | DPortDisallow => d_port c = Disallow
  | DTwoLabelsMust => d_two c = Must
  | DTwoLabelsDisallow => d_two c = Disallow
  | DLocalMust => d_local c = Must
  | DLocalDisallow => d_local c = Disallow
  end.
Definition email_expected (c : email_cfg) (e : email_err) : Prop :=
  match e with
  | EInvalid => True
  | EIPMust => e_ip c = Must
  | EIPDisallow => e_ip c = Disallow
  | ETwoLabelsMust => e_two c = Must
  | ETwoLabelsDisallow => e_two c = Disallow
  | ELocalMust => e_local c = Must
  | ELocalDisallow => e_local c = Disallow
  | ECommentDisallow => e_comment c = false
  end.

Lemma ret {E A} (f : list N -> outcome E A) (e : E) s : forallb (fun b => b <? 128) s = true -> f s = Err e -> returned f e.
Proof. intros A1 H. exists s. split; [apply ascii_text, A1|exact H]. Qed.

(** C116, ip: exactly the expected errors, for the three kinds. *)
Theorem C116_ip : forall port local e,
  (returned (ip_parse_str port local) e <-> ip_expected port local e) /\
  (returned (ipv4_parse_str port local) e <-> ip_expected port local e) /\
  (returned (ipv6_parse_str port local) e <-> ip_expected port local e).
Proof.
  intros port local e.
  assert (forall A (parse : list N -> tri -> tri -> outcome ip_err A), (forall s, valid_str s -> ip_error_means (parse s)) ->
    returned (fun s => parse s port local) e -> ip_expected port local e) as K.
  { intros A parse M (s & V & H). apply (M s V) in H. destruct e; cbn; try exact I; apply H. }
  repeat split.
  1: intros H; apply (K _ (fun s p l => ip_parse_str p l s)); [intros s V; apply (C74_ip_errors s V)|exact H].
  2: intros H; apply (K _ (fun s p l => ipv4_parse_str p l s)); [intros s V; apply (C74_ip_errors s V)|exact H].
  3: intros H; apply (K _ (fun s p l => ipv6_parse_str p l s)); [intros s V; apply (C74_ip_errors s V)|exact H].
  all: clear K; intros H; destruct port, local, e; cbn in H; try discriminate H;
    first
    [ apply (ret _ _ (bs "")); vm_compute; reflexivity
    | apply (ret _ _ (bs ":")); vm_compute; reflexivity
    | apply (ret _ _ (bs "127.0.0.1")); vm_compute; reflexivity
    | apply (ret _ _ (bs "8.8.8.8")); vm_compute; reflexivity
    | apply (ret _ _ (bs "127.0.0.1:80")); vm_compute; reflexivity
    | apply (ret _ _ (bs "8.8.8.8:80")); vm_compute; reflexivity
    | apply (ret _ _ (bs "[::1]")); vm_compute; reflexivity
    | apply (ret _ _ (bs "[2606::1]")); vm_compute; reflexivity
    | apply (ret _ _ (bs "[::1]:80")); vm_compute; reflexivity
    | apply (ret _ _ (bs "[2606::1]:80")); vm_compute; reflexivity ].
Qed.

(** C116, host: exactly the expected errors. *)
Theorem C116_host : forall idna c e, idna_keeps idna ->
  (returned (host_parse_str idna c) e <-> host_expected c e).
Proof.
  intros idna [l p t] e (H1 & H2 & H3). split.
  - intros (s & V & H). apply (C74_host_errors idna s V l p t) in H. destruct e; cbn; try exact I; apply H.
  - intros H. vm_compute in H1, H2, H3. destruct l, p, t, e; cbn in H; try discriminate H;
    first
    [ apply (ret _ _ (bs "")); vm_compute; reflexivity
    | apply (ret _ _ (bs "localhost")); vm_compute; rewrite ?H1; reflexivity
    | apply (ret _ _ (bs "a")); vm_compute; rewrite ?H2; reflexivity
    | apply (ret _ _ (bs "a.org")); vm_compute; rewrite ?H3; reflexivity
    | apply (ret _ _ (bs "8.8.8.8")); vm_compute; reflexivity
    | apply (ret _ _ (bs "127.0.0.1")); vm_compute; reflexivity
    | apply (ret _ _ (bs "localhost:80")); vm_compute; rewrite ?H1; reflexivity
    | apply (ret _ _ (bs "a:80")); vm_compute; rewrite ?H2; reflexivity
    | apply (ret _ _ (bs "a.org:80")); vm_compute; rewrite ?H3; reflexivity
    | apply (ret _ _ (bs "127.0.0.1:80")); vm_compute; reflexivity
    | apply (ret _ _ (bs "8.8.8.8:80")); vm_compute; reflexivity ].
Qed.

(** C116, domain: the expected errors; but ipv4(Must) hides the error of at_least_two_labels(Must), and together
    with at_least_two_labels(Disallow), which the macro refuses (C72), the errors of local. *)
Theorem C116_domain_partial : forall idna c e, idna_keeps idna ->
  (returned (domain_parse_str idna c) e <-> domain_expected c e /\
     (d_ipv4 c = Must -> e <> DTwoLabelsMust /\ (d_two c = Disallow -> e <> DLocalMust /\ e <> DLocalDisallow))).
Proof.
  intros idna [i l p t] e (H1 & H2 & H3). split.
  - intros (s & V & H). unfold domain_parse_str in H.
    pose proof (domain_v_says idna i l p t s) as S. change (cfg i l p t) with {| d_ipv4 := i; d_local := l; d_port := p; d_two := t |} in S.
    destruct (domain_v_parse_str idna {| d_ipv4 := i; d_local := l; d_port := p; d_two := t |} s) as [r|e'|] eqn:E; cbn [obind] in H.
    + exfalso. destruct r as [[[? q] ?] ?]. destruct p; cbn in H; try discriminate H. destruct q; discriminate H.
    + injection H as ->. split; [destruct e; cbn in S |- *; tauto|].
      cbn [d_ipv4 d_two]. intros ->. unfold domain_v_parse_str in E. destruct s as [|x s]; [injection E as <-; repeat split; discriminate|].
      destruct (d_split _ (x :: s)) as [[ds ps]|e'|] eqn:D; cbn [obind] in E; [|injection E as ->|discriminate E].
      2:{ unfold d_split in D. cbn [d_port] in D. destruct (rposition 58 (x :: s)).
          - destruct p; try (injection D as <-; repeat split; discriminate); exfalso; clear -D.
            + destruct (str_slice (x :: s) 0 n) eqn:A; cbn [obind] in D; [|exact (str_slice_err _ _ _ _ A)|discriminate D].
              destruct (str_slice_from (x :: s) (n + 1)) eqn:B; cbn [obind] in D; [discriminate D|exact (str_slice_from_err _ _ _ B)|discriminate D].
            + destruct (str_slice (x :: s) 0 n) eqn:A; cbn [obind] in D; [|exact (str_slice_err _ _ _ _ A)|discriminate D].
              destruct (str_slice_from (x :: s) (n + 1)) eqn:B; cbn [obind] in D; [discriminate D|exact (str_slice_from_err _ _ _ B)|discriminate D].
          - destruct p; try discriminate D. injection D as <-. repeat split; discriminate. }
      unfold d_rest, all_allow in E. cbn [d_ipv4 d_local d_two is_allow_only andb is_disallow is_must] in E.
      destruct (parse_ipv4_allow_an_ended_dot ds); [|injection E as <-; repeat split; discriminate].
      destruct t; cbn [is_disallow] in E; try (injection E as <-; repeat split; discriminate);
        (split; [|discriminate]); intros ->;
        (destruct (d_parse_port _ ps) as [q|e'|] eqn:P; cbn [obind] in E;
         [|injection E as ->; unfold d_parse_port in P; cbn [d_port] in P; destruct p, ps; try destruct (parse_u16 _); discriminate P|discriminate E]);
        unfold d_check_local in E; cbn [d_local] in E; destruct l; cbn [obind] in E; try discriminate E;
        destruct (d_flag _ _); cbn [negb obind] in E; discriminate E.
    + discriminate H.
  - intros [H C]. vm_compute in H1, H2, H3. destruct i, l, p, t, e; cbn in H; try discriminate H;
    first
    [ exfalso; cbn in C; specialize (C eq_refl); destruct C as [C1 C2]; first [exact (C1 eq_refl)|destruct (C2 eq_refl) as [C3 C4]; first [exact (C3 eq_refl)|exact (C4 eq_refl)]]
    | apply (ret _ _ (bs "")); vm_compute; reflexivity
    | apply (ret _ _ (bs "localhost")); vm_compute; rewrite ?H1; reflexivity
    | apply (ret _ _ (bs "a")); vm_compute; rewrite ?H2; reflexivity
    | apply (ret _ _ (bs "a.org")); vm_compute; rewrite ?H3; reflexivity
    | apply (ret _ _ (bs "8.8.8.8")); vm_compute; reflexivity
    | apply (ret _ _ (bs "127.0.0.1")); vm_compute; reflexivity
    | apply (ret _ _ (bs "localhost:80")); vm_compute; rewrite ?H1; reflexivity
    | apply (ret _ _ (bs "a:80")); vm_compute; rewrite ?H2; reflexivity
    | apply (ret _ _ (bs "a.org:80")); vm_compute; rewrite ?H3; reflexivity
    | apply (ret _ _ (bs "127.0.0.1:80")); vm_compute; reflexivity
    | apply (ret _ _ (bs "8.8.8.8:80")); vm_compute; reflexivity ].
Qed.

(** ** Email *)
(** The errors of the steps that are not about the host. *)
Definition plain (e : email_err) : Prop := e = EInvalid \/ e = ECommentDisallow.
Lemma leading_plain c n s e : e_leading_comment c n s = Err e -> plain e.
Proof.
  intros H. pose proof (leading_says c n s) as S. rewrite H in S. unfold plain.
  unfold e_leading_comment in H. revert H. bash; intros [= <-]; auto; noerr.
Qed.
Lemma comment2_plain prof c s n e : e_comment2 prof c s n = Err e -> plain e.
Proof. intros H. unfold plain. unfold e_comment2, e_take2 in H. revert H. bash; intros [= <-]; auto; noerr. Qed.
Lemma comment4_plain c s n e : e_comment4 c s n = Err e -> plain e.
Proof. intros H. unfold plain. unfold e_comment4 in H. revert H. bash; intros [= <-]; auto; noerr. Qed.
(** Under ip(Must) the error of a host is none of the label errors, and with at_least_two_labels(Disallow) there
    is no accepted host. *)
Lemma handle_ip_must c s n e : e_ip c = Must -> e_handle_ip c s n = Err e -> e = EInvalid \/ (e = ETwoLabelsDisallow /\ e_two c = Disallow).
Proof.
  intros Hi H. unfold e_handle_ip in H. rewrite Hi in H. destruct (e_two c); cbn [is_disallow] in H;
    revert H; bash; intros [= <-]; auto; noerr.
Qed.
Lemma domain_part_must idna c s q e : e_ip c = Must -> e_domain_part idna c s q = Err e ->
  plain e \/ e = EIPMust \/ (e = ETwoLabelsDisallow /\ e_two c = Disallow) \/ ((e = ELocalMust \/ e = ELocalDisallow) /\ e_two c <> Disallow).
Proof.
  intros Hi. unfold e_domain_part. destruct (255 <? List.length s)%nat; [intros [= <-]; left; left; reflexivity|].
  destruct (e_leading_comment c 253 s) as [[n c3]|x|] eqn:E1; cbn [obind]; [|intros [= ->]; left; eapply leading_plain; exact E1|discriminate].
  destruct (idx s n) as [b|x|] eqn:E2; cbn [obind]; [|exfalso; exact (idx_err _ _ _ E2)|discriminate].
  destruct (b =? 40); [intros [= <-]; left; left; reflexivity|].
  destruct (b =? 91); [|unfold e_handle_domain; rewrite Hi; cbn [obind]; intros [= <-]; auto].
  destruct (e_handle_ip c s n) as [[[[h fl] n'] z]|x|] eqn:E3; cbn [obind]; [| |discriminate].
  - assert (e_two c <> Disallow) as T.
    { intros T. unfold e_handle_ip in E3. rewrite Hi, T in E3. discriminate E3. }
    unfold e_check_local. destruct (e_local c), fl; cbn [negb obind]; try (intros [= <-]; auto 8);
      (destruct (_ && _)%Z%bool; [intros [= <-]; left; left; reflexivity|]);
      destruct (e_comment4 c s n') as [c4|x|] eqn:E4; cbn [obind]; try discriminate; intros [= ->]; left; eapply comment4_plain; exact E4.
  - intros [= ->]. apply (handle_ip_must _ _ _ _ Hi) in E3 as [-> |E3]; [left; left; reflexivity|auto].
Qed.
Lemma email_must idna prof c s e : e_ip c = Must -> email_v_parse_str idna prof c s = Err e ->
  plain e \/ e = EIPMust \/ (e = ETwoLabelsDisallow /\ e_two c = Disallow) \/ ((e = ELocalMust \/ e = ELocalDisallow) /\ e_two c <> Disallow).
Proof.
  intros Hi. unfold email_v_parse_str. destruct (_ || _)%bool; [intros [= <-]; left; left; reflexivity|].
  destruct (e_leading_comment c 62 s) as [[n c1]|x|] eqn:E1; cbn [obind]; [|intros [= ->]; left; eapply leading_plain; exact E1|discriminate].
  destruct (e_local_part c s n) as [[[[l nq] qd] n']|x|] eqn:E2; cbn [obind]; [|intros [= ->]; left; left; eapply local_part_err; exact E2|discriminate].
  destruct (e_comment2 prof c s n') as [[n2 c2]|x|] eqn:E3; cbn [obind]; [|intros [= ->]; left; eapply comment2_plain; exact E3|discriminate].
  destruct (idx s n2) as [b|x|] eqn:E4; cbn [obind]; [|exfalso; exact (idx_err _ _ _ E4)|discriminate].
  destruct (_ || _)%bool; [intros [= <-]; left; left; reflexivity|].
  destruct (str_slice_from s (n2 + 1)) as [d|x|] eqn:E5; cbn [obind]; [|exfalso; exact (str_slice_from_err _ _ _ E5)|discriminate].
  destruct (e_domain_part idna c d (qd && nq)) as [[[[h fl] c3] c4]|x|] eqn:E6; cbn [obind]; try discriminate.
  intros [= ->]. eapply domain_part_must; eassumption.
Qed.

(** C116, email: likewise. *)
Theorem C116_email_partial : forall idna prof c e, idna_keeps idna ->
  (returned (email_parse_str idna prof c) e <-> email_expected c e /\
     (e_ip c = Must -> e <> ETwoLabelsMust /\ (e_two c = Disallow -> e <> ELocalMust /\ e <> ELocalDisallow))).
Proof.
  intros idna prof [co i l t na] e (H1 & H2 & H3). split.
  - intros (s & V & H). unfold email_parse_str in H.
    pose proof (email_v_says idna prof {| e_comment := co; e_ip := i; e_local := l; e_two := t; e_non_ascii := na |} s) as S.
    destruct (email_v_parse_str idna prof {| e_comment := co; e_ip := i; e_local := l; e_two := t; e_non_ascii := na |} s) as [r|e'|] eqn:E; cbn [obind] in H.
    + exfalso. unfold e_create in H. cbn [e_ip] in H. destruct i, (er_host r); discriminate H.
    + injection H as ->. split; [destruct e; cbn in S |- *; tauto|].
      cbn [e_ip e_two]. intros ->. apply email_must in E; [|reflexivity]. cbn [e_two] in E. unfold plain in E.
      split; [intros ->; intuition discriminate|]. intros ->. split; intros ->; intuition (discriminate || congruence).
    + discriminate H.
  - intros [H C]. vm_compute in H1, H2, H3. destruct prof, co, na, i, l, t, e; cbn in H; try discriminate H;
    first
    [ exfalso; cbn in C; specialize (C eq_refl); destruct C as [C1 C2]; first [exact (C1 eq_refl)|destruct (C2 eq_refl) as [C3 C4]; first [exact (C3 eq_refl)|exact (C4 eq_refl)]]
    | apply (ret _ _ (bs "")); vm_compute; reflexivity
    | apply (ret _ _ (bs "a@localhost")); vm_compute; rewrite ?H1; reflexivity
    | apply (ret _ _ (bs "a@a")); vm_compute; rewrite ?H2; reflexivity
    | apply (ret _ _ (bs "a@a.org")); vm_compute; rewrite ?H3; reflexivity
    | apply (ret _ _ (bs "a@[127.0.0.1]")); vm_compute; reflexivity
    | apply (ret _ _ (bs "a@[8.8.8.8]")); vm_compute; reflexivity
    | apply (ret _ _ (bs "(")); vm_compute; reflexivity ].
Qed.

(** C116, refuted for policies that leave nothing to refuse: under ipv4(Must) or ip(Must) nothing is ever refused for having too
    few labels, although that is asked for, and the macro accepts the attribute. *)
Theorem C116_hidden_refuted : exists c c', domain_expected c DTwoLabelsMust /\ email_expected c' ETwoLabelsMust /\
  forall idna prof, idna_keeps idna ->
    (exists s v, domain_parse_str idna c s = Ok v) /\ ~ returned (domain_parse_str idna c) DTwoLabelsMust /\
    (exists s v, email_parse_str idna prof c' s = Ok v) /\ ~ returned (email_parse_str idna prof c') ETwoLabelsMust.
Proof.
  exists (cfg Must Allow Allow Must), (ecfg false Must Allow Must false). split; [reflexivity|]. split; [reflexivity|].
  intros idna prof K. split; [exists (bs "8.8.8.8"); eexists; vm_compute; reflexivity|].
  split; [intros H; apply (C116_domain_partial idna _ _ K) in H as [_ H]; destruct (H eq_refl) as [H' _]; now apply H'|].
  split; [exists (bs "a@[8.8.8.8]"); eexists; destruct prof; vm_compute; reflexivity|].
  intros H; apply (C116_email_partial idna prof _ _ K) in H as [_ H]; destruct (H eq_refl) as [H' _]; now apply H'.
Qed.

Example C116_example :
  idna_keeps idna_ascii /\
  ip_parse_str Must Disallow (bs "127.0.0.1") = Err IpPortMust /\ ip_parse_str Must Disallow (bs "127.0.0.1:80") = Err IpLocalDisallow /\
  domain_expected (cfg Disallow Must Allow Must) DTwoLabelsMust /\
  domain_parse_str idna_ascii (cfg Disallow Must Allow Must) (bs "a") = Err DTwoLabelsMust /\
  domain_parse_str idna_ascii (cfg Disallow Must Allow Must) (bs "a.org") = Err DLocalMust.
Proof. repeat split; vm_compute; reflexivity. Qed.

Print Assumptions C116_ip.
Print Assumptions C116_host.
Print Assumptions C116_domain_partial.
Print Assumptions C116_email_partial.
Print Assumptions C116_hidden_refuted.
