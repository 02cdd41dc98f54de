(** Property C126: an accepted text is not taken for an option of a command. *)
From Coq Require Import SpecFloat.
From Verif Require Import Base Utf8 IntStr IntStrProofs IntModel MacModel MacSpec BaseModel BaseSpec CodecModel CodecSpec
  RangeModel IntSpec NumberModel FloatModel BooleanModel BooleanProofs NetModel NetSpec NetProofs IpModel IpSpec IpProofs
  DomainModel DomainSpec DomainProofs HostModel HostSpec EmailModel EmailSpec EmailMain.
From Verif Require Import BaseProofs CodecProofs PropInt PropMac PropBoolean PropBase PropIp PropDomain PropHost PropEmail IdnaFrag StrFacts PropSafe.
From Verif Require HttpModel.
Local Open Scope N_scope.

(** A program takes an argument that begins with a hyphen for an option. *)
Definition option_like (s : list N) : Prop := exists r, s = 45 :: r.

Lemma ol_head c r : c <> 45 -> ~ option_like (c :: r).
Proof. intros H [x E]. congruence. Qed.
Lemma ol_nil : ~ option_like [].
Proof. intros [x E]. discriminate. Qed.
Lemma ol_app a b : option_like (a ++ b) -> option_like a \/ a = [] /\ option_like b.
Proof. destruct a as [|c a]; cbn [app]; [auto|]. intros [x E]. injection E as -> _. left. eexists. reflexivity. Qed.
Lemma ol_all s : Forall (fun c => c <> 45) s -> ~ option_like s.
Proof. intros H [x ->]. inversion H. congruence. Qed.

Lemma ol_digits ds v : denotes_digits ds v -> ~ option_like ds.
Proof.
  intros H. apply ol_all. induction H as [c H|ds v c _ IH H]; unfold is_digit in H.
  - constructor; [lia|constructor].
  - apply Forall_app. split; [exact IH|]. constructor; [lia|constructor].
Qed.
Lemma digits_nonneg ds v : denotes_digits ds v -> (0 <= v)%Z.
Proof. induction 1 as [c H|ds v c _ IH H]; unfold is_digit in H; lia. Qed.
Lemma ol_int sg s v : denotes_int sg s v -> option_like s -> sg = true /\ (v <= 0)%Z.
Proof.
  intros H O. inversion H; subst.
  - exfalso. eapply ol_digits; eassumption.
  - exfalso. revert O. apply ol_head. discriminate.
  - split; [reflexivity|]. match goal with D : denotes_digits _ _ |- _ => apply digits_nonneg in D end. lia.
Qed.
Lemma ol_dec n : ~ option_like (dec_of_N n).
Proof. exact (ol_digits _ _ (dec_of_N_denotes n)). Qed.
Lemma ol_alphabet f c : f <> B64Url -> In c (alphabet f) -> c <> 45.
Proof.
  intros F. revert c. apply Forall_forall. destruct f; [| |congruence]; vm_compute; repeat (constructor; [discriminate|]); constructor.
Qed.
Lemma ol_hex case c d : is_hex case c d -> c <> 45.
Proof.
  intros (a & A & B). apply nth_error_In in B.
  assert (Forall (fun c => c <> 45) a) as V.
  { destruct case; cbn [hex_alphabets In] in A.
    - destruct A as [<- |[<- |[]]]; vm_compute; repeat (constructor; [discriminate|]); constructor.
    - destruct A as [<- |[]]; vm_compute; repeat (constructor; [discriminate|]); constructor.
    - destruct A as [<- |[]]; vm_compute; repeat (constructor; [discriminate|]); constructor. }
  exact (proj1 (Forall_forall _ _) V c B).
Qed.
Lemma ol_hexes case cs x : hex_denotes case cs x -> ~ option_like cs.
Proof. intros H. apply ol_all. induction H as [|c d cs x H _ IH]; constructor; eauto using ol_hex. Qed.
Lemma ol_grouped sep n sizes v digits : grouped sep (S n :: sizes) v digits -> option_like v -> option_like digits.
Proof.
  intros G O. inversion G as [g E|g s z w ds F R E]; subst; [exact O|].
  destruct g as [|c g]; [discriminate|]. cbn [app] in *. destruct O as [x O]. injection O as -> _. eexists. reflexivity.
Qed.

(** The float has its sign bit set, or is no number. *)
Definition minus (f : spec_float) : Prop :=
  match f with S754_nan => True | S754_zero sg | S754_infinity sg | S754_finite sg _ _ => sg = true end.
Lemma minus_round prec emax m e : minus (binary_round prec emax true m e).
Proof.
  unfold binary_round. destruct (shl_align _ _ _) as [mz ez]. unfold binary_round_aux.
  destruct (shr_fexp _ _ _ _ _) as [mrs1 e1]. destruct (shr_fexp prec emax _ e1 _) as [mrs2 e2].
  destruct (shr_m mrs2); cbn; auto. destruct (_ <=? _)%Z; cbn; auto.
Qed.
Lemma minus_ratio t p q : minus (round_ratio t true p q).
Proof. unfold round_ratio. destruct (to_odd p q); [reflexivity|apply minus_round|reflexivity]. Qed.
Lemma ol_float t s f : float_of_text t s = Some f -> option_like s -> minus f.
Proof.
  intros H [r ->]. unfold float_of_text in H. cbn [take_sign] in H. rewrite N.eqb_refl in H. cbv beta iota in H.
  destruct (read_decimal r) as [[m k]|].
  - injection H as <-. unfold round_decimal. destruct (0 <=? k)%Z; apply minus_ratio.
  - destruct (_ || _)%bool; [injection H as <-; reflexivity|]. destruct (eq_ignore_case _ _); [injection H as <-; exact I|discriminate].
Qed.

(** C126: integers, numbers, boolean words, base32 and base64, addresses of the link layer and uuids. A negative integer or number begins with a hyphen, and
    minus zero; whatever is greater than zero does not. *)
Theorem C126_texts : forall s, option_like s ->
  (forall pw t r v, int_parse_str false pw t r s <> Ok v) /\
  (forall pw t r v, int_parse_str true pw t r s = Ok v -> (v <= 0)%Z) /\
  (forall t r nan f, num_parse_str (float_of_text t) r nan s = Ok f -> minus f) /\
  (forall b, bool_parse_str s <> Ok b) /\
  (forall f p v, f <> B64Url -> base_parse_str f p s <> Ok v) /\
  (forall f p v, f <> B64Url -> dec_parse_str f p s <> Ok v) /\
  (forall case sep x, mac_parse_str case sep s <> Ok x) /\
  (forall case sep x, uuid_parse_str case sep s <> Ok x).
Proof.
  intros s O. assert (KI : forall sg pw t r v, int_parse_str sg pw t r s = Ok v -> sg = true /\ (v <= 0)%Z).
  { intros sg pw t r v H. unfold int_parse_str, v_parse_str in H.
    destruct (int_from_str _ _ s) as [i| |] eqn:E; try discriminate.
    apply int_from_str_spec in E as [E _]; [|apply IntProofs.min_max]. destruct (ol_int _ _ _ E O) as [A B]. split; [destruct sg; [reflexivity|discriminate A]|].
    cbn [obind omap_err] in H. destruct (v_parse_i _ _ _ _ _); cbn [obind] in H; try discriminate. injection H as <-. exact B. }
  split; [intros pw t r v H; destruct (KI _ _ _ _ _ H); discriminate|]. split; [intros pw t r v H; apply (KI _ _ _ _ _ H)|].
  split.
  { intros t r nan v H. unfold num_parse_str, num_v_parse_str in H. destruct (float_of_text t s) eqn:E; [|discriminate].
    destruct (v_parse_f _ _ _); cbn [obind] in H; try discriminate. injection H as <-. eapply ol_float; eassumption. }
  split.
  { intros b H. apply C16_boolean_words in H as (w & W & S). destruct O as [r ->]. inversion S as [|x y l l' C _]; subst.
    assert (Forall (fun p => Forall (fun c => 48 <= c <= 49 \/ 97 <= c <= 122) (fst p)) bool_words) as K.
    { repeat (constructor; [cbn [fst]; apply Forall_forall; intros x X; vm_compute in X; lia|]). constructor. }
    pose proof (proj1 (Forall_forall _ _) K _ W) as Q. cbn [fst] in Q. inversion Q; subst. lia. }
  split.
  { intros f p v F H. assert (base_shape f p s) as B by (apply C19_base_language; eexists; exact H).
    apply base_shape_bytes in B. revert O. apply ol_all. eapply Forall_impl; [|exact B].
    intros c [C| ->]; [eapply ol_alphabet; eassumption|discriminate]. }
  split.
  { intros f p v F H. apply C22_decoded_exact in H as (_ & [(_ & _ & -> & _)|(_ & _ & ds & _ & -> & _)]); revert O; apply ol_all.
    - assert (Forall (fun c => In c (alphabet f)) (encode f v)) as X by (apply Forall_alphabet, alphabet_encode).
      eapply Forall_impl; [|exact X]. intros c. now apply ol_alphabet.
    - clear - F. induction ds as [|d ds IH]; cbn [List.map List.concat]; [constructor|]. apply Forall_app. split; [|exact IH].
      apply Forall_app. split.
      + assert (Forall (fun c => In c (alphabet f)) (encode f d)) as X by (apply Forall_alphabet, alphabet_encode).
        eapply Forall_impl; [|exact X]. intros c. now apply ol_alphabet.
      + apply Forall_forall. intros c C. apply repeat_spec in C. subst c. discriminate. }
  split; intros case sep x H.
  - apply C25_mac_accepts_only in H as (ds & G & D). exact (ol_hexes _ _ _ D (ol_grouped _ _ _ _ _ G O)).
  - apply C28_uuid_accepts_only in H as (ds & G & D). exact (ol_hexes _ _ _ D (ol_grouped _ _ _ _ _ G O)).
Qed.
Print Assumptions C126_texts.

Lemma ol_v4 s a : v4_text s a -> ~ option_like s.
Proof. intros H. apply v4_chars in H. apply ol_all. eapply Forall_impl; [|exact H]. intros c Hc. unfold v4_char in Hc. lia. Qed.
Lemma ol_v6 s a : v6_text s a -> ~ option_like s.
Proof. intros H. apply v6_chars in H. apply ol_all. eapply Forall_impl; [|exact H]. intros c Hc. unfold v6_char in Hc. lia. Qed.
Lemma ol_then t x r : ~ option_like t -> x <> 45 -> ~ option_like (t ++ x :: r).
Proof. intros T X O. apply ol_app in O. destruct O as [O|[_ O]]; [exact (T O)|]. revert O. now apply ol_head. Qed.
Lemma ol_v4_form s a p : v4_form s a p -> ~ option_like s.
Proof. destruct p as [p|]; [intros (t & q & -> & A & B)|intros A; exact (ol_v4 _ _ A)]. apply ol_then; [exact (ol_v4 _ _ A)|discriminate]. Qed.
Lemma ol_v6_form s a p : v6_form s a p -> ~ option_like s.
Proof.
  destruct p as [p|]; [intros (t & q & -> & A & B)|intros [A|(t & -> & A)]]; cbn [app].
  - apply ol_head. discriminate.
  - exact (ol_v6 _ _ A).
  - apply ol_head. discriminate.
Qed.

(** C126: addresses, and what they print. *)
Theorem C126_ip : forall port local s, valid_str s ->
  (forall v, ip_parse_str port local s = Ok v -> ~ option_like s /\ ~ option_like (ip_authority v)) /\
  (forall v, ipv4_parse_str port local s = Ok v -> ~ option_like s /\ ~ option_like (ipv4_authority v)) /\
  (forall v, ipv6_parse_str port local s = Ok v -> ~ option_like s /\ ~ option_like (ipv6_authority v)).
Proof.
  assert (forall s a p, v4_form s a p -> ~ option_like s /\ ~ option_like (ipv4_authority (a, p))) as K4.
  { intros s a p H. destruct (v4_form_addr _ _ _ H) as [A B].
    split; eapply ol_v4_form; [exact H|apply ipv4_authority_form; assumption]. }
  assert (forall s a p, v6_form s a p -> ~ option_like s /\ ~ option_like (ipv6_authority (a, p))) as K6.
  { intros s a p H. destruct (v6_form_addr _ _ _ H) as [A B].
    split; eapply ol_v6_form; [exact H|apply ipv6_authority_form; assumption]. }
  intros port local s V. split; [|split]; intros [x p] H.
  - destruct x as [a|a]; apply C31_ip_accepts_exactly in H as [F _]; try assumption; [apply K4 in F|apply K6 in F]; exact F.
  - apply C31_ipv4_accepts_exactly in H as [F _]; [|assumption]. apply K4 in F. exact F.
  - apply C31_ipv6_accepts_exactly in H as [F _]; [|assumption]. apply K6 in F. exact F.
Qed.
Print Assumptions C126_ip.

(** A law of [to_ascii] with [check_hyphens(true)] (UTS #46, section 4.1, validity criterion 3): no label begins with a hyphen, of the text (to which a hyphen
    is mapped as it is) or of the result. *)
Definition idna_hyphens (idna : list N -> option (list N)) : Prop := forall s d, idna s = Some d -> ~ option_like s /\ ~ option_like d.

Lemma ol_split s name p : split_port s name p -> ~ option_like name -> ~ option_like s.
Proof. destruct p as [p|]; [intros (q & -> & P)|intros [-> _]]; intros H; [|exact H]. apply ol_then; [exact H|discriminate]. Qed.
Lemma ol_dotted s a : v4_dotted s a -> ~ option_like s.
Proof. intros (t & [-> | ->] & T); [exact (ol_v4 _ _ T)|]. apply ol_then; [exact (ol_v4 _ _ T)|discriminate]. Qed.
Lemma ol_firstn n s : ~ option_like s -> ~ option_like (firstn n s).
Proof. intros H O. apply H. rewrite <- (firstn_skipn n s). destruct O as [r ->]. eexists. reflexivity. Qed.

(** C126: domains and hosts, and what they print. *)
Theorem C126_names : forall idna s, idna_hyphens idna -> valid_str s ->
  (forall c v, domain_parse_str idna c s = Ok v -> ~ option_like s /\
     forall t, @domain_authority domain_err v = Ok t -> ~ option_like t) /\
  (forall c v, host_parse_str idna c s = Ok v -> ~ option_like s /\ ~ option_like (host_authority v)).
Proof.
  intros idna s L V. split.
  - intros c v H. apply C36_domain_accepts_exactly in H; [|exact V].
    destruct H as (_ & name & P & _ & B).
    assert (~ option_like s /\ ~ option_like (dv_domain v)) as [S D].
    { destruct B as [(_ & B & _)|[(_ & a & B & _ & _ & _ & E & _)|(_ & _ & _ & B & _)]].
      - destruct (L _ _ B) as [L1 L2]. split; [exact (ol_split _ _ _ P L1)|exact L2].
      - pose proof (ol_split _ _ _ P (ol_dotted _ _ B)) as W. split; [exact W|now rewrite E].
      - destruct (L _ _ B) as [L1 L2]. split; [exact (ol_split _ _ _ P L1)|exact L2]. }
    split; [exact S|]. intros t T. unfold domain_authority, get_domain_non_fully_qualified in T.
    destruct (is_fully_qualified (dv_domain v)).
    + unfold str_slice in T. destruct (_ && _)%bool; [|discriminate]. cbn [obind] in T.
      change (skipn 0 (dv_domain v)) with (dv_domain v) in T.
      pose proof (ol_firstn (List.length (dv_domain v) - 1 - 0) _ D) as F.
      destruct (dv_port v); injection T as <-; [|exact F]. apply ol_then; [exact F|discriminate].
    + cbn [obind] in T. destruct (dv_port v); injection T as <-; [|exact D]. apply ol_then; [exact D|discriminate].
  - intros c v H. apply C39_host_accepts_exactly in H; [|exact V]. unfold host_authority.
    destruct H as [(a & E & F & _)|[(a & E & F & _)|(name & d & E & _ & _ & _ & P & _ & _ & _ & B & _)]]; rewrite E.
    + split; [eapply ol_v6_form; exact F|]. destruct (v6_form_addr _ _ _ F) as [A Q].
      eapply ol_v6_form. apply ipv6_authority_form; assumption.
    + split; [eapply ol_v4_form; exact F|]. destruct (v4_form_addr _ _ _ F) as [A Q].
      eapply ol_v4_form. apply ipv4_authority_form; assumption.
    + destruct (L _ _ B) as [L1 D]. split; [exact (ol_split _ _ _ P L1)|].
      destruct (hv_port v); [|exact D]. apply ol_then; [exact D|discriminate].
Qed.
Print Assumptions C126_names.

(** C126: web addresses, for every behaviour of the url library. *)
Theorem C126_urls : forall url parse host local s, option_like s ->
  HttpModel.http_parse_str url parse host local s = Err HttpModel.HProtocolError /\
  HttpModel.http_ftp_parse_str url parse host local s = Err HttpModel.HProtocolError.
Proof. intros url parse host local s [r ->]. split; reflexivity. Qed.
Print Assumptions C126_urls.

(** C126. email: only a local part that begins with a hyphen makes an address, or what it prints, begin with one. *)
Theorem C126_email_partial : forall idna prof c s v, valid_str s -> email_parse_str idna prof c s = Ok v ->
  option_like s \/ option_like (to_email_string c v) -> option_like (ev_local v).
Proof.
  intros idna prof c s v Hv H O. apply email_parse_spec in H; [|exact Hv].
  destruct H as (lt & q & dt & tail & canon & Es & _ & HL & K1 & _). destruct O as [O|O].
  - rewrite Es in O. destruct (ev_c1 v) as [t|]; cbn [ctext app] in O; [exfalso; revert O; apply ol_head; discriminate|].
    destruct HL as [(_ & -> & _ & _)|(_ & -> & _ & _)].
    + apply ol_app in O. destruct O as [O|[_ O]]; [exact O|]. exfalso. revert O.
      destruct (ev_c2 v) as [t|]; cbn [ctext app]; apply ol_head; discriminate.
    + exfalso. revert O. apply ol_head. discriminate.
  - unfold to_email_string in O. destruct (e_comment c); cbn [negb] in O.
    + destruct (ev_c1 v) as [t|]; cbn [e_comment_text app] in O; [exfalso; revert O; apply ol_head; discriminate|].
      destruct (ev_need_quoted v); cbn [app] in O; [exfalso; revert O; apply ol_head; discriminate|].
      apply ol_app in O. destruct O as [O|[_ O]]; [exact O|]. exfalso. revert O.
      destruct (ev_c2 v) as [t|]; cbn [e_comment_text app]; apply ol_head; discriminate.
    + apply ol_app in O. destruct O as [O|[_ O]]; [exact O|]. exfalso. revert O. apply ol_head. discriminate.
Qed.
Print Assumptions C126_email_partial.

Lemma ol_label d : option_like d -> forallb ok_label (labels d) = true -> False.
Proof.
  intros [r ->] H. cbn [labels] in H. change (45 =? 46) with false in H. cbn match in H.
  destruct (labels r) as [|l ls]; cbn [forallb] in H; apply andb_true_iff in H as [H _]; unfold ok_label in H;
    rewrite !andb_true_iff in H; cbn [nth] in H; destruct H as (((_ & H) & _) & _); discriminate H.
Qed.

Lemma ol_strip d : option_like d -> option_like (strip_last 46 d).
Proof.
  intros O. destruct (strip_cases d) as [E|E]; [now rewrite <- E|]. rewrite E in O. apply ol_app in O.
  destruct O as [O|[_ O]]; [exact O|]. exfalso. revert O. apply ol_head. discriminate.
Qed.

(** The law holds of the fragment. *)
Lemma idna_frag_hyphens : idna_hyphens idna_frag.
Proof.
  intros s d H. unfold idna_frag in H. destruct (map_dots s) as [e|] eqn:M; [|discriminate].
  destruct (ok_name (strip_last 46 e)) eqn:K; [|discriminate]. injection H as <-. unfold ok_name in K.
  apply andb_true_iff in K as [K _].
  assert (~ option_like e) as D by (intros O; apply (ol_label _ (ol_strip _ O) K)). split; [|exact D].
  intros [r ->]. apply D. cbn [map_dots] in M. change (45 <? 128) with true in M. cbn match in M.
  destruct (map_dots r); [|discriminate]. injection M as <-. eexists. reflexivity.
Qed.

Lemma idna_ascii_hyphens : idna_hyphens idna_ascii.
Proof. intros s d H. apply idna_ascii_frag in H as [H _]. exact (idna_frag_hyphens _ _ H). Qed.
Print Assumptions idna_ascii_hyphens.

(** Finding. An e-mail address may begin with a hyphen, and prints as it came in. *)
Theorem C126_email_refuted : exists s v, idna_hyphens idna_ascii /\ valid_str s /\ option_like s /\
  forall prof com ip two na, ip <> Must -> two <> Disallow ->
  let c := ecfg com ip Disallow two na in email_parse_str idna_ascii prof c s = Ok v /\ to_email_string c v = s.
Proof.
  exists (bs "-oQ/tmp@example.com"),
    {| ev_local := bs "-oQ/tmp"; ev_need_quoted := false; ev_domain := HDomain (bs "example.com"); ev_c1 := None; ev_c2 := None;
       ev_c3 := None; ev_c4 := None; ev_is_local := None |}.
  split; [exact idna_ascii_hyphens|]. split; [ascii_str|]. split; [eexists; reflexivity|].
  intros prof com ip two na I T. cbn zeta. split; destruct prof, com, ip, two, na; try congruence; vm_compute; reflexivity.
Qed.
Print Assumptions C126_email_refuted.

(** Finding. A quoted local part hides its hyphen only on the way in: what is printed begins with it. *)
Theorem C126_email_quoted_refuted : exists s v, valid_str s /\ ~ option_like s /\
  forall prof com, let c := ecfg com Disallow Disallow Must false in
  email_parse_str idna_ascii prof c s = Ok v /\ option_like (to_email_string c v).
Proof.
  exists (bs """-x""@example.com"),
    {| ev_local := bs "-x"; ev_need_quoted := false; ev_domain := HDomain (bs "example.com"); ev_c1 := None; ev_c2 := None;
       ev_c3 := None; ev_c4 := None; ev_is_local := None |}.
  split; [ascii_str|]. split; [apply ol_head; discriminate|].
  intros prof com. cbn zeta. split; [destruct prof, com; vm_compute; reflexivity|]. eexists. destruct com; reflexivity.
Qed.
Print Assumptions C126_email_quoted_refuted.

(** Finding. So may a base64_url text, with any padding rule. *)
Theorem C126_base64_url_refuted : exists s, option_like s /\
  (forall p, p <> Must -> base_parse_str B64Url p s = Ok s /\ is_ok (dec_parse_str B64Url p s)) /\
  exists t, option_like t /\ base_parse_str B64Url Must t = Ok t /\ is_ok (dec_parse_str B64Url Must t).
Proof.
  exists (bs "-rf_"). split; [eexists; reflexivity|]. split.
  - intros [] P; try congruence; (split; [vm_compute; reflexivity|eexists; vm_compute; reflexivity]).
  - exists (bs "-rf_"). split; [eexists; reflexivity|]. split; [vm_compute; reflexivity|eexists; vm_compute; reflexivity].
Qed.
Print Assumptions C126_base64_url_refuted.

(** Non-triviality: texts with a hyphen first, the hypotheses of the theorems, and accepted texts that have hyphens elsewhere. *)
Example C126_example : let s := bs "-5" in let d := bs "a-b.example.com" in let m := bs "01-23-45-67-89-ab" in
  let c := {| d_ipv4 := Disallow; d_local := Disallow; d_port := Disallow; d_two := Must |} in
  option_like s /\ valid_str s /\ idna_hyphens idna_ascii /\
  int_parse_str true W64 I8 (Inside (Some (-128)%Z) None true) s = Ok (-5)%Z /\
  is_ok (domain_parse_str idna_ascii c d) /\ domain_parse_str idna_ascii c (45 :: d) = Err DInvalid /\
  is_ok (mac_parse_str AnyCase (SepAllow 45) m) /\
  is_ok (ip_parse_str Allow Allow (bs "[::1]:80")).
Proof.
  cbn zeta. split; [eexists; reflexivity|]. split; [ascii_str|]. split; [exact idna_ascii_hyphens|].
  split; [vm_compute; reflexivity|]. split; [eexists; vm_compute; reflexivity|]. split; [vm_compute; reflexivity|].
  split; eexists; vm_compute; reflexivity.
Qed.
Print Assumptions C126_example.
