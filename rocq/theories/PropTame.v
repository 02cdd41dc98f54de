(** C115: an accepted text can be pasted between quotes, in markup, in a query or in a command line: there is no quote,
    bracket, ampersand, dollar sign, backslash, semicolon or space in it. *)
From Coq Require Import SpecFloat.
From Verif Require Import Base Utf8 IntStr IntStrProofs IntModel MacModel MacSpec BaseModel BaseSpec CodecModel CodecSpec
  RangeModel IntSpec NumberModel FloatModel BooleanModel BooleanProofs NetModel NetSpec NetProofs IpModel IpSpec IpProofs
  DomainModel DomainSpec HostModel HostSpec EmailModel EmailSpec.
From Verif Require Import BaseProofs CodecProofs PropInt PropMac PropBoolean PropBase PropIp PropDomain PropHost PropEmail IdnaFrag StrFacts.
Local Open Scope N_scope.

(** A letter, a digit, or one of [+ - . / : = [ ] _]. *)
Definition tame (c : N) : Prop :=
  65 <= c <= 90 \/ 97 <= c <= 122 \/ 48 <= c <= 57 \/ In c (bs "+-./:=[]_").
(** The characters that end a quoted string, start markup, or mean something to a shell or in a query. *)
Definition wild (c : N) : Prop := c <= 32 \/ c = 127 \/ In c (bs "!#$%&'()*,;<>?@\^`{|}~") \/ c = 34.

Lemma tame_range c : tame c <-> 45 <= c <= 58 \/ 65 <= c <= 91 \/ 97 <= c <= 122 \/ c = 43 \/ c = 61 \/ c = 93 \/ c = 95.
Proof.
  unfold tame. split.
  - intros [H|[H|[H|H]]]; try lia. vm_compute in H. repeat (destruct H as [<- |H]; [lia|]). destruct H.
  - intros H. assert (65 <= c <= 90 \/ 97 <= c <= 122 \/ 48 <= c <= 57 \/ c = 43 \/ c = 45 \/ c = 46 \/ c = 47 \/ c = 58 \/
      c = 61 \/ c = 91 \/ c = 93 \/ c = 95) as K by lia.
    destruct K as [K|[K|[K|K]]]; auto. right. right. right. vm_compute. intuition.
Qed.
Lemma tame_not_wild c : tame c <-> ~ wild c /\ c < 128.
Proof.
  rewrite tame_range. unfold wild. split.
  - intros H. split; [|lia]. intros [K|[K|[K|K]]]; try lia. vm_compute in K. repeat (destruct K as [<- |K]; [lia|]). destruct K.
  - intros [H B]. assert (~ (c <= 32) /\ c <> 127 /\ c <> 34) as (A1 & A2 & A3) by intuition.
    assert (~ In c (bs "!#$%&'()*,;<>?@\^`{|}~")) as A4 by intuition.
    assert (forall n, In n (bs "!#$%&'()*,;<>?@\^`{|}~") -> c <> n) as A5 by (intros n N E; subst; auto).
    clear H A4. assert (forall n, existsb (N.eqb n) (bs "!#$%&'()*,;<>?@\^`{|}~") = true -> c <> n) as A6.
    { intros n N. apply A5. apply existsb_exists in N as (m & M & E). apply N.eqb_eq in E. now subst. }
    clear A5.
    pose proof (A6 33 eq_refl). pose proof (A6 35 eq_refl). pose proof (A6 36 eq_refl). pose proof (A6 37 eq_refl).
    pose proof (A6 38 eq_refl). pose proof (A6 39 eq_refl). pose proof (A6 40 eq_refl). pose proof (A6 41 eq_refl).
    pose proof (A6 42 eq_refl). pose proof (A6 44 eq_refl). pose proof (A6 59 eq_refl). pose proof (A6 60 eq_refl).
    pose proof (A6 62 eq_refl). pose proof (A6 63 eq_refl). pose proof (A6 64 eq_refl). pose proof (A6 92 eq_refl).
    pose proof (A6 94 eq_refl). pose proof (A6 96 eq_refl). pose proof (A6 123 eq_refl). pose proof (A6 124 eq_refl).
    pose proof (A6 125 eq_refl). pose proof (A6 126 eq_refl). clear A6. lia.
Qed.
Ltac tm := apply tame_range; lia.
(** A fixed text is tame. *)
Lemma tame_text l : forallb (fun c => (45 <=? c) && (c <=? 58) || (65 <=? c) && (c <=? 91) || (97 <=? c) && (c <=? 122) ||
  (c =? 43) || (c =? 61) || (c =? 93) || (c =? 95))%bool l = true -> Forall tame l.
Proof. intros H. apply Forall_forall. intros c C. rewrite forallb_forall in H. specialize (H c C). tm. Qed.
Lemma tm_app a b : Forall tame a -> Forall tame b -> Forall tame (a ++ b).
Proof. intros A B. now apply Forall_app. Qed.

(** ** Numbers *)
Lemma tm_digits ds v : denotes_digits ds v -> Forall tame ds.
Proof.
  induction 1 as [c H|ds v c _ IH H]; unfold is_digit in H.
  - constructor; [tm|constructor].
  - apply tm_app; [exact IH|]. constructor; [tm|constructor].
Qed.
Lemma tm_int sg s v : denotes_int sg s v -> Forall tame s.
Proof.
  intros H. inversion H; subst.
  - eapply tm_digits; eassumption.
  - constructor; [tm|]. eapply tm_digits; eassumption.
  - constructor; [tm|]. eapply tm_digits; eassumption.
Qed.
Lemma tm_dec n : Forall tame (dec_of_N n).
Proof. exact (tm_digits _ _ (dec_of_N_denotes n)). Qed.

Lemma tm_span s : forall d q, span_digits s = (d, q) -> s = d ++ q /\ Forall tame d.
Proof.
  induction s as [|c r IH]; intros d q H; cbn [span_digits] in H.
  - injection H as <- <-. split; [reflexivity|constructor].
  - destruct (fdigit c) eqn:F.
    + destruct (span_digits r) as [d' q'] eqn:E. injection H as <- <-. destruct (IH _ _ eq_refl) as [-> V].
      split; [reflexivity|]. constructor; [|exact V]. unfold fdigit in F. tm.
    + injection H as <- <-. split; [reflexivity|constructor].
Qed.
Lemma tm_sign s : exists g, s = g ++ snd (take_sign s) /\ Forall tame g.
Proof.
  destruct s as [|c r]; [exists []; split; [reflexivity|constructor]|]. unfold take_sign.
  destruct (N.eqb_spec c 45) as [->|]; [|destruct (N.eqb_spec c 43) as [->|]].
  - exists [45]. split; [reflexivity|]. constructor; [tm|constructor].
  - exists [43]. split; [reflexivity|]. constructor; [tm|constructor].
  - exists []. split; [reflexivity|constructor].
Qed.
Lemma tm_exponent s x : read_exponent s = Some x -> Forall tame s.
Proof.
  destruct s as [|c r]; [constructor|]. unfold read_exponent.
  destruct ((c =? 101) || (c =? 69))%N%bool eqn:C; [|discriminate].
  destruct (tm_sign r) as (g & E & G). destruct (take_sign r) as [neg r1]. cbn [snd] in E.
  destruct (span_digits r1) as [[|d ds] q] eqn:S; [discriminate|]. destruct q; [|discriminate]. intros _.
  destruct (tm_span _ _ _ S) as [-> V]. constructor; [tm|]. rewrite E, app_nil_r.
  apply tm_app; assumption.
Qed.
Lemma tm_decimal s p : read_decimal s = Some p -> Forall tame s.
Proof.
  unfold read_decimal. destruct (span_digits s) as [ints r1] eqn:S1. destruct (tm_span _ _ _ S1) as [-> V1].
  assert (forall fracs r2, match r1 with c :: r => if (c =? 46)%N then span_digits r else ([], r1) | [] => ([], []) end
            = (fracs, r2) -> Forall tame r2 -> Forall tame r1) as K.
  { intros fracs r2 H R. destruct r1 as [|c r]; [constructor|]. destruct (N.eqb_spec c 46) as [->|].
    - destruct (tm_span _ _ _ H) as [-> V]. constructor; [tm|]. apply tm_app; assumption.
    - injection H as <- <-. exact R. }
  destruct (match r1 with [] => _ | c :: r => _ end) as [fracs r2] eqn:E.
  destruct (ints ++ fracs); [discriminate|]. destruct (read_exponent r2) eqn:X; [|discriminate]. intros _.
  apply tm_app; [exact V1|]. eapply K; [reflexivity|]. eapply tm_exponent; eassumption.
Qed.

Lemma tm_lower s : Forall tame (List.map lower s) -> Forall tame s.
Proof.
  induction s as [|c s IH]; intros H; [constructor|]. inversion H as [|x l A B]; subst. constructor; [|auto].
  apply tame_range. apply tame_range in A. unfold lower in A. destruct ((65 <=? c) && (c <=? 90))%N%bool eqn:E; lia.
Qed.
Ltac tm_all := repeat (constructor; [tm|]); constructor.
Lemma tm_word s w : eq_ignore_case s w = true -> Forall tame (List.map lower w) -> Forall tame s.
Proof. intros H V. apply tm_lower. apply DomainProofs.eq_ignore_case_map in H. now rewrite H. Qed.
Lemma tm_float t s f : float_of_text t s = Some f -> Forall tame s.
Proof.
  unfold float_of_text. destruct (tm_sign s) as (g & E & G). destruct (take_sign s) as [sg r]. cbn [snd] in E. subst s.
  intros H. apply tm_app; [exact G|]. destruct (read_decimal r) as [p|] eqn:D; [eapply tm_decimal; eassumption|].
  destruct (eq_ignore_case r (bs "inf")) eqn:W1; [eapply tm_word; [exact W1|]|].
  { vm_compute List.map. tm_all. }
  destruct (eq_ignore_case r (bs "infinity")) eqn:W2; [eapply tm_word; [exact W2|]|].
  { vm_compute List.map. tm_all. }
  cbn [orb] in H. destruct (eq_ignore_case r (bs "nan")) eqn:W3; [eapply tm_word; [exact W3|]|discriminate].
  vm_compute List.map. tm_all.
Qed.

(** ** Words and encodings *)
Lemma tm_same s w : same_but_case s w -> Forall tame w -> Forall tame s.
Proof.
  induction 1 as [|x y s w H _ IH]; intros V; [constructor|]. inversion V as [|? ? A B]; subst. constructor; [|auto].
  apply tame_range. apply tame_range in A. lia.
Qed.
Lemma tm_alphabet f c : In c (alphabet f) -> tame c.
Proof.
  revert c. apply Forall_forall. destruct f; apply tame_text; reflexivity.
Qed.
Lemma tm_eq k : Forall tame (repeat 61 k).
Proof. induction k; constructor; [tm|assumption]. Qed.
Lemma tm_encode f d : Forall tame (encode f d).
Proof.
  assert (Forall (fun c => In c (alphabet f)) (encode f d)) as H by (apply Forall_alphabet, alphabet_encode).
  eapply Forall_impl; [|exact H]. intros c. apply tm_alphabet.
Qed.
Lemma tm_hex case c d : is_hex case c d -> tame c.
Proof.
  intros (a & A & B). apply nth_error_In in B.
  assert (Forall tame a) as V.
  { destruct case; cbn [hex_alphabets In] in A.
    - destruct A as [<- |[<- |[]]]; apply tame_text; reflexivity.
    - destruct A as [<- |[]]; apply tame_text; reflexivity.
    - destruct A as [<- |[]]; apply tame_text; reflexivity. }
  exact (proj1 (Forall_forall _ _) V c B).
Qed.
Lemma tm_hexes case cs x : hex_denotes case cs x -> Forall tame cs.
Proof. induction 1 as [|c d cs x H _ IH]; constructor; eauto using tm_hex. Qed.
(** The separator of a mac_address or uuid validator, if there is one, is tame. *)
Definition tame_sep (sep : sep_option) : Prop :=
  match sep with SepMust c | SepAllow c => tame c | SepDisallow => True end.
Lemma tm_grouped sep sizes v digits : tame_sep sep -> grouped sep sizes v digits -> Forall tame digits ->
  Forall tame v.
Proof.
  intros S. induction 1 as [|g s sizes v digits F _ IH]; intros V; [exact V|].
  apply Forall_app in V as [V1 V2]. apply tm_app; [exact V1|]. apply tm_app; [|auto].
  destruct sep; cbn in S, F; [subst s|destruct F as [-> | ->]|subst s]; repeat (constructor; [exact S|]); constructor.
Qed.
Lemma tm_hex_char up d : d < 16 -> tame (hex_char up d).
Proof. intros H. apply tame_range. unfold hex_char. destruct (N.ltb_spec d 10), up; lia. Qed.
Lemma tm_hex_loop up fuel : forall x, Forall tame (hex_loop fuel up x).
Proof.
  induction fuel as [|fuel IH]; intros x; cbn [hex_loop]; [constructor|].
  assert (tame (hex_char up (x mod 16))) by (apply tm_hex_char, N.mod_lt; discriminate).
  destruct (x / 16 =? 0); [constructor; [assumption|constructor]|]. apply tm_app; [apply IH|constructor; [assumption|constructor]].
Qed.
Lemma tm_hex_fmt w up x : Forall tame (hex_fmt w up x).
Proof.
  apply tm_app; [|apply tm_hex_loop]. induction (w - List.length (hex_loop 32 up x))%nat; constructor; [|assumption].
  tm.
Qed.

(** C115: integers, numbers, boolean words, base32, base64 and what they decode, addresses of the link layer and uuids
    are accepted only as tame characters; for the last two the separator has to be one. *)
Theorem C115_tame : forall s,
  (forall sg pw t r v, int_parse_str sg pw t r s = Ok v -> Forall tame s) /\
  (forall t r nan v, num_parse_str (float_of_text t) r nan s = Ok v -> Forall tame s) /\
  (forall b, bool_parse_str s = Ok b -> Forall tame s) /\
  (forall f p v, base_parse_str f p s = Ok v -> Forall tame s) /\
  (forall f p v, dec_parse_str f p s = Ok v -> Forall tame s) /\
  (forall case sep x, tame_sep sep -> mac_parse_str case sep s = Ok x -> Forall tame s) /\
  (forall case sep x, tame_sep sep -> uuid_parse_str case sep s = Ok x -> Forall tame s).
Proof.
  intros s. repeat apply conj.
  - intros sg pw t r v H. unfold int_parse_str, v_parse_str in H.
    destruct (int_from_str _ _ s) eqn:E; try discriminate.
    apply int_from_str_spec in E as [E _]; [eapply tm_int; exact E|].
    apply IntProofs.min_max.
  - intros t r nan v H. unfold num_parse_str, num_v_parse_str in H.
    destruct (float_of_text t s) eqn:E; [|discriminate]. eapply tm_float; exact E.
  - intros b H. apply C16_boolean_words in H as (w & W & S). apply (tm_same _ _ S).
    assert (Forall (fun p => Forall tame (fst p)) bool_words) as K.
    { repeat (constructor; [apply tame_text; reflexivity|]). constructor. }
    exact (proj1 (Forall_forall _ _) K _ W).
  - intros f p v H. assert (base_shape f p s) as B by (apply C19_base_language; eexists; exact H).
    apply base_shape_bytes in B. eapply Forall_impl; [|exact B].
    intros c [C| ->]; [eapply tm_alphabet; exact C|tm].
  - intros f p v H. apply C22_decoded_exact in H as (_ & [(_ & _ & -> & _)|(_ & _ & ds & _ & -> & _)]).
    + apply tm_encode.
    + clear. induction ds as [|d ds IH]; cbn [List.map List.concat]; [constructor|]. apply tm_app; [|exact IH].
      apply tm_app; [apply tm_encode|apply tm_eq].
  - intros case sep x S H. apply C25_mac_accepts_only in H as (ds & G & D). exact (tm_grouped _ _ _ _ S G (tm_hexes _ _ _ D)).
  - intros case sep x S H. apply C28_uuid_accepts_only in H as (ds & G & D). exact (tm_grouped _ _ _ _ S G (tm_hexes _ _ _ D)).
Qed.

(** ** Addresses *)
Lemma tm_v4 s a : v4_text s a -> Forall tame s.
Proof. intros H. apply v4_chars in H. eapply Forall_impl; [|exact H]. intros c Hc. unfold v4_char in Hc. tm. Qed.
Lemma tm_v6 s a : v6_text s a -> Forall tame s.
Proof. intros H. apply v6_chars in H. eapply Forall_impl; [|exact H]. intros c Hc. unfold v6_char in Hc. tm. Qed.
Lemma tm_port q p : port_text q p -> Forall tame q.
Proof. intros [H _]. eapply tm_int; exact H. Qed.
Ltac tm_tac := repeat first [apply tm_app | constructor; [tm|] | constructor; fail | eapply tm_v4; eassumption
  | eapply tm_v6; eassumption | eapply tm_port; eassumption].
Lemma tm_v4_form s a p : v4_form s a p -> Forall tame s.
Proof. destruct p as [p|]; [intros (t & q & -> & A & B)|intros A]; tm_tac. Qed.
Lemma tm_v6_form s a p : v6_form s a p -> Forall tame s.
Proof. destruct p as [p|]; [intros (t & q & -> & A & B)|intros [A|(t & -> & A)]]; cbn [app]; tm_tac. Qed.

(** C115: an ip address, and what its value prints. *)
Theorem C115_ip : forall port local s, valid_str s ->
  (forall v, ip_parse_str port local s = Ok v -> Forall tame s /\ Forall tame (ip_authority v)) /\
  (forall v, ipv4_parse_str port local s = Ok v -> Forall tame s /\ Forall tame (ipv4_authority v)) /\
  (forall v, ipv6_parse_str port local s = Ok v -> Forall tame s /\ Forall tame (ipv6_authority v)).
Proof.
  assert (forall s a p, v4_form s a p -> Forall tame s /\ Forall tame (ipv4_authority (a, p))) as K4.
  { intros s a p H. destruct (v4_form_addr _ _ _ H) as [A B].
    split; eapply tm_v4_form; [exact H|apply ipv4_authority_form; assumption]. }
  assert (forall s a p, v6_form s a p -> Forall tame s /\ Forall tame (ipv6_authority (a, p))) as K6.
  { intros s a p H. destruct (v6_form_addr _ _ _ H) as [A B].
    split; eapply tm_v6_form; [exact H|apply ipv6_authority_form; assumption]. }
  intros port local s V. repeat split; destruct v as [x p].
  1-2: destruct x as [a|a]; apply C31_ip_accepts_exactly in H as [F _]; [|assumption| |assumption]; first [apply K4 in F|apply K6 in F]; apply F.
  1-2: apply C31_ipv4_accepts_exactly in H as [F _]; [|assumption]; apply K4 in F; apply F.
  1-2: apply C31_ipv6_accepts_exactly in H as [F _]; [|assumption]; apply K6 in F; apply F.
Qed.

(** ** Names *)

(** A law of [to_ascii] with STD3 rules (UTS #46, section 4.1, validity criterion on ASCII characters): the
    ASCII characters that it takes are letters, digits, hyphens and dots. *)
Definition idna_ldh (idna : list N -> option (list N)) : Prop := forall s d, idna s = Some d ->
  Forall (fun c => 65 <= c <= 90 \/ 97 <= c <= 122 \/ 48 <= c <= 57 \/ c = 45 \/ c = 46 \/ 128 <= c) s.
(** Tame, or a byte of a character outside ASCII. *)
Definition tame_or_more (c : N) : Prop := tame c \/ 128 <= c.

Lemma tame_more s : Forall tame s -> Forall tame_or_more s.
Proof. apply Forall_impl. unfold tame_or_more. auto. Qed.
Lemma idna_more idna s d : idna_ldh idna -> idna s = Some d -> Forall tame_or_more s.
Proof.
  intros L H. eapply Forall_impl; [|exact (L _ _ H)]. cbn. intros c C. unfold tame_or_more.
  destruct (N.leb_spec 128 c); [now right|left; tm].
Qed.
Lemma idna_tm idna s d : idna_laws idna -> idna s = Some d -> Forall tame d.
Proof.
  intros L H. destruct (L _ _ H) as [F _]. eapply Forall_impl; [|exact F]. unfold idna_char. intros c C. tm.
Qed.
Lemma split_more s name p : split_port s name p -> Forall tame_or_more name -> Forall tame_or_more s.
Proof.
  destruct p as [p|]; [intros (q & -> & P)|intros [-> _]]; intros H; [|exact H].
  apply Forall_app. split; [exact H|]. apply tame_more. tm_tac.
Qed.
Lemma v4_dotted_tm s a : v4_dotted s a -> Forall tame s.
Proof. intros (t & [-> | ->] & T); tm_tac. Qed.
Lemma split_tm s name p : split_port s name p -> Forall tame name -> Forall tame s.
Proof. destruct p as [p|]; [intros (q & -> & P)|intros [-> _]]; intros H; [|exact H]. tm_tac. exact H. Qed.

(** C115: a domain or a host is accepted only if its ASCII characters are tame, and what its value prints is
    tame altogether. *)
Theorem C115_names : forall idna s, idna_ldh idna -> idna_laws idna -> valid_str s ->
  (forall c v, domain_parse_str idna c s = Ok v -> Forall tame_or_more s /\
     forall t, @domain_authority domain_err v = Ok t -> Forall tame t) /\
  (forall c v, host_parse_str idna c s = Ok v -> Forall tame_or_more s /\ Forall tame (host_authority v)).
Proof.
  intros idna s L I V. split.
  - intros c v H. apply C36_domain_accepts_exactly in H; [|exact V].
    destruct H as (_ & name & P & _ & B).
    assert (Forall tame_or_more s /\ Forall tame (dv_domain v)) as [S D].
    { destruct B as [(_ & B & _)|[(_ & a & B & _ & _ & _ & E & _)|(_ & _ & _ & B & _)]].
      - split; [exact (split_more _ _ _ P (idna_more _ _ _ L B))|exact (idna_tm _ _ _ I B)].
      - pose proof (split_tm _ _ _ P (v4_dotted_tm _ _ B)) as W. split; [now apply tame_more|now rewrite E].
      - split; [exact (split_more _ _ _ P (idna_more _ _ _ L B))|exact (idna_tm _ _ _ I B)]. }
    split; [exact S|]. intros t T. unfold domain_authority, get_domain_non_fully_qualified in T.
    destruct (is_fully_qualified (dv_domain v)).
    + unfold str_slice in T. destruct (_ && _)%bool; [|discriminate]. cbn [obind] in T.
      assert (Forall tame (firstn (List.length (dv_domain v) - 1 - 0) (skipn 0 (dv_domain v)))) as F.
      { change (skipn 0 (dv_domain v)) with (dv_domain v).
        apply Forall_forall. intros x X. apply (proj1 (Forall_forall _ _) D).
        rewrite <- (firstn_skipn (List.length (dv_domain v) - 1 - 0) (dv_domain v)). apply in_or_app. now left. }
      destruct (dv_port v); injection T as <-; [|exact F]. apply tm_app; [exact F|]. cbn [app]. constructor; [tm|apply tm_dec].
    + cbn [obind] in T. destruct (dv_port v); injection T as <-; [|exact D]. apply tm_app; [exact D|].
      cbn [app]. constructor; [tm|apply tm_dec].
  - intros c v H. apply C39_host_accepts_exactly in H; [|exact V]. unfold host_authority.
    destruct H as [(a & E & F & _)|[(a & E & F & _)|(name & d & E & _ & _ & _ & P & _ & _ & _ & B & _)]]; rewrite E.
    + split; [apply tame_more; eapply tm_v6_form; exact F|]. destruct (v6_form_addr _ _ _ F) as [A Q].
      eapply tm_v6_form. apply ipv6_authority_form; assumption.
    + split; [apply tame_more; eapply tm_v4_form; exact F|]. destruct (v4_form_addr _ _ _ F) as [A Q].
      eapply tm_v4_form. apply ipv4_authority_form; assumption.
    + split; [exact (split_more _ _ _ P (idna_more _ _ _ L B))|]. pose proof (idna_tm _ _ _ I B) as D.
      destruct (hv_port v); [|exact D]. apply tm_app; [exact D|].
      cbn [app]. constructor; [tm|apply tm_dec].
Qed.

(** C115: a link layer address or a uuid prints tame characters (the separator too is printed as a number, C27). *)
Theorem C115_hex_printed : forall case sep x,
  Forall tame (to_mac_address_string case sep x) /\ Forall tame (to_uuid_string case sep x).
Proof.
  intros case sep x. unfold to_mac_address_string, to_uuid_string.
  destruct (sep_allow sep) as [c|]; split; cbv zeta;
    repeat first [apply tm_hex_fmt | apply tm_dec | apply tm_app].
Qed.

(** ** Email addresses *)

(** Not a character with which one mailbox of a mail header ends and another starts (RFC 5322): no space or control
    character, and none of the double quote and [( ) , ; < > \]. *)
Definition one_mailbox (c : N) : Prop := 32 < c /\ c <> 127 /\ ~ In c ([34] ++ bs "(),;<>\").

Lemma one_mailbox_range c : one_mailbox c <->
  32 < c /\ c <> 127 /\ c <> 34 /\ c <> 40 /\ c <> 41 /\ c <> 44 /\ c <> 59 /\ c <> 60 /\ c <> 62 /\ c <> 92.
Proof. unfold one_mailbox. change ([34] ++ bs "(),;<>\") with [34; 40; 41; 44; 59; 60; 62; 92]. cbn [In]. intuition. Qed.
Lemma tame_mailbox c : tame_or_more c -> one_mailbox c.
Proof. rewrite one_mailbox_range. intros [H|H]; [apply tame_range in H|]; lia. Qed.
Lemma more_mailbox s : Forall tame_or_more s -> Forall one_mailbox s.
Proof. apply Forall_impl. exact tame_mailbox. Qed.
Lemma atext_mailbox e : is_atext e -> one_mailbox e.
Proof.
  rewrite one_mailbox_range. unfold is_atext. intros [H|[H|[H|H]]]; try lia.
  vm_compute in H. repeat (destruct H as [<- |H]; [lia|]). destruct H.
Qed.
Lemma local_char_mailbox na e : local_char na e -> one_mailbox e.
Proof. intros [H|[-> |[_ H]]]; [now apply atext_mailbox| |]; apply one_mailbox_range; lia. Qed.
Lemma host_more idna c dt h canon : idna_ldh idna -> host_text idna c dt h canon -> Forall tame_or_more dt.
Proof.
  intros L H. destruct h as [d|a|a]; cbn [host_text] in H.
  - eapply idna_more; [exact L|apply H].
  - destruct H as (_ & _ & t & -> & T & _). apply tame_more. tm_tac.
  - destruct H as (_ & _ & t & -> & T & _). apply tame_more. apply tm_app; [apply tame_text; reflexivity|]. tm_tac.
Qed.
Lemma host_printed_tm idna c dt h canon : idna_laws idna -> host_text idna c dt h canon -> Forall tame (e_host_text h).
Proof.
  intros L H. destruct h as [d|a|a]; cbn [host_text e_host_text] in *.
  - eapply idna_tm; [exact L|apply H].
  - destruct H as (_ & _ & t & -> & T & _). pose proof (ipv4_display_text a (v4_text_addr _ _ T)). tm_tac.
  - destruct H as (_ & _ & t & -> & T & _). pose proof (ipv6_display_text a (v6_text_addr _ _ T)).
    apply tm_app; [apply tame_text; reflexivity|]. tm_tac.
Qed.

(** C115: with comments disallowed, what follows the '@' is as tame as a host, also when printed; and an address
    that has no quote in it is one mailbox, also in front of the '@'. *)
Theorem C115_email_partial : forall idna prof c s v, idna_ldh idna -> idna_laws idna -> valid_str s ->
  email_parse_str idna prof c s = Ok v -> e_comment c = false ->
  (exists lt dt, s = lt ++ [64] ++ dt /\ Forall tame_or_more dt /\
     (lt = ev_local v \/ lt = [34] ++ ev_local v ++ [34])) /\
  (exists dt, to_email_string c v = ev_local v ++ [64] ++ dt /\ Forall tame dt) /\
  (~ In 34 s -> Forall one_mailbox s /\ Forall one_mailbox (to_email_string c v)).
Proof.
  intros idna prof c s v L I V H C.
  destruct (C47_email_policies _ _ _ _ _ V H) as (_ & _ & _ & N4 & _). destruct (N4 C) as (C1 & C2 & C3 & C4). clear N4.
  apply C44_email_accepts_exactly in H; [|exact V].
  destruct H as (lt & q & dt & tail & canon & E & _ & HL & _ & _ & _ & HT & _ & HH & _).
  pose proof (host_more _ _ _ _ _ L HH) as S3. pose proof (host_printed_tm _ _ _ _ _ I HH) as S4.
  rewrite C4 in HT. cbn [tail_ok] in HT. subst tail. rewrite C1, C2, C3 in E. cbn [ctext] in E. rewrite app_nil_r in E.
  cbn [app] in E. change (64 :: dt) with ([64] ++ dt) in E.
  assert (to_email_string c v = ev_local v ++ [64] ++ e_host_text (ev_domain v)) as P.
  { unfold to_email_string. rewrite C. reflexivity. }
  split; [|split].
  - exists lt, dt. split; [exact E|]. split; [exact S3|]. destruct HL as [(_ & -> & _)|(_ & -> & _)]; auto.
  - eexists. split; [exact P|exact S4].
  - intros Q. destruct HL as [(_ & -> & (_ & _ & F & _) & _)|(_ & -> & _)].
    2:{ destruct Q. rewrite E. apply in_or_app. left. left. reflexivity. }
    assert (Forall one_mailbox (ev_local v)) as S1.
    { eapply Forall_impl; [|exact F]. intros e. apply local_char_mailbox. }
    assert (Forall one_mailbox [64]) as A by (constructor; [apply one_mailbox_range; lia|constructor]).
    rewrite P, E. split; repeat (apply Forall_app; split); try assumption; [now apply more_mailbox|].
    apply more_mailbox. now apply tame_more.
Qed.

Lemma idna_ascii_ldh : idna_ldh idna_ascii.
Proof.
  intros x d H. destruct (idna_ascii_laws _ _ H) as [F _]. apply idna_ascii_frag in H as [H A]. unfold idna_frag in H.
  destruct (map_dots x) as [e|] eqn:E; [|discriminate H]. destruct (ok_name (strip_last 46 e)); [|discriminate H].
  injection H as ->. apply (map_ascii _ _ A) in E. subst d. rewrite Forall_map in F.
  eapply Forall_impl; [|exact F]. cbn. intros c. unfold lower, idna_char.
  destruct ((65 <=? c) && (c <=? 90))%bool eqn:E; lia.
Qed.

(** C115, refuted for email addresses, already without quotes, comments and characters outside ASCII: a local part may
    end a string in a query, or run a command. *)
Theorem C115_email_refuted : exists idna c s t, idna_ldh idna /\ idna_laws idna /\ valid_str s /\ valid_str t /\
  e_comment c = false /\ e_non_ascii c = false /\
  s = bs "'or'1'='1@d.org" /\ (exists v, email_parse_str idna Debug c s = Ok v /\ to_email_string c v = s) /\
  t = bs "`id`|{a&b}$HOME#@d.org" /\ (exists v, email_parse_str idna Debug c t = Ok v /\ to_email_string c v = t).
Proof.
  exists idna_ascii, (ecfg false Disallow Disallow Must false), (bs "'or'1'='1@d.org"), (bs "`id`|{a&b}$HOME#@d.org").
  split; [exact idna_ascii_ldh|]. split; [exact idna_ascii_laws|]. split; [ascii_str|]. split; [ascii_str|].
  split; [reflexivity|]. split; [reflexivity|]. split; [reflexivity|].
  split; [eexists; split; [vm_compute; reflexivity|vm_compute; reflexivity]|]. split; [reflexivity|]. eexists; split; [vm_compute; reflexivity|vm_compute; reflexivity].
Qed.

(** C115, refuted for what a quoted address prints: with comments disallowed the quotes are left out, so the text is not
    one mailbox any more, and may be markup. *)
Theorem C115_email_printed_refuted : exists idna c s t v w, idna_ldh idna /\ idna_laws idna /\ valid_str s /\ valid_str t /\
  e_comment c = false /\ e_non_ascii c = false /\
  email_parse_str idna Debug c s = Ok v /\ to_email_string c v = bs "x\,y\@z.org@d.org" /\
  email_parse_str idna Debug c t = Ok w /\ to_email_string c w = bs "\<script\>alert\(1\)\</script\>@d.org".
Proof.
  exists idna_ascii, (ecfg false Disallow Disallow Must false), ([34] ++ bs "x\,y\@z.org" ++ [34] ++ bs "@d.org"),
    ([34] ++ bs "\<script\>alert\(1\)\</script\>" ++ [34] ++ bs "@d.org"). do 2 eexists.
  split; [exact idna_ascii_ldh|]. split; [exact idna_ascii_laws|]. split; [ascii_str|]. split; [ascii_str|].
  split; [reflexivity|]. split; [reflexivity|].
  split; [vm_compute; reflexivity|]. split; [vm_compute; reflexivity|]. split; [vm_compute; reflexivity|vm_compute; reflexivity].
Qed.

Example C115_example : exists v w,
  idna_ldh idna_ascii /\ idna_laws idna_ascii /\
  host_parse_str idna_ascii (hcfg Allow Allow Must) (bs "Magiclen.org:80") = Ok v /\ host_authority v = bs "magiclen.org:80" /\
  host_parse_str idna_ascii (hcfg Allow Allow Must) (bs "a'b.org") = Err HoInvalid /\
  email_parse_str idna_ascii Debug (ecfg false Disallow Disallow Must false) (bs "o'neill@D.org") = Ok w /\
  to_email_string (ecfg false Disallow Disallow Must false) w = bs "o'neill@d.org" /\ ~ In 34 (bs "o'neill@D.org") /\
  email_parse_str idna_ascii Debug (ecfg false Disallow Disallow Must false) (bs "a,b@D.org") = Err EInvalid /\
  num_parse_str (float_of_text F64) Unlimited Disallow (bs "1e5;") = Err NParseFloat /\
  tame_sep (SepMust 58) /\ mac_parse_str AnyCase (SepMust 58) (bs "08:00:27:b4:6A:2b") = Ok 8796759157291 /\
  mac_parse_str AnyCase (SepMust 39) (bs "08'00'27'b4'6A'2b") = Ok 8796759157291.
Proof.
  do 2 eexists. split; [exact idna_ascii_ldh|]. split; [exact idna_ascii_laws|].
  split; [vm_compute; reflexivity|]. split; [vm_compute; reflexivity|]. split; [vm_compute; reflexivity|].
  split; [vm_compute; reflexivity|]. split; [vm_compute; reflexivity|].
  split; [vm_compute; intros H; repeat (destruct H as [H|H]; [discriminate H|]); exact H|].
  split; [vm_compute; reflexivity|]. split; [vm_compute; reflexivity|].
  split; [cbn; tm|]. split; [vm_compute; reflexivity|vm_compute; reflexivity].
Qed.

Print Assumptions tame_not_wild.
Print Assumptions C115_tame.
Print Assumptions C115_ip.
Print Assumptions C115_names.
Print Assumptions C115_hex_printed.
Print Assumptions C115_email_partial.
Print Assumptions C115_email_refuted.
Print Assumptions C115_email_printed_refuted.
