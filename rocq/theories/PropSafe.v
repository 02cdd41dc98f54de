(** C101: an accepted text, and the text that the value prints, stays on one line: there is no line break or other
    ASCII control character in it. *)
From Coq Require Import SpecFloat.
From Verif Require Import Base Utf8 IntStr IntStrProofs IntModel MacModel MacSpec BaseModel BaseSpec CodecModel CodecSpec
  RangeModel IntSpec NumberModel FloatModel BooleanModel BooleanProofs NetModel NetSpec NetProofs IpModel IpSpec IpProofs
  DomainModel DomainSpec HostModel HostSpec EmailModel EmailSpec.
From Verif Require Import BaseProofs CodecProofs PropInt PropMac PropBoolean PropBase PropIp PropDomain PropHost PropEmail IdnaFrag StrFacts.
Local Open Scope N_scope.

(** A printable ASCII character other than the space. *)
Definition visible (c : N) : Prop := 33 <= c <= 126.
(** Not an ASCII control character, the tab excepted. *)
Definition line_safe (c : N) : Prop := (32 <= c \/ c = 9) /\ c <> 127.

Lemma visible_safe s : Forall visible s -> Forall line_safe s.
Proof. apply Forall_impl. unfold visible, line_safe. lia. Qed.

Lemma vis_app a b : Forall visible a -> Forall visible b -> Forall visible (a ++ b).
Proof. intros A B. now apply Forall_app. Qed.
Lemma safe_app a b : Forall line_safe a -> Forall line_safe b -> Forall line_safe (a ++ b).
Proof. intros A B. now apply Forall_app. Qed.

(** ** Numbers *)
Lemma vis_digits ds v : denotes_digits ds v -> Forall visible ds.
Proof.
  induction 1 as [c H|ds v c _ IH H]; unfold is_digit in H.
  - constructor; [unfold visible; lia|constructor].
  - apply vis_app; [exact IH|]. constructor; [unfold visible; lia|constructor].
Qed.
Lemma vis_int sg s v : denotes_int sg s v -> Forall visible s.
Proof.
  intros H. inversion H; subst.
  - eapply vis_digits; eassumption.
  - constructor; [unfold visible; lia|]. eapply vis_digits; eassumption.
  - constructor; [unfold visible; lia|]. eapply vis_digits; eassumption.
Qed.
Lemma vis_dec n : Forall visible (dec_of_N n).
Proof. exact (vis_digits _ _ (dec_of_N_denotes n)). Qed.

Lemma vis_span s : forall d q, span_digits s = (d, q) -> s = d ++ q /\ Forall visible d.
Proof.
  induction s as [|c r IH]; intros d q H; cbn [span_digits] in H.
  - injection H as <- <-. split; [reflexivity|constructor].
  - destruct (fdigit c) eqn:F.
    + destruct (span_digits r) as [d' q'] eqn:E. injection H as <- <-. destruct (IH _ _ eq_refl) as [-> V].
      split; [reflexivity|]. constructor; [|exact V]. unfold fdigit in F. unfold visible. lia.
    + injection H as <- <-. split; [reflexivity|constructor].
Qed.
Lemma vis_sign s : exists g, s = g ++ snd (take_sign s) /\ Forall visible g.
Proof.
  destruct s as [|c r]; [exists []; split; [reflexivity|constructor]|]. unfold take_sign.
  destruct (N.eqb_spec c 45) as [->|]; [|destruct (N.eqb_spec c 43) as [->|]].
  - exists [45]. split; [reflexivity|]. constructor; [unfold visible; lia|constructor].
  - exists [43]. split; [reflexivity|]. constructor; [unfold visible; lia|constructor].
  - exists []. split; [reflexivity|constructor].
Qed.
Lemma vis_exponent s x : read_exponent s = Some x -> Forall visible s.
Proof.
  destruct s as [|c r]; [constructor|]. unfold read_exponent.
  destruct ((c =? 101) || (c =? 69))%N%bool eqn:C; [|discriminate].
  destruct (vis_sign r) as (g & E & G). destruct (take_sign r) as [neg r1]. cbn [snd] in E.
  destruct (span_digits r1) as [[|d ds] q] eqn:S; [discriminate|]. destruct q; [|discriminate]. intros _.
  destruct (vis_span _ _ _ S) as [-> V]. constructor; [unfold visible; lia|]. rewrite E, app_nil_r.
  apply vis_app; assumption.
Qed.
Lemma vis_decimal s p : read_decimal s = Some p -> Forall visible s.
Proof.
  unfold read_decimal. destruct (span_digits s) as [ints r1] eqn:S1. destruct (vis_span _ _ _ S1) as [-> V1].
  assert (forall fracs r2, match r1 with c :: r => if (c =? 46)%N then span_digits r else ([], r1) | [] => ([], []) end
            = (fracs, r2) -> Forall visible r2 -> Forall visible r1) as K.
  { intros fracs r2 H R. destruct r1 as [|c r]; [constructor|]. destruct (N.eqb_spec c 46) as [->|].
    - destruct (vis_span _ _ _ H) as [-> V]. constructor; [unfold visible; lia|]. apply vis_app; assumption.
    - injection H as <- <-. exact R. }
  destruct (match r1 with [] => _ | c :: r => _ end) as [fracs r2] eqn:E.
  destruct (ints ++ fracs); [discriminate|]. destruct (read_exponent r2) eqn:X; [|discriminate]. intros _.
  apply vis_app; [exact V1|]. eapply K; [reflexivity|]. eapply vis_exponent; eassumption.
Qed.

Lemma vis_lower s : Forall visible (List.map lower s) -> Forall visible s.
Proof.
  induction s as [|c s IH]; intros H; [constructor|]. inversion H as [|x l A B]; subst. constructor; [|auto].
  unfold lower, visible in *. destruct ((65 <=? c) && (c <=? 90))%N%bool eqn:E; lia.
Qed.
Ltac vis_all := repeat (constructor; [unfold visible; lia|]); constructor.
Lemma vis_word s w : eq_ignore_case s w = true -> Forall visible (List.map lower w) -> Forall visible s.
Proof. intros H V. apply vis_lower. apply DomainProofs.eq_ignore_case_map in H. now rewrite H. Qed.
Lemma vis_float t s f : float_of_text t s = Some f -> Forall visible s.
Proof.
  unfold float_of_text. destruct (vis_sign s) as (g & E & G). destruct (take_sign s) as [sg r]. cbn [snd] in E. subst s.
  intros H. apply vis_app; [exact G|]. destruct (read_decimal r) as [p|] eqn:D; [eapply vis_decimal; eassumption|].
  destruct (eq_ignore_case r (bs "inf")) eqn:W1; [eapply vis_word; [exact W1|]|].
  { vm_compute List.map. vis_all. }
  destruct (eq_ignore_case r (bs "infinity")) eqn:W2; [eapply vis_word; [exact W2|]|].
  { vm_compute List.map. vis_all. }
  cbn [orb] in H. destruct (eq_ignore_case r (bs "nan")) eqn:W3; [eapply vis_word; [exact W3|]|discriminate].
  vm_compute List.map. vis_all.
Qed.

(** ** Words and encodings *)
Lemma vis_same s w : same_but_case s w -> Forall visible w -> Forall visible s.
Proof.
  induction 1 as [|x y s w H _ IH]; intros V; [constructor|]. inversion V as [|? ? A B]; subst. constructor; [|auto].
  unfold visible in *. lia.
Qed.
Lemma vis_alphabet f c : In c (alphabet f) -> visible c.
Proof.
  revert c. apply Forall_forall. destruct f; vm_compute; repeat (constructor; [split; discriminate|]); constructor.
Qed.
Lemma vis_eq k : Forall visible (repeat 61 k).
Proof. induction k; constructor; [unfold visible; lia|assumption]. Qed.
Lemma vis_encode f d : Forall visible (encode f d).
Proof.
  assert (Forall (fun c => In c (alphabet f)) (encode f d)) as H by (apply Forall_alphabet, alphabet_encode).
  eapply Forall_impl; [|exact H]. intros c. apply vis_alphabet.
Qed.
Lemma vis_hex case c d : is_hex case c d -> visible c.
Proof.
  intros (a & A & B). apply nth_error_In in B.
  assert (Forall visible a) as V.
  { destruct case; cbn [hex_alphabets In] in A.
    - destruct A as [<- |[<- |[]]]; vm_compute; repeat (constructor; [split; discriminate|]); constructor.
    - destruct A as [<- |[]]; vm_compute; repeat (constructor; [split; discriminate|]); constructor.
    - destruct A as [<- |[]]; vm_compute; repeat (constructor; [split; discriminate|]); constructor. }
  exact (proj1 (Forall_forall _ _) V c B).
Qed.
Lemma vis_hexes case cs x : hex_denotes case cs x -> Forall visible cs.
Proof. induction 1 as [|c d cs x H _ IH]; constructor; eauto using vis_hex. Qed.
(** The separator of a mac_address or uuid validator, if there is one, is visible. *)
Definition visible_sep (sep : sep_option) : Prop :=
  match sep with SepMust c | SepAllow c => visible c | SepDisallow => True end.
Lemma vis_grouped sep sizes v digits : visible_sep sep -> grouped sep sizes v digits -> Forall visible digits ->
  Forall visible v.
Proof.
  intros S. induction 1 as [|g s sizes v digits F _ IH]; intros V; [exact V|].
  apply Forall_app in V as [V1 V2]. apply vis_app; [exact V1|]. apply vis_app; [|auto].
  destruct sep; cbn in S, F; [subst s|destruct F as [-> | ->]|subst s]; repeat (constructor; [exact S|]); constructor.
Qed.
Lemma vis_hex_char up d : d < 16 -> visible (hex_char up d).
Proof. intros H. unfold hex_char, visible. destruct (N.ltb_spec d 10), up; lia. Qed.
Lemma vis_hex_loop up fuel : forall x, Forall visible (hex_loop fuel up x).
Proof.
  induction fuel as [|fuel IH]; intros x; cbn [hex_loop]; [constructor|].
  assert (visible (hex_char up (x mod 16))) by (apply vis_hex_char, N.mod_lt; discriminate).
  destruct (x / 16 =? 0); [constructor; [assumption|constructor]|]. apply vis_app; [apply IH|constructor; [assumption|constructor]].
Qed.
Lemma vis_hex_fmt w up x : Forall visible (hex_fmt w up x).
Proof.
  apply vis_app; [|apply vis_hex_loop]. induction (w - List.length (hex_loop 32 up x))%nat; constructor; [|assumption].
  unfold visible. lia.
Qed.

(** C101: integers, numbers, boolean words, base32, base64 and what they decode, addresses of the link layer and uuids
    are accepted only as printable characters with no space among them; for the last two the separator has to
    be such a character. *)
Theorem C101_visible : forall s,
  (forall sg pw t r v, int_parse_str sg pw t r s = Ok v -> Forall visible s) /\
  (forall t r nan v, num_parse_str (float_of_text t) r nan s = Ok v -> Forall visible s) /\
  (forall b, bool_parse_str s = Ok b -> Forall visible s) /\
  (forall f p v, base_parse_str f p s = Ok v -> Forall visible s) /\
  (forall f p v, dec_parse_str f p s = Ok v -> Forall visible s) /\
  (forall case sep x, visible_sep sep -> mac_parse_str case sep s = Ok x -> Forall visible s) /\
  (forall case sep x, visible_sep sep -> uuid_parse_str case sep s = Ok x -> Forall visible s).
Proof.
  intros s. repeat apply conj.
  - intros sg pw t r v H. unfold int_parse_str, v_parse_str in H.
    destruct (int_from_str _ _ s) eqn:E; try discriminate.
    apply int_from_str_spec in E as [E _]; [eapply vis_int; exact E|].
    apply IntProofs.min_max.
  - intros t r nan v H. unfold num_parse_str, num_v_parse_str in H.
    destruct (float_of_text t s) eqn:E; [|discriminate]. eapply vis_float; exact E.
  - intros b H. apply C16_boolean_words in H as (w & W & S). apply (vis_same _ _ S).
    assert (Forall (fun p => Forall visible (fst p)) bool_words) as K.
    { vm_compute. repeat (constructor; [repeat (constructor; [split; discriminate|]); constructor|]). constructor. }
    exact (proj1 (Forall_forall _ _) K _ W).
  - intros f p v H. assert (base_shape f p s) as B by (apply C19_base_language; eexists; exact H).
    apply base_shape_bytes in B. eapply Forall_impl; [|exact B].
    intros c [C| ->]; [eapply vis_alphabet; exact C|unfold visible; lia].
  - intros f p v H. apply C22_decoded_exact in H as (_ & [(_ & _ & -> & _)|(_ & _ & ds & _ & -> & _)]).
    + apply vis_encode.
    + clear. induction ds as [|d ds IH]; cbn [List.map List.concat]; [constructor|]. apply vis_app; [|exact IH].
      apply vis_app; [apply vis_encode|apply vis_eq].
  - intros case sep x S H. apply C25_mac_accepts_only in H as (ds & G & D). exact (vis_grouped _ _ _ _ S G (vis_hexes _ _ _ D)).
  - intros case sep x S H. apply C28_uuid_accepts_only in H as (ds & G & D). exact (vis_grouped _ _ _ _ S G (vis_hexes _ _ _ D)).
Qed.

(** ** Addresses *)
Lemma vis_v4 s a : v4_text s a -> Forall visible s.
Proof. intros H. apply v4_chars in H. eapply Forall_impl; [|exact H]. intros c Hc. unfold v4_char in Hc. unfold visible. lia. Qed.
Lemma vis_v6 s a : v6_text s a -> Forall visible s.
Proof. intros H. apply v6_chars in H. eapply Forall_impl; [|exact H]. intros c Hc. unfold v6_char in Hc. unfold visible. lia. Qed.
Lemma vis_port q p : port_text q p -> Forall visible q.
Proof. intros [H _]. eapply vis_int; exact H. Qed.
Ltac vis_tac := repeat first [apply vis_app | constructor; [unfold visible; lia|] | constructor; fail | eapply vis_v4; eassumption
  | eapply vis_v6; eassumption | eapply vis_port; eassumption].
Lemma vis_v4_form s a p : v4_form s a p -> Forall visible s.
Proof. destruct p as [p|]; [intros (t & q & -> & A & B)|intros A]; vis_tac. Qed.
Lemma vis_v6_form s a p : v6_form s a p -> Forall visible s.
Proof. destruct p as [p|]; [intros (t & q & -> & A & B)|intros [A|(t & -> & A)]]; cbn [app]; vis_tac. Qed.

(** C101: an ip address, and what its value prints. *)
Theorem C101_ip : forall port local s, valid_str s ->
  (forall v, ip_parse_str port local s = Ok v -> Forall visible s /\ Forall visible (ip_authority v)) /\
  (forall v, ipv4_parse_str port local s = Ok v -> Forall visible s /\ Forall visible (ipv4_authority v)) /\
  (forall v, ipv6_parse_str port local s = Ok v -> Forall visible s /\ Forall visible (ipv6_authority v)).
Proof.
  assert (forall s a p, v4_form s a p -> Forall visible s /\ Forall visible (ipv4_authority (a, p))) as K4.
  { intros s a p H. destruct (v4_form_addr _ _ _ H) as [A B].
    split; eapply vis_v4_form; [exact H|apply ipv4_authority_form; assumption]. }
  assert (forall s a p, v6_form s a p -> Forall visible s /\ Forall visible (ipv6_authority (a, p))) as K6.
  { intros s a p H. destruct (v6_form_addr _ _ _ H) as [A B].
    split; eapply vis_v6_form; [exact H|apply ipv6_authority_form; assumption]. }
  intros port local s V. repeat split; destruct v as [x p].
  1-2: destruct x as [a|a]; apply C31_ip_accepts_exactly in H as [F _]; [|assumption| |assumption]; first [apply K4 in F|apply K6 in F]; apply F.
  1-2: apply C31_ipv4_accepts_exactly in H as [F _]; [|assumption]; apply K4 in F; apply F.
  1-2: apply C31_ipv6_accepts_exactly in H as [F _]; [|assumption]; apply K6 in F; apply F.
Qed.

(** ** Names *)

(** A law of [to_ascii] with STD3 rules (UTS #46, section 4.1, validity criterion on ASCII characters): what it
    takes has no space and no control character in it. *)
Definition idna_one_line (idna : list N -> option (list N)) : Prop := forall s d, idna s = Some d ->
  Forall (fun c => 32 < c /\ c <> 127) s.

Lemma idna_safe idna s d : idna_one_line idna -> idna s = Some d -> Forall line_safe s.
Proof. intros L H. eapply Forall_impl; [|exact (L _ _ H)]. cbn. unfold line_safe. lia. Qed.
Lemma idna_vis idna s d : idna_laws idna -> idna s = Some d -> Forall visible d.
Proof.
  intros L H. destruct (L _ _ H) as [F _]. eapply Forall_impl; [|exact F]. unfold idna_char, visible. lia.
Qed.
Lemma split_safe s name p : split_port s name p -> Forall line_safe name -> Forall line_safe s.
Proof.
  destruct p as [p|]; [intros (q & -> & P)|intros [-> _]]; intros H; [|exact H].
  apply safe_app; [exact H|]. apply safe_app; [|apply visible_safe; eapply vis_port; exact P].
  constructor; [unfold line_safe; lia|constructor].
Qed.
Lemma v4_dotted_vis s a : v4_dotted s a -> Forall visible s.
Proof. intros (t & [-> | ->] & T); vis_tac. Qed.
Lemma split_vis s name p : split_port s name p -> Forall visible name -> Forall visible s.
Proof. destruct p as [p|]; [intros (q & -> & P)|intros [-> _]]; intros H; [|exact H]. vis_tac. exact H. Qed.

(** C101: a domain or a host is accepted only on one line, and what its value prints is made of printable
    characters. *)
Theorem C101_names : forall idna s, idna_one_line idna -> idna_laws idna -> valid_str s ->
  (forall c v, domain_parse_str idna c s = Ok v -> Forall line_safe s /\
     forall t, @domain_authority domain_err v = Ok t -> Forall visible t) /\
  (forall c v, host_parse_str idna c s = Ok v -> Forall line_safe s /\ Forall visible (host_authority v)).
Proof.
  intros idna s L I V. split.
  - intros c v H. apply C36_domain_accepts_exactly in H; [|exact V].
    destruct H as (_ & name & P & _ & B).
    assert (Forall line_safe s /\ Forall visible (dv_domain v)) as [S D].
    { destruct B as [(_ & B & _)|[(_ & a & B & _ & _ & _ & E & _)|(_ & _ & _ & B & _)]].
      - split; [exact (split_safe _ _ _ P (idna_safe _ _ _ L B))|exact (idna_vis _ _ _ I B)].
      - pose proof (split_vis _ _ _ P (v4_dotted_vis _ _ B)) as W. split; [now apply visible_safe|now rewrite E].
      - split; [exact (split_safe _ _ _ P (idna_safe _ _ _ L B))|exact (idna_vis _ _ _ I B)]. }
    split; [exact S|]. intros t T. unfold domain_authority, get_domain_non_fully_qualified in T.
    destruct (is_fully_qualified (dv_domain v)).
    + unfold str_slice in T. destruct (_ && _)%bool; [|discriminate]. cbn [obind] in T.
      assert (Forall visible (firstn (List.length (dv_domain v) - 1 - 0) (skipn 0 (dv_domain v)))) as F.
      { rewrite <- (firstn_skipn (List.length (dv_domain v) - 1 - 0) (skipn 0 (dv_domain v))) in D at 1.
        change (skipn 0 (dv_domain v)) with (dv_domain v) in *.
        rewrite (firstn_skipn (List.length (dv_domain v) - 1 - 0) (dv_domain v)) in D.
        apply Forall_forall. intros x X. apply (proj1 (Forall_forall _ _) D).
        rewrite <- (firstn_skipn (List.length (dv_domain v) - 1 - 0) (dv_domain v)). apply in_or_app. now left. }
      destruct (dv_port v); injection T as <-; [|exact F]. apply vis_app; [exact F|]. cbn [app]. constructor; [unfold visible; lia|apply vis_dec].
    + cbn [obind] in T. destruct (dv_port v); injection T as <-; [|exact D]. apply vis_app; [exact D|].
      cbn [app]. constructor; [unfold visible; lia|apply vis_dec].
  - intros c v H. apply C39_host_accepts_exactly in H; [|exact V]. unfold host_authority.
    destruct H as [(a & E & F & _)|[(a & E & F & _)|(name & d & E & _ & _ & _ & P & _ & _ & _ & B & _)]]; rewrite E.
    + split; [apply visible_safe; eapply vis_v6_form; exact F|]. destruct (v6_form_addr _ _ _ F) as [A Q].
      eapply vis_v6_form. apply ipv6_authority_form; assumption.
    + split; [apply visible_safe; eapply vis_v4_form; exact F|]. destruct (v4_form_addr _ _ _ F) as [A Q].
      eapply vis_v4_form. apply ipv4_authority_form; assumption.
    + split; [exact (split_safe _ _ _ P (idna_safe _ _ _ L B))|]. pose proof (idna_vis _ _ _ I B) as D.
      destruct (hv_port v); [|exact D]. apply vis_app; [exact D|].
      cbn [app]. constructor; [unfold visible; lia|apply vis_dec].
Qed.

(** C101: a link layer address or a uuid prints digits only (the separator too is printed as a number, C27). *)
Theorem C101_hex_printed : forall case sep x,
  Forall visible (to_mac_address_string case sep x) /\ Forall visible (to_uuid_string case sep x).
Proof.
  intros case sep x. unfold to_mac_address_string, to_uuid_string.
  destruct (sep_allow sep) as [c|]; split; cbv zeta;
    repeat first [apply vis_hex_fmt | apply vis_dec | apply vis_app].
Qed.

(** ** Email addresses *)
Lemma atext_safe e : is_atext e -> line_safe e.
Proof.
  unfold is_atext, line_safe. intros [H|[H|[H|H]]]; try lia.
  vm_compute in H. repeat (destruct H as [<- |H]; [lia|]). destruct H.
Qed.
Lemma local_char_safe na e : local_char na e -> line_safe e.
Proof. intros [H|[-> |[_ H]]]; [now apply atext_safe|unfold line_safe; lia|unfold line_safe; lia]. Qed.
Lemma special_safe e : is_special e -> line_safe e.
Proof.
  unfold is_special, line_safe. intros [H| ->]; [|lia].
  vm_compute in H. repeat (destruct H as [<- |H]; [lia|]). destruct H.
Qed.
Lemma local_safe na o lt l nq q : local_text na o lt l nq q -> Forall line_safe l /\ Forall line_safe lt.
Proof.
  intros [(_ & -> & (_ & _ & F & _) & _)|(_ & -> & (_ & F & _) & _)].
  - assert (Forall line_safe l); [|auto]. eapply Forall_impl; [|exact F]. intros e. apply local_char_safe.
  - assert (Forall line_safe l) as S.
    { apply Forall_forall. intros e E. apply in_split in E as (u & w & ->).
      destruct (F _ _ _ eq_refl) as [H|[H|[H _]]]; [eapply local_char_safe; exact H| |now apply special_safe].
      unfold blank in H. unfold line_safe. lia. }
    split; [exact S|]. apply safe_app; [|apply safe_app; [exact S|]]; constructor; unfold line_safe; try lia; constructor.
Qed.
Lemma host_safe idna c dt h canon : idna_one_line idna -> host_text idna c dt h canon -> Forall line_safe dt.
Proof.
  intros L H. destruct h as [d|a|a]; cbn [host_text] in H.
  - eapply idna_safe; [exact L|apply H].
  - destruct H as (_ & _ & t & -> & T & _). apply visible_safe. vis_tac.
  - destruct H as (_ & _ & t & -> & T & _). apply visible_safe. cbv [bs]. cbn. vis_tac.
Qed.
Lemma host_printed idna c dt h canon : idna_laws idna -> host_text idna c dt h canon -> Forall visible (e_host_text h).
Proof.
  intros L H. destruct h as [d|a|a]; cbn [host_text e_host_text] in *.
  - eapply idna_vis; [exact L|apply H].
  - destruct H as (_ & _ & t & -> & T & _). pose proof (ipv4_display_text a (v4_text_addr _ _ T)). vis_tac.
  - destruct H as (_ & _ & t & -> & T & _). pose proof (ipv6_display_text a (v6_text_addr _ _ T)). cbv [bs]. cbn. vis_tac.
Qed.
(** What a comment holds is on one line. *)
Definition safe_comment (k : option (list N)) : Prop := forall t, k = Some t -> Forall line_safe t.
Lemma ctext_safe k : safe_comment k -> Forall line_safe (ctext k).
Proof.
  destruct k as [t|]; intros H; [|constructor]. apply safe_app; [|apply safe_app; [exact (H t eq_refl)|]];
    constructor; unfold line_safe; try lia; constructor.
Qed.

(** C101: the local part of an accepted email address is on one line, the whole text is if it ends with
    the domain and the comments are on one line (so always if comments are disallowed), and so is what the value
    prints. *)
Theorem C101_email_partial : forall idna prof c s v, idna_one_line idna -> idna_laws idna -> valid_str s ->
  email_parse_str idna prof c s = Ok v ->
  Forall line_safe (ev_local v) /\
  (e_comment c = false -> Forall line_safe s /\ Forall line_safe (to_email_string c v)) /\
  (safe_comment (ev_c1 v) -> safe_comment (ev_c2 v) -> safe_comment (ev_c3 v) ->
     (ev_c4 v = None -> Forall line_safe s) /\
     (safe_comment (ev_c4 v) -> Forall line_safe (to_email_string c v))).
Proof.
  intros idna prof c s v L I V H.
  destruct (C47_email_policies _ _ _ _ _ V H) as (_ & _ & _ & N4 & _).
  apply C44_email_accepts_exactly in H; [|exact V].
  destruct H as (lt & q & dt & tail & canon & E & _ & HL & _ & _ & _ & HT & _ & HH & _).
  destruct (local_safe _ _ _ _ _ _ HL) as [S1 S2]. pose proof (host_safe _ _ _ _ _ L HH) as S3.
  pose proof (visible_safe _ (host_printed _ _ _ _ _ I HH)) as S4.
  assert (Forall line_safe [64]) as A by (constructor; [unfold line_safe; lia|constructor]).
  assert (safe_comment (ev_c1 v) -> safe_comment (ev_c2 v) -> safe_comment (ev_c3 v) ->
     (ev_c4 v = None -> Forall line_safe s) /\
     (safe_comment (ev_c4 v) -> Forall line_safe (to_email_string c v))) as K.
  { intros C1 C2 C3. split.
    - intros C4. rewrite C4 in HT. cbn [tail_ok] in HT. subst tail. rewrite E.
      repeat apply safe_app; try assumption; try (apply ctext_safe; assumption). constructor.
    - intros C4. unfold to_email_string. destruct (negb (e_comment c)); [repeat apply safe_app; assumption|].
      assert (Forall line_safe (if ev_need_quoted v then [34] else [])) as Q.
      { destruct (ev_need_quoted v); constructor; unfold line_safe; try lia; constructor. }
      change e_comment_text with ctext. cbv zeta.
      repeat apply safe_app; try assumption; apply ctext_safe; assumption. }
  split; [exact S1|]. split; [|exact K]. intros C. destruct (N4 C) as (C1 & C2 & C3 & C4).
  rewrite C1, C2, C3, C4 in K. destruct K as [K1 K2]; try (intros t T; discriminate).
  split; [now apply K1|apply K2]. intros t T; discriminate.
Qed.

Lemma lower_control c : 32 < lower c /\ lower c <> 127 -> 32 < c /\ c <> 127.
Proof. unfold lower. destruct ((65 <=? c) && (c <=? 90))%bool eqn:E; lia. Qed.
Lemma idna_ascii_one_line : idna_one_line idna_ascii.
Proof.
  intros x d H. destruct (idna_ascii_laws _ _ H) as [F _]. apply idna_ascii_frag in H as [H A]. unfold idna_frag in H.
  destruct (map_dots x) as [e|] eqn:E; [|discriminate H]. destruct (ok_name (strip_last 46 e)); [|discriminate H].
  injection H as ->. apply (map_ascii _ _ A) in E. subst d. rewrite Forall_map in F.
  eapply Forall_impl; [|exact F]. cbn. intros c C. apply lower_control. unfold idna_char in C. lia.
Qed.

(** A carriage return, a line feed and the next line of a mail header. *)
Definition injected : list N := [13; 10] ++ bs "Bcc: b@c.org".

(** C101, refuted for comments: nothing is asked of them, so a comment may hold line breaks, which the value keeps and
    prints. *)
Theorem C101_email_comment_refuted : exists idna c s v, idna_one_line idna /\ idna_laws idna /\ valid_str s /\
  email_parse_str idna Debug c s = Ok v /\ ev_c1 v = Some (bs "x" ++ injected) /\
  to_email_string c v = s /\ exists a b, s = a ++ injected ++ b.
Proof.
  exists idna_ascii, (ecfg true Allow Allow Allow false), (bs "(x" ++ injected ++ bs ")a@d.org"). eexists.
  split; [exact idna_ascii_one_line|]. split; [exact idna_ascii_laws|].
  split; [ascii_str|]. split; [vm_compute; reflexivity|]. split; [reflexivity|]. split; [vm_compute; reflexivity|].
  exists (bs "(x"), (bs ")a@d.org"). reflexivity.
Qed.

(** C101, refuted for what follows the fourth comment: it is not looked at, and may be a second line. *)
Theorem C101_email_tail_refuted : exists idna c s v, idna_one_line idna /\ idna_laws idna /\ valid_str s /\
  email_parse_str idna Debug c s = Ok v /\ ev_c4 v = Some [] /\ s = bs "a@d.org()" ++ injected.
Proof.
  exists idna_ascii, (ecfg true Allow Allow Allow false), (bs "a@d.org()" ++ injected). eexists.
  split; [exact idna_ascii_one_line|]. split; [exact idna_ascii_laws|].
  split; [ascii_str|]. split; [vm_compute; reflexivity|]. split; reflexivity.
Qed.

(** The line separator U+2028 and the control character U+0085 (next line). *)
Definition line_separator : list N := utf8_char 8232.
Definition next_line : list N := utf8_char 133.

(** C101, refuted for line breaks outside ASCII: where non-ASCII characters are allowed in the local part, so
    are all of them, also the line separator and the control characters from U+0080 on. *)
Theorem C101_email_unicode_refuted : exists idna c s v, idna_one_line idna /\ idna_laws idna /\ valid_str s /\
  e_comment c = false /\ email_parse_str idna Debug c s = Ok v /\
  ev_local v = bs "a" ++ line_separator ++ bs "b" ++ next_line ++ bs "c" /\ to_email_string c v = s.
Proof.
  exists idna_ascii, (ecfg false Allow Allow Allow true),
    (bs "a" ++ line_separator ++ bs "b" ++ next_line ++ bs "c@d.org"). eexists.
  split; [exact idna_ascii_one_line|]. split; [exact idna_ascii_laws|].
  split; [exists ([97; 8232; 98; 133; 99] ++ bs "@d.org"); split; [repeat (constructor; [reflexivity|]); constructor|vm_compute; reflexivity]|]. split; [reflexivity|]. split; [vm_compute; reflexivity|].
  split; [reflexivity|]. vm_compute. reflexivity.
Qed.

Example C101_example : exists v w,
  idna_one_line idna_ascii /\ idna_laws idna_ascii /\
  email_parse_str idna_ascii Debug (ecfg true Allow Allow Must false) ([34] ++ bs "a b" ++ [34] ++ bs "(c d)@E.org") = Ok v /\
  ev_c4 v = None /\ to_email_string (ecfg true Allow Allow Must false) v = [34] ++ bs "a b" ++ [34] ++ bs "(c d)@e.org" /\
  email_parse_str idna_ascii Debug (ecfg true Allow Allow Must false) ([34; 97; 10; 98; 34] ++ bs "@E.org") = Err EInvalid /\
  host_parse_str idna_ascii (hcfg Allow Allow Must) (bs "Magiclen.org:80") = Ok w /\ host_authority w = bs "magiclen.org:80" /\
  host_parse_str idna_ascii (hcfg Allow Allow Must) (bs "Magiclen.org" ++ [10]) = Err HoInvalid /\
  num_parse_str (float_of_text F64) Unlimited Disallow (bs "1e5" ++ [10]) = Err NParseFloat /\
  visible_sep (SepMust 58) /\ mac_parse_str AnyCase (SepMust 58) (bs "08:00:27:b4:6A:2b") = Ok 8796759157291 /\
  mac_parse_str AnyCase (SepMust 10) ([48; 56] ++ [10] ++ bs "00" ++ [10] ++ bs "27" ++ [10] ++ bs "b4" ++ [10] ++ bs "6A" ++ [10] ++ bs "2b")
    = Ok 8796759157291.
Proof.
  do 2 eexists. split; [exact idna_ascii_one_line|]. split; [exact idna_ascii_laws|].
  split; [vm_compute; reflexivity|]. split; [reflexivity|]. split; [vm_compute; reflexivity|].
  split; [vm_compute; reflexivity|]. split; [vm_compute; reflexivity|]. split; [vm_compute; reflexivity|].
  split; [vm_compute; reflexivity|]. split; [vm_compute; reflexivity|].
  split; [cbn; unfold visible; lia|]. split; vm_compute; reflexivity.
Qed.

Print Assumptions C101_visible.
Print Assumptions C101_ip.
Print Assumptions C101_names.
Print Assumptions C101_hex_printed.
Print Assumptions C101_email_partial.
Print Assumptions C101_email_comment_refuted.
Print Assumptions C101_email_tail_refuted.
Print Assumptions C101_email_unicode_refuted.
