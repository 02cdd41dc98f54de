(** Property C112: local(Disallow) keeps local machines out, however the host is written. *)
From Verif Require Import Base IntStr IntStrProofs NetModel NetSpec NetProofs IpModel IpSpec LocalProofs IpProofs Utf8 StrFacts
  DomainModel DomainSpec DomainProofs IdnaFrag HostModel HostSpec HostProofs EmailModel EmailSpec EmailProofs.
From Verif Require Import PropIp PropDomain PropHost PropEmail.
From Verif Require PropMailbox PropUnion HttpModel HttpSpec PropHttp.
From Verif Require Import StdSpec StdProofs PropStd AtonSpec.
Local Open Scope N_scope.

Lemma hex_let c : HEXDIG c -> let_dig c.
Proof. unfold HEXDIG, let_dig, DIGIT. lia. Qed.
Lemma number_chars t v : c_number t v -> t <> [] /\ Forall let_dig t.
Proof.
  intros [c ds C F|ds F|x ds X Ne F]; (split; [discriminate|]).
  - constructor; [unfold let_dig, DIGIT; lia|]. eapply Forall_impl; [|exact F]. unfold let_dig. auto.
  - constructor; [unfold let_dig, DIGIT; lia|]. eapply Forall_impl; [|exact F]. unfold let_dig, DIGIT. intros a A. cbn beta in A. lia.
  - constructor; [unfold let_dig, DIGIT; lia|]. constructor; [unfold let_dig, DIGIT; lia|]. eapply Forall_impl; [|exact F]. exact hex_let.
Qed.
Lemma number_no t v c : c_number t v -> ~ let_dig c -> ~ In c t.
Proof. intros H C I. apply number_chars in H as [_ F]. rewrite Forall_forall in F. exact (C (F c I)). Qed.

Lemma let_dig_label l : (1 <= List.length l <= 63)%nat -> Forall let_dig l -> dns_label l.
Proof.
  intros L F. rewrite Forall_forall in F. assert (G45 : ~ In 45 l) by (intros X; specialize (F 45 X); unfold let_dig, DIGIT in F; lia).
  split; [exact L|]. split; [apply Forall_forall; auto|]. split; [intros r ->; apply G45; left; reflexivity|].
  split; [intros u ->; apply G45, in_elt|]. intros a b r ->. apply G45. cbn. auto.
Qed.
Lemma aton_labels k t n : aton_bytes k t n -> (List.length t <= 63)%nat -> dns_labels t.
Proof.
  assert (K : forall t v, c_number t v -> (List.length t <= 63)%nat -> dns_label t).
  { intros u v H L. apply number_chars in H as [Ne F]. apply let_dig_label; [|exact F]. destruct u; [contradiction|cbn [List.length] in *; lia]. }
  induction 1 as [k t v H _|k x t v w H _ _ _ IH]; intros L; [apply dl_one; eauto|].
  rewrite !app_length in L. cbn [List.length] in L. apply dl_dot; [apply (K x v H); lia|apply IH; lia].
Qed.
Lemma aton_dns t a : aton t a -> (List.length t <= 63)%nat -> dns_name t.
Proof. intros [_ H] L. split; [exact (aton_labels _ _ _ H L)|lia]. Qed.

(** The canonical form of an address is read as that address and no other. *)
Lemma numeral_value ds n : numeral 10 ds n -> n = digits_value ds.
Proof.
  assert (D : forall c d, radix_digit 10 c d -> d = c - 48).
  { intros c d H. apply to_digit_iff, digit_out in H as [_ H]. exact H. }
  induction 1 as [c d H|ds n c d _ IH H].
  - unfold digits_value. cbn [fold_left]. rewrite (D c d H). lia.
  - unfold digits_value. rewrite fold_left_app. cbn [fold_left]. fold (digits_value ds). rewrite <- IH, (D c d H). lia.
Qed.
Lemma octet_number ds n v : octet ds n -> c_number ds v -> v = n.
Proof.
  intros (H & _ & Z) Hc. apply numeral_value in H. subst n. inversion Hc as [c r C F|r F|x r X _ _]; subst.
  - reflexivity.
  - rewrite (Z r eq_refl). reflexivity.
  - specialize (Z (x :: r) eq_refl). discriminate.
Qed.
Lemma octet_no_dot ds n : octet ds n -> ~ In 46 ds.
Proof.
  intros H I. assert (D : dec_octet ds) by (apply dec_octet_iff; eauto).
  destruct D; cbn in I; unfold DIGIT in *; lia.
Qed.
Lemma byte_step k d t n m : octet d m -> aton_bytes (S k) (d ++ [46] ++ t) n ->
  (1 <= k)%nat /\ exists w, aton_bytes k t w /\ n = m * 256 ^ N.of_nat k + w.
Proof.
  intros O H. inversion H as [k' t' v Hc _ E1 E2 E3|k' x t' v w Hc Hv Hk Ht E1 E2]; subst.
  - exfalso. apply (number_no _ _ 46 Hc); [unfold let_dig, DIGIT; lia|]. apply in_elt.
  - apply (PropMailbox.first_split_unique 46) in E2 as [-> ->]; [|apply (number_no _ _ 46 Hc); unfold let_dig, DIGIT; lia|exact (octet_no_dot _ _ O)].
    split; [exact Hk|]. exists w. split; [exact Ht|]. rewrite (octet_number _ _ _ O Hc). reflexivity.
Qed.
Lemma number4 a b c d : number 256 [a; b; c; d] = a * 256 ^ 3 + (b * 256 ^ 2 + (c * 256 ^ 1 + d)).
Proof. unfold number. cbn [fold_left]. change (256 ^ 3) with 16777216. change (256 ^ 2) with 65536. change (256 ^ 1) with 256. lia. Qed.
Lemma number_inj a b : v4_addr a -> v4_addr b -> number 256 a = number 256 b -> a = b.
Proof.
  intros [La Fa] [Lb Fb]. do 5 (destruct a as [|? a]; try discriminate La). do 5 (destruct b as [|? b]; try discriminate Lb).
  repeat match goal with H : Forall _ (_ :: _) |- _ => apply Forall_cons_iff in H as [? H] end.
  unfold number. cbn [fold_left]. intros E. repeat f_equal; lia.
Qed.
Lemma canonical_aton s a b : v4_text s a -> aton s b -> b = a.
Proof.
  intros T [B H]. pose proof (v4_text_addr _ _ T) as A. destruct T as (d1 & d2 & d3 & d4 & n1 & n2 & n3 & n4 & O1 & O2 & O3 & O4 & -> & ->).
  apply (byte_step 3 _ _ _ _ O1) in H as (_ & w1 & H & E1). apply (byte_step 2 _ _ _ _ O2) in H as (_ & w2 & H & E2).
  apply (byte_step 1 _ _ _ _ O3) in H as (_ & w3 & H & E3).
  apply number_inj; [exact B|exact A|]. rewrite number4, E1, E2, E3. f_equal. f_equal. f_equal.
  inversion H as [k' t' v Hc _ X1 X2 X3|k' x t' v w Hc Hv Hk Ht X1 X2]; subst; [exact (octet_number _ _ _ O4 Hc)|lia].
Qed.

Lemma aton_head t b : aton t b -> exists c r, t = c :: r /\ DIGIT c.
Proof.
  assert (K : forall x v, c_number x v -> exists c r, x = c :: r /\ DIGIT c).
  { intros x v [c ds C F|ds F|y ds Y _ F]; eexists; eexists; (split; [reflexivity|]); unfold DIGIT; lia. }
  intros [_ H]. inversion H as [k' t' v Hc _|k' x t' v w Hc Hv Hk Ht]; subst; [exact (K _ _ Hc)|].
  destruct (K _ _ Hc) as (c & r & -> & C). exists c, (r ++ [46] ++ t'). auto.
Qed.

(** C112, the ip validators: an accepted text, without its port, is not read as a local address in any way. *)
Theorem C112_ip : forall port s x p, valid_str s -> ip_parse_str port Disallow s = Ok (x, p) ->
  match x with V4 a => ~ v4_local a | V6 a => ~ v6_local a end /\
  forall h q b, split_port s h q -> aton h b -> ~ v4_local b.
Proof.
  intros port s x p V H. apply C31_ip_accepts_exactly in H; [|exact V]. destruct x as [a|a]; destruct H as (F & _ & L); cbn [local_ok] in L;
    (split; [exact L|]); intros h q b S A.
  - assert (E : v4_text h a).
    { destruct p as [p|]; cbn [v4_form] in F.
      - destruct F as (t & ds & -> & T & D). assert (S2 : split_port (t ++ [58] ++ ds) t (Some p)) by (exists ds; auto).
        destruct (PropUnion.split_unique _ _ _ _ _ V S S2) as [-> _]. exact T.
      - assert (S2 : split_port s s None).
        { split; [reflexivity|]. intros I. apply v4_chars in F. rewrite Forall_forall in F. specialize (F 58 I). unfold v4_char in F. lia. }
        destruct (PropUnion.split_unique _ _ _ _ _ V S S2) as [-> _]. exact F. }
    rewrite (canonical_aton _ _ _ E A). exact L.
  - exfalso. destruct (aton_head _ _ A) as (c & r & -> & C). unfold DIGIT in C.
    assert (NB : forall z, s <> 91 :: z).
    { intros z E. destruct q as [q|]; cbn [split_port] in S; [destruct S as (ds & -> & _)|destruct S as [-> _]]; cbn [app] in E; injection E as -> _; lia. }
    destruct p as [p|]; cbn [v6_form] in F; [destruct F as (t & ds & E & _); exact (NB _ E)|].
    destruct F as [F|(t & E & _)]; [|exact (NB _ E)]. apply (PropRel.v6_no_split _ _ _ _ F) in S.
    destruct A as [_ A]. revert S. clear - A. induction A as [k t v H _|k y t v w H _ _ _ IH].
    + apply (number_no _ _ 58 H). unfold let_dig, DIGIT. lia.
    + intros I. apply in_app_or in I as [I|I]; [revert I; apply (number_no _ _ 58 H); unfold let_dig, DIGIT; lia|].
      destruct I as [I|I]; [discriminate|exact (IH I)].
Qed.
Lemma aton_nonempty k t n : aton_bytes k t n -> t <> [].
Proof.
  intros [k' t' v H _|k' x t' v w _ _ _ _]; [apply (number_chars _ _ H)|]. destruct x; discriminate.
Qed.
Lemma aton_end h b u : aton h b -> h <> u ++ [46].
Proof.
  intros [_ H]. revert u. induction H as [k t v H _|k x t v w H _ _ Hb IH]; intros u E.
  - apply (number_no _ _ 46 H); [unfold let_dig, DIGIT; lia|]. rewrite E. apply in_elt.
  - destruct t as [|y t _] using rev_ind.
    + apply aton_nonempty in Hb. contradiction.
    + rewrite !app_assoc in E. apply app_inj_tail in E as [_ ->]. exact (IH t eq_refl).
Qed.

(** C112, host and domain: with local(Disallow) the canonical spelling of a local address is kept out, and so is localhost. *)
Theorem C112_host_partial : forall idna c s v h q b, valid_str s -> host_parse_str idna c s = Ok v -> h_local c = Disallow ->
  split_port s h q -> aton h b -> v4_local b -> ~ IPv4address h.
Proof.
  intros idna c s v h q b V H HL S A L N. apply v4_iff in N as [a N]. rewrite (canonical_aton _ _ _ N A) in L.
  assert (U : forall n p, split_port s n p -> n = h) by (intros n p S2; exact (proj1 (PropUnion.split_unique _ _ _ _ _ V S2 S))).
  apply C39_host_accepts_exactly in H; [|exact V]. destruct H as [H|[H|H]].
  - destruct H as (a6 & _ & F & _). destruct (aton_head _ _ A) as (y & r & E & Y). unfold DIGIT in Y.
    assert (NB : forall z, s <> 91 :: z).
    { intros z E2. destruct q as [q|]; cbn [split_port] in S; [destruct S as (ds & -> & _)|destruct S as [-> _]]; rewrite E in E2; cbn [app] in E2; injection E2 as -> _; lia. }
    destruct (hv_port v); cbn [v6_form] in F; [destruct F as (t & ds & E2 & _); exact (NB _ E2)|].
    destruct F as [F|(t & E2 & _)]; [|exact (NB _ E2)]. apply (PropRel.v6_no_split _ _ _ _ F) in S.
    apply v4_chars in N. rewrite Forall_forall in N. specialize (N 58 S). unfold v4_char in N. lia.
  - destruct H as (a4 & _ & F & _ & _ & LO & _). rewrite HL in LO. cbn [local_ok] in LO. apply LO.
    assert (T : v4_text h a4).
    { destruct (hv_port v) as [p|]; cbn [v4_form] in F.
      - destruct F as (t & ds & -> & T & D). rewrite <- (U t (Some p)); [exact T|exists ds; auto].
      - rewrite <- (U s None); [exact F|]. split; [reflexivity|]. intros I. apply v4_chars in F. rewrite Forall_forall in F. specialize (F 58 I). unfold v4_char in F. lia. }
    rewrite <- (canonical_aton _ _ _ T A). rewrite (canonical_aton _ _ _ N A). exact L.
  - destruct H as (n & d & _ & _ & _ & _ & S2 & _ & _ & N4 & _). rewrite (U _ _ S2) in N4. exact (N4 _ N).
Qed.
Theorem C112_domain_partial : forall idna c s v h q b, valid_str s -> domain_parse_str idna c s = Ok v -> d_local c = Disallow ->
  split_port s h q -> aton h b -> v4_local b -> ~ IPv4address h.
Proof.
  intros idna c s v h q b V H HL S A L N. apply v4_iff in N as [a N]. rewrite (canonical_aton _ _ _ N A) in L.
  apply C36_domain_accepts_exactly in H; [|exact V]. destruct H as (_ & n & S2 & _ & H).
  rewrite (proj1 (PropUnion.split_unique _ _ _ _ _ V S2 S)) in H. destruct H as [((_ & X & _) & _)|[(_ & a4 & D & _ & _ & LO & _)|(_ & N4 & _)]].
  - congruence.
  - rewrite HL in LO. cbn [local_ok] in LO. apply LO. destruct D as (t & [E|E] & T).
    + rewrite <- E in T. rewrite <- (canonical_aton _ _ _ T A), (canonical_aton _ _ _ N A). exact L.
    + destruct (aton_end _ _ t A E).
  - apply (N4 a). exists h. auto.
Qed.

(** Every other spelling of every address gets through as a name, in any of the three. *)
Lemma aton_no_name h b : aton h b -> ~ IPv4address h -> ~ domain_local (List.map lower h).
Proof.
  intros A N. destruct (aton_head _ _ A) as (c & r & E & C). unfold DIGIT in C. assert (LC : lower c = c) by (unfold lower; destruct ((65 <=? c) && (c <=? 90)) eqn:Q; lia).
  intros [(t & Et & X)|(a & (t & Et & X) & _)].
  - rewrite E in Et. cbn [List.map] in Et. rewrite LC in Et.
    assert (Z : exists z, t = c :: z).
    { destruct Et as [Et|Et]; [eauto|]. destruct t as [|y z]; [cbn in X; discriminate|]. cbn [app] in Et. injection Et as <- _. eauto. }
    destruct Z as [z ->]. cbn [List.map] in X. rewrite LC in X. injection X as X _. vm_compute in X. subst c. lia.
  - apply N, v4_iff. exists a. apply lower_no_v4. destruct Et as [Et|Et]; [rewrite Et; exact X|]. exfalso.
    assert (I : exists u, h = u ++ [46]).
    { destruct h as [|y h _] using rev_ind; [discriminate|]. rewrite map_app in Et. cbn [List.map] in Et. apply app_inj_tail in Et as [_ Et].
      exists h. f_equal. f_equal. unfold lower in Et. destruct ((65 <=? y) && (y <=? 90)) eqn:Q; lia. }
    destruct I as [u I]. exact (aton_end _ _ u A I).
Qed.

Lemma two_lower two h : two_ok two False h -> forall P, two_ok two P (List.map lower h).
Proof.
  assert (D : forall l, two_labels (List.map lower l) -> two_labels l).
  { intros l (x & y & E & Ne). apply map_eq_app in E as (u & w & -> & _ & E). destruct w as [|z w]; [discriminate|].
    cbn [List.map app] in E. injection E as Z <-. exists u, w. split.
    - f_equal. cbn [app]. f_equal. unfold lower in Z. destruct ((65 <=? z) && (z <=? 90)) eqn:Q; lia.
    - intros ->. apply Ne. reflexivity. }
  intros H P. destruct two; cbn [two_ok] in *; [|exact I|].
  - destruct H as [[]|(x & y & -> & Ne)]. right. exists (List.map lower x), (List.map lower y). rewrite !map_app.
    split; [reflexivity|]. intros X. apply map_eq_nil in X. contradiction.
  - destruct H as [[]|H]. right. intros X. exact (H (D _ X)).
Qed.
Theorem C112_other_spellings : forall idna h b t p, idna_dns idna -> aton h b -> ~ IPv4address h -> (List.length h <= 63)%nat ->
  match p with None => t = h | Some p => exists ds, t = h ++ [58] ++ ds /\ std_port ds p end ->
  (forall c, port_ok (h_port c) p -> h_local c = Disallow -> two_ok (h_two c) False h ->
     exists v, host_parse_str idna c t = Ok v /\ hv_host v = HDomain (List.map lower h)) /\
  (forall c, port_ok (d_port c) p -> d_local c = Disallow -> d_ipv4 c <> Must -> two_ok (d_two c) False h ->
     exists v, domain_parse_str idna c t = Ok v /\ dv_domain v = List.map lower h).
Proof.
  intros idna h b t p Hi A N L T. pose proof (aton_dns _ _ A L) as D. pose proof (aton_no_name _ _ A N) as NL. split.
  - intros c P HL H2. destruct (C111_authority idna c t h p (HDomain (List.map lower h)) Hi) as (v & E & X & _).
    + split; [right; right; exact D|exact T].
    + split; [exact D|]. auto.
    + exact P.
    + rewrite HL. exact NL.
    + exact (two_lower _ _ H2 _).
    + exists v. auto.
  - intros c P HL H4 H2. destruct (C111_domain idna c t h p Hi D N T P H4) as (v & E & X & _).
    + rewrite HL. cbn [local_ok]. intros X. apply NL. left. exact X.
    + exact (two_lower _ _ H2 _).
    + exists v. auto.
Qed.

(** In an e-mail address the canonical spelling gets through as well (C56). *)
Theorem C112_email_spellings : forall idna prof c l h b, idna_dns idna -> aton h b -> (List.length h <= 63)%nat ->
  dot_atom (e_non_ascii c) l -> (List.length l <= 64)%nat -> valid_str (l ++ [64] ++ h) ->
  e_ip c <> Must -> e_local c = Disallow -> two_ok (e_two c) False h ->
  exists v, email_parse_str idna prof c (l ++ [64] ++ h) = Ok v /\ ev_domain v = HDomain (List.map lower h).
Proof.
  intros idna prof c l h b Hi A L DA L64 V HI HL H2. pose proof (aton_dns _ _ A L) as D.
  assert (NL : ~ localhost (List.map lower h)).
  { destruct (aton_head _ _ A) as (y & r & E & C). unfold DIGIT in C.
    assert (LC : lower y = y) by (unfold lower; destruct ((65 <=? y) && (y <=? 90)) eqn:Q; lia).
    intros (t & Et & X). rewrite E in Et. cbn [List.map] in Et. rewrite LC in Et.
    assert (Z : exists z, t = y :: z).
    { destruct Et as [Et|Et]; [eauto|]. destruct t as [|k z]; [cbn in X; discriminate|]. cbn [app] in Et. injection Et as <- _. eauto. }
    destruct Z as [z ->]. cbn [List.map] in X. rewrite LC in X. injection X as X _. vm_compute in X. subst y. lia. }
  destruct (C111_mailbox_partial idna prof c (l ++ [64] ++ h) l h (HDomain (List.map lower h)) Hi V) as (v & E & _ & X & _).
  - split; [reflexivity|]. split; [left; exact DA|left; exact (dns_sub _ D)].
  - exact L64.
  - lia.
  - intros q E. exfalso. apply (PropMailbox.dot_atom_no _ _ 34 DA); [cbn; tauto|]. rewrite E. left. reflexivity.
  - split; [exact D|reflexivity].
  - destruct (e_ip c); [contradiction|exact I|exact I].
  - rewrite HL. exact NL.
  - exact (two_lower _ _ H2 _).
  - exists v. auto.
Qed.

(** Spellings of the loopback address, and what the validators make of them. *)
Theorem C112_local_refuted : exists a, v4_local a /\
  Forall (fun h => aton h a /\
    (forall idna, idna_dns idna ->
       is_ok (host_parse_str idna (hcfg Disallow Allow Allow) h) /\
       is_ok (domain_parse_str idna (cfg Disallow Disallow Allow Allow) h) /\
       forall prof, is_ok (email_parse_str idna prof (ecfg false Disallow Disallow Allow false) (bs "a@" ++ h))))
    [bs "127.1"; bs "2130706433"; bs "0x7F.0.1"; bs "0177.0.0.01"].
Proof.
  exists [127; 0; 0; 1]. split; [apply C32_ipv4_local_blocks; [split; [reflexivity|repeat constructor]|reflexivity]|].
  set (a := [127; 0; 0; 1]).
  assert (V : v4_addr a) by (split; [reflexivity|repeat constructor]).
  assert (D : forall c, (48 <=? c) && (c <=? 57) = true -> DIGIT c) by (intros c C; unfold DIGIT; lia).
  assert (K : forall h, aton h a -> (List.length h <= 63)%nat -> ~ IPv4address h ->
    aton h a /\ (forall idna, idna_dns idna ->
       is_ok (host_parse_str idna (hcfg Disallow Allow Allow) h) /\
       is_ok (domain_parse_str idna (cfg Disallow Disallow Allow Allow) h) /\
       forall prof, is_ok (email_parse_str idna prof (ecfg false Disallow Disallow Allow false) (bs "a@" ++ h)))).
  { intros h A L N. split; [exact A|]. intros idna Hi.
    destruct (C112_other_spellings idna h a h None Hi A N L eq_refl) as [Hh Hd]. split; [|split].
    - destruct (Hh (hcfg Disallow Allow Allow)) as (v & E & _); [exact I|reflexivity|exact I|]. exists v. exact E.
    - destruct (Hd (cfg Disallow Disallow Allow Allow)) as (v & E & _); [exact I|reflexivity|discriminate|exact I|]. exists v. exact E.
    - intros prof. assert (M : valid_str (bs "a" ++ [64] ++ h)).
      { apply ascii_valid. constructor; [reflexivity|]. constructor; [reflexivity|].
        destruct (dns_facts h (aton_dns _ _ A L)) as [F _]. eapply Forall_impl; [|exact F]. intros y [Y _]. exact Y. }
      destruct (C112_email_spellings idna prof (ecfg false Disallow Disallow Allow false) (bs "a") h a Hi A L) as (v & E & _).
      + apply da_run; [discriminate|]. constructor; [left; apply atext_spec; reflexivity|constructor].
      + cbn. lia.
      + exact M.
      + discriminate.
      + reflexivity.
      + exact I.
      + exists v. exact E. }
  assert (B : forall x v t n, aton_bytes 3 t n -> c_number x v -> v = 127 -> n = 1 -> aton (x ++ [46] ++ t) a).
  { intros x v t n H C -> ->. split; [exact V|]. change (number 256 a) with (127 * 256 ^ N.of_nat 3 + 1).
    apply ab_byte; [exact C|lia|lia|exact H]. }
  assert (O0 : forall k t, aton_bytes k t 1 -> (1 <= k)%nat -> aton_bytes (S k) (bs "0" ++ [46] ++ t) 1).
  { intros k t H Hk. change 1 with (0 * 256 ^ N.of_nat k + 1) at 1. apply ab_byte; [apply (cn_oct []); constructor|lia|exact Hk|exact H]. }
  assert (One : forall k, (1 <= k)%nat -> aton_bytes k (bs "1") 1).
  { intros k Hk. apply ab_last; [apply (cn_dec 49 []); [lia|constructor]|]. apply N.pow_gt_1; lia. }
  constructor; [|constructor; [|constructor; [|constructor; [|constructor]]]]; apply K; try (cbn; lia);
    try (intros X; apply v4_iff in X as [y X]; apply ipv4_from_str_spec in X; vm_compute in X; discriminate).
  - apply (B (bs "127") 127 (bs "1") 1); [apply One; lia| |reflexivity|reflexivity].
    apply (cn_dec 49 [50; 55]); [lia|]. repeat (constructor; [apply D; reflexivity|]). constructor.
  - split; [exact V|]. apply ab_last; [|reflexivity]. apply (cn_dec 50 (bs "130706433")); [lia|].
    repeat (constructor; [apply D; reflexivity|]). constructor.
  - apply (B (bs "0x7F") 127 (bs "0.1") 1); [apply O0; [apply One|]; lia| |reflexivity|reflexivity].
    apply (cn_hex 120 (bs "7F")); [auto|discriminate|]. unfold HEXDIG. repeat (constructor; [cbn; lia|]). constructor.
  - apply (B (bs "0177") 127 (bs "0.0.01") 1); [| |reflexivity|reflexivity].
    + apply (O0 2%nat (bs "0.01")); [|lia]. apply (O0 1%nat (bs "01")); [|lia]. apply ab_last; [|reflexivity].
      apply (cn_oct [49]). constructor; [lia|constructor].
    + apply (cn_oct (bs "177")). repeat (constructor; [cbn; lia|]). constructor.
Qed.

(** C112, http_url and http_ftp_url: they ask the URL library for the host, so it is enough that the library, as the URL standard
    says, gives no name that is a number (the rest is C54). *)
Theorem C112_http : forall url parse (host : url -> option HttpModel.url_host) s u, HttpSpec.host_typed host ->
  (forall u d b, host u = Some (HttpModel.HDomain d) -> ~ aton d b) ->
  (exists b, HttpModel.http_parse_str url parse host Disallow s = Ok (u, b)) \/
  (exists p, HttpModel.http_ftp_parse_str url parse host Disallow s = Ok (u, p)) ->
  exists x, host u = Some x /\
    match x with
    | HttpModel.HDomain d => ~ localhost d /\ forall b, ~ aton d b
    | HttpModel.HIpv4 a => ~ v4_local a
    | HttpModel.HIpv6 a => ~ v6_local a
    end.
Proof.
  intros url parse host s u Ht Hn H.
  assert (X : exists h, host u = Some h /\ ~ HttpSpec.host_local h).
  { destruct H as [[b H]|[p H]]; [apply PropHttp.C54_http_accepts_exactly in H|apply PropHttp.C54_http_ftp_accepts_exactly in H]; try exact Ht;
      destruct H as (_ & _ & [E|E]); try discriminate; exact E. }
  destruct X as (x & E & L). exists x. split; [exact E|]. destruct x as [d|a|a]; [|exact L|exact L]. split; [exact L|]. intros b. exact (Hn u d b E).
Qed.

Example C112_http_example :
  let host (u : list N) := Some (HttpModel.HDomain (bs "www." ++ u)) in
  HttpSpec.host_typed host /\ (forall u d b, host u = Some (HttpModel.HDomain d) -> ~ aton d b) /\
  HttpModel.http_parse_str _ Some host Disallow (bs "http://a") = Ok (bs "http://a", false).
Proof.
  intros host. split; [intros u; exact I|]. split; [|reflexivity]. intros u d b E A. injection E as <-.
  apply aton_head in A as (c & r & E & C). injection E as <- _. unfold DIGIT in C. vm_compute in C. destruct C as [_ C]. apply C. reflexivity.
Qed.
Example C112_ip_example : valid_str (bs "8.8.8.8:53") /\
  ip_parse_str Allow Disallow (bs "8.8.8.8:53") = Ok (V4 [8; 8; 8; 8], Some 53) /\ split_port (bs "8.8.8.8:53") (bs "8.8.8.8") (Some 53) /\
  aton (bs "8.8.8.8") [8; 8; 8; 8].
Proof.
  split; [ascii_str|]. split; [vm_compute; reflexivity|]. split.
  - exists (bs "53"). split; [reflexivity|]. apply std_port_text. split; [discriminate|]. split; [|split; [reflexivity|lia]].
    unfold DIGIT. repeat (constructor; [cbn; lia|]). constructor.
  - assert (E : c_number (bs "8") 8) by (apply (cn_dec 56 []); [lia|constructor]).
    split; [split; [reflexivity|repeat constructor]|]. change (number 256 [8; 8; 8; 8]) with
      (8 * 256 ^ N.of_nat 3 + (8 * 256 ^ N.of_nat 2 + (8 * 256 ^ N.of_nat 1 + 8))).
    apply (ab_byte 3 (bs "8") (bs "8.8.8")); [exact E|lia|lia|]. apply (ab_byte 2 (bs "8") (bs "8.8")); [exact E|lia|lia|].
    apply (ab_byte 1 (bs "8") (bs "8")); [exact E|lia|lia|]. apply ab_last; [exact E|lia].
Qed.
(** 192.168.1.1 with its first number in hexadecimal is accepted where 192.168.1.1 is refused. *)
Example C112_host_example : exists v,
  host_parse_str idna_ascii (hcfg Disallow Allow Allow) (bs "0xC0.168.1.1:80") = Ok v /\ hv_host v = HDomain (bs "0xc0.168.1.1") /\
  host_parse_str idna_ascii (hcfg Disallow Allow Allow) (bs "192.168.1.1:80") = Err HoLocalDisallow /\
  domain_parse_str idna_ascii (cfg Allow Disallow Allow Allow) (bs "192.168.1.1:80") = Err DLocalDisallow.
Proof. eexists. split; [vm_compute; reflexivity|]. split; [reflexivity|]. split; vm_compute; reflexivity. Qed.

(** RFC 6761, section 6.3: every name below localhost is the local machine. None of them is kept out. *)
Lemma below_no_v4 u : ~ exists a, v4_text (u ++ bs ".localhost") a.
Proof.
  intros [a A]. apply v4_chars in A. apply Forall_app in A as [_ A]. apply Forall_inv_tail, Forall_inv in A.
  unfold v4_char in A. vm_compute in A. destruct A as [_ A]. apply A. reflexivity.
Qed.

Lemma below_lower u : List.map lower (u ++ bs ".localhost") = List.map lower u ++ bs ".localhost".
Proof. rewrite map_app. reflexivity. Qed.

Lemma below_not_localhost u : ~ localhost (u ++ bs ".localhost").
Proof.
  intros (t & [E|E] & X).
  - rewrite <- E, map_app in X. apply (f_equal (@List.length N)) in X. rewrite app_length in X. cbn in X. lia.
  - change (bs ".localhost") with (bs ".localhos" ++ [116]) in E. rewrite app_assoc in E. apply app_inj_tail in E as [_ E]. discriminate E.
Qed.

Theorem C112_below_localhost : forall idna u, idna_dns idna -> dns_name (u ++ bs ".localhost") ->
  (forall c, h_port c <> Must -> h_local c = Disallow -> h_two c <> Disallow ->
     exists v, host_parse_str idna c (u ++ bs ".localhost") = Ok v /\ hv_host v = HDomain (List.map lower u ++ bs ".localhost")) /\
  (forall c, d_port c <> Must -> d_local c = Disallow -> d_ipv4 c <> Must -> d_two c <> Disallow ->
     exists v, domain_parse_str idna c (u ++ bs ".localhost") = Ok v /\ dv_domain v = List.map lower u ++ bs ".localhost") /\
  (forall prof c l, dot_atom (e_non_ascii c) l -> (List.length l <= 64)%nat -> valid_str (l ++ [64] ++ u ++ bs ".localhost") ->
     e_ip c <> Must -> e_local c = Disallow -> e_two c <> Disallow ->
     exists v, email_parse_str idna prof c (l ++ [64] ++ u ++ bs ".localhost") = Ok v /\
               ev_domain v = HDomain (List.map lower u ++ bs ".localhost")).
Proof.
  intros idna u Hi D. set (h := u ++ bs ".localhost") in *.
  assert (LW : List.map lower h = List.map lower u ++ bs ".localhost") by apply below_lower. rewrite <- LW.
  assert (N : ~ IPv4address h) by (intros X; apply v4_iff in X; exact (below_no_v4 _ X)).
  assert (NL : ~ localhost (List.map lower h)) by (rewrite LW; apply below_not_localhost).
  assert (ND : ~ domain_local (List.map lower h)).
  { rewrite LW. intros [X|(a & (t & Et & X) & _)]; [exact (below_not_localhost _ X)|]. destruct Et as [Et|Et].
    - rewrite <- Et in X. apply (below_no_v4 (List.map lower u)). exists a. exact X.
    - change (bs ".localhost") with (bs ".localhos" ++ [116]) in Et. rewrite app_assoc in Et. apply app_inj_tail in Et as [_ Et]. discriminate Et. }
  assert (P : forall t, t <> Must -> port_ok t None) by (intros [] X; [congruence|exact I|reflexivity]).
  assert (W : forall t, t <> Disallow -> two_ok t False h).
  { intros [] X; [|exact I|congruence]. right. exists u, (bs "localhost"). split; [reflexivity|discriminate]. }
  split; [|split].
  - intros c HP HL H2. destruct (C111_authority idna c h h None (HDomain (List.map lower h)) Hi) as (v & E & X & _).
    + split; [right; right; exact D|reflexivity].
    + split; [exact D|]. auto.
    + exact (P _ HP).
    + rewrite HL. exact ND.
    + exact (two_lower _ _ (W _ H2) _).
    + exists v. auto.
  - intros c HP HL H4 H2. destruct (C111_domain idna c h h None Hi D N eq_refl (P _ HP) H4) as (v & E & X & _).
    + rewrite HL. exact NL.
    + exact (two_lower _ _ (W _ H2) _).
    + exists v. auto.
  - intros prof c l DA L64 V HI HL H2.
    destruct (C111_mailbox_partial idna prof c (l ++ [64] ++ h) l h (HDomain (List.map lower h)) Hi V) as (v & E & _ & X & _).
    + split; [reflexivity|]. split; [left; exact DA|left; exact (dns_sub _ D)].
    + exact L64.
    + destruct D as [_ D]. lia.
    + intros q E. exfalso. apply (PropMailbox.dot_atom_no _ _ 34 DA); [cbn; tauto|]. rewrite E. left. reflexivity.
    + split; [exact D|reflexivity].
    + destruct (e_ip c); [contradiction|exact I|exact I].
    + rewrite HL. exact NL.
    + exact (two_lower _ _ (W _ H2) _).
    + exists v. auto.
Qed.

Theorem C112_http_below_localhost : forall url parse (host : url -> option HttpModel.url_host) s u d, HttpSpec.host_typed host ->
  parse s = Some u -> host u = Some (HttpModel.HDomain (d ++ bs ".localhost")) ->
  (HttpSpec.has_scheme (bs "http") s -> HttpModel.http_parse_str url parse host Disallow s = Ok (u, false)) /\
  (HttpSpec.has_scheme (bs "https") s -> HttpModel.http_parse_str url parse host Disallow s = Ok (u, true)) /\
  (HttpSpec.has_scheme (bs "ftp") s -> HttpModel.http_ftp_parse_str url parse host Disallow s = Ok (u, HttpModel.FTP)).
Proof.
  intros url parse host s u d Ht P H.
  assert (L : exists h, host u = Some h /\ local_ok Disallow (HttpSpec.host_local h)).
  { exists (HttpModel.HDomain (d ++ bs ".localhost")). split; [exact H|]. exact (below_not_localhost d). }
  split; [|split]; intros S.
  - apply PropHttp.C54_http_accepts_exactly; [exact Ht|]. split; [exact S|]. split; [exact P|right; exact L].
  - apply PropHttp.C54_http_accepts_exactly; [exact Ht|]. split; [exact S|]. split; [exact P|right; exact L].
  - apply PropHttp.C54_http_ftp_accepts_exactly; [exact Ht|]. split; [exact S|]. split; [exact P|right; exact L].
Qed.

(** One such name, with the strictest settings there are. *)
Theorem C112_below_localhost_refuted : exists h, h = bs "a.localhost" /\ dns_name h /\
  forall idna, idna_dns idna ->
    is_ok (host_parse_str idna (hcfg Disallow Disallow Must) h) /\
    is_ok (domain_parse_str idna (cfg Disallow Disallow Disallow Must) h) /\
    forall prof, is_ok (email_parse_str idna prof (ecfg false Disallow Disallow Must false) (bs "a@" ++ h)).
Proof.
  exists (bs "a.localhost"). split; [reflexivity|].
  assert (D : dns_name (bs "a.localhost")).
  { split; [|cbn; lia]. change (bs "a.localhost") with ([97] ++ [46] ++ [108; 111; 99; 97; 108; 104; 111; 115; 116]).
    assert (LD : forall l, (1 <= List.length l <= 63)%nat -> Forall let_dig l -> dns_label l) by exact let_dig_label.
    apply dl_dot; [|apply dl_one]; apply LD; try (cbn; lia); repeat (constructor; [unfold let_dig, DIGIT; lia|]); constructor. }
  split; [exact D|]. intros idna Hi. destruct (C112_below_localhost idna [97] Hi D) as (A & B & C). split; [|split].
  - destruct (A (hcfg Disallow Disallow Must)) as (v & E & _); try discriminate; try reflexivity. exists v. exact E.
  - destruct (B (cfg Disallow Disallow Disallow Must)) as (v & E & _); try discriminate; try reflexivity. exists v. exact E.
  - intros prof. destruct (C prof (ecfg false Disallow Disallow Must false) [97]) as (v & E & _); try discriminate; try reflexivity.
    + apply da_run; [discriminate|]. constructor; [left; apply atext_spec; reflexivity|constructor].
    + cbn. lia.
    + ascii_str.
    + exists v. exact E.
Qed.

Print Assumptions C112_ip.
Print Assumptions C112_host_partial.
Print Assumptions C112_domain_partial.
Print Assumptions C112_other_spellings.
Print Assumptions C112_email_spellings.
Print Assumptions C112_local_refuted.
Print Assumptions C112_http.
Print Assumptions C112_below_localhost.
Print Assumptions C112_http_below_localhost.
Print Assumptions C112_below_localhost_refuted.
