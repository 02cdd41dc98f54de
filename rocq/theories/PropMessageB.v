(** Property C88, continued: messages of the range validators, and messages and responses as names of errors. *)
From Verif Require Import Base RangeModel IntStr IntStrProofs IntModel IntSpec IntProofs PropInt SizeModel MessageModel.
From Verif Require BaseModel BooleanModel DomainModel EmailModel HostModel IpModel JsonModel LengthModel LineModel MacModel NumberModel
  PhoneModel HttpModel.
Local Open Scope Z_scope.

Lemma acc_pos_errors hi : forall ds r e, acc_pos hi ds r = Err e -> 0 <= r ->
  (e = IInvalidDigit /\ ~ Forall is_digit ds) \/ (e = IPosOverflow /\ (Forall is_digit ds -> hi < dval ds r)).
Proof.
  induction ds as [|c ds IH]; cbn [acc_pos]; intros r e H R; [discriminate|].
  destruct (digit c) as [d|] eqn:D.
  - apply digit_Some in D. destruct D as [D ->]. unfold is_digit in D.
    assert (M : Forall is_digit (c :: ds) -> 10 * r + (Z.of_N c - 48) <= dval (c :: ds) r).
    { intros F. inversion F; subst. cbn [dval]. apply dval_mono; [assumption|lia]. }
    destruct (hi <? r * 10) eqn:A; [injection H as <-; right; split; [reflexivity|intros F; apply M in F; lia]|].
    destruct (hi <? r * 10 + (Z.of_N c - 48)) eqn:B; [injection H as <-; right; split; [reflexivity|intros F; apply M in F; lia]|].
    apply IH in H; [|lia]. destruct H as [[-> H]|[-> H]].
    + left. split; [reflexivity|]. intros F. inversion F; subst. auto.
    + right. split; [reflexivity|]. intros F. inversion F; subst. cbn [dval]. replace (10 * r + (Z.of_N c - 48)) with (r * 10 + (Z.of_N c - 48)) by lia. auto.
  - injection H as <-. left. split; [reflexivity|]. intros F. inversion F; subst. apply digit_None in D. auto.
Qed.

Lemma acc_neg_errors lo : forall ds r e, acc_neg lo ds r = Err e -> r <= 0 ->
  (e = IInvalidDigit /\ ~ Forall is_digit ds) \/ (e = INegOverflow /\ (Forall is_digit ds -> - dval ds (- r) < lo)).
Proof.
  induction ds as [|c ds IH]; cbn [acc_neg]; intros r e H R; [discriminate|].
  destruct (digit c) as [d|] eqn:D.
  - apply digit_Some in D. destruct D as [D ->]. unfold is_digit in D.
    assert (M : Forall is_digit (c :: ds) -> 10 * - r + (Z.of_N c - 48) <= dval (c :: ds) (- r)).
    { intros F. inversion F; subst. cbn [dval]. apply dval_mono; [assumption|lia]. }
    destruct (r * 10 <? lo) eqn:A; [injection H as <-; right; split; [reflexivity|intros F; apply M in F; lia]|].
    destruct (r * 10 - (Z.of_N c - 48) <? lo) eqn:B; [injection H as <-; right; split; [reflexivity|intros F; apply M in F; lia]|].
    apply IH in H; [|lia]. destruct H as [[-> H]|[-> H]].
    + left. split; [reflexivity|]. intros F. inversion F; subst. auto.
    + right. split; [reflexivity|]. intros F. inversion F; subst. cbn [dval].
      replace (10 * - r + (Z.of_N c - 48)) with (- (r * 10 - (Z.of_N c - 48))) by lia. auto.
  - injection H as <-. left. split; [reflexivity|]. intros F. inversion F; subst. apply digit_None in D. auto.
Qed.

Lemma from_str_errors lo hi s e : int_from_str lo hi s = Err e -> lo <= 0 ->
  match e with
  | IEmpty => s = []
  | IInvalidDigit => s <> [] /\ forall z, ~ denotes_int (lo <? 0) s z
  | IPosOverflow => forall z, denotes_int (lo <? 0) s z -> hi < z
  | INegOverflow => forall z, denotes_int (lo <? 0) s z -> z < lo
  end.
Proof.
  intros H L.
  assert (P : forall ds, acc_pos hi ds 0 = Err e -> e <> IEmpty /\ e <> INegOverflow /\
    forall z, denotes_digits ds z -> e <> IInvalidDigit /\ (e = IPosOverflow -> hi < z)).
  { intros ds X. apply acc_pos_errors in X; [|lia]. destruct X as [[-> X]|[-> X]]; repeat split; try discriminate; intros;
      match goal with D : denotes_digits _ _ |- _ => apply denotes_digits_iff in D; destruct D as (_ & D & ->) end; auto.
  }
  assert (G : forall ds, acc_neg lo ds 0 = Err e -> e <> IEmpty /\ e <> IPosOverflow /\
    forall z, denotes_digits ds z -> e <> IInvalidDigit /\ (e = INegOverflow -> - z < lo)).
  { intros ds X. apply acc_neg_errors in X; [|lia]. destruct X as [[-> X]|[-> X]]; repeat split; try discriminate; intros;
      match goal with D : denotes_digits _ _ |- _ => apply denotes_digits_iff in D; destruct D as (_ & D & ->) end; auto. }
  unfold int_from_str in H. destruct s as [|c s]; [injection H as <-; reflexivity|].
  assert (NE : forall ds z, denotes_digits ds z -> ds <> []).
  { intros ds z D. apply denotes_digits_iff in D. tauto. }
  destruct s as [|c' s].
  - destruct ((c =? 43) || (c =? 45))%N%bool eqn:S.
    + injection H as <-. split; [discriminate|]. intros z D. apply orb_true_iff in S. rewrite !N.eqb_eq in S.
      inversion D as [ds v D' E1 E2|ds v D' E1 E2|ds v X D' E1 E2]; subst.
      * apply digits_not_sign in D'. tauto.
      * apply NE in D'. congruence.
      * apply NE in D'. congruence.
    + apply orb_false_iff in S. rewrite !N.eqb_neq in S. destruct (P _ H) as (P1 & P2 & P3).
      assert (Q : forall z, denotes_int (lo <? 0) [c] z -> denotes_digits [c] z).
      { intros z D. inversion D as [ds v D' E1 E2|ds v D' E1 E2|ds v X D' E1 E2]; subst; [assumption| |]; tauto. }
      destruct e; try congruence.
      * split; [discriminate|]. intros z D. apply Q, P3 in D. tauto.
      * intros z D. apply Q, P3 in D. tauto.
  - destruct (c =? 43)%N eqn:S.
    + apply N.eqb_eq in S. subst c. destruct (P _ H) as (P1 & P2 & P3).
      assert (Q : forall z, denotes_int (lo <? 0) (43%N :: c' :: s) z -> denotes_digits (c' :: s) z).
      { intros z D. inversion D as [ds v D' E1 E2|ds v D' E1 E2|ds v X D' E1 E2]; subst; [|assumption].
        apply digits_not_sign in D'. tauto. }
      destruct e; try congruence.
      * split; [discriminate|]. intros z D. apply Q, P3 in D. tauto.
      * intros z D. apply Q, P3 in D. tauto.
    + destruct ((c =? 45)%N && (lo <? 0))%bool eqn:T.
      * apply andb_true_iff in T. destruct T as [T U]. apply N.eqb_eq in T. subst c. destruct (G _ H) as (P1 & P2 & P3).
        assert (Q : forall z, denotes_int (lo <? 0) (45%N :: c' :: s) z -> exists v, z = - v /\ denotes_digits (c' :: s) v).
        { intros z D. inversion D as [ds v D' E1 E2|ds v D' E1 E2|ds v X D' E1 E2]; subst; [|eauto].
          apply digits_not_sign in D'. tauto. }
        destruct e; try congruence.
        -- split; [discriminate|]. intros z D. apply Q in D. destruct D as (v & -> & D). apply P3 in D. tauto.
        -- intros z D. apply Q in D. destruct D as (v & -> & D). apply P3 in D. tauto.
      * destruct (P _ H) as (P1 & P2 & P3). apply N.eqb_neq in S.
        assert (Q : forall z, denotes_int (lo <? 0) (c :: c' :: s) z -> denotes_digits (c :: c' :: s) z).
        { intros z D. inversion D as [ds v D' E1 E2|ds v D' E1 E2|ds v X D' E1 E2]; subst; [assumption|congruence|].
          rewrite X, N.eqb_refl in T. discriminate. }
        destruct e; try congruence.
        -- split; [discriminate|]. intros z D. apply Q, P3 in D. tauto.
        -- intros z D. apply Q, P3 in D. tauto.
Qed.

(** C88. An integer given as text: each of the seven messages says what is wrong with it. *)
Theorem C88_integer : forall sg pw t r s e, ~ degenerate sg pw t r -> int_parse_str sg pw t r s = Err e ->
  (int_message e = bs "cannot parse integer from empty string" /\ s = []) \/
  (int_message e = bs "invalid digit found in string" /\ s <> [] /\ forall z, ~ denotes_int sg s z) \/
  (int_message e = bs "number too large to fit in target type" /\ forall z, denotes_int sg s z -> above_type sg pw t z) \/
  (int_message e = bs "number too small to fit in target type" /\ forall z, denotes_int sg s z -> below_type sg pw t z) \/
  exists z, denotes_int sg s z /\ fits sg pw t z /\
    ((int_message e = bs "integer is too small" /\ exists m max incl, r = Inside (Some m) max incl /\ z < m) \/
     (int_message e = bs "integer is too large" /\ exists min m incl, r = Inside min (Some m) incl /\ if incl then m < z else m <= z) \/
     (int_message e = bs "integer is forbidden" /\ exists min max incl, r = Outside min max incl /\ in_bounds min max incl z)).
Proof.
  intros sg pw t r s e ND H. unfold int_parse_str, v_parse_str in H.
  pose proof (min_max sg pw t) as M.
  destruct (int_from_str (int_min sg pw t) (int_max sg pw t) s) as [z|e'|] eqn:F; cbn [omap_err obind] in H; [| |discriminate].
  - apply int_from_str_spec in F; [|exact M]. rewrite sg_min in F. destruct F as [F1 F2].
    pose proof (v_parse_i_spec sg pw t r z ND) as V.
    destruct (v_parse_i sg pw t r z) as [u|e'|]; cbn [obind] in H; try discriminate. injection H as ->.
    do 4 right. exists z. split; [exact F1|]. split; [apply fits_iff; exact F2|].
    destruct e; [destruct V| | |].
    + right. left. destruct V as (mn & mx & i & m & -> & -> & V & _). split; [reflexivity|]. eauto.
    + left. destruct V as (mn & mx & i & m & -> & -> & V). split; [reflexivity|]. eauto.
    + right. right. destruct V as (mn & mx & i & -> & V). split; [reflexivity|]. eauto.
  - injection H as <-. apply from_str_errors in F; [|lia]. rewrite sg_min in F. destruct e'.
    + left. split; [reflexivity|exact F].
    + right. left. split; [reflexivity|exact F].
    + do 2 right. left. split; [reflexivity|]. intros z D j J. apply F in D. apply fits_iff in J. lia.
    + do 3 right. left. split; [reflexivity|]. intros z D j J. apply F in D. apply fits_iff in J. lia.
Qed.
Print Assumptions C88_integer.

(** C88 is refuted as far as the same number given as text and given as an integer should be answered alike: a number outside the
    field type has other words, and a negative number given to an unsigned validator is "invalid digit found in string". *)
Theorem C88_same_words_refuted :
  (exists sg pw t m z e e', fits sg pw m z /\ int_parse_str sg pw t Unlimited (dec_of_Z z) = Err e /\
     int_parse sg pw t Unlimited m z = Err e' /\ int_message e <> int_message e') /\
  (exists pw t z, below_type false pw t z /\ int_parse_str false pw t Unlimited (dec_of_Z z) = Err (ParseInt IInvalidDigit)).
Proof.
  split.
  - exists true, W64, I8, I64, 300, (ParseInt IPosOverflow), TooLarge. split; [cbn; lia|]. split; [vm_compute; reflexivity|].
    split; [vm_compute; reflexivity|]. intros X. vm_compute in X. discriminate.
  - exists W64, I8, (-1). split; [|vm_compute; reflexivity]. intros j J. cbn in J. lia.
Qed.
Print Assumptions C88_same_words_refuted.

(** Within an error type the message names the error. *)
Definition names {E} (message : E -> list N) : Prop := forall e e', message e = message e' -> e = e'.
(** The text of a wrapped error differs from the texts of the other errors [es]. *)
Definition apart {E} (lib : list N) (message : E -> list N) (es : list E) : Prop := forall e, In e es -> message e <> lib.

Ltac by_text := let e := fresh in let e' := fresh in let H := fresh in
  intros e e' H; destruct e, e'; try reflexivity; exfalso; vm_compute in H; discriminate.

(** C88. The message determines the error, for every error type of the crate. *)
Theorem C88_distinct :
  (forall f, names (base_message f)) /\ names bool_message /\ names domain_message /\ names email_message /\ names host_message /\
  (forall k, names (ip_message k)) /\ names length_message /\ (forall k, names (line_message k)) /\
  (forall m, names (hex_message m)) /\ names int_message.
Proof.
  repeat split; try by_text.
  - intros f e e' H. destruct f, e, e'; try reflexivity; exfalso; vm_compute in H; discriminate.
  - intros k e e' H. destruct k, e, e'; try reflexivity; exfalso; vm_compute in H; discriminate.
  - intros k e e' H. destruct k, e, e'; try reflexivity; exfalso; vm_compute in H; discriminate.
  - intros m e e' H. destruct m, e, e'; try reflexivity; exfalso; vm_compute in H; discriminate.
  - intros e e' H. destruct e as [[]| | |], e' as [[]| | |]; try reflexivity; exfalso; vm_compute in H; discriminate.
Qed.
Print Assumptions C88_distinct.

(** C88. ... and so for the types that wrap an error of another library, unless that library's text is one of the type's own. *)
Theorem C88_distinct_wrapped : forall lib,
  (forall b, apart lib (size_message lib b) [STooLarge; STooSmall] -> names (size_message lib b)) /\
  (forall ftp, apart lib (http_message lib ftp) [HttpModel.HProtocolError; HttpModel.HLocalMust; HttpModel.HLocalDisallow] ->
     names (http_message lib ftp)) /\
  (apart lib (json_message lib) [JsonModel.InvalidJsonValueError] -> names (json_message lib)) /\
  (apart lib (number_message lib) [NumberModel.NTooLarge; NumberModel.NTooSmall; NumberModel.NForbidden; NumberModel.NaNMust;
     NumberModel.NaNDisallow] -> names (number_message lib)).
Proof.
  intros lib. repeat split.
  - intros b A e e' H. pose proof (A STooLarge (or_introl eq_refl)) as X. pose proof (A STooSmall (or_intror (or_introl eq_refl))) as Y.
    clear A. cbn [size_message] in X, Y. destruct e, e'; try reflexivity; exfalso; cbn [size_message] in H;
      try (apply X; congruence); try (apply Y; congruence); destruct b; vm_compute in H; discriminate.
  - intros ftp A e e' H. pose proof (A HttpModel.HProtocolError ltac:(cbn; tauto)) as X.
    pose proof (A HttpModel.HLocalMust ltac:(cbn; tauto)) as Y. pose proof (A HttpModel.HLocalDisallow ltac:(cbn; tauto)) as Z0. clear A.
    cbn [http_message] in X, Y, Z0. destruct e, e'; try reflexivity; exfalso; cbn [http_message] in H;
      try (apply X; congruence); try (apply Y; congruence); try (apply Z0; congruence); destruct ftp; vm_compute in H; discriminate.
  - intros A e e' H. pose proof (A JsonModel.InvalidJsonValueError ltac:(cbn; tauto)) as X. cbn [json_message] in X.
    destruct e, e'; try reflexivity; exfalso; cbn [json_message] in H; apply X; congruence.
  - intros A e e' H.
    pose proof (A NumberModel.NTooLarge ltac:(cbn; tauto)) as X1. pose proof (A NumberModel.NTooSmall ltac:(cbn; tauto)) as X2.
    pose proof (A NumberModel.NForbidden ltac:(cbn; tauto)) as X3. pose proof (A NumberModel.NaNMust ltac:(cbn; tauto)) as X4.
    pose proof (A NumberModel.NaNDisallow ltac:(cbn; tauto)) as X5. clear A. cbn [number_message] in X1, X2, X3, X4, X5.
    destruct e, e'; try reflexivity; exfalso; cbn [number_message] in H;
      try (apply X1; congruence); try (apply X2; congruence); try (apply X3; congruence); try (apply X4; congruence); try (apply X5; congruence);
      vm_compute in H; discriminate.
Qed.
Print Assumptions C88_distinct_wrapped.

(** C88. The texts that core gives a float that does not parse are apart from those of number. *)
Theorem C88_number_core : forall lib,
  lib = bs "cannot parse float from empty string" \/ lib = bs "invalid float literal" -> names (number_message lib).
Proof.
  intros lib L. apply (C88_distinct_wrapped lib). intros e I H. cbn [In] in I.
  destruct L as [-> | ->]; repeat (destruct I as [<-|I]; [vm_compute in H; discriminate|]); destruct I.
Qed.
Print Assumptions C88_number_core.

(** C88. A handler that returns the error of a validator: the status is that of a bad request whatever the error, and two inputs
    get the same response exactly when they are refused for the same reason. *)
Theorem C88_responses : forall E A (message : E -> list N) (parse : list N -> outcome E A) s s' e e', names message ->
  parse s = Err e -> parse s' = Err e' ->
  fst (into_response message e) = 400%N /\
  (into_response message e = into_response message e' <-> parse s = parse s').
Proof.
  intros E A message parse s s' e e' M H H'. split; [reflexivity|]. unfold into_response. rewrite H, H'. split; intros X.
  - injection X as X. apply M in X. congruence.
  - congruence.
Qed.
Print Assumptions C88_responses.

(** The number, read for the country asked, is a valid number of it. *)
Definition is_for {cid phone} (cid_eqb : cid -> cid -> bool) (pn_country : phone -> option cid) (pn_valid : phone -> bool)
    (c : option cid) (p : phone) : Prop :=
  pn_valid p = true /\ match c with None => True | Some c => exists id, pn_country p = Some id /\ cid_eqb id c = true end.

(** C88. phone: either the text is that of the library for one of the countries, or it says that the number is invalid, and then
    the library reads the number for every country and it is a valid number of none. *)
Theorem C88_phone : forall cid cid_eqb phone perr pn_parse pn_country pn_valid (lib : perr -> list N) cs s e,
  PhoneModel.phone_parse_str cid cid_eqb phone perr pn_parse pn_country pn_valid cs s = Err e ->
  let asked := match cs with [] => [None] | _ => List.map (@Some cid) cs end in
  (exists c x, In c asked /\ pn_parse c s = inr x /\ phone_message lib e = lib x) \/
  (phone_message lib e = bs "invalid phone number" /\
   forall c, In c asked -> exists p : phone, pn_parse c s = inl p /\ ~ is_for cid_eqb pn_country pn_valid c p).
Proof.
  intros cid cid_eqb phone perr pn_parse pn_country pn_valid lib cs s e H. cbv zeta.
  unfold PhoneModel.phone_parse_str in H.
  assert (M : forall c p, PhoneModel.p_matches cid cid_eqb phone pn_country pn_valid c p = true <-> is_for cid_eqb pn_country pn_valid (Some c) p).
  { intros c p. unfold PhoneModel.p_matches, is_for. destruct (pn_country p) as [id|].
    - rewrite andb_true_iff. split; [intros [A B]; split; [exact B|exists id; auto]|intros [A (i & E & B)]; injection E as <-; auto].
    - split; [discriminate|intros [_ (i & E & _)]; discriminate]. }
  destruct cs as [|c [|c2 cs]].
  - cbn [PhoneModel.phone_v_parse_str] in H. unfold PhoneModel.phone_v_any, PhoneModel.p_parse in H.
    destruct (pn_parse None s) as [p|x] eqn:E; cbn [obind omap] in H.
    + destruct (pn_valid p) eqn:V; cbn [obind omap] in H; [discriminate|]. injection H as <-. right. split; [reflexivity|].
      intros c [<-|[]]. exists p. split; [exact E|]. intros [X _]. congruence.
    + injection H as <-. left. exists None, x. split; [left; reflexivity|]. split; [exact E|reflexivity].
  - cbn [PhoneModel.phone_v_parse_str] in H. unfold PhoneModel.phone_v_one, PhoneModel.p_parse in H.
    destruct (pn_parse (Some c) s) as [p|x] eqn:E; cbn [obind omap] in H.
    + destruct (PhoneModel.p_matches _ _ _ _ _ c p) eqn:V; cbn [obind omap] in H; [discriminate|]. injection H as <-. right. split; [reflexivity|].
      intros c' [<-|[]]. exists p. split; [exact E|]. rewrite <- M. congruence.
    + injection H as <-. left. exists (Some c), x. split; [left; reflexivity|]. split; [exact E|reflexivity].
  - change (PhoneModel.phone_v_parse_str cid cid_eqb phone perr pn_parse pn_country pn_valid (c :: c2 :: cs) s) with
      (omap (@PhoneModel.PMany cid phone) (PhoneModel.phone_v_many cid cid_eqb phone perr pn_parse pn_country pn_valid (c :: c2 :: cs) s)) in H.
    set (l := c :: c2 :: cs) in *. change (match l with [] => [None] | _ :: _ => List.map (@Some cid) l end) with (List.map (@Some cid) l).
    clearbody l. unfold PhoneModel.phone_v_many in H.
    assert (L : forall l m, (exists c x, In c (List.map (@Some cid) l) /\ pn_parse c s = inr x /\
                  PhoneModel.phone_v_loop cid cid_eqb phone perr pn_parse pn_country pn_valid l s m = Err (PhoneModel.PParseError x)) \/
                (exists m', PhoneModel.phone_v_loop cid cid_eqb phone perr pn_parse pn_country pn_valid l s m = Ok m' /\
                  (m' = [] -> m = [] /\ forall c, In c (List.map (@Some cid) l) -> exists p, pn_parse c s = inl p /\
                                 ~ is_for cid_eqb pn_country pn_valid c p))).
    { induction l0 as [|a l0 IH]; intros m; cbn [PhoneModel.phone_v_loop].
      - right. exists m. split; [reflexivity|]. intros ->. split; [reflexivity|]. intros ? [].
      - unfold PhoneModel.p_parse. destruct (pn_parse (Some a) s) as [p|x] eqn:E; cbn [obind].
        + destruct (IH (if PhoneModel.p_matches cid cid_eqb phone pn_country pn_valid a p then PhoneModel.map_insert cid cid_eqb phone a p m else m))
            as [(c' & x & I & P & R)|(m' & R & K)].
          * left. exists c', x. split; [right; exact I|]. auto.
          * right. exists m'. split; [exact R|]. intros X. destruct (K X) as [Y Z0].
            destruct (PhoneModel.p_matches cid cid_eqb phone pn_country pn_valid a p) eqn:V; [discriminate Y|].
            split; [exact Y|]. intros c' [<-|I]; [|apply Z0, I]. exists p. split; [exact E|]. rewrite <- M. congruence.
        + left. exists (Some a), x. split; [left; reflexivity|]. split; [exact E|reflexivity]. }
    destruct (L l []) as [(c' & x & I & P & R)|(m' & R & K)]; rewrite R in H; cbn [obind omap] in H.
    + injection H as <-. left. exists c', x. split; [exact I|]. split; [exact P|reflexivity].
    + destruct m' as [|e0 m']; [|discriminate]. cbn [obind omap] in H. injection H as <-. right. split; [reflexivity|]. apply K. reflexivity.
Qed.
Print Assumptions C88_phone.

Example C88_example_b :
  ~ degenerate true W64 I8 (Inside (Some 5) (Some 6) false) /\
  int_parse_str true W64 I8 (Inside (Some 5) (Some 6) false) (bs "4") = Err TooSmall /\
  int_parse_str true W64 I8 (Inside (Some 5) (Some 6) false) (bs "-129") = Err (ParseInt INegOverflow) /\
  int_parse_str false W64 I8 Unlimited (bs "300x") = Err (ParseInt IPosOverflow) /\
  apart (bs "the value is not a number") (size_message (bs "the value is not a number") true) [STooLarge; STooSmall] /\
  into_response int_message TooSmall = (400%N, bs "integer is too small") /\
  into_response (fun _ : unit => regex_message) tt = (400%N, bs "invalid format") /\
  (let parse := fun (c : option bool) (s : list N) => match s with [] => inr (bs "empty") | _ => inl s end in
   let run := fun s => PhoneModel.phone_parse_str bool Bool.eqb (list N) (list N) parse (fun _ => Some true) (fun s => match s with [_] => false | _ => true end) in
   (run tt [true; false] [] = Err (PhoneModel.PParseError (bs "empty"))) /\ run tt [true; false] [48%N] = Err PhoneModel.PInvalid /\
   run tt [false] (bs "12") = Err PhoneModel.PInvalid).
Proof.
  split; [intros [[i H]|(? & ? & ? & ? & H & _)]; discriminate|]. repeat split; try (vm_compute; reflexivity).
  intros e [<-|[<-|[]]] H; vm_compute in H; discriminate.
Qed.
