(** The ip validators accept exactly the described texts. *)
From Verif Require Import Base IntStr IntStrProofs MacModel MacSpec MacProofs NetModel NetSpec NetProofs
  IpModel IpSpec LocalProofs Utf8 StrFacts.
Local Open Scope N_scope.

Lemma parse_u16_spec s p : parse_u16 s = Some p <-> port_text s p.
Proof.
  unfold parse_u16, port_text. split.
  - destruct (int_from_str 0 65535 s) as [z| |] eqn:E; try discriminate. intros H. injection H as <-.
    apply int_from_str_spec in E as [H1 H2]; [|lia]. rewrite Z2N.id by lia. split; [exact H1|lia].
  - intros [H1 H2]. assert (E : int_from_str 0 65535 s = Ok (Z.of_N p)).
    { apply int_from_str_spec; [lia|]. split; [exact H1|lia]. }
    rewrite E, N2Z.id. reflexivity.
Qed.

Lemma port_text_chars q p : port_text q p -> q <> [] /\ Forall (fun c => 48 <= c <= 57 \/ c = 43) q.
Proof.
  intros [H _].
  assert (X : forall ds v, denotes_digits ds v -> ds <> [] /\ Forall (fun c => 48 <= c <= 57 \/ c = 43) ds).
  { intros ds v Hd. apply denotes_digits_iff in Hd as (Hne & Hf & _). split; [exact Hne|].
    eapply Forall_impl; [|exact Hf]. intros c Hc. left. exact Hc. }
  inversion H as [ds v Hd|ds v Hd|ds v Hs Hd]; try discriminate.
  - exact (X _ _ Hd).
  - apply X in Hd as [_ Hd]. split; [discriminate|]. constructor; [right; reflexivity|exact Hd].
Qed.

Lemma port_text_not_in q p c : port_text q p -> 57 < c -> ~ In c q.
Proof.
  intros H Hc Hi. apply port_text_chars in H as [_ H]. rewrite Forall_forall in H. specialize (H c Hi). lia.
Qed.

Lemma dec_port_text p : p <= 65535 -> port_text (dec_of_N p) p.
Proof. intros H. split; [|exact H]. apply di_plain. apply dec_of_N_denotes. Qed.

(** Which bytes occur in address texts. *)
Lemma digit_range radix c d : to_digit radix c = Some d -> 48 <= c <= 57 \/ 65 <= c <= 70 \/ 97 <= c <= 102.
Proof.
  unfold to_digit. destruct (hex_digit AnyCase c) as [e|] eqn:E; [|discriminate]. intros _.
  unfold hex_digit in E.
  repeat match type of E with context [if ?x then _ else _] => destruct x eqn:? end; try discriminate; lia.
Qed.

Definition v4_char (c : N) : Prop := 46 <= c <= 57.
Definition v6_char (c : N) : Prop := 46 <= c <= 58 \/ 65 <= c <= 70 \/ 97 <= c <= 102.

Lemma digit10_range c d : to_digit 10 c = Some d -> 48 <= c <= 57.
Proof.
  unfold to_digit. destruct (hex_digit AnyCase c) as [e|] eqn:E; [|discriminate].
  unfold hex_digit in E. destruct (N.ltb_spec e 10); [|discriminate]. intros _.
  repeat match type of E with context [if ?x then _ else _] => destruct x eqn:? end; try discriminate;
    try (injection E as <-); lia.
Qed.

Lemma octet_chars ds n : octet ds n -> Forall v4_char ds.
Proof.
  intros (H & _). apply numeral_digits in H. eapply Forall_impl; [|exact H]. intros c [d Hd].
  apply digit10_range in Hd. unfold v4_char. lia.
Qed.

Lemma v4_chars s a : v4_text s a -> Forall v4_char s.
Proof.
  intros (d1 & d2 & d3 & d4 & n1 & n2 & n3 & n4 & O1 & O2 & O3 & O4 & -> & ->).
  apply octet_chars in O1, O2, O3, O4.
  assert (D : v4_char 46) by (unfold v4_char; lia).
  repeat (apply Forall_app; split; try assumption; try (constructor; [exact D|constructor])).
Qed.

Lemma h16_chars ds n : h16 ds n -> Forall v6_char ds.
Proof.
  intros (H & _). apply numeral_digits in H. eapply Forall_impl; [|exact H]. intros c [d Hd].
  apply digit_range in Hd. unfold v6_char. lia.
Qed.

Lemma groups_chars b s l : groups b s l -> Forall v6_char s.
Proof.
  induction 1 as [d n Hd|s n1 n2 n3 n4 Hb Hv|d n s l Hd Hg IH].
  - exact (h16_chars _ _ Hd).
  - apply v4_chars in Hv. eapply Forall_impl; [|exact Hv]. intros c Hc. unfold v4_char, v6_char in *. lia.
  - apply Forall_app. split; [exact (h16_chars _ _ Hd)|]. constructor; [unfold v6_char; lia|exact IH].
Qed.

Lemma v6_chars s a : v6_text s a -> Forall v6_char s.
Proof.
  intros [[H _]|(h & t & lh & lt & -> & Hh & Ht & _)].
  - exact (groups_chars _ _ _ H).
  - apply Forall_app. split.
    + destruct Hh as [[-> _]|Hh]; [constructor|exact (groups_chars _ _ _ Hh)].
    + cbn [app]. constructor; [unfold v6_char; lia|]. constructor; [unfold v6_char; lia|].
      destruct Ht as [[-> _]|Ht]; [constructor|exact (groups_chars _ _ _ Ht)].
Qed.

Lemma v4_not_in s a c : v4_text s a -> ~ v4_char c -> ~ In c s.
Proof. intros H Hc Hi. apply v4_chars in H. rewrite Forall_forall in H. exact (Hc (H c Hi)). Qed.
Lemma v6_not_in s a c : v6_text s a -> ~ v6_char c -> ~ In c s.
Proof. intros H Hc Hi. apply v6_chars in H. rewrite Forall_forall in H. exact (Hc (H c Hi)). Qed.

Definition hexes (ds : list N) : Prop := Forall (fun c => exists d, to_digit 16 c = Some d) ds.

Lemma v4_head s a : v4_text s a -> exists ds r, hexes ds /\ ds <> [] /\ s = ds ++ 46 :: r.
Proof.
  intros (d1 & d2 & d3 & d4 & n1 & n2 & n3 & n4 & O1 & O2 & O3 & O4 & -> & ->).
  exists d1. eexists. split; [exact (octet_digits _ _ O1)|]. split; [|reflexivity].
  apply octet_length in O1. intros ->. cbn in O1. lia.
Qed.

Lemma h16_digits ds n : h16 ds n -> hexes ds.
Proof. intros (H & _). exact (numeral_digits _ _ _ H). Qed.

Lemma groups_false_head s l : groups false s l -> exists ds r, hexes ds /\ s = ds ++ r /\ (r = [] \/ exists r', r = 58 :: r').
Proof.
  intros H. inversion H as [d n Hd|s' n1 n2 n3 n4 Hb Hv|d n s' l' Hd Hg]; subst.
  - exists s, []. rewrite app_nil_r. split; [exact (h16_digits _ _ Hd)|]. split; [reflexivity|left; reflexivity].
  - discriminate.
  - exists d. eexists. split; [exact (h16_digits _ _ Hd)|]. split; [reflexivity|].
    right. eexists. reflexivity.
Qed.

Lemma v6_head s a : v6_text s a -> exists ds r, hexes ds /\ s = ds ++ 58 :: r.
Proof.
  intros [[H Hl]|(h & t & lh & lt & -> & Hh & Ht & _)].
  - inversion H as [d n Hd|s' n1 n2 n3 n4 Hb Hv|d n s' l' Hd Hg]; subst; try discriminate Hl.
    exists d. eexists. split; [exact (h16_digits _ _ Hd)|reflexivity].
  - destruct Hh as [[-> _]|Hh].
    + exists []. eexists. split; [constructor|reflexivity].
    + apply groups_false_head in Hh as (ds & r & Hds & -> & [->|(r' & ->)]).
      * rewrite app_nil_r. exists ds. eexists. split; [exact Hds|reflexivity].
      * rewrite <- app_assoc. exists ds. eexists. split; [exact Hds|reflexivity].
Qed.

Lemma stops_cons x r : to_digit 16 x = None -> stops 16 (x :: r).
Proof. intros H. exact H. Qed.

Lemma v4_form_head s a p : v4_form s a p -> exists ds r, hexes ds /\ ds <> [] /\ s = ds ++ 46 :: r.
Proof.
  destruct p as [p|]; cbn [v4_form].
  - intros (t & q & -> & Ht & _). apply v4_head in Ht as (ds & r & H1 & H2 & ->).
    exists ds, (r ++ [58] ++ q). rewrite <- app_assoc. repeat split; assumption.
  - apply v4_head.
Qed.

Lemma v4_form_not_bracket s a p : v4_form s a p -> forall r, s <> 91 :: r.
Proof.
  intros H r E. apply v4_form_head in H as (ds & r' & Hds & Hne & ->). destruct ds as [|c ds]; [contradiction|].
  injection E as -> _. apply Forall_inv in Hds as [d Hd]. discriminate Hd.
Qed.

Lemma v4_form_not_v6 s a p b : v4_form s a p -> ~ v6_text s b.
Proof.
  intros H4 H6. apply v4_form_head in H4 as (ds & r & Hds & _ & ->).
  apply v6_head in H6 as (es & r' & Hes & E).
  apply (first_nondigit ds es 46 r (58 :: r') Hds Hes) in E; [|reflexivity|apply stops_cons; reflexivity].
  destruct E as [_ E]. discriminate E.
Qed.

Lemma forms_exclusive s a p b q : v4_form s a p -> v6_form s b q -> False.
Proof.
  intros H4 H6. pose proof (v4_form_not_bracket _ _ _ H4) as Hb.
  destruct q as [q|]; cbn [v6_form] in H6.
  - destruct H6 as (t & u & -> & _). exact (Hb _ eq_refl).
  - destruct H6 as [H6|(t & -> & _)]; [exact (v4_form_not_v6 _ _ _ _ H4 H6)|exact (Hb _ eq_refl)].
Qed.

(** The triple computed by the checks. *)
Definition flag (local : tri) (b : bool) : bool := match local with Allow => false | _ => b end.

Lemma finish_spec {A} local b (a : A) p r : finish local b a p = Ok r <->
  local_ok local (b = true) /\ r = (a, p, flag local b).
Proof.
  unfold finish. destruct local, b; cbn; split; intros H;
    try (injection H as <-; split; [first [reflexivity|discriminate|exact I|idtac]|reflexivity]);
    try discriminate H; try (destruct H as [H ->]); try reflexivity; try discriminate H.
  - exfalso. apply H. reflexivity.
Qed.

Lemma finish_no_panic {A} local b (a : A) p : finish local b a p <> Panic.
Proof. unfold finish. destruct local, b; discriminate. Qed.

Lemma local_ok_iff local (P Q : Prop) : (P <-> Q) -> (local_ok local P <-> local_ok local Q).
Proof. intros H. destruct local; cbn; tauto. Qed.

Lemma app_eq_unit_split : forall (c : N) a b a' b', a ++ c :: b = a' ++ c :: b' -> ~ In c b -> ~ In c b' ->
  a = a' /\ b = b'.
Proof.
  intros c. induction a as [|x a IH]; intros b [|y a'] b' E H H'.
  - injection E as ->. split; reflexivity.
  - cbn in E. injection E as -> ->. exfalso. apply H. apply in_or_app. right. left. reflexivity.
  - cbn in E. injection E as -> <-. exfalso. apply H'. apply in_or_app. right. left. reflexivity.
  - cbn in E. injection E as -> E. apply IH in E as [-> ->]; [split; reflexivity|assumption|assumption].
Qed.

(** ipv4. *)
Lemma ipv4_rest_colon port local t q : valid_str (t ++ 58 :: q) -> ~ In 58 q ->
  ipv4_rest port local (t ++ 58 :: q) =
  match port with
  | Disallow => Err IpPortDisallow
  | _ => match ipv4_from_str t with
         | Some ip => match parse_u16 q with
                      | Some p => finish local (is_local_ipv4 ip) ip (Some p)
                      | None => Err IpInvalid
                      end
         | None => Err IpInvalid
         end
  end.
Proof.
  intros Hv Hq. unfold ipv4_rest.
  rewrite (proj2 (rposition_some 58 (t ++ 58 :: q) (List.length t))) by (exists t, q; auto).
  rewrite (str_slice_before t 58 q) by lia. rewrite (str_slice_after t 58 q) by (assumption || lia).
  cbn [obind]. reflexivity.
Qed.

Lemma ipv4_rest_plain port local s : ~ In 58 s ->
  ipv4_rest port local s =
  match port with
  | Must => Err IpPortMust
  | _ => match ipv4_from_str s with
         | Some ip => finish local (is_local_ipv4 ip) ip None
         | None => Err IpInvalid
         end
  end.
Proof. intros H. unfold ipv4_rest. apply rposition_none in H. rewrite H. reflexivity. Qed.

Lemma last_colon s : (exists t q, s = t ++ 58 :: q /\ ~ In 58 q) \/ ~ In 58 s.
Proof.
  destruct (rposition 58 s) as [i|] eqn:E.
  - left. apply rposition_some in E as (t & q & -> & _ & H). exists t, q. auto.
  - right. apply rposition_none, E.
Qed.

Lemma ipv4_rest_no_panic port local s : valid_str s -> ipv4_rest port local s <> Panic.
Proof.
  intros Hv. destruct (last_colon s) as [(t & q & -> & Hq)|H].
  - rewrite ipv4_rest_colon by assumption. destruct port; try discriminate;
      destruct (ipv4_from_str t) as [ip|]; try discriminate; destruct (parse_u16 q) as [p|]; try discriminate;
      apply finish_no_panic.
  - rewrite ipv4_rest_plain by assumption. destruct port; try discriminate;
      destruct (ipv4_from_str s) as [ip|]; try discriminate; apply finish_no_panic.
Qed.

Lemma v4_local_bool a s local : v4_text s a -> (local_ok local (is_local_ipv4 a = true) <-> local_ok local (v4_local a)).
Proof. intros H. apply local_ok_iff, is_local_ipv4_spec, (v4_text_addr _ _ H). Qed.
Lemma v6_local_bool a s local : v6_text s a -> (local_ok local (is_local_ipv6 a = true) <-> local_ok local (v6_local a)).
Proof. intros H. apply local_ok_iff, is_local_ipv6_spec, (v6_text_addr _ _ H). Qed.

Lemma ipv4_rest_spec port local s r : valid_str s ->
  (ipv4_rest port local s = Ok r <->
   exists a p, v4_accepts port local s a p /\ r = (a, p, flag local (is_local_ipv4 a))).
Proof.
  intros Hv. unfold v4_accepts. split.
  - destruct (last_colon s) as [(t & q & -> & Hq)|H].
    + rewrite ipv4_rest_colon by assumption. intros H.
      assert (X : exists ip p, ipv4_from_str t = Some ip /\ parse_u16 q = Some p /\
        finish local (is_local_ipv4 ip) ip (Some p) = Ok r /\ port <> Disallow).
      { destruct port; try discriminate H; destruct (ipv4_from_str t) as [ip|]; try discriminate H;
        destruct (parse_u16 q) as [p|]; try discriminate H; exists ip, p; repeat split; auto; discriminate. }
      destruct X as (ip & p & H1 & H2 & H3 & H4). apply finish_spec in H3 as [H3 ->].
      apply ipv4_from_str_spec in H1. apply parse_u16_spec in H2. exists ip, (Some p).
      split; [|reflexivity]. split; [exists t, q; auto|]. split.
      * destruct port; cbn; [discriminate|exact I|contradiction].
      * apply (v4_local_bool _ _ _ H1). exact H3.
    + rewrite ipv4_rest_plain by assumption. intros Hr.
      assert (X : exists ip, ipv4_from_str s = Some ip /\
        finish local (is_local_ipv4 ip) ip None = Ok r /\ port <> Must).
      { destruct port; try discriminate Hr; destruct (ipv4_from_str s) as [ip|]; try discriminate Hr;
        exists ip; repeat split; auto; discriminate. }
      destruct X as (ip & H1 & H3 & H4). apply finish_spec in H3 as [H3 ->].
      apply ipv4_from_str_spec in H1. exists ip, None.
      split; [|reflexivity]. split; [exact H1|]. split.
      * destruct port; cbn; [contradiction|exact I|reflexivity].
      * apply (v4_local_bool _ _ _ H1). exact H3.
  - intros (a & p & (Hf & Hp & Hl) & ->). destruct p as [p|]; cbn [v4_form] in Hf.
    + destruct Hf as (t & q & -> & Ht & Hq).
      change ([58] ++ q) with (58 :: q) in *.
      rewrite ipv4_rest_colon; [|exact Hv|apply (port_text_not_in _ _ 58 Hq); lia].
      apply (v4_local_bool _ _ _ Ht) in Hl.
      rewrite (proj2 (ipv4_from_str_spec _ _) Ht), (proj2 (parse_u16_spec _ _) Hq).
      assert (E : finish local (is_local_ipv4 a) a (Some p) = Ok (a, Some p, flag local (is_local_ipv4 a)))
        by (apply finish_spec; auto).
      rewrite E. destruct port; [reflexivity|reflexivity|discriminate Hp].
    + rewrite ipv4_rest_plain; [|apply (v4_not_in _ _ 58 Hf); unfold v4_char; lia].
      pose proof (proj2 (v4_local_bool _ _ _ Hf) Hl) as Hl'.
      rewrite (proj2 (ipv4_from_str_spec _ _) Hf).
      assert (E : finish local (is_local_ipv4 a) a (@None N) = Ok (a, None, flag local (is_local_ipv4 a)))
        by (apply finish_spec; auto).
      rewrite E. destruct port; [contradiction Hp; reflexivity|reflexivity|reflexivity].
Qed.

Lemma v4_form_nonempty a p : ~ v4_form [] a p.
Proof. intros H. apply v4_form_head in H as (ds & r & _ & _ & E). destruct ds; discriminate E. Qed.
Lemma v6_text_nonempty a : ~ v6_text [] a.
Proof. intros H. apply v6_head in H as (ds & r & _ & E). destruct ds; discriminate E. Qed.
Lemma v6_form_nonempty a p : ~ v6_form [] a p.
Proof.
  destruct p as [p|]; cbn [v6_form].
  - intros (t & q & E & _). discriminate E.
  - intros [H|(t & E & _)]; [exact (v6_text_nonempty _ H)|discriminate E].
Qed.

Lemma ipv4_v_spec port local s r : valid_str s ->
  (ipv4_v_parse_str port local s = Ok r <->
   exists a p, v4_accepts port local s a p /\ r = (a, p, flag local (is_local_ipv4 a))).
Proof.
  intros Hv. destruct s as [|c s]; [|exact (ipv4_rest_spec port local (c :: s) r Hv)].
  split; [discriminate|]. intros (a & p & (H & _) & _). destruct (v4_form_nonempty _ _ H).
Qed.

(** ipv6. *)
Lemma bracket_plain port local t : valid_str (91 :: t ++ [93]) ->
  ipv6_bracket port local (91 :: t ++ [93]) =
  match port with
  | Must => Err IpPortMust
  | _ => match ipv6_from_str t with
         | Some ip => finish local (is_local_ipv6 ip) ip None
         | None => Err IpInvalid
         end
  end.
Proof.
  intros Hv. unfold ipv6_bracket, ipv6_without_port.
  assert (L : (List.length (91 :: t ++ [93])%N - 1)%nat = (1 + List.length t)%nat).
  { cbn [List.length]. rewrite app_length. cbn. lia. }
  rewrite L. unfold idx at 1. cbn [Nat.add nth_error]. rewrite nth_error_app2, Nat.sub_diag by lia.
  cbn [nth_error obind]. change (93 =? 93) with true. cbn iota.
  pose proof (@str_slice_between ip_err [] 91 t 93 [] Hv ltac:(lia) ltac:(lia)) as Es.
  cbn [List.length app] in Es. change (1 + List.length t)%nat with (S (List.length t)) in Es. rewrite Es.
  cbn [obind]. reflexivity.
Qed.

Lemma ends_cases (s : list N) : s = [] \/ exists t x, s = t ++ [x].
Proof. destruct s using rev_ind; [left; reflexivity|right; eauto]. Qed.

Lemma bracket_last port local t x : x <> 93 ->
  ipv6_bracket port local (91 :: t ++ [x]) = ipv6_with_port port local (91 :: t ++ [x]).
Proof.
  intros Hx. unfold ipv6_bracket.
  assert (L : (List.length (91 :: t ++ [x])%N - 1)%nat = (1 + List.length t)%nat).
  { cbn [List.length]. rewrite app_length. cbn. lia. }
  rewrite L. unfold idx at 1. cbn [Nat.add nth_error]. rewrite nth_error_app2, Nat.sub_diag by lia.
  cbn [nth_error obind]. destruct (N.eqb_spec x 93); [contradiction|]. reflexivity.
Qed.

(** A bracketed text with a port. *)
Lemma with_port_form port local t q : valid_str (91 :: t ++ 93 :: 58 :: q) -> ~ In 58 q -> t <> [] ->
  ipv6_with_port port local (91 :: t ++ 93 :: 58 :: q) =
  match port with
  | Disallow => Err IpPortDisallow
  | _ => match ipv6_from_str t with
         | Some ip => match parse_u16 q with
                      | Some p => finish local (is_local_ipv6 ip) ip (Some p)
                      | None => Err IpInvalid
                      end
         | None => Err IpInvalid
         end
  end.
Proof.
  intros Hv Hq Ht. unfold ipv6_with_port.
  set (s := 91 :: t ++ 93 :: 58 :: q) in *.
  assert (E1 : s = (91 :: t ++ [93]) ++ 58 :: q) by (unfold s; cbn [app]; rewrite <- app_assoc; reflexivity).
  assert (L1 : List.length (91 :: t ++ [93]) = (2 + List.length t)%nat) by (cbn [List.length]; rewrite app_length; cbn; lia).
  assert (R : rposition 58 s = Some (2 + List.length t)%nat).
  { apply rposition_some. exists (91 :: t ++ [93]), q. repeat split; assumption. }
  rewrite R. destruct t as [|t0 t']; [contradiction|]. set (t := t0 :: t') in *.
  assert (Hlt : (2 <? 2 + List.length t)%nat = true) by (apply Nat.ltb_lt; cbn; lia).
  rewrite Hlt. replace (2 + List.length t - 1)%nat with (S (List.length t)) by lia.
  assert (I : @idx ip_err s (S (List.length t)) = Ok 93).
  { unfold idx, s. cbn [nth_error]. rewrite nth_error_app2, Nat.sub_diag by lia. reflexivity. }
  rewrite I. cbn [obind]. change (93 =? 93) with true. cbn iota.
  pose proof (@str_slice_between ip_err [] 91 t 93 (58 :: q) Hv ltac:(lia) ltac:(lia)) as Es.
  cbn [List.length app] in Es. change (1 + List.length t)%nat with (S (List.length t)) in Es.
  fold s in Es. rewrite Es. cbn [obind].
  assert (Ef : @str_slice_from ip_err s (2 + List.length t + 1) = Ok q).
  { rewrite E1 in *. rewrite <- L1. apply str_slice_after; [exact Hv|lia]. }
  rewrite Ef. cbn [obind]. reflexivity.
Qed.

(** Every other text is refused. *)
Lemma with_port_other port local s :
  (forall t q, s = 91 :: t ++ 93 :: 58 :: q -> ~ In 58 q -> t <> [] -> False) ->
  (exists r, s = 91 :: r) ->
  exists e, ipv6_with_port port local s = Err e.
Proof.
  intros H [r Hr]. unfold ipv6_with_port. destruct port; try (eexists; reflexivity);
  (destruct (rposition 58 s) as [i|] eqn:R; [|eexists; reflexivity];
   destruct (Nat.ltb_spec 2 i) as [Hi|Hi]; [|cbn [obind]; eexists; reflexivity];
   apply rposition_some in R as (a & q & E & L & Hq);
   destruct (ends_cases a) as [->|(a' & x & ->)]; [cbn in L; lia|];
   rewrite app_length in L; cbn in L;
   assert (I : @idx ip_err s (i - 1) = Ok x);
   [unfold idx; rewrite E, <- app_assoc, nth_error_app2 by lia;
    replace (i - 1 - List.length a')%nat with 0%nat by lia; reflexivity|];
   rewrite I; cbn [obind]; destruct (N.eqb_spec x 93) as [->|]; [|eexists; reflexivity];
   exfalso; destruct a' as [|c t]; [cbn in L; lia|];
   rewrite <- app_assoc in E; cbn [app] in E; rewrite Hr in E; injection E as <- E;
   apply (H t q); [rewrite Hr, E; reflexivity|exact Hq|intros ->; cbn in L; lia]).
Qed.

Lemma with_port_cases s : (exists t q, s = 91 :: t ++ 93 :: 58 :: q /\ ~ In 58 q /\ t <> []) \/
  (forall t q, s = 91 :: t ++ 93 :: 58 :: q -> ~ In 58 q -> t <> [] -> False).
Proof.
  destruct (last_colon s) as [(a & q & -> & Hq)|H].
  - destruct (ends_cases a) as [->|(a' & x & ->)].
    { right. intros t q' E Hq' _. cbn in E. discriminate E. }
    destruct (N.eq_dec x 93) as [->|Hx].
    + destruct a' as [|c t].
      { right. intros t q' E Hq' Ht. cbn in E. discriminate E. }
      destruct (N.eq_dec c 91) as [->|Hc].
      * destruct t as [|t0 t].
        { right. intros t q' E Hq' Ht. cbn in E. injection E as E.
          change (93 :: 58 :: q) with ([93] ++ 58 :: q) in E.
          replace (t ++ 93 :: 58 :: q') with ((t ++ [93]) ++ 58 :: q') in E by (rewrite <- app_assoc; reflexivity).
          apply app_eq_unit_split in E as [E _]; [|assumption|assumption].
          destruct t as [|? [|]]; [contradiction|discriminate E|discriminate E]. }
        left. exists (t0 :: t), q. split; [rewrite <- app_assoc; reflexivity|]. split; [exact Hq|discriminate].
      * right. intros t' q' E _ _. cbn in E. injection E as -> _. contradiction.
    + right. intros t q' E Hq' _.
      replace (91 :: t ++ 93 :: 58 :: q') with ((91 :: t ++ [93]) ++ 58 :: q') in E
        by (cbn [app]; rewrite <- app_assoc; reflexivity).
      apply app_eq_unit_split in E as [E _]; [|assumption|assumption].
      change (91 :: t ++ [93]) with ((91 :: t) ++ [93]) in E. apply app_inj_tail in E as [_ ->]. contradiction.
  - right. intros t q -> _ _. apply H. right. apply in_or_app. right. right. left. reflexivity.
Qed.

Lemma bracket_no_panic port local r : valid_str (91 :: r) -> ipv6_bracket port local (91 :: r) <> Panic.
Proof.
  intros Hv. destruct (ends_cases r) as [->|(t & x & ->)].
  - unfold ipv6_bracket, ipv6_with_port. cbn. destruct port; discriminate.
  - destruct (N.eq_dec x 93) as [->|Hx].
    + rewrite bracket_plain by exact Hv. destruct port; try discriminate;
        destruct (ipv6_from_str t); try discriminate; apply finish_no_panic.
    + rewrite bracket_last by exact Hx.
      destruct (with_port_cases (91 :: t ++ [x])) as [(u & q & E & Hq & Hu)|H].
      * rewrite E in *. rewrite with_port_form by assumption. destruct port; try discriminate;
          destruct (ipv6_from_str u); try discriminate; destruct (parse_u16 q); try discriminate; apply finish_no_panic.
      * apply (with_port_other port local) in H as [e ->]; [discriminate|eexists; reflexivity].
Qed.

Lemma bracket_spec port local r x : valid_str (91 :: r) ->
  (ipv6_bracket port local (91 :: r) = Ok x <->
   exists a p, v6_accepts port local (91 :: r) a p /\ x = (a, p, flag local (is_local_ipv6 a))).
Proof.
  intros Hv. unfold v6_accepts. split.
  - destruct (ends_cases r) as [->|(t & y & ->)].
    { unfold ipv6_bracket, ipv6_with_port. cbn. destruct port; discriminate. }
    destruct (N.eq_dec y 93) as [->|Hy].
    + rewrite bracket_plain by exact Hv. intros Hr.
      assert (X : exists ip, ipv6_from_str t = Some ip /\
        finish local (is_local_ipv6 ip) ip None = Ok x /\ port <> Must).
      { destruct port; try discriminate Hr; destruct (ipv6_from_str t) as [ip|]; try discriminate Hr;
        exists ip; repeat split; auto; discriminate. }
      destruct X as (ip & H1 & H3 & H4). apply finish_spec in H3 as [H3 ->].
      apply ipv6_from_str_spec in H1. exists ip, None.
      split; [|reflexivity]. split; [right; exists t; auto|]. split.
      * destruct port; cbn; [contradiction|exact I|reflexivity].
      * apply (v6_local_bool _ _ _ H1). exact H3.
    + rewrite bracket_last by exact Hy.
      destruct (with_port_cases (91 :: t ++ [y])) as [(u & q & E & Hq & Hu)|H].
      * rewrite E in *. rewrite with_port_form by assumption. intros Hr.
        assert (X : exists ip p, ipv6_from_str u = Some ip /\ parse_u16 q = Some p /\
          finish local (is_local_ipv6 ip) ip (Some p) = Ok x /\ port <> Disallow).
        { destruct port; try discriminate Hr; destruct (ipv6_from_str u) as [ip|]; try discriminate Hr;
          destruct (parse_u16 q) as [p|]; try discriminate Hr; exists ip, p; repeat split; auto; discriminate. }
        destruct X as (ip & p & H1 & H2 & H3 & H4). apply finish_spec in H3 as [H3 ->].
        apply ipv6_from_str_spec in H1. apply parse_u16_spec in H2. exists ip, (Some p).
        split; [|reflexivity]. split; [exists u, q; auto|]. split.
        -- destruct port; cbn; [discriminate|exact I|contradiction].
        -- apply (v6_local_bool _ _ _ H1). exact H3.
      * intros Hr. apply (with_port_other port local) in H as [e He]; [|eexists; reflexivity]. congruence.
  - intros (a & p & (Hf & Hp & Hl) & ->). destruct p as [p|]; cbn [v6_form] in Hf.
    + destruct Hf as (t & q & E & Ht & Hq). cbn [app] in E. injection E as ->.
      pose proof (port_text_chars _ _ Hq) as [Hne Hch].
      destruct (ends_cases q) as [->|(q' & y & Eq)]; [contradiction|].
      assert (Hy : y <> 93).
      { intros ->. rewrite Eq in Hch. apply Forall_app in Hch as [_ Hch]. apply Forall_inv in Hch. lia. }
      replace (t ++ 93 :: 58 :: q) with ((t ++ 93 :: 58 :: q') ++ [y]) by (rewrite Eq, <- app_assoc; reflexivity).
      rewrite bracket_last by exact Hy.
      replace ((t ++ 93 :: 58 :: q') ++ [y]) with (t ++ 93 :: 58 :: q) by (rewrite Eq, <- app_assoc; reflexivity).
      rewrite with_port_form; [|exact Hv|apply (port_text_not_in _ _ 58 Hq); lia|intros ->; exact (v6_text_nonempty _ Ht)].
      apply (v6_local_bool _ _ _ Ht) in Hl.
      rewrite (proj2 (ipv6_from_str_spec _ _) Ht), (proj2 (parse_u16_spec _ _) Hq).
      assert (E : finish local (is_local_ipv6 a) a (Some p) = Ok (a, Some p, flag local (is_local_ipv6 a)))
        by (apply finish_spec; auto).
      rewrite E. destruct port; [reflexivity|reflexivity|discriminate Hp].
    + destruct Hf as [Hf|(t & E & Ht)].
      { exfalso. apply (v6_not_in _ _ 91 Hf); [unfold v6_char; lia|left; reflexivity]. }
      cbn [app] in E. injection E as ->. rewrite bracket_plain by exact Hv.
      apply (v6_local_bool _ _ _ Ht) in Hl. rewrite (proj2 (ipv6_from_str_spec _ _) Ht).
      assert (E : finish local (is_local_ipv6 a) a (@None N) = Ok (a, None, flag local (is_local_ipv6 a)))
        by (apply finish_spec; auto).
      rewrite E. destruct port; [contradiction Hp; reflexivity|reflexivity|reflexivity].
Qed.

Lemma non_bracket_spec port local s b x : v6_text s b ->
  (ipv6_non_bracket port local b = Ok x <->
   exists a p, v6_accepts port local s a p /\ x = (a, p, flag local (is_local_ipv6 a))).
Proof.
  intros Ht. unfold v6_accepts. split.
  - intros Hr. assert (X : finish local (is_local_ipv6 b) b None = Ok x /\ port <> Must).
    { unfold ipv6_non_bracket in Hr. destruct port; try discriminate Hr; split; auto; discriminate. }
    destruct X as [H3 H4]. apply finish_spec in H3 as [H3 ->]. exists b, None. split; [|reflexivity].
    split; [left; exact Ht|]. split.
    + destruct port; cbn; [contradiction|exact I|reflexivity].
    + apply (v6_local_bool _ _ _ Ht). exact H3.
  - intros (a & p & (Hf & Hp & Hl) & ->).
    assert (Hnb : forall r, s <> 91 :: r).
    { intros r ->. apply (v6_not_in _ _ 91 Ht); [unfold v6_char; lia|left; reflexivity]. }
    destruct p as [p|]; cbn [v6_form] in Hf.
    { destruct Hf as (t & q & E & _). destruct (Hnb _ E). }
    destruct Hf as [Hf|(t & E & _)]; [|destruct (Hnb _ E)].
    apply ipv6_from_str_spec in Hf. pose proof (proj2 (ipv6_from_str_spec _ _) Ht) as Ht'.
    assert (b = a) by congruence. subst b. apply (v6_local_bool _ _ _ Ht) in Hl. unfold ipv6_non_bracket.
    assert (E : finish local (is_local_ipv6 a) a (@None N) = Ok (a, None, flag local (is_local_ipv6 a)))
      by (apply finish_spec; auto).
    rewrite E. destruct port; [contradiction Hp; reflexivity|reflexivity|reflexivity].
Qed.

Lemma non_bracket_no_panic port local b : ipv6_non_bracket port local b <> Panic.
Proof. unfold ipv6_non_bracket. destruct port; try discriminate; apply finish_no_panic. Qed.

Lemma v6_form_not_text c s a p : c <> 91 -> v6_form (c :: s) a p -> v6_text (c :: s) a.
Proof.
  intros Hc. destruct p as [p|]; cbn [v6_form].
  - intros (t & q & E & _). injection E as -> _. contradiction.
  - intros [H|(t & E & _)]; [exact H|]. injection E as -> _. contradiction.
Qed.

Lemma ipv6_v_spec port local s r : valid_str s ->
  (ipv6_v_parse_str port local s = Ok r <->
   exists a p, v6_accepts port local s a p /\ r = (a, p, flag local (is_local_ipv6 a))).
Proof.
  intros Hv. destruct s as [|c s].
  { split; [discriminate|]. intros (a & p & (H & _) & _). destruct (v6_form_nonempty _ _ H). }
  cbn [ipv6_v_parse_str]. destruct (N.eqb_spec c 91) as [->|Hc]; [exact (bracket_spec port local s r Hv)|].
  destruct (ipv6_from_str (c :: s)) as [ip|] eqn:E.
  - apply ipv6_from_str_spec in E. exact (non_bracket_spec port local (c :: s) ip r E).
  - split; [discriminate|]. intros (a & p & (H & _) & _). exfalso.
    apply v6_form_not_text in H; [|exact Hc]. apply ipv6_from_str_spec in H. congruence.
Qed.

(** No panics. *)
Lemma ipv4_v_no_panic port local s : valid_str s -> ipv4_v_parse_str port local s <> Panic.
Proof. intros Hv. destruct s as [|c s]; [discriminate|]. exact (ipv4_rest_no_panic port local _ Hv). Qed.
Lemma ipv6_v_no_panic port local s : valid_str s -> ipv6_v_parse_str port local s <> Panic.
Proof.
  intros Hv. destruct s as [|c s]; [discriminate|]. cbn [ipv6_v_parse_str].
  destruct (N.eqb_spec c 91) as [->|Hc]; [exact (bracket_no_panic port local s Hv)|].
  destruct (ipv6_from_str (c :: s)); [apply non_bracket_no_panic|discriminate].
Qed.

Lemma omap_panic {E A B} (f : A -> B) (x : outcome E A) : x <> Panic -> omap f x <> Panic.
Proof. destruct x; [discriminate|discriminate|contradiction]. Qed.
Lemma omap_ok {E A B} (f : A -> B) (x : outcome E A) r : omap f x = Ok r <-> exists a, x = Ok a /\ r = f a.
Proof.
  destruct x; cbn; split; intros H; try discriminate; try (destruct H as (? & ? & ?); discriminate).
  - injection H as <-. eauto.
  - destruct H as (? & H & ->). injection H as <-. reflexivity.
Qed.

Lemma ip_v_no_panic port local s : valid_str s -> ip_v_parse_str port local s <> Panic.
Proof.
  intros Hv. destruct s as [|c s]; [discriminate|]. cbn [ip_v_parse_str].
  destruct (N.eqb_spec c 91) as [->|Hc]; [apply omap_panic, bracket_no_panic, Hv|].
  destruct (ipv6_from_str (c :: s)); apply omap_panic; [apply non_bracket_no_panic|apply ipv4_rest_no_panic, Hv].
Qed.

Lemma ip_v_spec port local s r : valid_str s ->
  (ip_v_parse_str port local s = Ok r <->
   (exists a p, v4_accepts port local s a p /\ r = (V4 a, p, flag local (is_local_ipv4 a))) \/
   (exists a p, v6_accepts port local s a p /\ r = (V6 a, p, flag local (is_local_ipv6 a)))).
Proof.
  intros Hv. destruct s as [|c s].
  { split; [discriminate|]. intros [(a & p & (H & _) & _)|(a & p & (H & _) & _)].
    - destruct (v4_form_nonempty _ _ H).
    - destruct (v6_form_nonempty _ _ H). }
  cbn [ip_v_parse_str]. destruct (N.eqb_spec c 91) as [->|Hc].
  - rewrite omap_ok. split.
    + intros (x & H & ->). apply (bracket_spec port local s x Hv) in H as (a & p & H & ->).
      right. exists a, p. auto.
    + intros [(a & p & (H & _) & _)|(a & p & H & ->)].
      * destruct (v4_form_not_bracket _ _ _ H s eq_refl).
      * eexists. split; [apply (bracket_spec port local s _ Hv); exists a, p; split; [exact H|reflexivity]|reflexivity].
  - destruct (ipv6_from_str (c :: s)) as [ip|] eqn:E; rewrite omap_ok.
    + apply ipv6_from_str_spec in E. split.
      * intros (x & H & ->). apply (non_bracket_spec port local (c :: s) ip x E) in H as (a & p & H & ->).
        right. exists a, p. auto.
      * intros [(a & p & (H & _) & _)|(a & p & H & ->)].
        -- destruct (v4_form_not_v6 _ _ _ _ H E).
        -- eexists. split; [apply (non_bracket_spec port local (c :: s) ip _ E); exists a, p; split; [exact H|reflexivity]|reflexivity].
    + split.
      * intros (x & H & ->). apply (ipv4_rest_spec port local _ x Hv) in H as (a & p & H & ->).
        left. exists a, p. auto.
      * intros [(a & p & H & ->)|(a & p & (H & _) & _)].
        -- eexists. split; [apply (ipv4_rest_spec port local _ _ Hv); exists a, p; split; [exact H|reflexivity]|reflexivity].
        -- exfalso. apply v6_form_not_text in H; [|exact Hc]. apply ipv6_from_str_spec in H. congruence.
Qed.

(** Instances. *)
Lemma create_spec {A} port (a : A) p l x : port_ok port p -> (create_instance port (a, p, l) = Ok x <-> x = (a, p)).
Proof.
  intros Hp. destruct port; cbn in *.
  - destruct p as [p|]; [|contradiction]. split; [intros H; injection H as <-; reflexivity|intros ->; reflexivity].
  - split; [intros H; injection H as <-; reflexivity|intros ->; reflexivity].
  - subst p. split; [intros H; injection H as <-; reflexivity|intros ->; reflexivity].
Qed.

Theorem ipv4_parse_spec port local s a p : valid_str s ->
  (ipv4_parse_str port local s = Ok (a, p) <-> v4_accepts port local s a p).
Proof.
  intros Hv. unfold ipv4_parse_str. split.
  - destruct (ipv4_v_parse_str port local s) as [r| |] eqn:E; try discriminate. cbn [obind].
    apply ipv4_v_spec in E as (a' & p' & H & ->); [|exact Hv]. intros C.
    apply create_spec in C; [|exact (proj1 (proj2 H))]. injection C as -> ->. exact H.
  - intros H. pose proof (proj2 (ipv4_v_spec port local s _ Hv) (ex_intro _ a (ex_intro _ p (conj H eq_refl)))) as E.
    rewrite E. cbn [obind]. apply create_spec; [exact (proj1 (proj2 H))|reflexivity].
Qed.

Theorem ipv6_parse_spec port local s a p : valid_str s ->
  (ipv6_parse_str port local s = Ok (a, p) <-> v6_accepts port local s a p).
Proof.
  intros Hv. unfold ipv6_parse_str. split.
  - destruct (ipv6_v_parse_str port local s) as [r| |] eqn:E; try discriminate. cbn [obind].
    apply ipv6_v_spec in E as (a' & p' & H & ->); [|exact Hv]. intros C.
    apply create_spec in C; [|exact (proj1 (proj2 H))]. injection C as -> ->. exact H.
  - intros H. pose proof (proj2 (ipv6_v_spec port local s _ Hv) (ex_intro _ a (ex_intro _ p (conj H eq_refl)))) as E.
    rewrite E. cbn [obind]. apply create_spec; [exact (proj1 (proj2 H))|reflexivity].
Qed.

Theorem ip_parse_spec port local s x p : valid_str s ->
  (ip_parse_str port local s = Ok (x, p) <->
   match x with V4 a => v4_accepts port local s a p | V6 a => v6_accepts port local s a p end).
Proof.
  intros Hv. unfold ip_parse_str. split.
  - destruct (ip_v_parse_str port local s) as [r| |] eqn:E; try discriminate. cbn [obind].
    apply ip_v_spec in E; [|exact Hv]. destruct E as [(a' & p' & H & ->)|(a' & p' & H & ->)]; intros C;
    (apply create_spec in C; [|exact (proj1 (proj2 H))]); injection C as -> ->; exact H.
  - intros H. destruct x as [a|a].
    + pose proof (proj2 (ip_v_spec port local s _ Hv) (or_introl (ex_intro _ a (ex_intro _ p (conj H eq_refl))))) as E.
      rewrite E. cbn [obind]. apply create_spec; [exact (proj1 (proj2 H))|reflexivity].
    + pose proof (proj2 (ip_v_spec port local s _ Hv) (or_intror (ex_intro _ a (ex_intro _ p (conj H eq_refl))))) as E.
      rewrite E. cbn [obind]. apply create_spec; [exact (proj1 (proj2 H))|reflexivity].
Qed.

Lemma create_no_panic {A} port (a : A) p l : port_ok port p -> create_instance port (a, p, l) <> Panic.
Proof. intros H. destruct port; cbn in *; try discriminate. destruct p; [discriminate|contradiction]. Qed.

Theorem ip_family_no_panic port local s : valid_str s ->
  ip_parse_str port local s <> Panic /\ ip_validate_str port local s <> Panic /\
  ipv4_parse_str port local s <> Panic /\ ipv4_validate_str port local s <> Panic /\
  ipv6_parse_str port local s <> Panic /\ ipv6_validate_str port local s <> Panic.
Proof.
  intros Hv. pose proof (ip_v_no_panic port local s Hv) as H1. pose proof (ipv4_v_no_panic port local s Hv) as H2.
  pose proof (ipv6_v_no_panic port local s Hv) as H3.
  unfold ip_parse_str, ip_validate_str, ipv4_parse_str, ipv4_validate_str, ipv6_parse_str, ipv6_validate_str.
  destruct (ip_v_parse_str port local s) as [r| |] eqn:E1; [|clear E1|contradiction];
  destruct (ipv4_v_parse_str port local s) as [r2| |] eqn:E2; try (clear E2; contradiction);
  destruct (ipv6_v_parse_str port local s) as [r3| |] eqn:E3; try (clear E3; contradiction);
  cbn [obind];
  try (apply ip_v_spec in E1; [|exact Hv]; assert (C1 : create_instance port r <> Panic) by
    (destruct E1 as [(a & p & (_ & Hp & _) & ->)|(a & p & (_ & Hp & _) & ->)]; apply create_no_panic, Hp));
  try (apply ipv4_v_spec in E2; [|exact Hv]; assert (C2 : create_instance port r2 <> Panic) by
    (destruct E2 as (a & p & (_ & Hp & _) & ->); apply create_no_panic, Hp));
  try (apply ipv6_v_spec in E3; [|exact Hv]; assert (C3 : create_instance port r3 <> Panic) by
    (destruct E3 as (a & p & (_ & Hp & _) & ->); apply create_no_panic, Hp));
  repeat split; first [assumption|discriminate].
Qed.

(** [validate_str] agrees with [parse_str]. *)
Theorem ip_validate_parse port local s : valid_str s ->
  (is_ok (ip_validate_str port local s) <-> is_ok (ip_parse_str port local s)) /\
  (is_ok (ipv4_validate_str port local s) <-> is_ok (ipv4_parse_str port local s)) /\
  (is_ok (ipv6_validate_str port local s) <-> is_ok (ipv6_parse_str port local s)).
Proof.
  intros Hv. unfold ip_parse_str, ip_validate_str, ipv4_parse_str, ipv4_validate_str, ipv6_parse_str, ipv6_validate_str.
  split; [|split].
  - destruct (ip_v_parse_str port local s) as [r| |] eqn:E; cbn [obind]; [|split; intros [? ?]; discriminate..].
    apply ip_v_spec in E; [|exact Hv]. split; intros _; [|exists tt; reflexivity].
    destruct E as [(a & p & (_ & Hp & _) & ->)|(a & p & (_ & Hp & _) & ->)];
      eexists; apply create_spec; [exact Hp|reflexivity|exact Hp|reflexivity].
  - destruct (ipv4_v_parse_str port local s) as [r| |] eqn:E; cbn [obind]; [|split; intros [? ?]; discriminate..].
    apply ipv4_v_spec in E; [|exact Hv]. split; intros _; [|exists tt; reflexivity].
    destruct E as (a & p & (_ & Hp & _) & ->). eexists. apply create_spec; [exact Hp|reflexivity].
  - destruct (ipv6_v_parse_str port local s) as [r| |] eqn:E; cbn [obind]; [|split; intros [? ?]; discriminate..].
    apply ipv6_v_spec in E; [|exact Hv]. split; intros _; [|exists tt; reflexivity].
    destruct E as (a & p & (_ & Hp & _) & ->). eexists. apply create_spec; [exact Hp|reflexivity].
Qed.

(** Round trips. *)
Lemma ascii_valid s : Forall (fun c => c < 128) s -> valid_str s.
Proof.
  intros H. exists s. split.
  - eapply Forall_impl; [|exact H]. intros c Hc. cbn beta in *. unfold is_scalar. destruct (N.ltb_spec c 55296); [reflexivity|lia].
  - induction H as [|c s Hc H IH]; [reflexivity|]. cbn [utf8 flat_map]. unfold utf8_char at 1.
    destruct (N.ltb_spec c 128); [|lia]. cbn [app]. f_equal. exact IH.
Qed.

Lemma v4_ascii s a : v4_text s a -> Forall (fun c => c < 128) s.
Proof. intros H. apply v4_chars in H. eapply Forall_impl; [|exact H]. intros c Hc. unfold v4_char in Hc. lia. Qed.
Lemma v6_ascii s a : v6_text s a -> Forall (fun c => c < 128) s.
Proof. intros H. apply v6_chars in H. eapply Forall_impl; [|exact H]. intros c Hc. unfold v6_char in Hc. lia. Qed.
Lemma port_ascii q p : port_text q p -> Forall (fun c => c < 128) q.
Proof. intros H. apply port_text_chars in H as [_ H]. eapply Forall_impl; [|exact H]. intros c Hc. cbn in Hc. lia. Qed.

Lemma v4_form_addr s a p : v4_form s a p -> v4_addr a /\ (forall q, p = Some q -> q <= 65535).
Proof.
  destruct p as [p|]; cbn [v4_form].
  - intros (t & q & -> & Ht & Hq). split; [exact (v4_text_addr _ _ Ht)|]. intros r E. injection E as <-. exact (proj2 Hq).
  - intros H. split; [exact (v4_text_addr _ _ H)|discriminate].
Qed.
Lemma v6_form_addr s a p : v6_form s a p -> v6_addr a /\ (forall q, p = Some q -> q <= 65535).
Proof.
  destruct p as [p|]; cbn [v6_form].
  - intros (t & q & -> & Ht & Hq). split; [exact (v6_text_addr _ _ Ht)|]. intros r E. injection E as <-. exact (proj2 Hq).
  - intros [H|(t & -> & H)]; (split; [exact (v6_text_addr _ _ H)|discriminate]).
Qed.

Lemma ipv4_authority_form a p : v4_addr a -> (forall q, p = Some q -> q <= 65535) ->
  v4_form (ipv4_authority (a, p)) a p /\ Forall (fun c => c < 128) (ipv4_authority (a, p)).
Proof.
  intros Ha Hp. pose proof (ipv4_display_text a Ha) as Ht. unfold ipv4_authority. cbn [fst snd].
  destruct p as [p|].
  - pose proof (dec_port_text p (Hp p eq_refl)) as Hq. split.
    + exists (ipv4_display a), (dec_of_N p). auto.
    + apply Forall_app. split; [exact (v4_ascii _ _ Ht)|]. constructor; [lia|exact (port_ascii _ _ Hq)].
  - split; [exact Ht|exact (v4_ascii _ _ Ht)].
Qed.
Lemma ipv6_authority_form a p : v6_addr a -> (forall q, p = Some q -> q <= 65535) ->
  v6_form (ipv6_authority (a, p)) a p /\ Forall (fun c => c < 128) (ipv6_authority (a, p)).
Proof.
  intros Ha Hp. pose proof (ipv6_display_text a Ha) as Ht. unfold ipv6_authority. cbn [fst snd].
  destruct p as [p|].
  - pose proof (dec_port_text p (Hp p eq_refl)) as Hq. split.
    + exists (ipv6_display a), (dec_of_N p). auto.
    + cbn [app]. constructor; [lia|]. apply Forall_app. split; [exact (v6_ascii _ _ Ht)|].
      constructor; [lia|]. constructor; [lia|exact (port_ascii _ _ Hq)].
  - split; [right; exists (ipv6_display a); auto|].
    cbn [app]. constructor; [lia|]. apply Forall_app. split; [exact (v6_ascii _ _ Ht)|]. constructor; [lia|constructor].
Qed.

Theorem ipv4_roundtrip_parse port local s v : valid_str s -> ipv4_parse_str port local s = Ok v ->
  ipv4_parse_str port local (ipv4_authority v) = Ok v.
Proof.
  intros Hv H. destruct v as [a p]. apply ipv4_parse_spec in H; [|exact Hv]. destruct H as (Hf & Hr).
  destruct (v4_form_addr _ _ _ Hf) as [Ha Hp]. destruct (ipv4_authority_form a p Ha Hp) as [Hf' Has].
  apply ipv4_parse_spec; [exact (ascii_valid _ Has)|]. split; assumption.
Qed.
Theorem ipv6_roundtrip_parse port local s v : valid_str s -> ipv6_parse_str port local s = Ok v ->
  ipv6_parse_str port local (ipv6_authority v) = Ok v.
Proof.
  intros Hv H. destruct v as [a p]. apply ipv6_parse_spec in H; [|exact Hv]. destruct H as (Hf & Hr).
  destruct (v6_form_addr _ _ _ Hf) as [Ha Hp]. destruct (ipv6_authority_form a p Ha Hp) as [Hf' Has].
  apply ipv6_parse_spec; [exact (ascii_valid _ Has)|]. split; assumption.
Qed.
Theorem ip_roundtrip_parse port local s v : valid_str s -> ip_parse_str port local s = Ok v ->
  ip_parse_str port local (ip_authority v) = Ok v.
Proof.
  intros Hv H. destruct v as [[a|a] p]; apply ip_parse_spec in H; try exact Hv; destruct H as (Hf & Hr).
  - destruct (v4_form_addr _ _ _ Hf) as [Ha Hp]. destruct (ipv4_authority_form a p Ha Hp) as [Hf' Has].
    apply ip_parse_spec; [exact (ascii_valid _ Has)|]. split; assumption.
  - destruct (v6_form_addr _ _ _ Hf) as [Ha Hp]. destruct (ipv6_authority_form a p Ha Hp) as [Hf' Has].
    apply ip_parse_spec; [exact (ascii_valid _ Has)|]. split; assumption.
Qed.
