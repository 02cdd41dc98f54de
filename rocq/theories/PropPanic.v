(** Exactly which texts make a validator panic (C26, C42). *)
From Verif Require Import Base IntStr NetModel NetSpec NetProofs IpModel IpSpec LocalProofs IpProofs Utf8 StrFacts Serde
  DomainModel DomainSpec DomainProofs IdnaFrag HostModel HostSpec HostProofs EmailModel EmailSpec EmailProofs EmailParts
  EmailDomain EmailMain PropEmail MacModel MacSpec MacProofs.
Local Open Scope N_scope.

(** Reading pairs of bytes, each followed by an optional separator, the text ends inside or right after a pair that is not the
    last: [k] boundaries are still to come. *)
Inductive starved (c : N) : nat -> list N -> Prop :=
| starved_end k v : (List.length v <= 2)%nat -> starved c (S k) v
| starved_sep k a b v : starved c k v -> starved c (S k) (a :: b :: c :: v)
| starved_none k a b e v : e <> c -> starved c k (e :: v) -> starved c (S k) (a :: b :: e :: v).

Lemma starved_length c k v : starved c k v -> (List.length v + 1 <= 3 * k)%nat.
Proof.
  induction 1 as [k v L|k a b v _ IH|k a b e v _ _ IH]; cbn [List.length] in *; lia.
Qed.

Lemma split_starved c : forall k v, split_allow c (repeat 2%nat (S k)) v = Panic <-> starved c k v.
Proof.
  induction k as [|k IH]; intros v.
  - cbn [repeat split_allow]. split; [destruct (Nat.eqb _ _); discriminate|]. intros H. inversion H.
  - assert (X : split_allow c (repeat 2%nat (S (S k))) v =
      match skipn 2 v with
      | [] => Panic
      | e :: rest => let? r := split_allow c (repeat 2%nat (S k)) (if e =? c then rest else e :: rest) in Ok (firstn 2 v ++ r)
      end) by reflexivity.
    rewrite X. clear X. destruct v as [|a [|b [|e v]]]; cbn [skipn].
    1-3: split; [intros _; apply starved_end; cbn; lia|reflexivity].
    assert (Y : (let? r := split_allow c (repeat 2%nat (S k)) (if e =? c then v else e :: v) in Ok (firstn 2 (a :: b :: e :: v) ++ r)) = Panic <->
      split_allow c (repeat 2%nat (S k)) (if e =? c then v else e :: v) = Panic).
    { destruct (split_allow c _ _); cbn [obind]; split; congruence. }
    rewrite Y. clear Y. destruct (N.eqb_spec e c) as [->|N].
    + rewrite IH. split; [apply starved_sep|]. intros H. inversion H; subst; [cbn in *; lia|assumption|congruence].
    + rewrite IH. split; [apply starved_none; exact N|]. intros H. inversion H; subst; [cbn in *; lia|congruence|assumption].
Qed.

(** C26. A MAC address text panics exactly when the separator is optional and the text, at least 12 bytes long, ends before the
    place of the fifth separator. *)
Theorem C26_mac_panics_exactly : forall case sep v,
  (mac_parse_str case sep v = Panic <-> exists c, sep = SepAllow c /\ (12 <= List.length v)%nat /\ starved c 5 v) /\
  (mac_validate_str case sep v = Panic <-> mac_parse_str case sep v = Panic).
Proof.
  intros case sep v. split.
  - split.
    + intros H. apply (parse_panic true) in H as (c & -> & L & _ & P). exists c. split; [reflexivity|]. split; [exact L|].
      apply split_starved. exact P.
    + intros (c & -> & L & S). pose proof (starved_length _ _ _ S) as L2. change (parse_of true case (SepAllow c) v = Panic).
      rewrite parse_of_unfold, iter_allow. apply split_starved in S. change (repeat 2%nat 6) with (sizes_of true) in S. rewrite S.
      change (list_sum (sizes_of true)) with 12%nat. change (List.length (sizes_of true)) with 6%nat.
      destruct (Nat.leb_spec 12 (List.length v)) as [_|]; [|lia]. destruct (Nat.leb_spec (List.length v) (12 + (6 - 1))) as [_|]; [|lia].
      reflexivity.
  - pose proof (validate_parse true case sep v) as V. cbn [parse_of validate_of] in V. rewrite V.
    destruct (mac_parse_str case sep v); cbn; split; congruence.
Qed.
Print Assumptions C26_mac_panics_exactly.

Example C26_exact_example : starved 58 5 (bs "AA:BB:CC:DD:") /\ starved 58 5 (bs "AA:BB:CCDDEE") /\ ~ starved 58 5 (bs "AABBCCDDEEFF").
Proof.
  split; [apply split_starved; reflexivity|]. split; [apply split_starved; reflexivity|]. intros H. apply split_starved in H. discriminate.
Qed.

(** The emails on which a debug build panics: after an optional first comment and a local part, together of 64 bytes or more, an
    opening parenthesis that is not the last byte. *)
Definition email_panics (prof : profile) (c : email_cfg) (s : list N) : Prop :=
  prof = Debug /\ e_comment c = true /\ (List.length s <= 320)%nat /\
  exists k lt l nq q r, s = ctext k ++ lt ++ [40] ++ r /\ r <> [] /\ comment_ok c 62 k /\
    local_text (e_non_ascii c) (List.length (ctext k)) lt l nq q /\ (64 <= List.length (ctext k ++ lt))%nat.

Lemma comment2_panics c pre r : e_comment c = true -> (64 <= List.length pre)%nat -> r <> [] ->
  e_comment2 Debug c (pre ++ 40 :: r) (List.length pre) = Panic.
Proof.
  intros Hc L Hr. unfold e_comment2. rewrite idx_app. cbn [obind]. change (40 =? 40) with true. cbn iota. rewrite Hc. cbn [negb].
  assert (S40 : pre ++ 40 :: r = (pre ++ [40]) ++ r) by (rewrite <- app_assoc; reflexivity).
  assert (L40 : (List.length pre + 1)%nat = List.length (pre ++ [40])) by (rewrite app_length; reflexivity).
  assert (SF : @slice_from email_err (pre ++ 40 :: r) (List.length pre + 1) = Ok r) by (rewrite S40, L40; apply slice_from_app).
  destruct (Nat.ltb_spec (List.length pre + 1) (List.length (pre ++ 40%N :: r))) as [_|X].
  - rewrite SF. cbn [obind]. unfold e_take2. destruct (Nat.leb_spec (List.length pre + 1) 64); [lia|]. reflexivity.
  - exfalso. rewrite app_length in X. cbn in X. destruct r; [contradiction|cbn in X; lia].
Qed.

Lemma comment2_panic_rest prof c pre rest : valid_str (pre ++ rest) -> rest <> [] ->
  e_comment2 prof c (pre ++ rest) (List.length pre) = Panic -> exists r, rest = 40 :: r /\ r <> [].
Proof.
  intros Hv Hr H. destruct (comment2_panic prof c pre rest Hv Hr H) as (_ & Hc & _ & r & ->). exists r. split; [reflexivity|].
  intros ->. unfold e_comment2 in H. rewrite idx_app in H. cbn [obind] in H. change (40 =? 40) with true in H. cbn iota in H.
  rewrite Hc in H. cbn [negb] in H. rewrite app_length in H. change (List.length [40]) with 1%nat in H. rewrite Nat.ltb_irrefl in H. discriminate.
Qed.

Lemma email_v_panics_iff idna prof c s : valid_str s -> email_v_parse_str idna prof c s = Panic <-> email_panics prof c s.
Proof.
  intros Hv. unfold email_v_parse_str, email_panics. split.
  - destruct (Nat.eqb_spec (List.length s) 0) as [|H0]; [discriminate|].
    destruct (Nat.ltb_spec 320 (List.length s)) as [|HL]; [discriminate|]. cbn [orb].
    assert (Hs : s <> []) by (intros ->; cbn in H0; lia).
    destruct (e_leading_comment c 62 s) as [[n1 c1]| |] eqn:E1; cbn [obind]; try discriminate.
    2: { destruct (leading_no_panic c 62 s Hv Hs E1). }
    apply leading_spec in E1 as (r1 & (-> & Hr1 & Hk1 & Hn1) & ->); [|exact Hv].
    pose proof (ctext_ascii_end c1) as Ha.
    destruct (e_local_part c _ _) as [[[[l nq] q] n2]| |] eqn:E2; cbn [obind]; try discriminate.
    2: { destruct (local_part_no_panic c _ _ Hv Ha Hr1 E2). }
    apply local_part_spec in E2 as (lt & r2 & -> & HLT & -> & Hr2 & Hs2); [|exact Hv|exact Ha].
    rewrite app_assoc in *. rewrite <- app_length.
    destruct (e_comment2 prof c _ _) as [[n3 c2]| |] eqn:E3; cbn [obind]; try discriminate.
    2: { intros _. pose proof (comment2_panic_rest prof c _ _ Hv Hr2 E3) as (r & -> & Nr).
         apply comment2_panic in E3 as (-> & -> & L & _); [|exact Hv|exact Hr2].
         split; [reflexivity|]. split; [reflexivity|]. split; [exact HL|]. exists c1, lt, l, nq, q, r.
         split; [rewrite <- app_assoc; reflexivity|]. auto. }
    apply comment2_spec in E3 as (r3 & (-> & Hr3 & Hk3 & Hn3) & HS2 & ->); [|exact Hv|exact HL].
    rewrite app_assoc in *. rewrite <- app_length.
    destruct r3 as [|b d]; [contradiction|]. rewrite idx_app. cbn [obind].
    destruct (N.eqb_spec b 64) as [->|]; [|discriminate].
    destruct (_ =? _)%nat eqn:EN; [discriminate|]. cbn [negb orb].
    rewrite str_slice_after by (assumption || lia). cbn [obind].
    assert (Hd : valid_str d) by (apply (valid_after _ _ _ Hv); lia).
    destruct (e_domain_part idna c d (q && nq)) as [[[[h il] c3] c4]| |] eqn:ED; cbn [obind]; try discriminate.
    apply domain_part_no_panic in ED; [contradiction|exact Hd|]. intros ->.
    apply Nat.eqb_neq in EN. rewrite (app_length _ [64]) in EN. cbn in EN. lia.
  - intros (-> & Hc & HL & k & lt & l & nq & q & r & Es & Nr & Hk & HLT & L).
    pose proof (local_text_head idna _ _ _ _ _ _ HLT) as [L1 L2].
    destruct (Nat.eqb_spec (List.length s) 0) as [H0|_].
    { exfalso. apply length_zero_iff_nil in H0. rewrite Es in H0. apply app_eq_nil in H0 as [_ H0].
      apply app_eq_nil in H0 as [H0 _]. contradiction. }
    destruct (Nat.ltb_spec 320 (List.length s)) as [|_]; [lia|]. cbn [orb].
    rewrite (proj2 (leading_spec c 62 s (List.length (ctext k)) k Hv)).
    2: { eexists. split; [|reflexivity]. split; [exact Es|]. destruct lt as [|x lt]; [contradiction|].
         split; [discriminate|]. split; [exact Hk|]. intros _ r' E. injection E as -> _. exact (L2 _ eq_refl). }
    cbn [obind]. pose proof (ctext_ascii_end k) as Ha. rewrite Es in Hv |- *.
    rewrite (proj2 (local_part_spec c (ctext k) _ l nq q (List.length (ctext k) + List.length lt)%nat Hv Ha)).
    2: { exists lt. eexists. split; [reflexivity|]. split; [exact HLT|]. split; [reflexivity|]. split; [discriminate|].
         intros _. exists 40, r. split; [reflexivity|]. unfold stop_char. tauto. }
    cbn [obind]. rewrite app_assoc. rewrite <- app_length. cbn [app]. rewrite comment2_panics by assumption. reflexivity.
Qed.

(** C42. Exactly these emails panic, by every entry point and whatever IDNA does. *)
Theorem C42_email_panics_exactly : forall idna prof c s, valid_str s ->
  (email_parse_str idna prof c s = Panic <-> email_panics prof c s) /\
  (email_parse_string idna prof c s = Panic <-> email_panics prof c s) /\
  (email_validate_str idna prof c s = Panic <-> email_panics prof c s).
Proof.
  intros idna prof c s Hv. pose proof (email_v_panics_iff idna prof c s Hv) as V.
  assert (P : email_parse_str idna prof c s = Panic <-> email_panics prof c s).
  { rewrite <- V. unfold email_parse_str. destruct (email_v_parse_str idna prof c s) as [r| |] eqn:E; cbn [obind].
    - apply email_v_spec in E; [|exact Hv]. rewrite (e_create_spec _ _ _ _ _ E). split; discriminate.
    - split; discriminate.
    - split; reflexivity. }
  split; [exact P|]. split; [exact P|].
  rewrite <- V. unfold email_validate_str. destruct (email_v_parse_str idna prof c s); cbn [obind]; split; congruence.
Qed.
Print Assumptions C42_email_panics_exactly.

Example C42_exact_example :
  email_panics Debug (ecfg true Allow Allow Allow true) (List.repeat 97 64 ++ bs "(@") /\
  ~ email_panics Debug (ecfg true Allow Allow Allow true) (List.repeat 97 63 ++ bs "(c)@example.com") /\
  ~ email_panics Debug (ecfg true Allow Allow Allow true) (List.repeat 97 64 ++ bs "(").
Proof.
  assert (X : forall s, Forall (fun x => x < 128) s -> email_parse_str idna_ascii Debug (ecfg true Allow Allow Allow true) s = Panic <->
    email_panics Debug (ecfg true Allow Allow Allow true) s).
  { intros s Hs. apply C42_email_panics_exactly, ascii_valid, Hs. }
  split; [|split].
  - apply X; [repeat (constructor; [reflexivity|]); constructor|vm_compute; reflexivity].
  - rewrite <- X; [vm_compute; discriminate|repeat (constructor; [reflexivity|]); constructor].
  - rewrite <- X; [vm_compute; discriminate|repeat (constructor; [reflexivity|]); constructor].
Qed.
