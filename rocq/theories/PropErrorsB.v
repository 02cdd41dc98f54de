(** Property C74, continued: email addresses, encodings and identifiers. *)
From Verif Require Import Base IntStr NetModel NetSpec NetProofs IpModel IpSpec LocalProofs IpProofs Utf8 StrFacts Serde
  DomainModel DomainSpec DomainProofs IdnaFrag IdnaDigits HostModel HostSpec HostProofs EmailModel EmailSpec
  PropIp PropDomain PropHost PropEmail PropUnion PropErrors.
Local Open Scope N_scope.

(** [r] under the policies of [c], [free] without policies. *)
Definition email_says {A B} (c : email_cfg) (R : A -> B -> Prop) (r : outcome email_err A) (free : outcome email_err B) : Prop :=
  match r with
  | Ok x => exists y, free = Ok y /\ R x y
  | Err EInvalid => free = Err EInvalid
  | Err EIPMust => e_ip c = Must
  | Err EIPDisallow => e_ip c = Disallow
  | Err ELocalMust => e_local c = Must
  | Err ELocalDisallow => e_local c = Disallow
  | Err ETwoLabelsMust => e_two c = Must
  | Err ETwoLabelsDisallow => e_two c = Disallow
  | Err ECommentDisallow => e_comment c = false
  | Panic => True
  end.

Lemma says_bind {A B A' B'} c (R : A -> B -> Prop) (R' : A' -> B' -> Prop) r free k k' :
  email_says c R r free -> (forall x y, R x y -> email_says c R' (k x) (k' y)) ->
  email_says c R' (obind r k) (obind free k').
Proof.
  intros H K. destruct r as [x|e|]; cbn [obind].
  - destruct H as (y & -> & H). cbn [obind]. exact (K x y H).
  - destruct e; cbn in *; try assumption. rewrite H. reflexivity.
  - exact I.
Qed.
Lemma says_refl {A} c (r : outcome email_err A) :
  (forall e, r = Err e -> e = EInvalid) -> email_says c eq r r.
Proof. intros H. destruct r as [x|e|]; cbn; [eauto | rewrite (H e eq_refl); reflexivity | exact I]. Qed.
Lemma says_same {A B} c (x : A) (R : A -> B -> Prop) y : R x y -> email_says c R (Ok x) (Ok y).
Proof. intros H. exists y. auto. Qed.

Definition free_cfg (c : email_cfg) : email_cfg := ecfg true Allow Allow Allow (e_non_ascii c).

Lemma quoted_loop_free c : forall l p a b d, e_quoted_loop (free_cfg c) l p a b d = e_quoted_loop c l p a b d.
Proof. induction l as [|e l IH]; intros; [reflexivity|]. cbn [e_quoted_loop]. rewrite !IH. reflexivity. Qed.
Lemma unquoted_loop_free c : forall l p d, e_unquoted_loop (free_cfg c) l p d = e_unquoted_loop c l p d.
Proof. induction l as [|e l IH]; intros; [reflexivity|]. cbn [e_unquoted_loop]. rewrite !IH. reflexivity. Qed.
Lemma local_part_free c s n : e_local_part (free_cfg c) s n = e_local_part c s n.
Proof.
  unfold e_local_part. change (e_quoted_first (free_cfg c)) with (e_quoted_first c).
  change (other_ok (free_cfg c)) with (other_ok c).
  destruct (idx s n) as [b|e|]; cbn [obind]; [|reflexivity..]. destruct (b =? 34).
  - destruct (_ || _)%bool; [reflexivity|]. destruct (idx s (n + 1)) as [x|e|]; cbn [obind]; [|reflexivity..].
    destruct (e_quoted_first c x) as [[[p q] r]|e|]; cbn [obind]; [|reflexivity..]. rewrite quoted_loop_free. reflexivity.
  - rewrite unquoted_loop_free. reflexivity.
Qed.

Lemma quoted_loop_err c : forall l p a b d e, e_quoted_loop c l p a b d = Err e -> e = EInvalid.
Proof.
  induction l as [|x l IH]; intros p a b d e; cbn [e_quoted_loop]; [congruence|].
  repeat match goal with |- (if ?b then _ else _) = _ -> _ => destruct b end; try congruence; apply IH.
Qed.
Lemma unquoted_loop_err c : forall l p d e, e_unquoted_loop c l p d = Err e -> e = EInvalid.
Proof.
  induction l as [|x l IH]; intros p d e; cbn [e_unquoted_loop]; [congruence|].
  repeat match goal with |- (if ?b then _ else _) = _ -> _ => destruct b end; try congruence; apply IH.
Qed.
Lemma local_part_err c s n e : e_local_part c s n = Err e -> e = EInvalid.
Proof.
  unfold e_local_part. destruct (idx s n) as [b|x|] eqn:E1; cbn [obind]; [|exfalso; exact (idx_err _ _ _ E1)|discriminate].
  destruct (b =? 34).
  - destruct (_ || _)%bool; [congruence|].
    destruct (idx s (n + 1)) as [y|x|] eqn:E2; cbn [obind]; [|exfalso; exact (idx_err _ _ _ E2)|discriminate].
    destruct (e_quoted_first c y) as [[[p q] r]|x|] eqn:E3; cbn [obind]; [| |discriminate].
    + destruct (e_quoted_loop c (skipn (n + 1 + 1) s) (n + 1 + 1) p q r) as [[q' z]|x|] eqn:E4; cbn [obind]; [| |discriminate].
      * destruct (str_slice s (n + 1) q') as [w|x|] eqn:E5; cbn [obind]; [|exfalso; exact (str_slice_err _ _ _ _ E5)|discriminate].
        destruct (_ =? _)%nat; congruence.
      * intros [= <-]. exact (quoted_loop_err _ _ _ _ _ _ _ E4).
    + intros [= <-]. revert E3. unfold e_quoted_first.
      repeat match goal with |- (if ?b then _ else _) = _ -> _ => destruct b end; congruence.
  - destruct (_ || _)%bool; [|congruence].
    destruct (e_unquoted_loop c (skipn (n + 1) s) (n + 1) false) as [q|x|] eqn:E4; cbn [obind]; [| |discriminate].
    + destruct (str_slice s n q) as [w|x|] eqn:E5; cbn [obind]; [|exfalso; exact (str_slice_err _ _ _ _ E5)|discriminate]. congruence.
    + intros [= <-]. exact (unquoted_loop_err _ _ _ _ _ E4).
Qed.

Ltac same := first [exact I | reflexivity | (eexists; split; [reflexivity | reflexivity]) | noerr].

Lemma leading_says c n s : email_says c eq (e_leading_comment c n s) (e_leading_comment (free_cfg c) n s).
Proof.
  unfold e_leading_comment, email_says. cbn [e_comment free_cfg ecfg negb].
  destruct (e_comment c) eqn:Ec; cbn [negb]; bash; try congruence; same.
Qed.
Lemma comment2_says prof c s n : email_says c eq (e_comment2 prof c s n) (e_comment2 prof (free_cfg c) s n).
Proof.
  unfold e_comment2, email_says, e_take2. cbn [e_comment free_cfg ecfg negb].
  destruct (e_comment c) eqn:Ec; cbn [negb]; bash; try congruence; same.
Qed.
Lemma comment4_says c s n : email_says c eq (e_comment4 c s n) (e_comment4 (free_cfg c) s n).
Proof.
  unfold e_comment4, email_says. cbn [e_comment free_cfg ecfg negb].
  destruct (e_comment c) eqn:Ec; cbn [negb]; bash; try congruence; same.
Qed.

(** The flag [is_local] is not computed without policies. *)
Definition upto_flag (x y : host * bool * nat * Z) : Prop :=
  let '(h, _, n, z) := x in let '(h', _, n', z') := y in (h, n, z) = (h', n', z').

Lemma handle_ip_says c s n : email_says c upto_flag (e_handle_ip c s n) (e_handle_ip (free_cfg c) s n).
Proof.
  unfold e_handle_ip, email_says. cbn [e_ip e_two free_cfg ecfg is_disallow].
  destruct (e_ip c) eqn:Ei; try reflexivity; (destruct (is_disallow (e_two c)) eqn:Et;
    [destruct (e_two c); try discriminate; reflexivity|]); bash; try congruence; same.
Qed.
Lemma handle_domain_says idna c s n : email_says c upto_flag (e_handle_domain idna c s n) (e_handle_domain idna (free_cfg c) s n).
Proof.
  unfold e_handle_domain, e_check_two, email_says. cbn [e_ip e_two free_cfg ecfg is_disallow].
  destruct (e_ip c) eqn:Ei; try reflexivity; destruct (e_two c) eqn:Et; bash; try congruence; same.
Qed.
Lemma domain_part_says idna c s q :
  email_says c (fun x y => let '(h, _, c3, c4) := x in let '(h', _, c3', c4') := y in (h, c3, c4) = (h', c3', c4'))
    (e_domain_part idna c s q) (e_domain_part idna (free_cfg c) s q).
Proof.
  unfold e_domain_part. destruct (255 <? List.length s)%nat; [reflexivity|].
  eapply says_bind; [apply leading_says|]. intros [n c3] ? <-.
  destruct (idx s n) as [b|e|] eqn:Ei; cbn [obind]; [|exfalso; exact (idx_err _ _ _ Ei)|exact I].
  eapply says_bind.
  - destruct (b =? 40); [|destruct (b =? 91)].
    + instantiate (1 := upto_flag). reflexivity.
    + apply handle_ip_says.
    + apply handle_domain_says.
  - intros [[[h fl] n'] z] [[[h0 fl0] n0] z0] E. cbn in E. injection E as <- <- <-.
    unfold e_check_local at 1 2. cbn [e_local free_cfg ecfg obind].
    assert (K : email_says c (fun x y => let '(h, _, c3, c4) := x in let '(h', _, c3', c4') := y in (h, c3, c4) = (h', c3', c4'))
      (if ((0 <? (if q then -2 else 0) + z) && (255 <? Z.of_nat (List.length s) + ((if q then -2 else 0) + z)))%Z then Err EInvalid
       else (let? c4 := e_comment4 c s n' in Ok (h, fl, c3, c4)))
      (if ((0 <? (if q then -2 else 0) + z) && (255 <? Z.of_nat (List.length s) + ((if q then -2 else 0) + z)))%Z then Err EInvalid
       else (let? c4 := e_comment4 (free_cfg c) s n' in Ok (h, fl0, c3, c4)))).
    { destruct (_ && _)%Z%bool; [reflexivity|]. eapply says_bind; [apply comment4_says|].
      intros x ? <-. apply says_same. reflexivity. }
    destruct (e_local c) eqn:El; destruct fl; cbn [negb obind]; try exact K; exact El.
Qed.

Lemma email_v_says idna prof c s :
  email_says c (fun x y => (er_local x, er_need_quoted x, er_host x) = (er_local y, er_need_quoted y, er_host y))
    (email_v_parse_str idna prof c s) (email_v_parse_str idna prof (free_cfg c) s).
Proof.
  unfold email_v_parse_str. destruct (_ || _)%bool; [reflexivity|].
  eapply says_bind; [apply leading_says|]. intros [n c1] ? <-. rewrite local_part_free.
  eapply says_bind; [apply says_refl; intros e; apply local_part_err|]. intros [[[l nq] qd] n'] ? <-.
  eapply says_bind; [apply comment2_says|]. intros [n2 c2] ? <-.
  destruct (idx s n2) as [b|e|] eqn:Ei; cbn [obind]; [|exfalso; exact (idx_err _ _ _ Ei)|exact I].
  destruct (_ || _)%bool; [reflexivity|].
  destruct (str_slice_from s (n2 + 1)) as [d|e|] eqn:Es; cbn [obind];
    [| exfalso; revert Es; unfold str_slice_from; apply str_slice_err |exact I].
  eapply says_bind; [apply domain_part_says|]. intros [[[h fl] c3] c4] [[[h' fl'] c3'] c4'] [= <- <- <-].
  apply says_same. reflexivity.
Qed.

(** What each error of an email validator says; [f comment ip local two] is the result under these policies. A plain
    [Invalid] says that no choice of those policies accepts the text. Every other error names a policy that is set, and a
    text that would be accepted without that policy is accepted under the opposite one. *)
Definition email_error_means {A} (f : bool -> tri -> tri -> tri -> outcome email_err A) : Prop :=
  forall com ip local two e, f com ip local two = Err e ->
  match e with
  | EInvalid => forall com' ip' local' two', ~ is_ok (f com' ip' local' two')
  | ECommentDisallow => com = false
  | EIPMust => ip = Must /\ (is_ok (f com Allow local two) -> is_ok (f com Disallow local two))
  | EIPDisallow => ip = Disallow /\ (is_ok (f com Allow local two) -> is_ok (f com Must local two))
  | ELocalMust => local = Must /\ (is_ok (f com ip Allow two) -> is_ok (f com ip Disallow two))
  | ELocalDisallow => local = Disallow /\ (is_ok (f com ip Allow two) -> is_ok (f com ip Must two))
  | ETwoLabelsMust => two = Must /\ (is_ok (f com ip local Allow) -> is_ok (f com ip local Disallow))
  | ETwoLabelsDisallow => two = Disallow /\ (is_ok (f com ip local Allow) -> is_ok (f com ip local Must))
  end.

Theorem C74_email_errors : forall idna prof na s, valid_str s ->
  email_error_means (fun com ip local two => email_parse_str idna prof (ecfg com ip local two na) s).
Proof.
  intros idna prof na s Hs com ip local two e H.
  assert (CE : forall c r e, e_create c r <> Err e).
  { intros c r e'. unfold e_create. destruct (e_ip c), (er_host r); discriminate. }
  assert (V : email_v_parse_str idna prof (ecfg com ip local two na) s = Err e).
  { unfold email_parse_str in H. destruct (email_v_parse_str idna prof (ecfg com ip local two na) s) as [r|e'|]; cbn in H;
      [exfalso; exact (CE _ _ _ H) | congruence | discriminate]. }
  pose proof (email_v_says idna prof (ecfg com ip local two na) s) as S. rewrite V in S.
  unfold email_says in S. cbn [e_ip e_local e_two e_comment ecfg] in S.
  pose proof (fun com ip two => splits_ok _ _ _ _ (C73_email_local idna prof com ip two na s Hs)) as SL.
  pose proof (fun com local two => splits_ok _ _ _ _ (C73_email_ip idna prof com local two na s Hs)) as SI.
  pose proof (fun com ip local => union_ok _ _ _ _ (C73_email_two idna prof com ip local na s Hs)) as ST.
  assert (NO : ~ is_ok (email_parse_str idna prof (ecfg com ip local two na) s)) by (rewrite H; apply not_ok_err).
  destruct e.
  all: try (subst; split; [reflexivity|]; intros K; first [apply SL in K | apply SI in K | apply ST in K]; tauto).
  - intros com' ip' local' two' K.
    assert (K2 : is_ok (email_parse_str idna prof (ecfg com' Allow local' two' na) s))
      by (destruct ip'; [| exact K |]; apply SI; auto).
    assert (K3 : is_ok (email_parse_str idna prof (ecfg com' Allow Allow two' na) s))
      by (destruct local'; [| exact K2 |]; apply SL; auto).
    assert (K4 : is_ok (email_parse_str idna prof (ecfg com' Allow Allow Allow na) s))
      by (destruct two'; [| exact K3 |]; apply ST; auto).
    assert (K5 : is_ok (email_parse_str idna prof (ecfg true Allow Allow Allow na) s)).
    { destruct K4 as (v & K4). destruct (C73_email_comment_non_ascii idna prof com' Allow Allow Allow na s v Hs K4 true na
        ltac:(auto) ltac:(auto)) as (w & K5 & _). exists w. exact K5. }
    unfold email_parse_str in K5. change (ecfg true Allow Allow Allow na) with (free_cfg (ecfg com ip local two na)) in K5.
    rewrite S in K5. exact (not_ok_err _ K5).
  - exact S.
Qed.

(** The policy [non_ascii(Disallow)] has no error of its own: the error is the plain [Invalid] although the text is accepted
    under [non_ascii(Allow)]; and the error for a comment can be reported for a text without one that is refused under every
    choice of the policies. *)
Theorem C74_email_errors_refuted :
  (exists s, valid_str s /\
     email_parse_str idna_ascii Debug (ecfg false Allow Allow Allow false) s = Err EInvalid /\
     is_ok (email_parse_str idna_ascii Debug (ecfg false Allow Allow Allow true) s)) /\
  (exists s, valid_str s /\ ~ In 40 s /\
     email_parse_str idna_ascii Debug (ecfg false Allow Allow Allow false) s = Err ECommentDisallow /\
     forall com ip local two na, ~ is_ok (email_parse_str idna_ascii Debug (ecfg com ip local two na) s)).
Proof.
  split.
  - exists [195; 169; 64; 98]. split; [exists [233; 64; 98]; split; [repeat constructor|reflexivity]|].
    split; [reflexivity|]. eexists. reflexivity.
  - exists (bs "a@[1.2.3.4]x"). split; [ascii_str|]. split; [cbn; intuition discriminate|]. split; [reflexivity|].
    intros com ip local two na (v & H). destruct com, ip, local, two, na; discriminate H.
Qed.

Example C74_example_b :
  valid_str (bs "a@b") /\
  email_parse_str idna_ascii Debug (ecfg false Disallow Allow Must false) (bs "a@b") = Err ETwoLabelsMust /\
  is_ok (email_parse_str idna_ascii Debug (ecfg false Disallow Allow Allow false) (bs "a@b")) /\
  is_ok (email_parse_str idna_ascii Debug (ecfg false Disallow Allow Disallow false) (bs "a@b")) /\
  email_parse_str idna_ascii Debug (ecfg false Disallow Allow Must false) (bs "a..a@b") = Err EInvalid.
Proof. split; [ascii_str|]. repeat split; try reflexivity; eexists; reflexivity. Qed.

Print Assumptions C74_email_errors.
Print Assumptions C74_email_errors_refuted.
