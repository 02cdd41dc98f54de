(** Property C121: the e-mail validator reads an address with comments the way RFC 5322 does. *)
From Verif Require Import EntryFacts Base IntStr NetModel NetSpec NetProofs IpModel IpSpec LocalProofs IpProofs Utf8 StrFacts Serde
  DomainModel DomainSpec DomainProofs IdnaFrag HostModel HostSpec HostProofs EmailModel EmailSpec EmailProofs EmailParts
  EmailDomain EmailMain EmailRound.
From Verif Require Import PropEmail PropMailbox PropRead.
From Verif Require PropInject.
Local Open Scope N_scope.

(** RFC 5322, section 3.2.2, with the extension of RFC 6532 if [na]: what stands between the parentheses of a comment. Comments can be nested. *)
Definition comment_char (na : bool) (x : N) : Prop :=
  x = 9 \/ x = 32 \/ 33 <= x <= 39 \/ 42 <= x <= 91 \/ 93 <= x <= 126 \/ (na = true /\ 128 <= x).
Inductive comment_text (na : bool) : list N -> Prop :=
| ct_nil : comment_text na []
| ct_char x l : comment_char na x -> comment_text na l -> comment_text na (x :: l)
| ct_pair x l : x = 9 \/ 32 <= x <= 126 -> comment_text na l -> comment_text na (92 :: x :: l)
| ct_nested k l : comment_text na k -> comment_text na l -> comment_text na (40 :: k ++ 41 :: l).

(** An address (section 3.4.1) with at most one comment in each of the four places. *)
Definition in_parens (k : option (list N)) : list N := match k with Some t => [40] ++ t ++ [41] | None => [] end.
Definition addr_spec (na : bool) (s : list N) (k1 : option (list N)) (l : list N) (k2 k3 : option (list N)) (d : list N) (k4 : option (list N)) : Prop :=
  s = in_parens k1 ++ l ++ in_parens k2 ++ [64] ++ in_parens k3 ++ d ++ in_parens k4 /\ smtp_local na l /\ smtp_domain d /\
  forall t, k1 = Some t \/ k2 = Some t \/ k3 = Some t \/ k4 = Some t -> comment_text na t.

(** A comment with no closing parenthesis in it: none nested, none quoted. *)
Definition plain_comment (k : option (list N)) : Prop := forall t, k = Some t -> ~ In 41 t.

Lemma in_parens_ctext k : in_parens k = ctext k.
Proof. destruct k; reflexivity. Qed.

Lemma quote_ends_at na na' o l q r x d : quoted na o l -> qcontent na' q -> x = 64 \/ x = 40 -> l ++ 34 :: r = q ++ 34 :: x :: d ->
  l = q \/ exists w, q = l ++ 34 :: w.
Proof.
  intros (_ & F & _) Q X0 E.
  assert (forall (a b x y : list N), a ++ 34 :: x = b ++ 34 :: y -> (List.length a < List.length b)%nat ->
    exists w, b = a ++ 34 :: w /\ w ++ 34 :: y = x) as K.
  { induction a as [|h a IH]; intros [|k b] x' y Z L; cbn [List.length] in L; try lia; cbn [app] in Z.
    - injection Z as <- Z. exists b. auto.
    - injection Z as <- Z. destruct (IH b x' y Z ltac:(lia)) as (w & -> & W). exists w. auto. }
  destruct (Nat.lt_trichotomy (List.length l) (List.length q)) as [L|[L|L]].
  - destruct (K _ _ _ _ E L) as (w & -> & _). right. eauto.
  - left. exact (proj1 (PropInject.app_same_length _ _ _ _ L E)).
  - exfalso. destruct (K _ _ _ _ (eq_sym E) L) as (w & -> & W). destruct w as [|y w]; [destruct X0; subst x; discriminate W|].
    cbn [app] in W. injection W as -> _. destruct (F (q ++ [34]) x w) as [X|[X|[_ X]]].
    + rewrite <- app_assoc. reflexivity.
    + apply PropInject.local_char_plain in X. destruct X as (_ & X1 & X2 & _). destruct X0; congruence.
    + unfold blank in X. lia.
    + apply escaped_est in X. rewrite est_app in X. cbn [est] in X.
      rewrite step_nonblank in X by (unfold blank; lia). discriminate X.
Qed.

Lemma domain_plain d : smtp_domain d -> ~ In 40 d /\ d <> [].
Proof.
  intros [D|[(t & a & -> & D)|(t & a & -> & D)]].
  - split; [apply (sub_domains_no _ 40 D); cbn; tauto|]. destruct D as [l L|l t L _]; [apply L|]. destruct l; [now destruct L|discriminate].
  - split; [|discriminate]. cbn [app]. intros [X|X]; [discriminate X|]. apply in_app_or in X as [X|[X|[]]]; [|discriminate X]. revert X.
    apply (v4_not_in _ _ _ D). unfold v4_char. lia.
  - split; [|discriminate]. intros X. apply in_app_or in X as [X|X].
    + vm_compute in X. repeat (destruct X as [X|X]; [discriminate X|]). exact X.
    + apply in_app_or in X as [X|[X|[]]]; [|discriminate X]. revert X. apply (v6_not_in _ _ _ D). unfold v6_char. lia.
Qed.
Lemma host_text_plain idna c dt h canon : host_text idna c dt h canon -> ~ In 40 dt /\ dt <> [].
Proof.
  destruct h as [d|a|a]; cbn [host_text]; [tauto| |]; intros (_ & _ & t & -> & T & _); apply domain_plain; right; eauto.
Qed.

(** C121, the part that holds: an accepted address is returned with its own local part, domain and comments. Missing: a closing
    parenthesis, nested or quoted, in one of the first three comments, and a backslash in front of a space in the local part. In the last
    comment a closing parenthesis does no harm to the rest. *)
Theorem C121_addr_spec_partial : forall idna prof c na s k1 l k2 k3 d k4 v, valid_str s -> addr_spec na s k1 l k2 k3 d k4 ->
  plain_comment k1 -> plain_comment k2 -> plain_comment k3 -> no_escaped_space l ->
  email_parse_str idna prof c s = Ok v ->
  (l = ev_local v \/ l = [34] ++ ev_local v ++ [34]) /\ names_host idna d (ev_domain v) /\
  ev_c1 v = k1 /\ ev_c2 v = k2 /\ ev_c3 v = k3 /\ (k4 = None <-> ev_c4 v = None) /\ (plain_comment k4 -> ev_c4 v = k4).
Proof.
  intros idna prof c na s k1 l k2 k3 d k4 v V (E & SL & SD & _) K1 K2 K3 NS P.
  apply C44_email_accepts_exactly in P; [|exact V].
  destruct P as (lt & q & dt & tail & canon & ES & _ & HL & A1 & A2 & A3 & A4 & _ & HH & _).
  rewrite ES in E. clear ES. rewrite (in_parens_ctext k1), (in_parens_ctext k2), (in_parens_ctext k3), (in_parens_ctext k4) in E.
  destruct (domain_plain d SD) as [D40 D0]. destruct (host_text_plain _ _ _ _ _ HH) as [H40 H0].
  assert (O2 : forall k r, PropInject.starts_outside PropInject.plain_char (ctext k ++ [64] ++ r)).
  { intros k r x r' R. destruct k; cbn [ctext app] in R; injection R as <- _; unfold PropInject.plain_char; lia. }
  assert (PLAIN : forall l, dot_atom na l -> Forall PropInject.plain_char l).
  { clear. intros l SL. apply Forall_forall. intros x X. unfold PropInject.plain_char, blank.
    repeat split; [..|intros [->|[->| ->]]; revert X; apply (dot_atom_no _ _ _ SL); cbn; tauto];
      intros ->; revert X; apply (dot_atom_no _ _ _ SL); cbn; tauto. }
  assert (OL : PropInject.starts_outside (fun x => x = 40) (l ++ ctext k2 ++ [64] ++ ctext k3 ++ d ++ ctext k4)).
  { intros x r R ->. destruct SL as [SL|(y & -> & _)]; [|discriminate R]. destruct (dot_atom_chars _ _ SL) as [L0 _].
    apply PLAIN in SL. destruct l as [|y l]; [congruence|]. cbn [app] in R. injection R as -> _. inversion SL as [|? ? X]; subst. now destruct X. }
  assert (OT : PropInject.starts_outside (fun x => x = 40) (lt ++ ctext (ev_c2 v) ++ [64] ++ ctext (ev_c3 v) ++ dt ++ tail)).
  { intros x r R ->. destruct HL as [(_ & -> & U & _)|(_ & -> & U & _)]; [|discriminate R]. destruct U as (U0 & _ & U & _).
    destruct (ev_local v) as [|y z]; [congruence|]. cbn [app] in R. injection R as -> _. inversion U as [|? ? X]; subst.
    apply PropInject.local_char_plain in X. now destruct X. }
  apply PropInject.ctext_unique in E; [|intros t T; apply (A1 t T)|intros t T; apply (K1 t T)|exact OT|exact OL].
  destruct E as [E1 E].
  assert (LR : (l = ev_local v \/ l = [34] ++ ev_local v ++ [34]) /\
    ctext (ev_c2 v) ++ [64] ++ ctext (ev_c3 v) ++ dt ++ tail = ctext k2 ++ [64] ++ ctext k3 ++ d ++ ctext k4).
  { destruct HL as [(-> & -> & U & _)|(-> & -> & U & _)].
    - assert (PL : Forall PropInject.plain_char (ev_local v)).
      { destruct U as (_ & _ & U & _). eapply Forall_impl; [|exact U]. intros e. apply PropInject.local_char_plain. }
      destruct SL as [SL|(x & -> & _)].
      + apply (PropInject.run_unique PropInject.plain_char) in E; auto. destruct E as [El E]. auto.
      + exfalso. destruct (ev_local v) as [|y r]; [now destruct U|]. cbn [app] in E. injection E as -> _.
        inversion PL as [|? ? X]; subst. now destruct X.
    - destruct SL as [SL|(x & -> & QC)].
      + exfalso. destruct (dot_atom_chars _ _ SL) as [L0 _]. apply PLAIN in SL.
        destruct l as [|y l]; [congruence|]. cbn [app] in E. injection E as <- _. inversion SL as [|? ? X]; subst. now destruct X.
      + cbn [app] in E. injection E as E. rewrite <- !app_assoc in E.
        assert (R : exists y r, ctext k2 ++ [64] ++ ctext k3 ++ d ++ ctext k4 = y :: r /\ (y = 64 \/ y = 40)).
        { destruct k2; cbn [ctext app]; eauto. }
        destruct R as (y & r & R & Y). assert (E' := E). cbn [app] in E'. cbn [app] in R. rewrite R in E'.
        destruct (quote_ends_at _ _ _ _ _ _ _ _ U QC Y E') as [Eq|(w & ->)].
        * rewrite <- Eq in *. apply app_inv_head in E. injection E as E. auto.
        * exfalso. destruct U as (_ & _ & NE & _). apply NE, escaped_est. apply (content_quote _ _ QC) with (w := w); [|reflexivity].
          intros a b F. apply (NS ([34] ++ a) (b ++ [34])). rewrite F. now rewrite <- !app_assoc. }
  destruct LR as [LR E']. clear E. split; [exact LR|].
  assert (O1 : forall r, PropInject.starts_outside (fun x => x = 40) ([64] ++ r)) by (intros r x r' R; injection R as <- _; discriminate).
  apply PropInject.ctext_unique in E'; [|intros t T; apply (A2 t T)|intros t T; apply (K2 t T)|apply O1|apply O1].
  destruct E' as [E2 E]. injection E as E.
  assert (O4 : forall h r, ~ In 40 h -> h <> [] -> PropInject.starts_outside (fun x => x = 40) (h ++ r)).
  { intros h x I N e r R ->. destruct h as [|y h]; [congruence|]. cbn [app] in R. injection R as -> _. apply I. now left. }
  apply PropInject.ctext_unique in E; [|intros t T; apply (A3 t T)|intros t T; apply (K3 t T)|now apply O4|now apply O4].
  destruct E as [E3 E]. apply (PropInject.run_unique (fun x => x <> 40)) in E.
  - destruct E as [-> E]. split; [exact (host_text_names _ _ _ _ _ HH)|]. do 3 (split; [congruence|]).
    destruct (ev_c4 v) as [t|]; cbn [tail_ok] in A4.
    + destruct A4 as (_ & N & junk & ->). destruct k4 as [t'|]; cbn [ctext app] in E; [|discriminate E]. injection E as E.
      split; [split; discriminate|]. intros K4.
      rewrite <- app_assoc in E. cbn [app] in E. apply (PropInject.run_unique (fun x => x <> 41)) in E.
      * destruct E as [-> _]. reflexivity.
      * apply Forall_forall. intros x X ->. contradiction.
      * apply Forall_forall. intros x X ->. exact (K4 _ eq_refl X).
      * intros x r R. injection R as <- _. tauto.
      * intros x r R. injection R as <- _. tauto.
    + subst tail. destruct k4; [discriminate E|]. tauto.
  - apply Forall_forall. intros x X ->. contradiction.
  - apply Forall_forall. intros x X ->. contradiction.
  - destruct (ev_c4 v) as [t|]; cbn [tail_ok] in A4; [destruct A4 as (_ & _ & junk & ->)|subst tail]; intros x r R; [injection R as <- _; tauto|discriminate R].
  - intros x r R. destruct k4; cbn [ctext app] in R; [injection R as <- _; tauto|discriminate R].
Qed.
Print Assumptions C121_addr_spec_partial.

(** C121 fails for a closing parenthesis, nested or quoted, in each of the first three comments: an address at y.com is taken for one
    at x.org. *)
Lemma me_local : smtp_local false (bs "me").
Proof. left. apply da_run; [discriminate|]. apply Forall_forall. intros x X. left. vm_compute in X. unfold is_atext. destruct X as [<-|[<-|[]]]; lia. Qed.
Lemma y_com_domain : smtp_domain (bs "y.com").
Proof. left. apply (sd_dot (bs "y") (bs "com")); [|apply sd_one]; (apply letters_label; [discriminate|reflexivity]). Qed.
Lemma nested_comment a b : Forall (comment_char false) a -> Forall (comment_char false) b -> forall e, Forall (comment_char false) e ->
  comment_text false (a ++ [40] ++ b ++ [41] ++ e ++ bs "x.org(c)").
Proof.
  assert (H : forall u l, Forall (comment_char false) u -> comment_text false l -> comment_text false (u ++ l)).
  { intros u l F L. induction F; cbn [app]; [exact L|]. now constructor. }
  intros A B e E. apply H; [exact A|]. cbn [app]. apply (ct_nested _ b); [rewrite <- (app_nil_r b); apply H; [exact B|constructor]|].
  apply H; [exact E|]. let u := eval vm_compute in (bs "x.org(c)") in change (bs "x.org(c)") with u.
  do 5 (apply ct_char; [unfold comment_char; lia|]). apply (ct_nested _ [99] []); [|constructor].
  apply ct_char; [unfold comment_char; lia|constructor].
Qed.
Theorem C121_domain_refuted : exists idna c, idna_laws idna /\ idna_no_quote idna /\
  (exists s k2 v, valid_str s /\ s = bs "me(a\)@x.org(b))@y.com" /\ addr_spec false s None (bs "me") (Some k2) None (bs "y.com") None /\
    email_parse_str idna Debug c s = Ok v /\ ev_domain v = HDomain (bs "x.org")) /\
  (exists s k1 v, valid_str s /\ s = bs "(a(b)you@x.org(c))me@y.com" /\ addr_spec false s (Some k1) (bs "me") None None (bs "y.com") None /\
    email_parse_str idna Debug c s = Ok v /\ ev_local v = bs "you" /\ ev_domain v = HDomain (bs "x.org")) /\
  (exists s k2 v, valid_str s /\ s = bs "me(a(b)@x.org(c))@y.com" /\ addr_spec false s None (bs "me") (Some k2) None (bs "y.com") None /\
    email_parse_str idna Debug c s = Ok v /\ ev_domain v = HDomain (bs "x.org")) /\
  (exists s k3 v, valid_str s /\ s = bs "me@(a(b)x.org(c))y.com" /\ addr_spec false s None (bs "me") None (Some k3) (bs "y.com") None /\
    email_parse_str idna Debug c s = Ok v /\ ev_domain v = HDomain (bs "x.org")).
Proof.
  exists idna_ascii, (ecfg true Disallow Disallow Must false). split; [exact idna_ascii_laws|]. split; [exact idna_ascii_no_quote|].
  assert (A : Forall (comment_char false) (bs "a")) by (apply Forall_forall; intros x X; vm_compute in X; unfold comment_char; lia).
  assert (B : Forall (comment_char false) (bs "b")) by (apply Forall_forall; intros x X; vm_compute in X; unfold comment_char; lia).
  split; [|split; [|split]].
  - eexists (bs "me(a\)@x.org(b))@y.com"), (bs "a\)@x.org(b)"), _. split; [apply ascii_valid; repeat constructor; lia|]. split; [reflexivity|]. split.
    + split; [reflexivity|]. split; [exact me_local|]. split; [exact y_com_domain|].
      intros t [H|[H|[H|H]]]; try discriminate H. injection H as <-.
      let u := eval vm_compute in (bs "a\)@x.org(b)") in change (bs "a\)@x.org(b)") with u.
      apply ct_char; [unfold comment_char; lia|]. apply ct_pair; [lia|].
      do 6 (apply ct_char; [unfold comment_char; lia|]). apply (ct_nested _ [98] []); [|constructor].
      apply ct_char; [unfold comment_char; lia|constructor].
    + split; [vm_compute; reflexivity|reflexivity].
  - eexists (bs "(a(b)you@x.org(c))me@y.com"), (bs "a(b)you@x.org(c)"), _. split; [apply ascii_valid; repeat constructor; lia|]. split; [reflexivity|]. split.
    + split; [reflexivity|]. split; [exact me_local|]. split; [exact y_com_domain|].
      intros t [H|[H|[H|H]]]; try discriminate H. injection H as <-. apply (nested_comment _ _ A B (bs "you@")).
      apply Forall_forall. intros x X. vm_compute in X. unfold comment_char. decompose [or] X; try contradiction; subst; lia.
    + split; [vm_compute; reflexivity|split; reflexivity].
  - eexists (bs "me(a(b)@x.org(c))@y.com"), (bs "a(b)@x.org(c)"), _. split; [apply ascii_valid; repeat constructor; lia|]. split; [reflexivity|]. split.
    + split; [reflexivity|]. split; [exact me_local|]. split; [exact y_com_domain|].
      intros t [H|[H|[H|H]]]; try discriminate H. injection H as <-. apply (nested_comment _ _ A B (bs "@")).
      apply Forall_forall. intros x X. vm_compute in X. unfold comment_char. decompose [or] X; try contradiction; subst; lia.
    + split; [vm_compute; reflexivity|reflexivity].
  - eexists (bs "me@(a(b)x.org(c))y.com"), (bs "a(b)x.org(c)"), _. split; [apply ascii_valid; repeat constructor; lia|]. split; [reflexivity|]. split.
    + split; [reflexivity|]. split; [exact me_local|]. split; [exact y_com_domain|].
      intros t [H|[H|[H|H]]]; try discriminate H. injection H as <-. apply (nested_comment _ _ A B []). constructor.
    + split; [vm_compute; reflexivity|reflexivity].
Qed.
Print Assumptions C121_domain_refuted.

Example C121_example : exists v,
  let s := bs "(1)me(2)@(3)Example.com(4)" in
  valid_str s /\ addr_spec false s (Some (bs "1")) (bs "me") (Some (bs "2")) (Some (bs "3")) (bs "Example.com") (Some (bs "4")) /\
  plain_comment (Some (bs "1")) /\ plain_comment (Some (bs "2")) /\ plain_comment (Some (bs "3")) /\ no_escaped_space (bs "me") /\
  email_parse_str idna_ascii Debug (ecfg true Disallow Disallow Must false) s = Ok v /\
  ev_domain v = HDomain (bs "example.com") /\ ev_c3 v = Some (bs "3").
Proof.
  eexists. cbv zeta. split; [apply ascii_valid; repeat constructor; lia|]. split.
  - split; [reflexivity|]. split.
    + left. apply da_run; [discriminate|]. apply Forall_forall. intros x X. left. vm_compute in X. unfold is_atext. destruct X as [<-|[<-|[]]]; lia.
    + split.
      * left. apply (sd_dot (bs "Example") (bs "com")); [|apply sd_one]; (apply letters_label; [discriminate|reflexivity]).
      * intros t [H|[H|[H|H]]]; injection H as <-;
        [apply (ct_char _ 49 [])|apply (ct_char _ 50 [])|apply (ct_char _ 51 [])|apply (ct_char _ 52 [])]; (constructor || unfold comment_char; lia).
  - do 3 (split; [intros t H; injection H as <-; vm_compute; intuition discriminate|]).
    split; [intros u w H; do 2 (destruct u as [|? u]; [discriminate H|]; injection H as _ H); destruct u; discriminate H|].
    split; [vm_compute; reflexivity|]. split; reflexivity.
Qed.
