(** Property C119: the e-mail validator reads a mailbox the way SMTP does. *)
From Verif Require Import EntryFacts Base IntStr NetModel NetSpec NetProofs IpModel IpSpec LocalProofs IpProofs Utf8 StrFacts Serde
  DomainModel DomainSpec DomainProofs IdnaFrag HostModel HostSpec HostProofs EmailModel EmailSpec EmailProofs EmailParts
  EmailDomain EmailMain EmailRound.
From Verif Require Import PropEmail PropMailbox.
From Verif Require PropInject.
Local Open Scope N_scope.

(** STD3 rules (UTS #46, section 4.1, step 6): a name has no quotation mark. A hypothesis about the external crate idna. *)
Definition idna_no_quote (idna : list N -> option (list N)) : Prop := forall x d, idna x = Some d -> ~ In 34 x.

(** The domain part [d] of a mailbox names the host [h]. *)
Definition names_host (idna : list N -> option (list N)) (d : list N) (h : host) : Prop :=
  match h with
  | HDomain x => idna d = Some x
  | HIPv4 a => exists t, d = [91] ++ t ++ [93] /\ v4_text t a
  | HIPv6 a => exists t, d = bs "[IPv6:" ++ t ++ [93] /\ v6_text t a
  end.

(** What the validator returned is the mailbox with local part [l] and domain part [d]. *)
Definition read_as (idna : list N -> option (list N)) (l d : list N) (v : email_val) : Prop :=
  (l = ev_local v \/ l = [34] ++ ev_local v ++ [34]) /\ names_host idna d (ev_domain v) /\
  ev_c1 v = None /\ ev_c2 v = None /\ ev_c3 v = None /\ ev_c4 v = None.

Lemma no_quote_host idna c dt h canon : idna_no_quote idna -> host_text idna c dt h canon -> ~ In 34 dt.
Proof.
  intros L H. destruct h as [d|a|a]; cbn [host_text] in H.
  - destruct H as (_ & _ & _ & _ & _ & H & _). exact (L _ _ H).
  - destruct H as (_ & _ & t & -> & T & _). cbn [app]. intros [X|X]; [discriminate X|].
    apply in_app_or in X as [X|[X|[]]]; [|discriminate X]. revert X. apply (v4_not_in _ _ _ T). unfold v4_char. lia.
  - destruct H as (_ & _ & t & -> & T & _). intros X. apply in_app_or in X as [X|X].
    + vm_compute in X. repeat (destruct X as [X|X]; [discriminate X|]). exact X.
    + apply in_app_or in X as [X|[X|[]]]; [|discriminate X]. revert X. apply (v6_not_in _ _ _ T). unfold v6_char. lia.
Qed.
Lemma host_text_names idna c dt h canon : host_text idna c dt h canon -> names_host idna dt h.
Proof. destruct h; cbn; [tauto| |]; intros (_ & _ & t & E & T & _); eauto. Qed.

(** The end of the quoted content according to the validator and to SMTP. *)
Lemma quote_ends na na' o l q r d : quoted na o l -> qcontent na' q -> l ++ 34 :: r = q ++ 34 :: 64 :: d ->
  l = q \/ exists w, q = l ++ 34 :: w.
Proof.
  intros (_ & F & _) Q E.
  assert (forall (a b x y : list N), a ++ 34 :: x = b ++ 34 :: y -> (List.length a < List.length b)%nat ->
    exists w, b = a ++ 34 :: w /\ w ++ 34 :: y = x) as K.
  { induction a as [|h a IH]; intros [|k b] x y Z L; cbn [List.length] in L; try lia; cbn [app] in Z.
    - injection Z as <- Z. exists b. auto.
    - injection Z as <- Z. destruct (IH b x y Z ltac:(lia)) as (w & -> & W). exists w. auto. }
  destruct (Nat.lt_trichotomy (List.length l) (List.length q)) as [L|[L|L]].
  - destruct (K _ _ _ _ E L) as (w & -> & _). right. eauto.
  - left. exact (proj1 (PropInject.app_same_length _ _ _ _ L E)).
  - exfalso. destruct (K _ _ _ _ (eq_sym E) L) as (w & -> & W). destruct w as [|y w]; [discriminate W|].
    cbn [app] in W. injection W as -> _. destruct (F (q ++ [34]) 64 w) as [X|[X|[_ X]]].
    + rewrite <- app_assoc. reflexivity.
    + apply PropInject.local_char_plain in X. destruct X as (_ & _ & X & _). congruence.
    + unfold blank in X. lia.
    + apply escaped_est in X. rewrite est_app in X. cbn [est] in X.
      rewrite step_nonblank in X by (unfold blank; lia). discriminate X.
Qed.

(** No backslash in front of a space. *)
Definition no_escaped_space (l : list N) : Prop := forall u w, l <> u ++ [92; 32] ++ w.
Lemma content_quote na q : qcontent na q -> no_escaped_space q -> forall u w, q = u ++ 34 :: w -> est false u = true.
Proof.
  induction 1 as [|x l T Q IH|x l T Q IH]; intros N u w E.
  - destruct u; discriminate E.
  - destruct u as [|y u]; cbn [app] in E; injection E as -> E; [exfalso; unfold qtext in T; lia|].
    cbn [est]. assert (S0 : step y false = false).
    { unfold step. destruct (N.eqb_spec y 92); [exfalso; unfold qtext in T; lia|]. destruct ((y =? 32) || (y =? 9)); reflexivity. }
    rewrite S0. apply (IH (fun a b H => N (y :: a) b (f_equal (cons y) H)) _ _ E).
  - destruct u as [|y [|z u]]; cbn [app] in E; [discriminate E|injection E as <- -> E; reflexivity|].
    injection E as <- -> E. cbn [est]. change (step 92 false) with true. assert (S0 : step z true = false).
    { unfold step. destruct (N.eqb_spec z 92); [reflexivity|]. destruct (N.eqb_spec z 32) as [-> |_].
      - exfalso. exact (N [] l eq_refl).
      - destruct (N.eqb_spec z 9); [lia|reflexivity]. }
    rewrite S0. apply (IH (fun a b H => N (92 :: z :: a) b (f_equal (fun t => 92 :: z :: t) H)) _ _ E).
Qed.

(** After the local part. *)
Lemma rest_read idna c v dt tail canon d : smtp_domain d -> tail_ok c (ev_c4 v) tail -> host_text idna c dt (ev_domain v) canon ->
  ctext (ev_c2 v) ++ [64] ++ ctext (ev_c3 v) ++ dt ++ tail = 64 :: d ->
  names_host idna d (ev_domain v) /\ ev_c2 v = None /\ ev_c3 v = None /\ ev_c4 v = None.
Proof.
  intros D T H E. assert (N : ~ In 40 d).
  { destruct D as [D|[(t & a & -> & D)|(t & a & -> & D)]].
    - apply (sub_domains_no _ 40 D). cbn. tauto.
    - cbn [app]. intros [X|X]; [discriminate X|]. apply in_app_or in X as [X|[X|[]]]; [|discriminate X]. revert X.
      apply (v4_not_in _ _ _ D). unfold v4_char. lia.
    - intros X. apply in_app_or in X as [X|X].
      + vm_compute in X. repeat (destruct X as [X|X]; [discriminate X|]). exact X.
      + apply in_app_or in X as [X|[X|[]]]; [|discriminate X]. revert X. apply (v6_not_in _ _ _ D). unfold v6_char. lia. }
  destruct (ev_c2 v) as [k|]; [discriminate E|]. cbn [ctext app] in E. injection E as E.
  destruct (ev_c3 v) as [k|]; [exfalso; apply N; rewrite <- E; now left|]. cbn [ctext app] in E.
  destruct (ev_c4 v) as [k|]; cbn [tail_ok] in T.
  - exfalso. destruct T as (_ & _ & junk & ->). apply N. rewrite <- E. apply in_or_app. right. now left.
  - subst tail. rewrite app_nil_r in E. subst dt. split; [exact (host_text_names _ _ _ _ _ H)|auto].
Qed.

Lemma read idna prof c na s l d v : valid_str s -> mailbox na s l d -> email_parse_str idna prof c s = Ok v ->
  (forall q, l = [34] ++ q ++ [34] -> (e_comment c = false /\ idna_no_quote idna) \/ no_escaped_space q) ->
  read_as idna l d v.
Proof.
  intros V (E & SL & SD) P C. pose proof (C47_email_policies _ _ _ _ _ V P) as (_ & _ & _ & NC & _).
  apply C44_email_accepts_exactly in P; [|exact V].
  destruct P as (lt & q & dt & tail & canon & ES & _ & HL & A1 & A2 & A3 & A4 & _ & HH & _).
  rewrite ES in E. unfold read_as.
  assert (K1 : ev_c1 v = None).
  { destruct (ev_c1 v) as [k|]; [exfalso|reflexivity]. cbn [ctext app] in E. destruct SL as [SL|(x & -> & _)]; [|discriminate E].
    pose proof (dot_atom_no _ _ 40 SL ltac:(cbn; tauto)) as N. destruct (dot_atom_chars _ _ SL) as [L0 _].
    destruct l as [|y l]; [congruence|]. cbn [app] in E. injection E as <- _. apply N. now left. }
  rewrite K1 in *. cbn [ctext app List.length] in E, HL.
  destruct HL as [(-> & -> & U & _)|(-> & -> & U & _)].
  - (* not quoted *)
    assert (PL : Forall PropInject.plain_char (ev_local v)).
    { destruct U as (_ & _ & U & _). eapply Forall_impl; [|exact U]. intros e. apply PropInject.local_char_plain. }
    destruct SL as [SL|(x & -> & _)].
    + assert (PL' : Forall PropInject.plain_char l).
      { apply Forall_forall. intros x X. unfold PropInject.plain_char, blank.
        repeat split; [..|intros [->|[->| ->]]; revert X; apply (dot_atom_no _ _ _ SL); cbn; tauto];
          intros ->; revert X; apply (dot_atom_no _ _ _ SL); cbn; tauto. }
      apply (PropInject.run_unique PropInject.plain_char) in E; auto.
      2:{ intros x r R. destruct (ev_c2 v); cbn [ctext app] in R; injection R as <- _; unfold PropInject.plain_char; lia. }
      2:{ intros x r R. injection R as <- _. unfold PropInject.plain_char. lia. }
      destruct E as [El E]. split; [now left|]. split; [|split; [reflexivity|]]; now apply (rest_read _ _ _ _ _ _ _ SD A4 HH E).
    + exfalso. destruct (ev_local v) as [|y r]; [now destruct U|]. cbn [app] in E. injection E as -> _.
      inversion PL as [|? ? X]; subst. now destruct X.
  - destruct SL as [SL|(x & -> & QC)].
    + exfalso. pose proof (dot_atom_no _ _ 34 SL ltac:(cbn; tauto)) as N. destruct (dot_atom_chars _ _ SL) as [L0 _].
      destruct l as [|y l]; [congruence|]. cbn [app] in E. injection E as <- _. apply N. now left.
    + cbn [app] in E. injection E as E. rewrite <- !app_assoc in E. cbn [app] in E.
      destruct (quote_ends _ _ _ _ _ _ _ U QC E) as [Eq|(w & ->)].
      * rewrite <- Eq in *. apply app_inv_head in E. injection E as E. split; [now right|].
        split; [|split; [reflexivity|]]; now apply (rest_read _ _ _ _ _ _ _ SD A4 HH E).
      * exfalso. destruct (C _ eq_refl) as [[K L]|NS].
        -- destruct (NC K) as (_ & K2 & K3 & K4). rewrite K2, K3 in E. rewrite K4 in A4. cbn in A4. subst tail.
           cbn [ctext app] in E. rewrite app_nil_r, <- app_assoc in E. apply app_inv_head in E. cbn [app] in E. injection E as E.
           destruct w as [|y w]; [discriminate E|]. cbn [app] in E. injection E as _ E.
           apply (no_quote_host _ _ _ _ _ L HH). rewrite E. apply in_or_app. right. now left.
        -- destruct U as (_ & _ & NE & _). apply NE, escaped_est. exact (content_quote _ _ QC NS _ _ eq_refl).
Qed.

(** C119: where comments are not allowed, an accepted mailbox of RFC 5321 is returned with its own local part and its
    own domain. *)
Theorem C119_no_comments : forall idna prof c na s l d v, idna_no_quote idna -> valid_str s -> e_comment c = false ->
  mailbox na s l d -> email_parse_str idna prof c s = Ok v -> read_as idna l d v.
Proof. intros idna prof c na s l d v L V C M P. apply (read _ _ _ _ _ _ _ _ V M P). intros q _. left. auto. Qed.
Print Assumptions C119_no_comments.

(** C119, the part that holds with comments: also there, if no backslash stands in front of a space. Missing: that. *)
Theorem C119_comments_partial : forall idna prof c na s l d v, valid_str s -> no_escaped_space l ->
  mailbox na s l d -> email_parse_str idna prof c s = Ok v -> read_as idna l d v.
Proof.
  intros idna prof c na s l d v V N M P. apply (read _ _ _ _ _ _ _ _ V M P). intros q ->. right. intros u w ->.
  apply (N ([34] ++ u) (w ++ [34])). now rewrite <- !app_assoc.
Qed.
Print Assumptions C119_comments_partial.

Lemma idna_ascii_no_quote : idna_no_quote idna_ascii.
Proof.
  intros x d H. pose proof (proj1 (idna_ascii_laws x d H)) as F.
  apply idna_ascii_frag in H as [H Ha]. unfold idna_frag in H. destruct (map_dots x) as [d'|] eqn:Em; [|discriminate H].
  destruct (ok_name (strip_last 46 d')); [|discriminate H]. injection H as <-. apply (map_ascii _ _ Ha) in Em.
  intros X. rewrite Forall_forall in F. assert (I : idna_char (lower 34)) by (apply F; rewrite Em; now apply in_map).
  vm_compute in I. clear - I. intuition discriminate.
Qed.

Lemma letters_label l : l <> [] -> forallb (fun x => (97 <=? x) && (x <=? 122) || (65 <=? x) && (x <=? 90)) l = true -> ldh_label l.
Proof.
  intros N F. rewrite forallb_forall in F.
  assert (G : forall x, In x l -> let_dig x).
  { intros x X. specialize (F x X). rewrite orb_true_iff, !andb_true_iff, !N.leb_le in F. unfold let_dig. lia. }
  split; [exact N|]. split; [apply Forall_forall; auto|].
  split; [intros r ->; specialize (G 45 (or_introl eq_refl))|
          intros u ->; specialize (G 45 (in_elt 45 u []))]; unfold let_dig in G; lia.
Qed.

(** C119 fails where comments are allowed: a mailbox at y.com is taken for one at x.org. *)
Theorem C119_domain_refuted : exists idna c s l v, idna_laws idna /\ idna_no_quote idna /\ valid_str s /\
  s = [34; 92; 32; 92; 34] ++ bs "@x.org(c)" ++ [34] ++ bs "@y.com" /\ mailbox false s l (bs "y.com") /\
  email_parse_str idna Debug c s = Ok v /\ ev_domain v = HDomain (bs "x.org") /\ idna (bs "y.com") = Some (bs "y.com").
Proof.
  exists idna_ascii, (ecfg true Disallow Disallow Must false), ([34; 92; 32; 92; 34] ++ bs "@x.org(c)" ++ [34] ++ bs "@y.com"),
    ([34; 92; 32; 92; 34] ++ bs "@x.org(c)" ++ [34]).
  eexists. split; [exact idna_ascii_laws|]. split; [exact idna_ascii_no_quote|].
  split; [apply ascii_valid; repeat constructor; lia|]. split; [reflexivity|]. split.
  - split; [reflexivity|]. split.
    + right. exists ([92; 32; 92; 34] ++ bs "@x.org(c)"). split; [reflexivity|].
      let t := eval vm_compute in (bs "@x.org(c)") in change (bs "@x.org(c)") with t. cbn [app].
      apply qc_pair; [lia|]. apply qc_pair; [lia|]. repeat (apply qc_text; [unfold qtext; lia|]). constructor.
    + left. apply (sd_dot (bs "y") (bs "com")); [|apply sd_one]; (apply letters_label; [discriminate|reflexivity]).
  - split; [vm_compute; reflexivity|]. split; reflexivity.
Qed.
Print Assumptions C119_domain_refuted.

Example C119_example : exists v w,
  let s := [34] ++ bs "a b\@c" ++ [34] ++ bs "@Example.com" in
  idna_no_quote idna_ascii /\ valid_str s /\ no_escaped_space ([34] ++ bs "a b\@c" ++ [34]) /\
  mailbox false s ([34] ++ bs "a b\@c" ++ [34]) (bs "Example.com") /\
  email_parse_str idna_ascii Debug (ecfg false Disallow Disallow Must false) s = Ok v /\
  ev_local v = bs "a b\@c" /\ ev_domain v = HDomain (bs "example.com") /\
  email_parse_str idna_ascii Debug (ecfg true Disallow Disallow Must false) s = Ok w /\
  email_parse_str idna_ascii Debug (ecfg false Disallow Disallow Must false)
    ([34; 92; 32; 92; 34] ++ bs "@x.org(c)" ++ [34] ++ bs "@y.com") = Err ECommentDisallow.
Proof.
  eexists. eexists. cbv zeta. split; [exact idna_ascii_no_quote|]. split; [apply ascii_valid; repeat constructor; lia|].
  split.
  { intros u w U. let t := eval vm_compute in ([34] ++ bs "a b\@c" ++ [34]) in change ([34] ++ bs "a b\@c" ++ [34]) with t in U.
    do 8 (destruct u as [|? u]; cbn [app] in U; [discriminate U|injection U as _ U]). destruct u; discriminate U. }
  split.
  - split; [reflexivity|]. split.
    + right. exists (bs "a b\@c"). split; [reflexivity|].
      let t := eval vm_compute in (bs "a b\@c") in change (bs "a b\@c") with t.
      do 3 (apply qc_text; [unfold qtext; lia|]). apply qc_pair; [lia|]. apply qc_text; [unfold qtext; lia|]. constructor.
    + left. apply (sd_dot (bs "Example") (bs "com")); [|apply sd_one]; (apply letters_label; [discriminate|reflexivity]).
  - split; [vm_compute; reflexivity|]. split; [reflexivity|]. split; [reflexivity|]. split; vm_compute; reflexivity.
Qed.
