(** Property C132: an accepted text put in a cell of a spreadsheet is not a formula. *)
From Coq Require Import SpecFloat.
From Verif Require Import Base Utf8 IntStr IntStrProofs IntModel MacModel MacSpec BaseModel BaseSpec CodecModel CodecSpec
  RangeModel IntSpec NumberModel FloatModel BooleanModel BooleanProofs NetModel NetSpec NetProofs IpModel IpSpec IpProofs
  DomainModel DomainSpec DomainProofs HostModel HostSpec EmailModel EmailSpec EmailMain.
From Verif Require Import BaseProofs CodecProofs PropInt PropMac PropBoolean PropBase PropIp PropDomain PropHost PropEmail IdnaFrag StrFacts PropSafe
  PropTame PropOpt.
From Verif Require HttpModel.
Local Open Scope N_scope.

(** A spreadsheet takes a cell for a formula if it begins with an equals sign, a plus, a minus or an at sign, or with a tab or a carriage
    return, which some programs drop first. *)
Definition lead (c : N) : Prop := In c (bs "=+-@") \/ c = 9 \/ c = 13.
Definition formula (s : list N) : Prop := exists c r, s = c :: r /\ lead c.
(** What a formula needs to call a function or to reach another sheet or program: a parenthesis, an exclamation mark, a bar. *)
Definition inert (s : list N) : Prop := ~ In 40 s /\ ~ In 33 s /\ ~ In 124 s.

Lemma lead_range c : lead c <-> c = 61 \/ c = 43 \/ c = 45 \/ c = 64 \/ c = 9 \/ c = 13.
Proof. unfold lead. change (bs "=+-@") with [61; 43; 45; 64]. cbn [In]. intuition lia. Qed.
Lemma tame_inert s : Forall tame s -> inert s.
Proof.
  intros H. rewrite Forall_forall in H. repeat split; intros K; apply H, tame_not_wild in K as [K _]; apply K; unfold wild; right; right; left;
    vm_compute; tauto.
Qed.
Lemma fm_head c r : ~ lead c -> ~ formula (c :: r).
Proof. intros H (x & y & E & L). injection E as -> _. contradiction. Qed.
Lemma fm_app a b : formula (a ++ b) -> formula a \/ a = [] /\ formula b.
Proof. destruct a as [|c a]; cbn [app]; [auto|]. intros (x & y & E & L). injection E as -> _. left. exists x, a. auto. Qed.
Lemma fm_then t x r : ~ formula t -> ~ lead x -> ~ formula (t ++ x :: r).
Proof. intros T X O. apply fm_app in O. destruct O as [O|[_ O]]; [exact (T O)|]. revert O. now apply fm_head. Qed.
Lemma fm_all s : Forall (fun c => ~ lead c) s -> ~ formula s.
Proof. intros H (x & r & -> & L). inversion H. contradiction. Qed.
Ltac nl := rewrite lead_range; lia.

Lemma digits_all ds v : denotes_digits ds v -> Forall (fun c => 48 <= c <= 57) ds.
Proof.
  induction 1 as [c H|ds v c _ IH H]; unfold is_digit in H; [constructor; [lia|constructor]|].
  apply Forall_app. split; [exact IH|]. constructor; [lia|constructor].
Qed.
Lemma fm_digits ds : Forall (fun c => 48 <= c <= 57) ds -> ~ formula ds.
Proof. intros H. apply fm_all. eapply Forall_impl; [|exact H]. cbn. intros c C. nl. Qed.
Lemma fm_int sg s v : denotes_int sg s v -> formula s ->
  exists c r, s = c :: r /\ (c = 43 \/ sg = true /\ c = 45) /\ Forall (fun c => 48 <= c <= 57) r.
Proof.
  intros H O. inversion H as [ds w D|ds w D|ds w S D]; subst; apply digits_all in D.
  - exfalso. exact (fm_digits _ D O).
  - exists 43, ds. split; [reflexivity|]. split; [now left|exact D].
  - exists 45, ds. split; [reflexivity|]. split; [right; now split|exact D].
Qed.

Lemma fm_float t s f : float_of_text t s = Some f -> formula s -> exists c r, s = c :: r /\ (c = 43 \/ c = 45).
Proof.
  intros H (c & r & -> & L). exists c, r. split; [reflexivity|].
  pose proof (tm_float _ _ _ H) as T. apply Forall_inv, tame_range in T. apply lead_range in L.
  assert (c = 61 \/ c = 43 \/ c = 45) as [-> |[-> | ->]] by lia; [|auto|auto].
  exfalso. revert H. unfold float_of_text. cbn -[round_decimal]. discriminate.
Qed.

Lemma alphabet_lead f c : In c (alphabet f) -> lead c -> f = B64 /\ c = 43 \/ f = B64Url /\ c = 45.
Proof.
  intros H L. apply lead_range in L.
  assert (Forall (fun c => c = 61 \/ c = 43 \/ c = 45 \/ c = 64 \/ c = 9 \/ c = 13 -> f = B64 /\ c = 43 \/ f = B64Url /\ c = 45) (alphabet f)) as K.
  { destruct f; vm_compute alphabet; repeat (constructor; [intros Q; (tauto || (exfalso; lia))|]); constructor. }
  rewrite Forall_forall in K. exact (K c H L).
Qed.
Definition base_lead (f : flavour) (s : list N) : Prop := exists r, f = B64 /\ s = 43 :: r \/ f = B64Url /\ s = 45 :: r.
Lemma fm_alphabet f b r : b <> [] -> Forall (fun c => In c (alphabet f)) b -> formula (b ++ r) -> base_lead f (b ++ r).
Proof.
  intros N A (c & q & E & L). destruct b as [|x b]; [contradiction|]. cbn [app] in *. injection E as -> <-.
  destruct (alphabet_lead f c (Forall_inv A) L) as [[-> ->]|[-> ->]]; eexists; [left|right]; split; reflexivity.
Qed.
Lemma fm_hex case c d : is_hex case c d -> ~ lead c.
Proof.
  intros (a & A & B). apply nth_error_In in B. rewrite lead_range.
  assert (Forall (fun c => ~ (c = 61 \/ c = 43 \/ c = 45 \/ c = 64 \/ c = 9 \/ c = 13)) a) as V.
  { destruct case; cbn [hex_alphabets In] in A;
      repeat match type of A with _ \/ _ => destruct A as [<- |A] | False => destruct A end;
      vm_compute; repeat (constructor; [intros Q; repeat (destruct Q as [Q|Q]; [discriminate Q|]); discriminate Q|]); constructor. }
  exact (proj1 (Forall_forall _ _) V c B).
Qed.
Lemma fm_hexes case cs x : hex_denotes case cs x -> ~ formula cs.
Proof. intros H. apply fm_all. induction H as [|c d cs x H _ IH]; constructor; eauto using fm_hex. Qed.
Lemma fm_grouped sep n sizes v digits : grouped sep (S n :: sizes) v digits -> formula v -> formula digits.
Proof.
  intros G O. inversion G as [g E|g s z w ds F R E]; subst; [exact O|].
  destruct g as [|c g]; [discriminate|]. cbn [app] in *. destruct O as (x & y & O & L). injection O as -> _. exists x. eexists. split; [reflexivity|exact L].
Qed.

(** C132: integers and numbers that a spreadsheet computes begin with their sign and call nothing; a base64 text may begin with a plus
    and a base64_url text with a minus, and nothing else; the others are no formulas. *)
Theorem C132_texts : forall s, formula s ->
  (forall sg pw t r v, int_parse_str sg pw t r s = Ok v ->
     exists c d, s = c :: d /\ (c = 43 \/ sg = true /\ c = 45) /\ Forall (fun c => 48 <= c <= 57) d) /\
  (forall t r nan f, num_parse_str (float_of_text t) r nan s = Ok f -> (exists c d, s = c :: d /\ (c = 43 \/ c = 45)) /\ inert s) /\
  (forall f p v, base_parse_str f p s = Ok v -> base_lead f s /\ inert s) /\
  (forall f p v, dec_parse_str f p s = Ok v -> base_lead f s /\ inert s) /\
  (forall b, bool_parse_str s <> Ok b) /\
  (forall case sep x, mac_parse_str case sep s <> Ok x) /\
  (forall case sep x, uuid_parse_str case sep s <> Ok x).
Proof.
  intros s O. destruct (C115_tame s) as (_ & TN & _ & TB & TD & _).
  split.
  { intros sg pw t r v H. unfold int_parse_str, v_parse_str in H.
    destruct (int_from_str _ _ s) as [i| |] eqn:E; try discriminate.
    apply int_from_str_spec in E as [E _]; [|apply IntProofs.min_max].
    destruct (fm_int _ _ _ E O) as (c & q & -> & C & D). exists c, q. split; [reflexivity|]. split; [|exact D].
    destruct C as [C|[C ->]]; [now left|right]. split; [|reflexivity]. destruct sg; [reflexivity|discriminate C]. }
  split.
  { intros t r nan v H. split; [|exact (tame_inert _ (TN _ _ _ _ H))]. unfold num_parse_str, num_v_parse_str in H.
    destruct (float_of_text t s) eqn:E; [|discriminate]. exact (fm_float _ _ _ E O). }
  split.
  { intros f p v H. split; [|exact (tame_inert _ (TB _ _ _ H))].
    assert (base_shape f p s) as B by (apply C19_base_language; eexists; exact H).
    destruct B as (b & k & -> & N & A & P & _). apply fm_alphabet; [|exact A|exact O].
    intros ->. cbn [app] in *. destruct k as [|k]; [now apply N|]. destruct (P ltac:(discriminate)) as (C & [q D] & _).
    rewrite repeat_length in D. destruct f; cbn [pad_count chars_per_block In] in C, D; lia. }
  split.
  { intros f p v H. split; [|exact (tame_inert _ (TD _ _ _ H))].
    assert (forall d, Forall (fun c => In c (alphabet f)) (encode f d)) as X by (intros d; apply Forall_alphabet, alphabet_encode).
    apply C22_decoded_exact in H as (N & [(_ & _ & -> & _)|(_ & _ & ds & F & -> & _)]).
    - rewrite <- (app_nil_r (encode f v)) in *. apply fm_alphabet; [rewrite app_nil_r in N; exact N|apply X|exact O].
    - destruct ds as [|d ds]; [contradiction|]. apply Forall_inv in F as [_ F]. cbn [List.map List.concat] in *.
      unfold encode_pad in *. rewrite <- !app_assoc in *. apply fm_alphabet; [now apply encode_nonempty|apply X|exact O]. }
  split.
  { intros b H. apply C16_boolean_words in H as (w & W & S). destruct O as (l & r & -> & L). inversion S as [|x y q q' C _]; subst.
    assert (Forall (fun p => Forall (fun c => 48 <= c <= 49 \/ 97 <= c <= 122) (fst p)) bool_words) as K.
    { repeat (constructor; [cbn [fst]; apply Forall_forall; intros x X; vm_compute in X; lia|]). constructor. }
    pose proof (proj1 (Forall_forall _ _) K _ W) as Q. cbn [fst] in Q. inversion Q; subst. apply lead_range in L. lia. }
  split; intros case sep x H.
  - apply C25_mac_accepts_only in H as (ds & G & D). exact (fm_hexes _ _ _ D (fm_grouped _ _ _ _ _ G O)).
  - apply C28_uuid_accepts_only in H as (ds & G & D). exact (fm_hexes _ _ _ D (fm_grouped _ _ _ _ _ G O)).
Qed.
Print Assumptions C132_texts.

Lemma fm_v4 s a : v4_text s a -> ~ formula s.
Proof. intros H. apply v4_chars in H. apply fm_all. eapply Forall_impl; [|exact H]. intros c Hc. unfold v4_char in Hc. nl. Qed.
Lemma fm_v6 s a : v6_text s a -> ~ formula s.
Proof. intros H. apply v6_chars in H. apply fm_all. eapply Forall_impl; [|exact H]. intros c Hc. unfold v6_char in Hc. nl. Qed.
Lemma fm_v4_form s a p : v4_form s a p -> ~ formula s.
Proof. destruct p as [p|]; [intros (t & q & -> & A & B)|intros A; exact (fm_v4 _ _ A)]. apply fm_then; [exact (fm_v4 _ _ A)|nl]. Qed.
Lemma fm_v6_form s a p : v6_form s a p -> ~ formula s.
Proof.
  destruct p as [p|]; [intros (t & q & -> & A & B)|intros [A|(t & -> & A)]]; cbn [app].
  - apply fm_head. nl.
  - exact (fm_v6 _ _ A).
  - apply fm_head. nl.
Qed.

(** C132: addresses, and what they print. *)
Theorem C132_ip : forall port local s, valid_str s ->
  (forall v, ip_parse_str port local s = Ok v -> ~ formula s /\ ~ formula (ip_authority v)) /\
  (forall v, ipv4_parse_str port local s = Ok v -> ~ formula s /\ ~ formula (ipv4_authority v)) /\
  (forall v, ipv6_parse_str port local s = Ok v -> ~ formula s /\ ~ formula (ipv6_authority v)).
Proof.
  assert (forall s a p, v4_form s a p -> ~ formula s /\ ~ formula (ipv4_authority (a, p))) as K4.
  { intros s a p H. destruct (v4_form_addr _ _ _ H) as [A B].
    split; eapply fm_v4_form; [exact H|apply ipv4_authority_form; assumption]. }
  assert (forall s a p, v6_form s a p -> ~ formula s /\ ~ formula (ipv6_authority (a, p))) as K6.
  { intros s a p H. destruct (v6_form_addr _ _ _ H) as [A B].
    split; eapply fm_v6_form; [exact H|apply ipv6_authority_form; assumption]. }
  intros port local s V. split; [|split]; intros [x p] H.
  - destruct x as [a|a]; apply C31_ip_accepts_exactly in H as [F _]; try assumption; [apply K4 in F|apply K6 in F]; exact F.
  - apply C31_ipv4_accepts_exactly in H as [F _]; [|assumption]. apply K4 in F. exact F.
  - apply C31_ipv6_accepts_exactly in H as [F _]; [|assumption]. apply K6 in F. exact F.
Qed.
Print Assumptions C132_ip.

Lemma fm_idna idna s d : idna_ldh idna -> idna_laws idna -> idna_hyphens idna -> idna s = Some d -> ~ formula s /\ ~ formula d.
Proof.
  intros A B C H. destruct (C _ _ H) as [C1 C2]. split; intros (c & r & -> & L); apply lead_range in L.
  - pose proof (Forall_inv (A _ _ H)) as X. cbn in X. assert (c = 45) as -> by lia. apply C1. eexists. reflexivity.
  - pose proof (Forall_inv (proj1 (B _ _ H))) as X. unfold idna_char in X. assert (c = 45) as -> by lia. apply C2. eexists. reflexivity.
Qed.
Lemma fm_split s name p : split_port s name p -> ~ formula name -> ~ formula s.
Proof. destruct p as [p|]; [intros (q & -> & P)|intros [-> _]]; intros H; [|exact H]. apply fm_then; [exact H|nl]. Qed.
Lemma fm_dotted s a : v4_dotted s a -> ~ formula s.
Proof. intros (t & [-> | ->] & T); [exact (fm_v4 _ _ T)|]. apply fm_then; [exact (fm_v4 _ _ T)|nl]. Qed.
Lemma fm_firstn n s : ~ formula s -> ~ formula (firstn n s).
Proof. intros H (c & r & E & L). apply H. rewrite <- (firstn_skipn n s), E. exists c. eexists. split; [reflexivity|exact L]. Qed.

(** C132: domains and hosts, and what they print. *)
Theorem C132_names : forall idna s, idna_ldh idna -> idna_laws idna -> idna_hyphens idna -> valid_str s ->
  (forall c v, domain_parse_str idna c s = Ok v -> ~ formula s /\
     forall t, @domain_authority domain_err v = Ok t -> ~ formula t) /\
  (forall c v, host_parse_str idna c s = Ok v -> ~ formula s /\ ~ formula (host_authority v)).
Proof.
  intros idna s L1 L2 L3 V. pose proof (fun x d => fm_idna idna x d L1 L2 L3) as L. split.
  - intros c v H. apply C36_domain_accepts_exactly in H; [|exact V].
    destruct H as (_ & name & P & _ & B).
    assert (~ formula s /\ ~ formula (dv_domain v)) as [S D].
    { destruct B as [(_ & B & _)|[(_ & a & B & _ & _ & _ & E & _)|(_ & _ & _ & B & _)]].
      - destruct (L _ _ B) as [K1 K2]. split; [exact (fm_split _ _ _ P K1)|exact K2].
      - pose proof (fm_split _ _ _ P (fm_dotted _ _ B)) as W. split; [exact W|now rewrite E].
      - destruct (L _ _ B) as [K1 K2]. split; [exact (fm_split _ _ _ P K1)|exact K2]. }
    split; [exact S|]. intros t T. unfold domain_authority, get_domain_non_fully_qualified in T.
    destruct (is_fully_qualified (dv_domain v)).
    + unfold str_slice in T. destruct (_ && _)%bool; [|discriminate]. cbn [obind] in T.
      change (skipn 0 (dv_domain v)) with (dv_domain v) in T.
      pose proof (fm_firstn (List.length (dv_domain v) - 1 - 0) _ D) as F.
      destruct (dv_port v); injection T as <-; [|exact F]. apply fm_then; [exact F|nl].
    + cbn [obind] in T. destruct (dv_port v); injection T as <-; [|exact D]. apply fm_then; [exact D|nl].
  - intros c v H. apply C39_host_accepts_exactly in H; [|exact V]. unfold host_authority.
    destruct H as [(a & E & F & _)|[(a & E & F & _)|(name & d & E & _ & _ & _ & P & _ & _ & _ & B & _)]]; rewrite E.
    + split; [eapply fm_v6_form; exact F|]. destruct (v6_form_addr _ _ _ F) as [A Q].
      eapply fm_v6_form. apply ipv6_authority_form; assumption.
    + split; [eapply fm_v4_form; exact F|]. destruct (v4_form_addr _ _ _ F) as [A Q].
      eapply fm_v4_form. apply ipv4_authority_form; assumption.
    + destruct (L _ _ B) as [K1 D]. split; [exact (fm_split _ _ _ P K1)|].
      destruct (hv_port v); [|exact D]. apply fm_then; [exact D|nl].
Qed.
Print Assumptions C132_names.

(** C132: web addresses, for every behaviour of the url library. *)
Theorem C132_urls : forall url parse host local s, formula s ->
  HttpModel.http_parse_str url parse host local s = Err HttpModel.HProtocolError /\
  HttpModel.http_ftp_parse_str url parse host local s = Err HttpModel.HProtocolError.
Proof.
  intros url parse host local s (c & r & -> & L). apply lead_range in L.
  repeat (destruct L as [-> |L]; [split; reflexivity|]). subst c. split; reflexivity.
Qed.
Print Assumptions C132_urls.

(** C132. email: only a local part that reads as a formula makes an address, or what it prints, one. *)
Theorem C132_email_partial : forall idna prof c s v, valid_str s -> email_parse_str idna prof c s = Ok v ->
  formula s \/ formula (to_email_string c v) -> formula (ev_local v).
Proof.
  assert (~ lead 40 /\ ~ lead 34) as [L40 L34] by (split; nl).
  intros idna prof c s v Hv H O. apply email_parse_spec in H; [|exact Hv].
  destruct H as (lt & q & dt & tail & canon & Es & _ & HL & K1 & _).
  assert (ev_local v <> []) as NE by (destruct HL as [(_ & _ & (N & _) & _)|(_ & _ & (N & _) & _)]; exact N).
  assert (forall r, formula (ev_local v ++ r) -> formula (ev_local v)) as K.
  { intros r F. apply fm_app in F. destruct F as [F|[F _]]; [exact F|contradiction]. }
  destruct O as [O|O].
  - rewrite Es in O. destruct (ev_c1 v) as [t|]; cbn [ctext app] in O; [exfalso; revert O; now apply fm_head|].
    destruct HL as [(_ & -> & _ & _)|(_ & -> & _ & _)]; [exact (K _ O)|]. exfalso. revert O. now apply fm_head.
  - unfold to_email_string in O. destruct (e_comment c); cbn [negb] in O; [|exact (K _ O)].
    destruct (ev_c1 v) as [t|]; cbn [e_comment_text app] in O; [exfalso; revert O; now apply fm_head|].
    destruct (ev_need_quoted v); cbn [app] in O; [exfalso; revert O; now apply fm_head|]. exact (K _ O).
Qed.
Print Assumptions C132_email_partial.

(** Finding. An e-mail address may be a formula that reaches another program, and prints as it came in. *)
Theorem C132_email_refuted : exists s v, idna_hyphens idna_ascii /\ valid_str s /\ formula s /\ ~ inert s /\
  forall prof com ip two na, ip <> Must -> two <> Disallow ->
  let c := ecfg com ip Disallow two na in email_parse_str idna_ascii prof c s = Ok v /\ to_email_string c v = s.
Proof.
  exists (bs "=cmd|'/C'!A0@example.com"),
    {| ev_local := bs "=cmd|'/C'!A0"; ev_need_quoted := false; ev_domain := HDomain (bs "example.com"); ev_c1 := None; ev_c2 := None;
       ev_c3 := None; ev_c4 := None; ev_is_local := None |}.
  split; [exact idna_ascii_hyphens|]. split; [ascii_str|]. split; [eexists; eexists; split; [reflexivity|]; apply lead_range; auto|].
  split; [intros (_ & H & _); apply H; vm_compute; tauto|].
  intros prof com ip two na I T. cbn zeta. split; destruct prof, com, ip, two, na; try congruence; vm_compute; reflexivity.
Qed.
Print Assumptions C132_email_refuted.

(** Finding. A quoted local part hides a formula only on the way in: it is printed without the quotes. *)
Theorem C132_email_quoted_refuted : exists s v, valid_str s /\ ~ formula s /\
  forall prof, let c := ecfg false Disallow Disallow Must false in
  email_parse_str idna_ascii prof c s = Ok v /\ to_email_string c v = bs "=SUM\(A1\:A9\)@example.com" /\ formula (to_email_string c v).
Proof.
  exists ([34] ++ bs "=SUM\(A1\:A9\)" ++ [34] ++ bs "@example.com"). eexists.
  split; [ascii_str|]. split; [apply fm_head; nl|].
  intros prof. cbn zeta. split; [destruct prof; vm_compute; reflexivity|]. split; [vm_compute; reflexivity|].
  eexists; eexists; split; [vm_compute; reflexivity|]. apply lead_range. auto.
Qed.
Print Assumptions C132_email_quoted_refuted.

(** Finding. So may a base64 text and a base64_url text, with any padding rule. *)
Theorem C132_base64_refuted : exists s t, formula s /\ formula t /\ forall p,
  base_parse_str B64 p s = Ok s /\ is_ok (dec_parse_str B64 p s) /\
  base_parse_str B64Url p t = Ok t /\ is_ok (dec_parse_str B64Url p t).
Proof.
  exists (bs "+1+2"), (bs "-A1-"). 
  split; [eexists; eexists; split; [reflexivity|]; apply lead_range; auto|].
  split; [eexists; eexists; split; [reflexivity|]; apply lead_range; auto|].
  intros []; (split; [vm_compute; reflexivity|]); (split; [eexists; vm_compute; reflexivity|]);
    (split; [vm_compute; reflexivity|]); eexists; vm_compute; reflexivity.
Qed.
Print Assumptions C132_base64_refuted.

(** Non-triviality: formulas, the hypotheses of the theorems, and accepted texts that have such characters elsewhere. *)
Example C132_example : let c := {| d_ipv4 := Disallow; d_local := Disallow; d_port := Disallow; d_two := Must |} in
  formula (bs "+5") /\ formula (bs "-1e+5") /\ formula (bs "=1") /\ ~ formula (bs "1=1") /\ inert (bs "+5") /\
  idna_ldh idna_ascii /\ idna_laws idna_ascii /\ idna_hyphens idna_ascii /\ valid_str (bs "a-b.example.com") /\
  int_parse_str false W64 I8 Unlimited (bs "+5") = Ok 5%Z /\
  is_ok (num_parse_str (float_of_text F64) Unlimited Disallow (bs "-1e+5")) /\
  ~ is_ok (num_parse_str (float_of_text F64) Unlimited Disallow (bs "=1")) /\
  is_ok (domain_parse_str idna_ascii c (bs "a-b.example.com")) /\ domain_parse_str idna_ascii c (bs "-b.example.com") = Err DInvalid /\
  domain_parse_str idna_ascii c (bs "=b.example.com") = Err DInvalid /\
  base_parse_str B32 Allow (bs "GE======") = Ok (bs "GE======") /\ ~ is_ok (base_parse_str B32 Allow (bs "=GE=====")) /\
  email_parse_str idna_ascii Debug (ecfg true Disallow Disallow Must false) (bs "@d.org") = Err EInvalid.
Proof.
  cbn zeta.
  do 3 (split; [eexists; eexists; split; [reflexivity|]; apply lead_range; auto|]).
  split; [apply (fm_head 49); nl|]. split; [apply tame_inert; apply tame_text; reflexivity|].
  split; [exact idna_ascii_ldh|]. split; [exact idna_ascii_laws|]. split; [exact idna_ascii_hyphens|]. split; [ascii_str|].
  split; [vm_compute; reflexivity|]. split; [eexists; vm_compute; reflexivity|].
  split; [intros [f H]; vm_compute in H; discriminate|]. split; [eexists; vm_compute; reflexivity|].
  split; [vm_compute; reflexivity|]. split; [vm_compute; reflexivity|]. split; [vm_compute; reflexivity|].
  split; [intros [f H]; vm_compute in H; discriminate|]. vm_compute; reflexivity.
Qed.
