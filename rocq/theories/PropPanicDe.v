(** The serde impls: C96. A format presents one visitor call for each hint; Rust's own guarantee is that texts are UTF-8 and characters are scalar
    values, and nothing else is assumed of it. *)
From Verif Require Import Base RangeModel IntStr IntModel IntSpec NumberModel Utf8 Serde StrFacts LengthModel SizeModel BooleanModel DeModel ValueSerde.
From Verif Require BaseModel CodecModel LineModel LineSpec MacModel IpModel DomainModel HostModel EmailModel HttpModel PhoneModel JsonModel
  IntProofs IntStrProofs IpProofs SizeProofs PropInt PropSize PropLine PropBoolean PropBase PropMac PropPanic PropIp PropDomain PropHost PropEmail PropHttp PropPhone PropResult
  HttpSpec LengthProofs PropAttr.
Local Open Scope N_scope.

Definition well_formed (c : de_call) : Prop :=
  match c with
  | DStr s | DString s => valid_str s
  | DChar x => is_scalar x = true
  | _ => True
  end.
Definition sound (i : input) : Prop := forall h c, present i h = Some c -> well_formed c.

Lemma default_well_formed c c' : well_formed c -> default_visit c = Some c' -> well_formed c'.
Proof.
  intros W D. destruct c as [b|sg w z|f|f|x|s|s|l|l| | |]; cbn [default_visit] in D; try discriminate.
  - destruct w; try discriminate; injection D as <-; exact I.
  - injection D as <-. exact I.
  - injection D as <-. cbn [well_formed] in *. exists [x]. split; [repeat constructor; exact W|]. unfold utf8. cbn [flat_map]. rewrite app_nil_r. reflexivity.
  - injection D as <-. exact W.
  - injection D as <-. exact I.
Qed.

Lemma de_panic E A h (v : visitor E A) i : de h v i = Panic ->
  exists c c', present i h = Some c /\ (c' = c \/ v c = None /\ default_visit c = Some c') /\ v c' = Some Panic.
Proof.
  unfold de. destruct (present i h) as [c|]; [|discriminate]. unfold visit. intros H. exists c.
  destruct (v c) as [[| |]|] eqn:V; cbn [omap_err] in H; try discriminate.
  - exists c. auto.
  - destruct (default_visit c) as [c'|] eqn:D; [|discriminate]. exists c'.
    destruct (v c') as [[| |]|]; cbn [omap_err] in H; try discriminate. auto.
Qed.

Lemma de_safe E A h (v : visitor E A) i : sound i -> (forall c, well_formed c -> v c <> Some Panic) -> de h v i <> Panic.
Proof.
  intros S V H. apply de_panic in H as (c & c' & P & Q & R). apply (V c'); [|exact R].
  specialize (S _ _ P). destruct Q as [->|(_ & D)]; [exact S|exact (default_well_formed _ _ S D)].
Qed.

(** Both impls of a kind, when none of the methods that its visitor calls panics. *)
Lemma both_safe E A k (m : methods E A) i : sound i -> ~ In k [Bit; Byte; Json; Length; Semver; SemverReq; Url] ->
  (k = Boolean -> forall b, parse_bool m b = tuple_bool m b) ->
  (forall c, well_formed c -> own_visitor k m c <> Some Panic) -> own_de k m i <> Panic /\ wrap_de k m i <> Panic.
Proof.
  intros S K B V. assert (O : own_de k m i <> Panic) by (apply de_safe; assumption). split; [exact O|].
  rewrite (PropResult.C50_deserialize E A m k i K B). destruct (own_de k m i) as [a|[|e]|]; congruence.
Qed.

Ltac not_special := cbn [In]; intuition discriminate.

Lemma int_final_safe sg pw t r i : int_builds sg pw t r = true -> v_parse_i sg pw t r i <> Panic.
Proof.
  intros B. unfold v_parse_i. rewrite B. unfold to_tokens.
  destruct r as [mn mx incl|mn mx incl|]; cbn [handle_range]; try discriminate;
    destruct mn as [a|], mx as [b|]; unfold range_equal; try destruct incl; cbn [obind andb orb negb];
    repeat match goal with |- context [if ?b then _ else _] => destruct b end; cbn [obind]; try discriminate;
    try (destruct (_ ?= _)%Z; discriminate).
Qed.

Lemma call_safe A sg pw t (final : Z -> outcome int_err A) m i : (forall z, final z <> Panic) ->
  call sg pw t (fun m => resolve (own_parse pw t m) (default_parse pw m)) final call_fuel m i <> Panic.
Proof.
  intros F. destruct t, m, pw; unfold call_fuel; cbn [call resolve own_parse default_parse];
    repeat match goal with |- (if ?b then _ else _) <> _ => destruct b end; try discriminate; apply F.
Qed.

Lemma int_call_safe sg pw t r m i : int_builds sg pw t r = true -> int_parse sg pw t r m i <> Panic.
Proof.
  intros B. apply call_safe.
  intros z. pose proof (int_final_safe sg pw t r z B). destruct (v_parse_i sg pw t r z); cbn [obind]; congruence.
Qed.

(** C96, integers: the only condition is that the generated code compiles. *)
Theorem C96_integers : forall sg pw t r i, ~ gap sg pw t r -> sound i ->
  own_de (int_kind sg) (int_methods sg pw t r) i <> Panic /\ wrap_de (int_kind sg) (int_methods sg pw t r) i <> Panic.
Proof.
  intros sg pw t r i G S. apply IntProofs.builds_spec in G.
  assert (P : forall s, int_parse_str sg pw t r s <> Panic).
  { intros s. unfold int_parse_str, v_parse_str. pose proof (IntStrProofs.int_from_str_no_panic (int_min sg pw t) (int_max sg pw t) s) as Q.
    destruct (int_from_str _ _ s) as [z|e|]; cbn [omap_err obind]; [|discriminate|contradiction].
    pose proof (int_final_safe sg pw t r z G). destruct (v_parse_i sg pw t r z); cbn [obind]; congruence. }
  apply both_safe; [exact S|destruct sg; not_special|destruct sg; discriminate|].
  intros c W X. destruct c as [b|sg' w z|f|f|x|s|s|l|l| | |]; destruct sg; try discriminate X.
  all: try (injection X as X; exact (P _ X)).
  - destruct sg'; [|discriminate X]. destruct w; try discriminate X; injection X as X; exact (int_call_safe _ _ _ _ _ _ G X).
  - destruct sg'; [discriminate X|]. destruct w; try discriminate X; injection X as X; exact (int_call_safe _ _ _ _ _ _ G X).
Qed.
Print Assumptions C96_integers.

Lemma num_final_safe r nan f : v_parse_f r nan f <> Panic.
Proof.
  unfold v_parse_f. assert (H : num_handle_range (to_tokens spec_float SFeqb float_inc true r) f <> Panic).
  { unfold to_tokens. destruct r as [mn mx incl|mn mx incl|]; cbn [num_handle_range]; try discriminate;
      destruct mn as [a|], mx as [b|]; unfold range_equal; try destruct incl; cbn [obind andb orb negb];
      repeat match goal with |- context [if ?b then _ else _] => destruct b end; cbn [obind]; try discriminate;
      try (destruct (SFcompare _ _) as [[]|]; discriminate). }
  destruct (num_handle_range _ f); cbn [obind]; [|discriminate|contradiction].
  unfold handle_nan. destruct nan; cbn [obind]; repeat match goal with |- context [if ?b then _ else _] => destruct b end; discriminate.
Qed.

(** C96, numbers: every range, every float parser. *)
Theorem C96_number : forall from_str t r nan i, sound i ->
  own_de Number (num_methods from_str t r nan) i <> Panic /\ wrap_de Number (num_methods from_str t r nan) i <> Panic.
Proof.
  intros from_str t r nan i S.
  assert (F : forall f, (let? _ := v_parse_f r nan f in Ok f) <> Panic).
  { intros f. pose proof (num_final_safe r nan f). destruct (v_parse_f r nan f); cbn [obind]; congruence. }
  assert (P : forall s, num_parse_str from_str r nan s <> Panic).
  { intros s. unfold num_parse_str, num_v_parse_str. destruct (from_str s) as [f|]; [|discriminate].
    specialize (F f). destruct (v_parse_f r nan f); cbn [obind] in *; congruence. }
  apply both_safe; [exact S|not_special|discriminate|].
  intros c W X. destruct c; try discriminate X; injection X as X; try exact (P _ X); destruct t; exact (F _ X).
Qed.
Print Assumptions C96_number.

(** C96, booleans. *)
Theorem C96_boolean : forall pw i, sound i ->
  own_de Boolean (bool_methods pw) i <> Panic /\ wrap_de Boolean (bool_methods pw) i <> Panic.
Proof.
  intros pw i S.
  assert (P : forall s, bool_parse_str s <> Panic).
  { intros s. destruct (PropBoolean.C16_boolean_otherwise s) as [->|(b & ->)]; discriminate. }
  apply both_safe; [exact S|not_special|reflexivity|].
  intros c W X. destruct c as [b|sg w z|f|f|x|s|s|l|l| | |]; try discriminate X; try (injection X as X; exact (P _ X)).
  - assert (Q : forall z, bool_parse_128 z <> Panic).
    { intros y. unfold bool_parse_128, bool_v_parse_int. destruct (y =? 1)%Z; [discriminate|]. destruct (y =? 0)%Z; discriminate. }
    destruct w; try discriminate X; injection X as X; exact (Q _ X).
  - injection X as X. rewrite PropBoolean.C17_boolean_char in X. exact (P _ X).
Qed.
Print Assumptions C96_boolean.

(** C96, byte and bit; [value] is what byte_unit's own impl returns (it is used by bit). *)
Theorem C96_sizes : forall from_str cap r i, sound i ->
  own_de Byte (size_methods from_str cap r) i <> Panic /\ wrap_de Byte (size_methods from_str cap r) i <> Panic /\
  wrap_de Bit (size_methods from_str cap r) i <> Panic /\
  forall value, value <> Panic -> bit_own_de (size_v_parse_v r) value <> Panic.
Proof.
  intros from_str cap r i S. destruct (PropSize.C07_size_exact from_str cap r) as (A & B & C & D).
  assert (P : forall s, size_parse_str from_str r s <> Panic).
  { intros s. specialize (A s). destruct (from_str s); [apply A|rewrite A; discriminate]. }
  assert (Q : forall u, size_parse_u128 cap r u <> Panic).
  { intros u. destruct (N.le_gt_cases u cap) as [L|L]; [apply (B u L)|rewrite (C u L); discriminate]. }
  assert (O : own_de Byte (size_methods from_str cap r) i <> Panic).
  { apply de_safe; [exact S|]. intros c W X. destruct c as [b|sg w z|f|f|x|s|s|l|l| | |]; try discriminate X.
    - destruct sg; [discriminate X|]. destruct w; try discriminate X. injection X as X. exact (Q _ X).
    - injection X as X. exact (P _ X). }
  assert (W : wrap_de Byte (size_methods from_str cap r) i <> Panic).
  { unfold wrap_de. destruct (human i).
    - destruct (de HString string_visitor i) as [s|e|] eqn:E; cbn [obind]; [|discriminate|].
      + cbn [parse_string size_methods]. rewrite (proj1 (proj2 (PropSize.C07_size_entry_points from_str cap r))).
        specialize (P s). destruct (size_parse_str from_str r s); cbn; congruence.
      + apply (de_safe size_err (list N)) in E; [contradiction|exact S|]. intros c _ X. destruct c; discriminate X.
    - destruct (de HU128 u128_visitor i) as [z|e|] eqn:E; cbn [obind]; [|discriminate|].
      + cbn [parse_int size_methods]. specialize (Q (Z.to_N z)). destruct (size_parse_u128 cap r (Z.to_N z)); cbn; congruence.
      + apply (de_safe size_err Z) in E; [contradiction|exact S|]. intros c _ X. destruct c; try discriminate X.
        cbn [u128_visitor] in X. destruct (0 <=? z)%Z; discriminate X. }
  split; [exact O|]. split; [exact W|]. split; [exact W|].
  intros [v|e|] V; cbn [bit_own_de obind]; [|discriminate|contradiction].
  specialize (D v). destruct D as (_ & _ & _ & _ & D). unfold size_parse_u64 in D.
  destruct (size_v_parse_v r v); cbn in *; congruence.
Qed.
Print Assumptions C96_sizes.

(** C96, texts: line and text, for every attribute that the macro accepts; regex. *)
Theorem C96_texts : forall i, sound i ->
  (forall k a, LineSpec.accepted_attr a ->
     own_de (line_kind_of k) (line_methods k a) i <> Panic /\ wrap_de (line_kind_of k) (line_methods k a) i <> Panic) /\
  (forall is_match, own_de Regex (regex_methods is_match) i <> Panic /\ wrap_de Regex (regex_methods is_match) i <> Panic).
Proof.
  intros i S. split.
  - intros k a H.
    assert (P : forall s, LineModel.line_parse_str k a s <> Panic).
    { intros s. pose proof (PropLine.C14_errors_partial k a s H) as Q. destruct (LineModel.line_parse_str k a s); try discriminate. contradiction. }
    apply both_safe; [exact S|destruct k; not_special|destruct k; discriminate|].
    intros c W X. destruct k, c; try discriminate X; injection X as X; rewrite ?(proj1 (PropLine.C11_entry_points _ _ _)) in X; exact (P _ X).
  - intros is_match. apply both_safe; [exact S|not_special|discriminate|].
    intros c W X. destruct c as [b|sg w z|f|f|x|s|s|l|l| | |]; try discriminate X; injection X as X; revert X;
      unfold regex_parse_str, regex_parse_string, regex_v_parse_str; destruct (is_match s); discriminate.
Qed.
Print Assumptions C96_texts.

(** C96, Base32 and Base64, checked only and decoded; texts and byte strings. *)
Theorem C96_base : forall f padding i, sound i ->
  (forall k, In k [Base32; Base64; Base64Url] -> own_de k (base_methods f padding) i <> Panic /\ wrap_de k (base_methods f padding) i <> Panic) /\
  (forall k, In k [Base32Decoded; Base64Decoded; Base64UrlDecoded] ->
     own_de k (dec_methods f padding) i <> Panic /\ wrap_de k (dec_methods f padding) i <> Panic).
Proof.
  intros f padding i S. split; intros k K.
  - assert (P : forall v, BaseModel.base_parse_str f padding v <> Panic) by (intros v; apply PropBase.C18_base_entry_points).
    apply both_safe; [exact S|destruct K as [<- | [<- | [<- | []]]]; not_special|destruct K as [<- | [<- | [<- | []]]]; discriminate|].
    intros c W X. destruct (PropBase.C18_base_entry_points f padding) with (v := match c with DStr s | DString s => s | DBytes l | DByteBuf l => l | _ => [] end)
      as (E1 & E2 & E3 & _).
    destruct K as [<- | [<- | [<- | []]]]; destruct c; try discriminate X; injection X as X; cbn in *; try (rewrite X in *); first [exact (P _ X)|exact (P _ (eq_sym E1))|exact (P _ (eq_sym E2))|exact (P _ (eq_sym E3))].
  - assert (P : forall v, CodecModel.dec_parse_str f padding v <> Panic) by (intros v; apply PropBase.C22_decoded_entry_points).
    apply both_safe; [exact S|destruct K as [<- | [<- | [<- | []]]]; not_special|destruct K as [<- | [<- | [<- | []]]]; discriminate|].
    intros c W X. destruct (PropBase.C22_decoded_entry_points f padding) with (v := match c with DStr s | DString s => s | DBytes l | DByteBuf l => l | _ => [] end)
      as (E1 & E2 & E3 & _).
    destruct K as [<- | [<- | [<- | []]]]; destruct c; try discriminate X; injection X as X; cbn in *; try (rewrite X in *); first [exact (P _ X)|exact (P _ (eq_sym E1))|exact (P _ (eq_sym E2))|exact (P _ (eq_sym E3))].
Qed.
Print Assumptions C96_base.

(** The text in a presented value: a text, or a character. *)
Definition text_of (c : de_call) : option (list N) :=
  match c with
  | DStr s | DString s => Some s
  | DChar x => Some (utf8_char x)
  | _ => None
  end.
Definition presents (k : kind) (i : input) (s : list N) : Prop :=
  exists c, present i (own_hint k (human i)) = Some c /\ text_of c = Some s.

Definition text_kinds : list kind := [Domain; Email; Host; HttpUrl; HttpFtpUrl; Ip; Ipv4; Ipv6; MacAddress; Phone; Uuid].

Lemma text_panics E A (parse : list N -> outcome E A) k i : In k text_kinds ->
  (own_de k (str_methods parse) i = Panic <-> exists s, presents k i s /\ parse s = Panic) /\
  (wrap_de k (str_methods parse) i = Panic <-> exists s, presents k i s /\ parse s = Panic).
Proof.
  intros K. assert (O : own_de k (str_methods parse) i = Panic <-> exists s, presents k i s /\ parse s = Panic).
  { unfold presents, own_de. generalize (own_hint k (human i)). intros h. unfold de. destruct (present i h) as [c|].
    - assert (V : visit (own_visitor k (str_methods parse)) c = match text_of c with Some s => omap_err DCustom (parse s) | None => Err DType end).
      { repeat (destruct K as [<- | K]; [destruct c as [?|? [] ?|?|?|?|?|?|?|?| | |]; reflexivity|]). destruct K. }
      rewrite V. split.
      + intros H. destruct (text_of c) as [s|] eqn:T; [|discriminate]. exists s. split; [exists c; auto|].
        destruct (parse s); cbn in H; congruence.
      + intros (s & (c' & X & T) & H). injection X as <-. rewrite T, H. reflexivity.
    - split; [discriminate|]. intros (s & (c & X & _) & _). discriminate. }
  split; [exact O|]. rewrite <- O.
  rewrite (PropResult.C50_deserialize E A (str_methods parse) k i).
  - destruct (own_de k (str_methods parse) i) as [a|[|e]|]; split; congruence.
  - repeat (destruct K as [<- | K]; [not_special|]). destruct K.
  - intros ->. not_special.
Qed.

Lemma presents_valid k i s : sound i -> presents k i s -> valid_str s.
Proof.
  intros S (c & P & T). apply S in P. destruct c; try discriminate T; injection T as <-; try exact P.
  exists [c]. split; [repeat constructor; exact P|]. unfold utf8. cbn [flat_map]. rewrite app_nil_r. reflexivity.
Qed.

Lemma text_safe E A (parse : list N -> outcome E A) k i : In k text_kinds -> sound i -> (forall s, valid_str s -> parse s <> Panic) ->
  own_de k (str_methods parse) i <> Panic /\ wrap_de k (str_methods parse) i <> Panic.
Proof.
  intros K S P. destruct (text_panics E A parse k i K) as (O & W).
  rewrite O, W. split; intros (s & Q & H); exact (P s (presents_valid k i s S Q) H).
Qed.

(** C96, the kinds that read one text, with every configuration and every IDNA function, URL parser and phone number library. *)
Theorem C96_addresses : forall i, sound i ->
  (forall port local,
     own_de Ip (str_methods (IpModel.ip_parse_str port local)) i <> Panic /\ wrap_de Ip (str_methods (IpModel.ip_parse_str port local)) i <> Panic /\
     own_de Ipv4 (str_methods (IpModel.ipv4_parse_str port local)) i <> Panic /\ wrap_de Ipv4 (str_methods (IpModel.ipv4_parse_str port local)) i <> Panic /\
     own_de Ipv6 (str_methods (IpModel.ipv6_parse_str port local)) i <> Panic /\ wrap_de Ipv6 (str_methods (IpModel.ipv6_parse_str port local)) i <> Panic) /\
  (forall idna c, own_de Domain (str_methods (DomainModel.domain_parse_str idna c)) i <> Panic /\
     wrap_de Domain (str_methods (DomainModel.domain_parse_str idna c)) i <> Panic) /\
  (forall idna c, own_de Host (str_methods (HostModel.host_parse_str idna c)) i <> Panic /\
     wrap_de Host (str_methods (HostModel.host_parse_str idna c)) i <> Panic) /\
  (forall case sep, own_de Uuid (str_methods (MacModel.uuid_parse_str case sep)) i <> Panic /\
     wrap_de Uuid (str_methods (MacModel.uuid_parse_str case sep)) i <> Panic) /\
  (forall url parse host local, HttpSpec.special_host parse host \/ local = Allow ->
     own_de HttpUrl (str_methods (HttpModel.http_parse_str url parse host local)) i <> Panic /\
     wrap_de HttpUrl (str_methods (HttpModel.http_parse_str url parse host local)) i <> Panic /\
     own_de HttpFtpUrl (str_methods (HttpModel.http_ftp_parse_str url parse host local)) i <> Panic /\
     wrap_de HttpFtpUrl (str_methods (HttpModel.http_ftp_parse_str url parse host local)) i <> Panic) /\
  (forall cid eqb phone perr parse country valid, (forall a b : cid, eqb a b = true <-> a = b) -> forall cs, NoDup cs ->
     own_de Phone (str_methods (PhoneModel.phone_parse_str cid eqb phone perr parse country valid cs)) i <> Panic /\
     wrap_de Phone (str_methods (PhoneModel.phone_parse_str cid eqb phone perr parse country valid cs)) i <> Panic).
Proof.
  intros i S.
  assert (T : forall E A (parse : list N -> outcome E A) k, In k text_kinds -> (forall s, valid_str s -> parse s <> Panic) ->
    own_de k (str_methods parse) i <> Panic /\ wrap_de k (str_methods parse) i <> Panic) by (intros; apply text_safe; assumption).
  split; [|split; [|split; [|split; [|split]]]].
  - intros port local.
    destruct (T _ _ (IpModel.ip_parse_str port local) Ip) as (A & B); [cbn; tauto|intros s Hs; apply (PropIp.C31_ip_no_panic port local s Hs)|].
    destruct (T _ _ (IpModel.ipv4_parse_str port local) Ipv4) as (C & D); [cbn; tauto|intros s Hs; apply (PropIp.C31_ip_no_panic port local s Hs)|].
    destruct (T _ _ (IpModel.ipv6_parse_str port local) Ipv6) as (F & G); [cbn; tauto|intros s Hs; apply (PropIp.C31_ip_no_panic port local s Hs)|].
    auto 10.
  - intros idna c. apply T; [cbn; tauto|]. intros s Hs. apply (PropDomain.C38_domain_no_panic idna c s Hs).
  - intros idna c. apply T; [cbn; tauto|]. intros s Hs. apply (PropHost.C40_host_no_panic idna c s Hs).
  - intros case sep. apply T; [cbn; tauto|]. intros s _. apply (PropMac.C29_uuid_no_panic case sep s).
  - intros url parse host local H.
    destruct (T _ _ (HttpModel.http_parse_str url parse host local) HttpUrl) as (A & B); [cbn; tauto|intros s _; apply (PropHttp.C54_no_panic url parse host local s H)|].
    destruct (T _ _ (HttpModel.http_ftp_parse_str url parse host local) HttpFtpUrl) as (C & D); [cbn; tauto|intros s _; apply (PropHttp.C54_no_panic url parse host local s H)|].
    auto.
  - intros cid eqb phone perr parse country valid Heq cs ND. apply T; [cbn; tauto|].
    intros s _. apply (PropPhone.C51_entry_points cid eqb phone perr parse country valid Heq cs s ND).
Qed.
Print Assumptions C96_addresses.

(** C96, email and mac_address, exactly: deserialising panics when the text that the format presents makes the validator panic (C42, C26) ... *)
Theorem C96_panics_exactly : forall i, sound i ->
  (forall idna prof c,
     (own_de Email (str_methods (EmailModel.email_parse_str idna prof c)) i = Panic <-> exists s, presents Email i s /\ PropPanic.email_panics prof c s) /\
     (wrap_de Email (str_methods (EmailModel.email_parse_str idna prof c)) i = Panic <-> exists s, presents Email i s /\ PropPanic.email_panics prof c s)) /\
  (forall case sep,
     (own_de MacAddress (str_methods (MacModel.mac_parse_str case sep)) i = Panic <->
        exists s c, presents MacAddress i s /\ sep = MacModel.SepAllow c /\ (12 <= List.length s)%nat /\ PropPanic.starved c 5 s) /\
     (wrap_de MacAddress (str_methods (MacModel.mac_parse_str case sep)) i = Panic <->
        exists s c, presents MacAddress i s /\ sep = MacModel.SepAllow c /\ (12 <= List.length s)%nat /\ PropPanic.starved c 5 s)).
Proof.
  intros i S. split.
  - intros idna prof c. destruct (text_panics _ _ (EmailModel.email_parse_str idna prof c) Email i) as (O & W); [cbn; tauto|].
    assert (Q : (exists s, presents Email i s /\ EmailModel.email_parse_str idna prof c s = Panic) <->
                (exists s, presents Email i s /\ PropPanic.email_panics prof c s)).
    { split; intros (s & P & H); exists s; (split; [exact P|]); apply (proj1 (PropPanic.C42_email_panics_exactly idna prof c s (presents_valid _ _ _ S P))); exact H. }
    rewrite O, W. auto.
  - intros case sep. destruct (text_panics _ _ (MacModel.mac_parse_str case sep) MacAddress i) as (O & W); [cbn; tauto|].
    assert (Q : (exists s, presents MacAddress i s /\ MacModel.mac_parse_str case sep s = Panic) <->
                (exists s c, presents MacAddress i s /\ sep = MacModel.SepAllow c /\ (12 <= List.length s)%nat /\ PropPanic.starved c 5 s)).
    { split.
      - intros (s & P & H). apply (proj1 (proj1 (PropPanic.C26_mac_panics_exactly case sep s))) in H as (c & H). exists s, c. auto.
      - intros (s & c & P & H). exists s. split; [exact P|]. apply (proj1 (PropPanic.C26_mac_panics_exactly case sep s)). exists c. exact H. }
    rewrite O, W. auto.
Qed.
Print Assumptions C96_panics_exactly.

(** ... so a JSON document can panic the program that reads it. *)
Theorem C96_json_document_refuted : exists j, sound (json_input j) /\
  own_de MacAddress (str_methods (MacModel.mac_parse_str MacModel.AnyCase (MacModel.SepAllow 58))) (json_input j) = Panic /\
  wrap_de MacAddress (str_methods (MacModel.mac_parse_str MacModel.AnyCase (MacModel.SepAllow 58))) (json_input j) = Panic.
Proof.
  exists (JStr (bs "AA:BB:CCDDEE")). split; [|split; reflexivity].
  assert (V : valid_str (bs "AA:BB:CCDDEE")).
  { exists (bs "AA:BB:CCDDEE"). split; [repeat constructor|reflexivity]. }
  intros h c P. destruct h; cbn in P; try discriminate; injection P as <-; exact V.
Qed.
Print Assumptions C96_json_document_refuted.

(** C96, length: for bounds that are not equal (with equal ones the code does not compile, C09). *)
Theorem C96_length : forall C (len : C -> N) mn mx value, (forall m, mn = Some m -> mx <> Some m) -> value <> Panic ->
  length_own_de (parse_collection len mn mx) value <> Panic /\ length_wrap_de (parse_collection len mn mx) value <> Panic.
Proof.
  intros C len mn mx value H V.
  assert (P : forall v, parse_collection len mn mx v <> Panic).
  { intros v. unfold parse_collection. apply PropAttr.C09_length_scope_partial in H.
    pose proof (proj2 (LengthProofs.scoped_runs _ None (len v) H)) as Q. unfold length_v_parse_v.
    destruct (run_length _ _ _); cbn; congruence. }
  destruct value as [v|e|]; [|split; discriminate|contradiction].
  cbn [length_own_de length_wrap_de obind]. specialize (P v). destruct (parse_collection len mn mx v); cbn; split; congruence.
Qed.
Print Assumptions C96_length.

(** C96, json: reading never panics; printing and serialising do, exactly when the serialiser of the field reports an error, which the [Serialize]
    impl could have returned. *)
Theorem C96_json : forall A from_value value to_string to_string_pretty (a : A), value <> Panic ->
  JsonModel.json_own_de A from_value value <> Panic /\ JsonModel.json_wrap_de A from_value value <> Panic /\
  (JsonModel.json_ser A to_string a = Panic <-> to_string a = None) /\
  (JsonModel.to_minified_json_string A to_string a = Panic <-> to_string a = None) /\
  (JsonModel.to_beautified_json_string A to_string_pretty a = Panic <-> to_string_pretty a = None).
Proof.
  intros A from_value value to_string to_string_pretty a V.
  split; [|split].
  - destruct value as [j|e|]; [|discriminate|contradiction]. cbn. destruct (from_value j); discriminate.
  - destruct value as [j|e|]; [|discriminate|contradiction].
    unfold JsonModel.json_wrap_de, JsonModel.json_parse_json_value, JsonModel.json_v_parse_json_value. destruct (from_value j); discriminate.
  - unfold JsonModel.json_ser, JsonModel.to_minified_json_string, JsonModel.to_beautified_json_string.
    destruct (to_string a), (to_string_pretty a); cbn; repeat split; congruence.
Qed.
Print Assumptions C96_json.

Theorem C96_json_serialize_refuted : exists A from_value to_string (a : A) j,
  JsonModel.json_own_de A from_value (Ok j) = Ok a /\ JsonModel.json_ser A to_string a = Panic.
Proof. exists unit, (fun _ => Some tt), (fun _ => None), tt, JNull. split; reflexivity. Qed.
Print Assumptions C96_json_serialize_refuted.

Example C96_example :
  sound (binary_input (DChar 233)) /\ sound (binary_input (DBytes [255])) /\ ~ gap false W64 I8 (Inside (Some 1%Z) (Some 5%Z) true) /\
  own_de UnsignedInteger (int_methods false W64 I8 (Inside (Some 1%Z) (Some 5%Z) true)) (binary_input (DInt false I64 300)) = Err (DCustom TooLarge) /\
  own_de Number (num_methods (fun _ => None) F32 (Outside None None true) Disallow) (binary_input (DF64 S754_nan)) = Err (DCustom NaNDisallow) /\
  own_de Boolean (bool_methods W64) (binary_input (DChar 121)) = Ok true /\
  presents Email (binary_input (DChar 233)) [195; 169] /\
  (forall m, Some 1 = Some m -> Some 2 <> Some m) /\ LineSpec.accepted_attr None.
Proof.
  split; [intros h c P; injection P as <-; reflexivity|].
  split; [intros h c P; injection P as <-; exact I|].
  split; [intros (_ & mn & mx & incl & E & _); discriminate|].
  split; [reflexivity|]. split; [reflexivity|]. split; [reflexivity|].
  split; [exists (DChar 233); split; reflexivity|].
  split; [intros m E; injection E as <-; discriminate|]. exists None. reflexivity.
Qed.
