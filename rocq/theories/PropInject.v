(** C102: values that differ print differently, so the printed form can stand for the value. *)
From Verif Require Import Base Utf8 StrFacts IntStr IntStrProofs MacModel MacSpec MacProofs NetModel NetSpec NetProofs
  Serde IpModel IpSpec IpProofs DomainModel DomainSpec DomainProofs IdnaFrag HostModel HostSpec EmailModel EmailSpec EmailProofs.
From Verif Require Import PropMac PropMacPrint PropIp PropDomain PropHost PropEmail.
Local Open Scope N_scope.

(** Where a run of characters ends is known if the next character is not one of them. *)
Definition starts_outside (P : N -> Prop) (b : list N) : Prop := forall c r, b = c :: r -> ~ P c.
Lemma run_unique (P : N -> Prop) a : forall a' b b', Forall P a -> Forall P a' -> starts_outside P b -> starts_outside P b' ->
  a ++ b = a' ++ b' -> a = a' /\ b = b'.
Proof.
  induction a as [|x a IH]; intros [|y a'] b b' A A' B B' E; cbn [app] in E.
  - auto.
  - exfalso. subst b. inversion A'; subst. now apply (B y (a' ++ b')).
  - exfalso. subst b'. inversion A; subst. now apply (B' x (a ++ b)).
  - injection E as <- E. inversion A; inversion A'; subst. destruct (IH _ _ _ H2 H6 B B' E) as [-> ->]. auto.
Qed.

(** ** Hexadecimal identifiers *)
Lemma app_same_length (a : list N) : forall b c d, List.length a = List.length b -> a ++ c = b ++ d -> a = b /\ c = d.
Proof.
  induction a as [|x a IH]; intros [|y b] c d L E; try discriminate L; [auto|]. injection L as L. injection E as <- E.
  destruct (IH _ _ _ L E) as [-> ->]. auto.
Qed.
Lemma joined_unique s sizes v d : joined s sizes v d -> forall d', joined s sizes v d' -> d = d'.
Proof.
  induction 1 as [g|g sizes v d J IH]; intros d' J'.
  - inversion J' as [|g' sz w e J2 L]; subst; [reflexivity|]. inversion J2.
  - inversion J' as [g' L A B|g' sizes' w e J2 L A B]; subst; [inversion J|].
    destruct (app_same_length g' g (s ++ w) (s ++ v)) as [-> E2]; [assumption|assumption|].
    apply app_inv_head in E2. subst w. f_equal. apply IH. assumption.
Qed.
Lemma is_hex_digit case c d d' : case <> AnyCase -> is_hex case c d -> is_hex case c d' -> d = d'.
Proof.
  assert (forall a, NoDup a -> nth_error a (N.to_nat d) = Some c -> nth_error a (N.to_nat d') = Some c -> d = d') as K.
  { intros a N A B. apply N2Nat.inj. rewrite NoDup_nth_error in N. apply N; [|congruence].
    apply nth_error_Some. congruence. }
  intros C (a & A & B) (a' & A' & B'). destruct case; [congruence| |]; cbn [hex_alphabets In] in A, A';
    destruct A as [<- |[]], A' as [<- |[]]; refine (K _ _ B B'); vm_compute;
    repeat (constructor; [cbn [In]; intros X; repeat (destruct X as [X|X]; [discriminate|]); exact X|]); constructor.
Qed.
Lemma hex_value case cs x : case <> AnyCase -> hex_denotes case cs x -> forall y, hex_denotes case cs y -> x = y.
Proof.
  intros C. induction 1 as [|c d cs x D H IH]; intros y Y; inversion Y as [|c' d' cs' y' D' H']; subst; [reflexivity|].
  rewrite (is_hex_digit _ _ _ _ C D D'). now rewrite (IH _ H').
Qed.
Lemma alphabet_one u : alphabet_of u <> AnyCase.
Proof. destruct u; discriminate. Qed.
Lemma bytes_value u x y k : x < 256 ^ N.of_nat k -> y < 256 ^ N.of_nat k ->
  bytes_fmt u x (down k) = bytes_fmt u y (down k) -> x = y.
Proof.
  intros X Y E. destruct (bytes_fmt_down u x k) as [A _]. destruct (bytes_fmt_down u y k) as [B _].
  rewrite E in A. pose proof (hex_value _ _ _ (alphabet_one u) A _ B) as K. rewrite !N.mod_small in K; assumption.
Qed.
Lemma fmt_value w u x y : (0 < w <= 32)%nat -> x < 16 ^ N.of_nat w -> y < 16 ^ N.of_nat w -> hex_fmt w u x = hex_fmt w u y -> x = y.
Proof.
  intros W X Y E. destruct (hex_fmt_spec w u x X W) as [A _]. destruct (hex_fmt_spec w u y Y W) as [B _].
  rewrite E in A. exact (hex_value _ _ _ (alphabet_one u) A _ B).
Qed.

(** C102: hexadecimal identifiers. This holds although the separator is printed as a number (C27, C30). *)
Theorem C102_hex : forall case sep s t x y,
  (mac_parse_str case sep s = Ok x -> mac_parse_str case sep t = Ok y ->
     to_mac_address_string case sep x = to_mac_address_string case sep y -> x = y) /\
  (uuid_parse_str case sep s = Ok x -> uuid_parse_str case sep t = Ok y ->
     to_uuid_string case sep x = to_uuid_string case sep y -> x = y).
Proof.
  intros case sep s t x y. split; intros A B E.
  - apply C25_mac_48_bits in A, B. unfold to_mac_address_string in E. destruct (sep_allow sep) as [c|].
    + cbv beta zeta in E. pose proof (mac_join (dec_of_N c) (case_upper case) x) as JX.
      pose proof (mac_join (dec_of_N c) (case_upper case) y) as JY. rewrite <- E in JY.
      exact (bytes_value _ _ _ 6 A B (joined_unique _ _ _ _ JX _ JY)).
    + apply (fmt_value 12 (case_upper case)); [lia|exact A|exact B|exact E].
  - apply C28_uuid_128_bits in A, B. unfold to_uuid_string in E. destruct (sep_allow sep) as [c|].
    + cbv beta zeta in E. pose proof (uuid_join (dec_of_N c) (case_upper case) x) as JX.
      pose proof (uuid_join (dec_of_N c) (case_upper case) y) as JY. cbv beta zeta in JX, JY. rewrite <- E in JY.
      exact (bytes_value _ _ _ 16 A B (joined_unique _ _ _ _ JX _ JY)).
    + apply (fmt_value 32 (case_upper case)); [lia|exact A|exact B|exact E].
Qed.

(** C102: ip addresses. *)
Theorem C102_ip : forall port local s t, valid_str s -> valid_str t ->
  (forall v w, ip_parse_str port local s = Ok v -> ip_parse_str port local t = Ok w -> ip_authority v = ip_authority w -> v = w) /\
  (forall v w, ipv4_parse_str port local s = Ok v -> ipv4_parse_str port local t = Ok w -> ipv4_authority v = ipv4_authority w -> v = w) /\
  (forall v w, ipv6_parse_str port local s = Ok v -> ipv6_parse_str port local t = Ok w -> ipv6_authority v = ipv6_authority w -> v = w).
Proof.
  intros port local s t S T. repeat split; intros v w A B E.
  - apply C33_ip_roundtrip in A as [A _]; [|exact S]. apply C33_ip_roundtrip in B as [B _]; [|exact T]. rewrite E in A. congruence.
  - apply C33_ipv4_roundtrip in A as [A _]; [|exact S]. apply C33_ipv4_roundtrip in B as [B _]; [|exact T]. rewrite E in A. congruence.
  - apply C33_ipv6_roundtrip in A as [A _]; [|exact S]. apply C33_ipv6_roundtrip in B as [B _]; [|exact T]. rewrite E in A. congruence.
Qed.

(** ** Hosts and domains *)

(** C102: hosts that are not names reading as an IPv4 address, and names without a final dot. *)
Theorem C102_host_partial : forall idna c s t v w, idna_laws idna -> valid_str s -> valid_str t ->
  host_parse_str idna c s = Ok v -> host_parse_str idna c t = Ok w ->
  plain_host (hv_host v) -> plain_host (hv_host w) -> host_authority v = host_authority w -> v = w.
Proof.
  intros idna c s t v w L S T A B P Q E.
  destruct (C41_host_roundtrip_partial _ _ _ _ L S A P) as [A' _]. destruct (C41_host_roundtrip_partial _ _ _ _ L T B Q) as [B' _].
  rewrite E in A'. congruence.
Qed.

(** C102, refuted for hosts in general: an address, and the name that the same digits with an ideographic full stop
    are turned into, print alike. *)
Theorem C102_host_refuted : exists idna c s t v w, idna_laws idna /\ valid_str s /\ valid_str t /\
  host_parse_str idna c s = Ok v /\ host_parse_str idna c t = Ok w /\
  hv_host v = HDomain (bs "127.0.0.1") /\ hv_host w = HIPv4 [127; 0; 0; 1] /\ host_authority v = host_authority w.
Proof.
  exists idna_frag, (hcfg Allow Allow Allow), wide_loopback, (bs "127.0.0.1"). do 2 eexists.
  split; [exact idna_frag_laws|]. split; [exact wide_valid|]. split; [ascii_str|].
  split; [vm_compute; reflexivity|]. split; [vm_compute; reflexivity|]. repeat split.
Qed.

Lemma last_split (c : N) a b a' b' : ~ In c b -> ~ In c b' -> a ++ c :: b = a' ++ c :: b' -> a = a' /\ b = b'.
Proof.
  intros B B' E. apply (f_equal (@rev N)) in E. rewrite !rev_app_distr in E. cbn [rev] in E. rewrite <- !app_assoc in E.
  cbn [app] in E. apply (run_unique (fun x => x <> c)) in E.
  - destruct E as [E1 E2]. injection E2 as E2. apply (f_equal (@rev N)) in E1, E2. rewrite !rev_involutive in *. auto.
  - apply Forall_forall. intros x X ->. now apply B, in_rev.
  - apply Forall_forall. intros x X ->. now apply B', in_rev.
  - intros x r X. injection X as <- _. tauto.
  - intros x r X. injection X as <- _. tauto.
Qed.
Lemma dec_no_colon p : ~ In 58 (dec_of_N p).
Proof.
  destruct (dec_of_N_digits p) as [F _]. intros I. apply (proj1 (Forall_forall _ _) F) in I. unfold is_digit in I. lia.
Qed.
Lemma dec_inj p q : dec_of_N p = dec_of_N q -> p = q.
Proof.
  intros E. pose proof (dec_of_N_denotes p) as A. pose proof (dec_of_N_denotes q) as B. rewrite E in A.
  apply denotes_digits_iff in A as (_ & _ & A). apply denotes_digits_iff in B as (_ & _ & B). lia.
Qed.

Definition final_dot (d : list N) : Prop := exists u, d = u ++ [46].

Lemma port_no_colon q p : port_text q p -> ~ In 58 q /\ ~ final_dot q.
Proof.
  intros H. apply port_text_chars in H as [N H]. split.
  - intros I. apply (proj1 (Forall_forall _ _) H) in I. cbn in I. lia.
  - intros [u ->]. assert (In 46 (u ++ [46])) as I by (apply in_or_app; right; now left).
    apply (proj1 (Forall_forall _ _) H) in I. cbn in I. lia.
Qed.
(** An IPv4 address that keeps its port (C37). *)
Lemma kept_port idna c s v : idna_laws idna -> valid_str s -> domain_parse_str idna c s = Ok v -> In 58 (dv_domain v) ->
  exists p, dv_domain v = s /\ @domain_authority domain_err v = Ok (s ++ [58] ++ dec_of_N p) /\ dv_port v = Some p.
Proof.
  intros L V H I. destruct (C37_domain_stored_port _ _ _ _ L V H) as [K _].
  destruct (K I) as (_ & P & E & name & a & S & D). destruct (dv_port v) as [p|] eqn:EP; [|congruence].
  exists p. split; [exact E|]. split; [|reflexivity]. destruct S as (q & -> & Q). destruct (port_no_colon _ _ Q) as [_ Q2].
  unfold domain_authority, get_domain_non_fully_qualified. rewrite E, EP.
  replace (is_fully_qualified (name ++ [58] ++ q)) with false; [reflexivity|]. symmetry.
  destruct (is_fully_qualified (name ++ [58] ++ q)) eqn:F; [|reflexivity]. exfalso.
  unfold is_fully_qualified in F. apply HostProofs.ends_with_spec in F as [u F]. apply Q2.
  destruct (exists_last (l := q)) as (q' & x & ->).
  { intros ->. apply port_text_chars in Q as [Q _]. congruence. }
  rewrite !app_assoc in F. apply app_inj_tail in F as [_ ->]. exists q'. reflexivity.
Qed.
Lemma colons_kept idna c s v : idna_laws idna -> valid_str s -> domain_parse_str idna c s = Ok v -> In 58 (dv_domain v) ->
  forall t, @domain_authority domain_err v = Ok t -> (2 <= count_occ N.eq_dec t 58%N)%nat.
Proof.
  intros L V H I t T. destruct (kept_port _ _ _ _ L V H I) as (p & E & A & _). rewrite A in T. injection T as <-.
  rewrite E in I. cbn [app]. rewrite count_occ_app, count_occ_cons_eq by reflexivity. apply (count_occ_In N.eq_dec) in I. lia.
Qed.
Lemma colons_plain v t : ~ In 58 (dv_domain v) -> @domain_authority domain_err v = Ok t -> (count_occ N.eq_dec t 58%N <= 1)%nat.
Proof.
  intros N T. unfold domain_authority, get_domain_non_fully_qualified in T.
  assert (forall d, ~ In 58 d -> (match dv_port v with Some p => Ok (d ++ [58] ++ dec_of_N p) | None => Ok d end) = @Ok domain_err _ t ->
    (count_occ N.eq_dec t 58%N <= 1)%nat) as K.
  { intros d D E. apply (count_occ_not_In N.eq_dec) in D. destruct (dv_port v) as [p|]; injection E as <-; [|lia].
    cbn [app]. rewrite count_occ_app, count_occ_cons_eq by reflexivity. pose proof (proj1 (count_occ_not_In N.eq_dec _ _) (dec_no_colon p)). lia. }
  destruct (is_fully_qualified (dv_domain v)); [|exact (K _ N T)].
  unfold str_slice in T. destruct (_ && _)%bool; [|discriminate]. refine (K _ _ T).
  intros I. apply N. rewrite <- (firstn_skipn (List.length (dv_domain v) - 1 - 0) (dv_domain v)). apply in_or_app. left. exact I.
Qed.

(** C102: domains, under the law that IDNA makes no new IPv4 addresses, if both or neither are fully qualified. *)
Theorem C102_domain_partial : forall idna c s t v w, idna_laws idna -> idna_no_new_ipv4 idna -> valid_str s -> valid_str t ->
  domain_parse_str idna c s = Ok v -> domain_parse_str idna c t = Ok w ->
  (final_dot (dv_domain v) <-> final_dot (dv_domain w)) ->
  @domain_authority domain_err v = @domain_authority domain_err w -> v = w.
Proof.
  intros idna c s t v w L NN S T A B D E.
  destruct (in_dec N.eq_dec 58 (dv_domain v)) as [I|I], (in_dec N.eq_dec 58 (dv_domain w)) as [J|J].
  - destruct (kept_port _ _ _ _ L S A I) as (p & E1 & A1 & _). destruct (kept_port _ _ _ _ L T B J) as (q & E2 & A2 & _).
    rewrite A1, A2 in E. injection E as E. apply last_split in E; [|apply dec_no_colon|apply dec_no_colon].
    destruct E as [-> _]. congruence.
  - exfalso. destruct (kept_port _ _ _ _ L S A I) as (p & _ & A1 & _). pose proof (colons_kept _ _ _ _ L S A I _ A1).
    rewrite A1 in E. symmetry in E. pose proof (colons_plain _ _ J E). lia.
  - exfalso. destruct (kept_port _ _ _ _ L T B J) as (p & _ & A1 & _). pose proof (colons_kept _ _ _ _ L T B J _ A1).
    rewrite A1 in E. pose proof (colons_plain _ _ I E). lia.
  - destruct (C37_domain_roundtrip_partial _ _ _ _ L NN S A I) as (x & d & X & DX & P & _).
    destruct (C37_domain_roundtrip_partial _ _ _ _ L NN T B J) as (y & e & Y & DY & Q & _).
    rewrite X, Y in E. injection E as <-. rewrite P in Q. injection Q as E1 E2 E3 E4. subst e.
    assert (dv_domain v = dv_domain w) as E5.
    { destruct DX as [DX|[DX NX]], DY as [DY|[DY NY]]; try congruence.
      - exfalso. destruct D as [D _]. destruct D as [u U]; [now exists d|]. exact (NY _ U).
      - exfalso. destruct D as [_ D]. destruct D as [u U]; [now exists d|]. exact (NX _ U). }
    destruct v, w; cbn in *. congruence.
Qed.

(** C102, refuted for domains in general: the final dot is not printed. *)
Theorem C102_domain_refuted : exists idna c s t v w, idna_laws idna /\ idna_no_new_ipv4 idna /\ valid_str s /\ valid_str t /\
  domain_parse_str idna c s = Ok v /\ domain_parse_str idna c t = Ok w /\
  dv_domain v = bs "a.org" /\ dv_domain w = bs "a.org." /\ @domain_authority domain_err v = @domain_authority domain_err w.
Proof.
  exists idna_ascii, (cfg Allow Allow Allow Must), (bs "a.org"), (bs "a.org."). do 2 eexists.
  split; [exact idna_ascii_laws|]. split; [exact idna_ascii_no_new|]. split; [ascii_str|]. split; [ascii_str|].
  split; [vm_compute; reflexivity|]. split; [vm_compute; reflexivity|]. repeat split.
Qed.

(** ** Email addresses *)
Lemma host_no idna c dt h canon x : idna_laws idna -> host_text idna c dt h canon -> x = 40 \/ x = 64 ->
  ~ In x (e_host_text h) /\ e_host_text h <> [].
Proof.
  intros L H X. destruct h as [d|a|a]; cbn [host_text e_host_text] in *.
  - destruct H as (_ & _ & _ & _ & _ & H & _). destruct (L _ _ H) as [F U]. split.
    + intros I. apply (proj1 (Forall_forall _ _) F) in I. unfold idna_char in I. lia.
    + intros ->. destruct (U []) as [Z _]; [|now apply Z]. right. split; [reflexivity|].
      intros u E. destruct u; discriminate E.
  - destruct H as (_ & _ & t & _ & T & _). pose proof (ipv4_display_text a (v4_text_addr _ _ T)) as D. split; [|discriminate].
    intros I. apply in_app_or in I as [[I|[]]|I]; [lia|]. apply in_app_or in I as [I|[I|[]]]; [|lia].
    revert I. apply (v4_not_in _ _ _ D). unfold v4_char. lia.
  - destruct H as (_ & _ & t & _ & T & _). pose proof (ipv6_display_text a (v6_text_addr _ _ T)) as D. split; [|discriminate].
    intros I. apply in_app_or in I as [I|I].
    + vm_compute in I. repeat (destruct I as [I|I]; [lia|]). exact I.
    + apply in_app_or in I as [I|[I|[]]]; [|lia]. revert I. apply (v6_not_in _ _ _ D). unfold v6_char. lia.
Qed.
Lemma host_inj idna c c' dt dt' h h' k k' : idna_laws idna -> host_text idna c dt h k -> host_text idna c' dt' h' k' ->
  e_host_text h = e_host_text h' -> h = h'.
Proof.
  intros L H H' E.
  assert (forall d c dt k, host_text idna c dt (HDomain d) k -> forall r, d <> 91 :: r) as N1.
  { intros d c0 dt0 k0 (_ & _ & _ & _ & _ & X & _) r ->. destruct (L _ _ X) as [F _]. inversion F; subst.
    unfold idna_char in *. lia. }
  destruct h as [d|a|a], h' as [d'|a'|a']; cbn [e_host_text] in E.
  - now subst.
  - exfalso. exact (N1 _ _ _ _ H _ E).
  - exfalso. exact (N1 _ _ _ _ H _ E).
  - exfalso. exact (N1 _ _ _ _ H' _ (eq_sym E)).
  - destruct H as (_ & _ & t & _ & T & _). destruct H' as (_ & _ & t' & _ & T' & _). injection E as E.
    apply app_inj_tail in E as [E _].
    pose proof (ipv4_display_text a (v4_text_addr _ _ T)) as D. pose proof (ipv4_display_text a' (v4_text_addr _ _ T')) as D'.
    rewrite E in D. apply ipv4_from_str_spec in D, D'. congruence.
  - exfalso. destruct H as (_ & _ & t & _ & T & _).
    pose proof (v4_not_in _ _ 73 (ipv4_display_text a (v4_text_addr _ _ T)) ltac:(unfold v4_char; lia)) as D.
    destruct (ipv4_display a); cbn in E; [discriminate|]. injection E as -> _. apply D. now left.
  - exfalso. exact (N1 _ _ _ _ H' _ (eq_sym E)).
  - exfalso. destruct H' as (_ & _ & t & _ & T & _).
    pose proof (v4_not_in _ _ 73 (ipv4_display_text a' (v4_text_addr _ _ T)) ltac:(unfold v4_char; lia)) as D.
    destruct (ipv4_display a'); cbn in E; [discriminate|]. injection E as <- _. apply D. now left.
  - destruct H as (_ & _ & t & _ & T & _). destruct H' as (_ & _ & t' & _ & T' & _).
    apply app_inv_head in E. apply app_inj_tail in E as [E _].
    pose proof (ipv6_display_text a (v6_text_addr _ _ T)) as D. pose proof (ipv6_display_text a' (v6_text_addr _ _ T')) as D'.
    rewrite E in D. apply ipv6_from_str_spec in D, D'. congruence.
Qed.

Definition plain_char (e : N) : Prop := e <> 34 /\ e <> 40 /\ e <> 64 /\ ~ blank e.
Lemma local_char_plain na e : local_char na e -> plain_char e.
Proof.
  unfold plain_char, blank. intros [[H|[H|[H|H]]]|[-> |[_ H]]]; try lia.
  vm_compute in H. repeat (destruct H as [<- |H]; [lia|]). destruct H.
Qed.
(** Whether quotes are needed is known from the local part, which is made of plain characters if they are not. *)
Lemma local_needs na o lt l nq q : local_text na o lt l nq q ->
  l <> [] /\ (nq = true <-> needs_quotes l) /\
  (nq = false -> Forall plain_char l) /\
  (nq = true -> ~ escaped l /\ forall u r, l = u ++ 34 :: r -> escaped u).
Proof.
  intros [(_ & -> & (N & D & F & DD & _) & ->)|(_ & -> & (N & F & E & _) & Q)].
  - split; [exact N|]. assert (Forall plain_char l) as P.
    { eapply Forall_impl; [|exact F]. intros e. apply local_char_plain. }
    split; [|split; [auto|discriminate]]. split; [discriminate|].
    intros [[r R]|[(e & I & B)|X]]; [now apply D in R| |now apply DD in X].
    apply (proj1 (Forall_forall _ _) P) in I. now apply I in B.
  - split; [exact N|]. split; [exact Q|]. split.
    + intros ->. apply Forall_forall. intros e I. pose proof I as I2. apply in_split in I2 as (u & r & R).
      assert (forall x, In x l -> ~ blank x) as NB.
      { intros x X B. assert (false = true) as Z; [|discriminate Z]. apply Q. right. left. eauto. }
      destruct (F _ _ _ R) as [H|[H|[H K]]]; [eapply local_char_plain; exact H|now apply NB in H|].
      exfalso. destruct K as (w & t & U & _ & _ & O). destruct (in_dec N.eq_dec 92 t) as [J|J].
      * apply (NB 92); [|now left]. subst l u. apply in_or_app. left. apply in_or_app. now right.
      * apply (count_occ_not_In N.eq_dec) in J. rewrite J in O. destruct O as [n O]. lia.
    + intros _. split; [exact E|]. intros u r R. destruct (F _ _ _ R) as [H|[H|[_ H]]]; [| |exact H].
      * apply local_char_plain in H. now destruct H.
      * unfold blank in H. lia.
Qed.
Lemma ctext_unique k k' r r' : (forall t, k = Some t -> ~ In 41 t) -> (forall t, k' = Some t -> ~ In 41 t) ->
  starts_outside (fun c => c = 40) r -> starts_outside (fun c => c = 40) r' -> ctext k ++ r = ctext k' ++ r' ->
  k = k' /\ r = r'.
Proof.
  intros K K' R R' E. destruct k as [t|], k' as [t'|]; cbn [ctext] in E.
  - cbn [app] in E. injection E as E. rewrite <- !app_assoc in E. apply (run_unique (fun c => c <> 41)) in E.
    + destruct E as [-> E]. injection E as ->. auto.
    + apply Forall_forall. intros x X ->. exact (K _ eq_refl X).
    + apply Forall_forall. intros x X ->. exact (K' _ eq_refl X).
    + intros x y Y. injection Y as <- _. tauto.
    + intros x y Y. injection Y as <- _. tauto.
  - exfalso. cbn [app] in E. exact (R' 40 _ (eq_sym E) eq_refl).
  - exfalso. cbn [app] in E. exact (R 40 _ E eq_refl).
  - auto.
Qed.
Lemma local_unique l l' nq nq' r r' :
  (nq = true <-> needs_quotes l) -> (nq = false -> Forall plain_char l) ->
  (nq = true -> ~ escaped l /\ forall u r, l = u ++ 34 :: r -> escaped u) -> l <> [] ->
  (nq' = true <-> needs_quotes l') -> (nq' = false -> Forall plain_char l') ->
  (nq' = true -> ~ escaped l' /\ forall u r, l' = u ++ 34 :: r -> escaped u) -> l' <> [] ->
  starts_outside plain_char r -> starts_outside plain_char r' ->
  (let quote (b : bool) := if b then [34] else [] in
   quote nq ++ l ++ quote nq ++ r = quote nq' ++ l' ++ quote nq' ++ r') -> nq = nq' /\ l = l' /\ r = r'.
Proof.
  intros A1 A2 A3 A4 B1 B2 B3 B4 R R' E. destruct nq, nq'; cbn [app] in E.
  - injection E as E. split; [reflexivity|]. destruct (A3 eq_refl) as [A5 A6], (B3 eq_refl) as [B5 B6].
    assert (forall a b x y, ~ escaped a -> (forall u r, b = u ++ 34 :: r -> escaped u) -> a ++ 34 :: x = b ++ 34 :: y ->
      (List.length b <= List.length a)%nat) as K.
    { intros a b x y P Q Z. destruct (Nat.le_gt_cases (List.length b) (List.length a)) as [W|W]; [exact W|exfalso].
      apply P, (Q a (skipn (S (List.length a)) b)). rewrite <- (firstn_skipn (List.length a) b) at 1.
      assert (firstn (List.length a) b = a) as F.
      { apply (f_equal (firstn (List.length a))) in Z. rewrite !firstn_app in Z.
        replace (List.length a - List.length a)%nat with 0%nat in Z by lia.
        replace (List.length a - List.length b)%nat with 0%nat in Z by lia.
        cbn [firstn] in Z. rewrite !app_nil_r, firstn_all in Z. congruence. }
      rewrite F. f_equal. assert (skipn (List.length a) b ++ 34 :: y = 34 :: x) as G.
      { rewrite <- (firstn_skipn (List.length a) b), F, <- app_assoc in Z. apply app_inv_head in Z. congruence. }
      assert (forall n (m : list N) h z, skipn n m = h :: z -> skipn (S n) m = z) as SK.
      { induction n as [|n IH]; intros [|h' m] h z S; try discriminate S; cbn [skipn] in *.
        - now injection S.
        - eapply IH. exact S. }
      destruct (skipn (List.length a) b) as [|h z] eqn:S.
      - exfalso. assert (List.length (skipn (List.length a) b) = 0%nat) as LL by (rewrite S; reflexivity).
        rewrite skipn_length in LL. lia.
      - cbn [app] in G. injection G as -> _. f_equal. symmetry. eapply SK. exact S. }
    apply app_same_length in E.
    + destruct E as [-> E]. injection E as ->. auto.
    + apply Nat.le_antisymm; [exact (K _ _ _ _ B5 A6 (eq_sym E))|exact (K _ _ _ _ A5 B6 E)].
  - exfalso. destruct l' as [|x l']; [congruence|]. cbn [app] in E. injection E as <- _.
    specialize (B2 eq_refl). inversion B2 as [|? ? X]; subst. now destruct X.
  - exfalso. destruct l as [|x l]; [congruence|]. cbn [app] in E. injection E as -> _.
    specialize (A2 eq_refl). inversion A2 as [|? ? X]; subst. now destruct X.
  - split; [reflexivity|]. apply (run_unique plain_char) in E; auto.
Qed.
Lemma field_unique b P P' f f' : (P <-> P') -> field b P f -> field b P' f' -> f = f'.
Proof.
  intros I. destruct f as [x|], f' as [y|]; cbn; [|intros [-> _] H; discriminate H|intros -> [H _]; discriminate H|reflexivity].
  intros [_ A] [_ B]. f_equal. destruct x, y; try reflexivity; exfalso; [|].
  - assert (false = true); [|discriminate]. apply B, I, A. reflexivity.
  - assert (false = true); [|discriminate]. apply A, I, B. reflexivity.
Qed.

(** C102: email addresses, with all their comments. *)
Theorem C102_email : forall idna prof prof' c s t v w, idna_laws idna -> valid_str s -> valid_str t ->
  email_parse_str idna prof c s = Ok v -> email_parse_str idna prof' c t = Ok w ->
  to_email_string c v = to_email_string c w -> v = w.
Proof.
  intros idna prof prof' c s t v w L S T A B E.
  destruct (C47_email_policies _ _ _ _ _ S A) as (_ & _ & _ & NA & FA).
  destruct (C47_email_policies _ _ _ _ _ T B) as (_ & _ & _ & NB & FB).
  apply C44_email_accepts_exactly in A; [|exact S]. apply C44_email_accepts_exactly in B; [|exact T].
  destruct A as (lt & q & dt & tail & k & _ & _ & AL & A1 & A2 & A3 & A4 & _ & AH & _).
  destruct B as (lt' & q' & dt' & tail' & k' & _ & _ & BL & B1 & B2 & B3 & B4 & _ & BH & _).
  destruct (local_needs _ _ _ _ _ _ AL) as (a1 & a2 & a3 & a4). destruct (local_needs _ _ _ _ _ _ BL) as (b1 & b2 & b3 & b4).
  assert (ev_domain v = ev_domain w -> ev_local v = ev_local w ->
    ev_c1 v = ev_c1 w -> ev_c2 v = ev_c2 w -> ev_c3 v = ev_c3 w -> ev_c4 v = ev_c4 w -> v = w) as DONE.
  { intros Ed El E1 E2 E3 E4.
    assert (ev_need_quoted v = ev_need_quoted w) as En.
    { rewrite El in a2. destruct (ev_need_quoted v), (ev_need_quoted w); try reflexivity; exfalso.
      - assert (false = true); [|discriminate]. now apply b2, a2.
      - assert (false = true); [|discriminate]. now apply a2, b2. }
    assert (ev_is_local v = ev_is_local w) as Ei.
    { rewrite Ed in FA. exact (field_unique _ _ _ _ _ (iff_refl _) FA FB). }
    destruct v, w; cbn in *. congruence. }
  destruct (host_no _ _ _ _ _ 64 L AH (or_intror eq_refl)) as [AH1 AH3]. destruct (host_no _ _ _ _ _ 40 L AH (or_introl eq_refl)) as [AH2 _].
  destruct (host_no _ _ _ _ _ 64 L BH (or_intror eq_refl)) as [BH1 BH3]. destruct (host_no _ _ _ _ _ 40 L BH (or_introl eq_refl)) as [BH2 _].
  unfold to_email_string in E. destruct (e_comment c) eqn:C; cbn [negb] in E.
  2:{ destruct (NA eq_refl) as (X1 & X2 & X3 & X4), (NB eq_refl) as (Y1 & Y2 & Y3 & Y4).
      apply last_split in E; [|exact AH1|exact BH1]. destruct E as [El Eh].
      apply DONE; try congruence. exact (host_inj _ _ _ _ _ _ _ _ _ L AH BH Eh). }
  change e_comment_text with ctext in E. cbv zeta in E.
  assert (forall v, starts_outside (fun c => c = 40) ([64] ++ ctext (ev_c3 v) ++ e_host_text (ev_domain v) ++ ctext (ev_c4 v))) as O1.
  { intros x e r R. injection R as <- _. discriminate. }
  assert (forall k r, starts_outside plain_char (ctext k ++ 64 :: r)) as O2.
  { intros x r e r' R. destruct x; cbn in R; injection R as <- _; unfold plain_char; lia. }
  assert (forall v, ev_local v <> [] -> (ev_need_quoted v = false -> Forall plain_char (ev_local v)) -> forall r,
    starts_outside (fun c => c = 40) ((if ev_need_quoted v then [34] else []) ++ ev_local v ++ r)) as O3.
  { intros x N P r e r' R. destruct (ev_need_quoted x); cbn [app] in R; [injection R as <- _; discriminate|].
    destruct (ev_local x) as [|y l]; [congruence|]. cbn [app] in R. injection R as <- _.
    specialize (P eq_refl). inversion P as [|? ? X]; subst. now destruct X. }
  assert (forall h k, ~ In 40 h -> h <> [] -> starts_outside (fun c => c = 40) (h ++ ctext k)) as O4.
  { intros h x I N e r R ->. destruct h as [|y h]; [congruence|]. cbn [app] in R. injection R as -> _. apply I. now left. }
  apply ctext_unique in E; [|intros x X; apply (A1 x X)|intros x X; apply (B1 x X)|now apply O3|now apply O3].
  destruct E as [E1 E].
  apply local_unique in E; try assumption; [|apply O2|apply O2]. destruct E as (_ & El & E).
  apply ctext_unique in E; [|intros x X; apply (A2 x X)|intros x X; apply (B2 x X)|apply O1|apply O1].
  destruct E as [E2 E]. injection E as E.
  apply ctext_unique in E; [|intros x X; apply (A3 x X)|intros x X; apply (B3 x X)|now apply O4|now apply O4].
  destruct E as [E3 E]. apply (run_unique (fun c => c <> 40)) in E.
  2,3: apply Forall_forall; intros x X ->; contradiction.
  2,3: intros x r R; match type of R with ctext ?k = _ => destruct k end; cbn [ctext app] in R; [injection R as <- _; tauto|discriminate R].
  destruct E as [Eh E4].
  assert (forall v tail t, tail_ok c (ev_c4 v) tail -> ev_c4 v = Some t -> ~ In 41 t) as N4.
  { intros x tl t0 H0 H1. rewrite H1 in H0. apply H0. }
  rewrite <- (app_nil_r (ctext (ev_c4 v))), <- (app_nil_r (ctext (ev_c4 w))) in E4.
  apply ctext_unique in E4; [|intros x X; exact (N4 _ _ _ A4 X)|intros x X; exact (N4 _ _ _ B4 X)|discriminate|discriminate].
  destruct E4 as [E4 _]. apply DONE; auto.
  exact (host_inj _ _ _ _ _ _ _ _ _ L AH BH Eh).
Qed.

Example C102_example : exists v w x y,
  idna_laws idna_ascii /\
  email_parse_str idna_ascii Debug (ecfg true Allow Allow Must false) ([34] ++ bs "ab" ++ [34] ++ bs "@c.org(x)junk") = Ok v /\
  email_parse_str idna_ascii Debug (ecfg true Allow Allow Must false) (bs "ab@C.org(x)") = Ok w /\
  to_email_string (ecfg true Allow Allow Must false) v = to_email_string (ecfg true Allow Allow Must false) w /\ v = w /\
  email_parse_str idna_ascii Debug (ecfg true Allow Allow Must false) (bs "(x)ab@c.org") = Ok x /\
  to_email_string (ecfg true Allow Allow Must false) x <> to_email_string (ecfg true Allow Allow Must false) w /\
  host_parse_str idna_ascii (hcfg Allow Allow Must) (bs "Magiclen.org:+080") = Ok y /\ plain_host (hv_host y) /\
  host_authority y = bs "magiclen.org:80" /\
  (final_dot (bs "a.org") <-> final_dot (bs "b.org")).
Proof.
  do 4 eexists. split; [exact idna_ascii_laws|]. split; [vm_compute; reflexivity|]. split; [vm_compute; reflexivity|].
  split; [reflexivity|]. split; [reflexivity|]. split; [vm_compute; reflexivity|]. split; [discriminate|].
  split; [vm_compute; reflexivity|]. split.
  { cbn [hv_host plain_host]. split.
    - intros a H. apply ipv4_from_str_spec in H. vm_compute in H. discriminate.
    - intros u H. assert (ends_with 46 (bs "magiclen.org") = true) as K by (apply HostProofs.ends_with_spec; exists u; exact H).
      vm_compute in K. discriminate. }
  split; [reflexivity|].
  split; intros [u H]; exfalso.
  - assert (ends_with 46 (bs "a.org") = true) as K by (apply HostProofs.ends_with_spec; exists u; exact H). vm_compute in K. discriminate.
  - assert (ends_with 46 (bs "b.org") = true) as K by (apply HostProofs.ends_with_spec; exists u; exact H). vm_compute in K. discriminate.
Qed.

Print Assumptions C102_hex.
Print Assumptions C102_ip.
Print Assumptions C102_host_partial.
Print Assumptions C102_host_refuted.
Print Assumptions C102_domain_partial.
Print Assumptions C102_domain_refuted.
Print Assumptions C102_email.
