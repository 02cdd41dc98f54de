(** C117, continued: MAC addresses, uuids, ip addresses, domains, hosts, e-mail addresses, phone numbers and URLs. *)
From Verif Require Import Base IntModel Utf8 StrFacts Serde ValueSerde NetModel NetSpec IpSpec IpModel MacModel MacSpec DomainModel DomainSpec PropMade.
From Verif Require HostModel HostSpec EmailModel EmailSpec HttpModel HttpSpec PhoneModel IpProofs MacProofs PropIp PropMac PropDomain PropHost PropEmail PropHttp PropPhone.
Local Open Scope N_scope.

(** A validator that only reads texts makes the values that [parse_str] makes. *)
Theorem C117_texts : forall E A pw k (parse : list N -> outcome E A) v,
  made valid_str pw k (str_methods parse) v <-> exists s, valid_str s /\ parse s = Ok v.
Proof.
  intros E A pw k parse v. split.
  - intros H. ways H; exists s; split; assumption.
  - intros (s & S & H). apply (by_str _ _ _ _ _ s S). exact H.
Qed.
Print Assumptions C117_texts.

Lemma grouped_split sep : forall sizes d, sizes <> [] -> List.length d = list_sum sizes ->
  exists v, grouped sep sizes v d /\ (forall x, In x v -> In x d \/ sep = SepMust x).
Proof.
  induction sizes as [| n sizes IH]; intros d N L; [congruence |]. destruct sizes as [| m sizes].
  - exists d. cbn in L. assert (n = List.length d) as -> by lia. split; [constructor | tauto].
  - assert (L' : List.length (skipn n d) = list_sum (m :: sizes)) by (rewrite skipn_length; cbn in L |- *; lia).
    destruct (IH (skipn n d) ltac:(discriminate) L') as (v & G & F).
    assert (Q : List.length (firstn n d) = n) by (rewrite firstn_length; cbn in L; lia).
    assert (P : d = firstn n d ++ skipn n d) by (symmetry; apply firstn_skipn).
    set (s := match sep with SepMust c => [c] | _ => [] end).
    exists (firstn n d ++ s ++ v). split.
    + rewrite P at 2. rewrite <- Q at 1. constructor; [| exact G]. unfold s, sep_form. destruct sep; tauto.
    + intros x X. rewrite !in_app_iff in X. destruct X as [X | [X | X]].
      * left. rewrite P. apply in_app_iff. tauto.
      * right. unfold s in X. destruct sep; cbn in X; try tauto. destruct X as [-> | []]. reflexivity.
      * destruct (F x X) as [Y | Y]; [left; rewrite P; apply in_app_iff |]; tauto.
Qed.

(** Every number of the right width is a value, whatever the case and the separator, if the separator is ASCII and can be told from a digit. *)
Theorem C117_identifiers : forall pw k case sep x, sep_not_digit case sep -> (forall c, sep = SepMust c -> c < 128) ->
  (made valid_str pw k (str_methods (mac_parse_str case sep)) x <-> x < 2 ^ 48) /\
  (made valid_str pw k (str_methods (uuid_parse_str case sep)) x <-> x < 2 ^ 128).
Proof.
  intros pw k case sep x D S. rewrite !C117_texts.
  assert (G : forall sizes w, sizes <> [] -> w = list_sum sizes -> (0 < w <= 32)%nat -> x < 16 ^ N.of_nat w ->
    exists v g, valid_str v /\ grouped sep sizes v g /\ hex_denotes case g x).
  { intros sizes w N W B L. destruct (MacProofs.hex_fmt_spec w (case_upper case) x L B) as (H & Q).
    apply MacProofs.hex_denotes_weaken in H.
    destruct (grouped_split sep sizes _ N (eq_trans Q W)) as (v & V & F). exists v, (hex_fmt w (case_upper case) x).
    split; [| split; assumption]. apply IpProofs.ascii_valid. apply Forall_forall. intros c C. apply F in C. destruct C as [C | C]; [| exact (S c C)].
    destruct (MacProofs.hex_denotes_in _ _ _ H c C) as (d & X). apply MacProofs.hex_digit_iff in X. unfold hex_digit in X.
    destruct (N.ltb_spec c 128) as [Y | Y]; [exact Y |]. exfalso.
    assert ((c <=? 57) = false /\ (c <=? 102) = false /\ (c <=? 70) = false) as (U & V' & W') by lia.
    rewrite U, V', W', !Bool.andb_false_r in X. destruct case; discriminate X. }
  split; split.
  - intros (s & _ & H). exact (PropMac.C25_mac_48_bits _ _ _ _ H).
  - intros L. destruct (G mac_sizes 12%nat ltac:(discriminate) eq_refl ltac:(lia) L) as (v & g & V & A & B). exists v. split; [exact V |].
    apply PropMac.C25_mac_accepts_exactly; [exact D |]. exists g. tauto.
  - intros (s & _ & H). exact (PropMac.C28_uuid_128_bits _ _ _ _ H).
  - intros L. destruct (G uuid_sizes 32%nat ltac:(discriminate) eq_refl ltac:(lia) L) as (v & g & V & A & B). exists v. split; [exact V |].
    apply PropMac.C28_uuid_accepts_exactly; [exact D |]. exists g. tauto.
Qed.
Print Assumptions C117_identifiers.

(** The values of an ip validator: every address with a port, within the policies. *)
Definition port_number (p : option N) : Prop := forall q, p = Some q -> q <= 65535.
Theorem C117_ip : forall pw k port local p,
  (forall a, made valid_str pw k (str_methods (ipv4_parse_str port local)) (a, p) <->
     v4_addr a /\ port_number p /\ port_ok port p /\ local_ok local (v4_local a)) /\
  (forall a, made valid_str pw k (str_methods (ipv6_parse_str port local)) (a, p) <->
     v6_addr a /\ port_number p /\ port_ok port p /\ local_ok local (v6_local a)) /\
  (forall x, made valid_str pw k (str_methods (ip_parse_str port local)) (x, p) <->
     port_number p /\ port_ok port p /\
     match x with V4 a => v4_addr a /\ local_ok local (v4_local a) | V6 a => v6_addr a /\ local_ok local (v6_local a) end).
Proof.
  intros pw k port local p.
  assert (F4 : forall a, (exists s, valid_str s /\ v4_form s a p /\ port_ok port p /\ local_ok local (v4_local a)) <->
    v4_addr a /\ port_number p /\ port_ok port p /\ local_ok local (v4_local a)).
  { intros a. split.
    - intros (s & S & H & P & L). apply IpProofs.v4_form_addr in H. unfold port_number. tauto.
    - intros (A & Q & P & L). destruct (IpProofs.ipv4_authority_form a p A Q) as (H & C). exists (ipv4_authority (a, p)).
      split; [exact (IpProofs.ascii_valid _ C) | tauto]. }
  assert (F6 : forall a, (exists s, valid_str s /\ v6_form s a p /\ port_ok port p /\ local_ok local (v6_local a)) <->
    v6_addr a /\ port_number p /\ port_ok port p /\ local_ok local (v6_local a)).
  { intros a. split.
    - intros (s & S & H & P & L). apply IpProofs.v6_form_addr in H. unfold port_number. tauto.
    - intros (A & Q & P & L). destruct (IpProofs.ipv6_authority_form a p A Q) as (H & C). exists (ipv6_authority (a, p)).
      split; [exact (IpProofs.ascii_valid _ C) | tauto]. }
  split; [| split].
  - intros a. rewrite C117_texts, <- F4. split; intros (s & S & H); exists s; split; try exact S; apply (PropIp.C31_ipv4_accepts_exactly port local s a p S); exact H.
  - intros a. rewrite C117_texts, <- F6. split; intros (s & S & H); exists s; split; try exact S; apply (PropIp.C31_ipv6_accepts_exactly port local s a p S); exact H.
  - intros [a | a]; rewrite C117_texts.
    + transitivity (v4_addr a /\ port_number p /\ port_ok port p /\ local_ok local (v4_local a)); [rewrite <- F4 | tauto].
      split; intros (s & S & H); exists s; split; try exact S; apply (PropIp.C31_ip_accepts_exactly port local s (V4 a) p S); exact H.
    + transitivity (v6_addr a /\ port_number p /\ port_ok port p /\ local_ok local (v6_local a)); [rewrite <- F6 | tauto].
      split; intros (s & S & H); exists s; split; try exact S; apply (PropIp.C31_ip_accepts_exactly port local s (V6 a) p S); exact H.
Qed.
Print Assumptions C117_ip.

(** Names: the policies hold of the value itself, if IDNA makes no IPv4 address of a text that is none (without that they do not, C36 and C39). *)
Theorem C117_domains_partial : forall pw idna c v, idna_no_new_ipv4 idna ->
  made valid_str pw Domain (str_methods (DomainModel.domain_parse_str idna c)) v ->
  exists dom, ((exists s name, dom = name /\ dv_domain v = s /\ split_port s name (dv_port v) /\ exists a, v4_dotted name a) \/
               ((exists name, idna name = Some dom) /\ dv_domain v = dom)) /\
  port_ok (d_port c) (dv_port v) /\ ipv4_ok (d_ipv4 c) (exists a, v4_dotted dom a) /\
  local_ok (d_local c) (domain_local dom) /\ two_ok (d_two c) (domain_local dom) dom /\
  field (ipv4_field c) (exists a, v4_dotted dom a) (dv_is_ipv4 v) /\ field (local_field c) (domain_local dom) (dv_is_local v).
Proof.
  intros pw idna c v I H. apply C117_texts in H. destruct H as (s & S & H).
  destruct (PropDomain.C36_domain_policies_partial idna c s v I S H) as (name & dom & P & Q & R). exists dom. split; [| exact R].
  destruct Q as [(A & -> & B) | (A & B)]; [left; exists s, name; tauto | right; split; [exists name; exact A | exact B]].
Qed.
Print Assumptions C117_domains_partial.

Theorem C117_hosts_partial : forall pw idna c v,
  made valid_str pw Host (str_methods (HostModel.host_parse_str idna c)) v ->
  idna_no_new_ipv4 idna \/ (forall d, HostModel.hv_host v <> HostModel.HDomain d) ->
  port_ok (HostModel.h_port c) (HostModel.hv_port v) /\ local_ok (HostModel.h_local c) (HostSpec.host_local (HostModel.hv_host v)) /\
  HostSpec.host_two_ok (HostModel.h_two c) (HostModel.hv_host v) /\
  field (HostSpec.host_field c) (HostSpec.host_local (HostModel.hv_host v)) (HostModel.hv_is_local v).
Proof.
  intros pw idna c v H [I | I]; apply C117_texts in H; destruct H as (s & S & H).
  - exact (PropHost.C39_host_policies_partial idna c s v I S H).
  - exact (PropHost.C39_host_address_policies idna c s v S H I).
Qed.
Print Assumptions C117_hosts_partial.

Theorem C117_emails : forall pw idna prof c v,
  made valid_str pw Email (str_methods (EmailModel.email_parse_str idna prof c)) v ->
  PropEmail.email_ip_ok (EmailModel.e_ip c) (EmailModel.ev_domain v) /\
  local_ok (EmailModel.e_local c) (EmailSpec.literal_local (EmailModel.ev_domain v)) /\
  PropEmail.email_two_ok (EmailModel.e_two c) (EmailModel.ev_domain v) /\
  EmailModel.ev_local v <> [] /\
  (EmailModel.e_comment c = false -> EmailModel.ev_c1 v = None /\ EmailModel.ev_c2 v = None /\ EmailModel.ev_c3 v = None /\ EmailModel.ev_c4 v = None) /\
  (EmailModel.e_non_ascii c = false -> Forall (fun e => e < 128) (EmailModel.ev_local v)).
Proof.
  intros pw idna prof c v H. apply C117_texts in H. destruct H as (s & S & H).
  destruct (PropEmail.C47_email_policies idna prof c s v S H) as (A & B & C & D & _).
  split; [exact A |]. split; [exact B |]. split; [exact C |]. split.
  - exact (PropEmail.C43_email_local_nonempty idna prof c s v S H).
  - split; [exact D |]. exact (PropEmail.C57_email_ascii_local_partial idna prof c s v S H).
Qed.
Print Assumptions C117_emails.

(** URLs: [parse] and [host] are the url library. *)
Theorem C117_urls : forall pw url parse host local u, HttpSpec.host_typed host ->
  (forall https, made valid_str pw HttpUrl (str_methods (HttpModel.http_parse_str url parse host local)) (u, https) <->
     exists s, valid_str s /\ HttpSpec.has_scheme (if https : bool then bs "https" else bs "http") s /\ parse s = Some u /\
       (local = Allow \/ exists h, host u = Some h /\ local_ok local (HttpSpec.host_local h))) /\
  (forall p, made valid_str pw HttpFtpUrl (str_methods (HttpModel.http_ftp_parse_str url parse host local)) (u, p) <->
     exists s, valid_str s /\ HttpSpec.has_scheme (match p with HttpModel.HTTP => bs "http" | HttpModel.HTTPS => bs "https" | HttpModel.FTP => bs "ftp" end) s /\
       parse s = Some u /\ (local = Allow \/ exists h, host u = Some h /\ local_ok local (HttpSpec.host_local h))).
Proof.
  intros pw url parse host local u T. split.
  - intros https. rewrite C117_texts. split; intros (s & S & H); exists s; split; try exact S; apply (PropHttp.C54_http_accepts_exactly url parse host local s u https T); exact H.
  - intros p. rewrite C117_texts. split; intros (s & S & H); exists s; split; try exact S; apply (PropHttp.C54_http_ftp_accepts_exactly url parse host local s u p T); exact H.
Qed.
Print Assumptions C117_urls.

(** Phone numbers: [parse], [country] and [valid] are the phone library. *)
Theorem C117_phones : forall pw cid eqb phone perr parse country valid, (forall a b : cid, eqb a b = true <-> a = b) -> forall cs v, NoDup cs ->
  made valid_str pw Phone (str_methods (PhoneModel.phone_parse_str cid eqb phone perr parse country valid cs)) v ->
  match v with
  | PhoneModel.POne p => valid p = true /\ (cs = [] \/ exists c, cs = [c] /\ country p = Some c)
  | PhoneModel.PMany m => m <> [] /\ NoDup (List.map fst m) /\ forall c p, In (c, p) m -> In c cs /\ country p = Some c /\ valid p = true
  end.
Proof.
  intros pw cid eqb phone perr parse country valid Q cs v N H. apply C117_texts in H. destruct H as (s & _ & H).
  destruct cs as [| c [| c' cs]].
  - apply PropPhone.C51_any_country in H. destruct H as (p & -> & _ & V). tauto.
  - apply (PropPhone.C51_one_country cid eqb phone perr parse country valid Q) in H. destruct H as (p & -> & _ & C & V). split; [exact V |]. right. exists c. tauto.
  - destruct (PropPhone.C51_several_countries cid eqb phone perr parse country valid Q (c :: c' :: cs) s ltac:(cbn; lia) N) as (A & _).
    destruct (A v H) as (m & -> & E & D & F). split; [exact E |]. split; [exact D |]. intros d p I. apply F in I. tauto.
Qed.
Print Assumptions C117_phones.

Example C117_net_example :
  let m := str_methods (ipv4_parse_str Must Disallow) in
  made valid_str W64 Ipv4 m ([8; 8; 8; 8], Some 53) /\ ~ made valid_str W64 Ipv4 m ([8; 8; 8; 8], None) /\ ~ made valid_str W64 Ipv4 m ([127; 0; 0; 1], Some 53) /\
  sep_not_digit AnyCase (SepMust 58) /\ made valid_str W64 MacAddress (str_methods (mac_parse_str AnyCase (SepMust 58))) (2 ^ 48 - 1) /\
  ~ made valid_str W64 MacAddress (str_methods (mac_parse_str AnyCase (SepMust 58))) (2 ^ 48).
Proof.
  cbv zeta. split; [| split; [| split; [| split; [| split]]]].
  - apply (by_str _ _ _ _ _ (bs "8.8.8.8:53")); [apply IpProofs.ascii_valid; repeat (constructor; [reflexivity |]); constructor |]. vm_compute. reflexivity.
  - rewrite (proj1 (C117_ip W64 Ipv4 Must Disallow None)). intros (_ & _ & H & _). cbn in H. congruence.
  - rewrite (proj1 (C117_ip W64 Ipv4 Must Disallow (Some 53))). intros (_ & _ & _ & H). apply H. exists [127; 0; 0; 0], 8. split; [cbn; tauto | vm_compute; split; reflexivity].
  - intros c d H. discriminate H.
  - apply C117_identifiers; [intros c d H; discriminate H | intros c H; inversion H; lia | reflexivity].
  - intros H. apply C117_identifiers in H; [discriminate H | intros c d Q; discriminate Q | intros c Q; inversion Q; lia].
Qed.
