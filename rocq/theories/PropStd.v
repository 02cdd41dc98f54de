(** Property C111: what the standards call valid is accepted. *)
From Verif Require Import Base IntStr IntStrProofs MacModel MacSpec MacProofs NetModel NetSpec NetProofs IpModel IpSpec IpProofs Utf8
  StrFacts DomainModel DomainSpec DomainProofs IdnaFrag HostModel HostSpec HostProofs EmailModel EmailSpec EmailProofs.
From Verif Require Import RangeModel NumberModel NumberSpec FloatModel FloatSpec FloatText.
From Verif Require Import PropMac PropIp PropDomain PropHost PropEmail PropFloat PropWidth PropRel.
From Verif Require PropMailbox PropUri.
From Verif Require Import StdSpec StdProofs.
Local Open Scope N_scope.

(** C111, addresses: the texts are exactly those of RFC 3986. *)
Theorem C111_ipv4 : forall s, valid_str s -> is_ok (ipv4_parse_str Disallow Allow s) <-> IPv4address s.
Proof.
  intros s V. rewrite v4_iff. split.
  - intros [[a p] H]. apply C31_ipv4_accepts_exactly in H as (F & P & _); [|exact V]. cbn in P. subst p. exists a. exact F.
  - intros [a A]. exists (a, None). apply C31_ipv4_accepts_exactly; [exact V|]. split; [exact A|]. split; [reflexivity|exact I].
Qed.
Theorem C111_ipv6 : forall s, valid_str s ->
  is_ok (ipv6_parse_str Disallow Allow s) <-> IPv6address s \/ exists u, s = [91] ++ u ++ [93] /\ IPv6address u.
Proof.
  intros s V. split.
  - intros [[a p] H]. apply C31_ipv6_accepts_exactly in H as (F & P & _); [|exact V]. cbn in P. subst p. cbn [v6_form] in F.
    destruct F as [F|(t & -> & F)]; [left|right; exists t; split; [reflexivity|]]; apply v6_iff; exists a; exact F.
  - intros H. assert (X : exists a, v6_form s a None).
    { destruct H as [H|(u & -> & H)]; apply v6_iff in H as [a H]; exists a; [left; exact H|right; exists u; auto]. }
    destruct X as [a A]. exists (a, None). apply C31_ipv6_accepts_exactly; [exact V|]. split; [exact A|]. split; [reflexivity|exact I].
Qed.

Lemma digit_ascii c : DIGIT c -> c < 128. Proof. unfold DIGIT. lia. Qed.
Lemma v4_ascii s : IPv4address s -> Forall (fun c => c < 128) s.
Proof. intros H. apply v4_iff in H as [a H]. apply v4_chars in H. eapply Forall_impl; [|exact H]. unfold v4_char. intros; lia. Qed.
Lemma v6_ascii s : IPv6address s -> Forall (fun c => c < 128) s.
Proof.
  intros H. apply v6_iff in H as [a H]. apply PropUri.v6_literal in H. eapply Forall_impl; [|exact H].
  unfold PropUri.literal_char. intros; lia.
Qed.
Lemma dns_facts d : dns_name d -> Forall (fun c => c < 128 /\ (let_dig c \/ c = 45 \/ c = 46)) d /\ d <> [] /\ (forall u, d <> u ++ [46]).
Proof.
  intros [D _]. assert (F : Forall (fun c => c < 128 /\ (let_dig c \/ c = 45 \/ c = 46)) d).
  { assert (K : forall l, dns_label l -> Forall (fun c => c < 128 /\ (let_dig c \/ c = 45 \/ c = 46)) l).
    { intros l (_ & F & _). eapply Forall_impl; [|exact F]. intros c C. destruct (let_dig_lower c C) as (_ & A & _). split; [exact A|]. destruct C as [C|C]; auto. }
    induction D as [l H|l t H _ IH]; [exact (K l H)|]. apply Forall_app. split; [exact (K l H)|]. constructor; [split; [lia|auto]|exact IH]. }
  split; [exact F|]. destruct (dns_labels_ok d D) as (_ & _ & u & y & -> & Y). split; [destruct u; discriminate|].
  intros w E. apply app_inj_tail in E as [_ E]. congruence.
Qed.

(** The host a text of the grammar stands for. *)
Definition host_meant (h : list N) (x : host) : Prop :=
  match x with
  | HIPv6 a => exists u, h = [91] ++ u ++ [93] /\ v6_text u a
  | HIPv4 a => v4_text h a
  | HDomain d => dns_name h /\ ~ IPv4address h /\ d = List.map lower h
  end.
Lemma v4_dec h : IPv4address h \/ ~ IPv4address h.
Proof.
  rewrite v4_iff. destruct (ipv4_from_str h) as [a|] eqn:E.
  - left. exists a. apply ipv4_from_str_spec. exact E.
  - right. intros [a A]. apply ipv4_from_str_spec in A. congruence.
Qed.
Lemma std_host_meant h : std_host h -> exists x, host_meant h x.
Proof.
  intros [(u & -> & H)|[H|H]].
  - apply v6_iff in H as [a H]. exists (HIPv6 a). exists u. auto.
  - apply v4_iff in H as [a H]. exists (HIPv4 a). exact H.
  - destruct (v4_dec h) as [A|A]; [apply v4_iff in A as [a A]; exists (HIPv4 a); exact A|]. exists (HDomain (List.map lower h)).
    split; [exact H|]. auto.
Qed.

Lemma lower_no_v4 h a : v4_text (List.map lower h) a -> v4_text h a.
Proof. intros H. pose proof (v4_chars _ _ H) as F. rewrite (lower_fix h F) in H. exact H. Qed.

(** C111, authorities: a host of RFC 3986 whose name is a host name, with a port or without, is accepted by a host validator
    whose policies admit it, and stands for what is written. *)
Theorem C111_authority : forall idna c t h p x, idna_dns idna -> std_authority t h p -> host_meant h x ->
  port_ok (h_port c) p -> local_ok (h_local c) (host_local x) -> host_two_ok (h_two c) x ->
  exists v, host_parse_str idna c t = Ok v /\ hv_host v = x /\ hv_port v = p.
Proof.
  intros idna c t h p x Hi [Hh Ht] Hx Hp Hl H2.
  assert (P : forall q, p = Some q -> exists ds, t = h ++ [58] ++ ds /\ port_text ds q).
  { intros q ->. destruct Ht as (ds & -> & D). exists ds. split; [reflexivity|exact (std_port_text _ _ D)]. }
  assert (V : valid_str t).
  { apply ascii_valid. assert (A : Forall (fun c => c < 128) h).
    { destruct Hh as [(u & -> & H)|[H|H]]; [|exact (v4_ascii _ H)|].
      - constructor; [lia|]. apply Forall_app. split; [exact (v6_ascii _ H)|constructor; [lia|constructor]].
      - apply dns_facts in H as [F _]. eapply Forall_impl; [|exact F]. intros y [Y _]. exact Y. }
    destruct p as [q|]; [|subst; exact A]. destruct (P q eq_refl) as (ds & -> & D). apply Forall_app. split; [exact A|].
    constructor; [lia|exact (port_ascii _ _ D)]. }
  assert (W : forall loc : Prop, loc \/ ~ loc -> exists f, field (host_field c) loc f).
  { intros loc [L|L]; destruct (host_field c) eqn:E.
    - exists (Some true). split; [reflexivity|tauto].
    - exists None. reflexivity.
    - exists (Some false). split; [reflexivity|]. split; [discriminate|contradiction].
    - exists None. reflexivity. }
  destruct x as [d|a|a]; cbn [host_meant host_local host_two_ok] in *.
  - destruct Hx as (D & N4 & ->). destruct (dns_facts h D) as (F & Ne & Dot).
    assert (No : forall a, ~ v4_dotted (List.map lower h) a).
    { intros a (u & [E|E] & A).
      - rewrite <- E in A. apply N4, v4_iff. exists a. exact (lower_no_v4 _ _ A).
      - destruct h as [|y h _] using rev_ind; [contradiction|]. rewrite map_app in E. cbn [List.map] in E. apply app_inj_tail in E as [_ E].
        apply (Dot h). f_equal. f_equal. unfold lower in E. destruct ((65 <=? y) && (y <=? 90)) eqn:Q; lia. }
    assert (Loc : domain_local (List.map lower h) <-> localhost (List.map lower h)).
    { unfold domain_local. split; [|auto]. intros [X|(a & X & _)]; [exact X|destruct (No a X)]. }
    assert (LL : forall l, local_ok l (domain_local (List.map lower h)) -> local_ok l (localhost (List.map lower h))).
    { intros []; cbn; tauto. }
    assert (TT : forall l, two_ok l (domain_local (List.map lower h)) (List.map lower h) -> two_ok l (localhost (List.map lower h)) (List.map lower h)).
    { intros []; cbn; tauto. }
    assert (DL : localhost (List.map lower h) \/ ~ localhost (List.map lower h)).
    { destruct (is_local_domain (List.map lower h)) eqn:E; [left|right; intros X]; [apply localhost_spec; exact E|].
      apply localhost_spec in X. congruence. }
    destruct (W _ DL) as [f Hf].
    exists {| hv_host := HDomain (List.map lower h); hv_port := p; hv_is_local := f |}. split; [|auto].
    apply C39_host_accepts_exactly; [exact V|]. right. right. exists h, (List.map lower h). cbn [hv_host hv_port hv_is_local].
    split; [reflexivity|].
    assert (Hd : exists y r, t = y :: r /\ y <> 91 /\ y <> 58).
    { destruct h as [|y r]; [contradiction|]. apply Forall_inv in F as [_ F]. assert (y <> 91 /\ y <> 58) by (unfold let_dig, DIGIT in F; lia).
      destruct p as [q|]; [destruct (P q eq_refl) as (ds & -> & _)|subst]; [exists y, (r ++ [58] ++ ds)|exists y, r]; auto. }
    assert (NC : ~ In 58 h).
    { intros X. rewrite Forall_forall in F. apply F in X as [_ X]. unfold let_dig, DIGIT in X. lia. }
    destruct Hd as (y & r & Et & Y1 & Y2).
    assert (SP : split_port t h p) by (destruct p as [q|]; [destruct (P q eq_refl) as (ds & -> & D1); exists ds; auto|subst; split; auto]).
    split; [rewrite Et; discriminate|]. split; [intros z E; congruence|].
    split; [intros a A; exact (NC (v6_no_split _ _ _ _ A SP))|]. split; [exact SP|].
    split; [exact Hp|]. split; [exact Dot|]. split; [intros a A; apply N4, v4_iff; exists a; exact A|]. split; [exact (Hi h D)|].
    split; [exact (TT _ H2)|]. split; [exact (LL _ Hl)|exact Hf].
  - destruct (W (v4_local a)) as [f Hf].
    { destruct (is_local_ipv4 a) eqn:E; [left|right; intros X]; [apply C32_ipv4_local_blocks; [exact (v4_text_addr _ _ Hx)|exact E]|].
      apply C32_ipv4_local_blocks in X; [congruence|exact (v4_text_addr _ _ Hx)]. }
    exists {| hv_host := HIPv4 a; hv_port := p; hv_is_local := f |}. split; [|auto].
    apply C39_host_accepts_exactly; [exact V|]. right. left. exists a. cbn [hv_host hv_port hv_is_local]. split; [reflexivity|].
    split; [|auto]. destruct p as [q|]; cbn [v4_form]; [|subst; exact Hx]. destruct (P q eq_refl) as (ds & -> & D1). exists h, ds. auto.
  - destruct Hx as (u & -> & Hx). destruct (W (v6_local a)) as [f Hf].
    { destruct (is_local_ipv6 a) eqn:E; [left|right; intros X]; [apply C32_ipv6_local_blocks; [exact (v6_text_addr _ _ Hx)|exact E]|].
      apply C32_ipv6_local_blocks in X; [congruence|exact (v6_text_addr _ _ Hx)]. }
    exists {| hv_host := HIPv6 a; hv_port := p; hv_is_local := f |}. split; [|auto].
    apply C39_host_accepts_exactly; [exact V|]. left. exists a. cbn [hv_host hv_port hv_is_local]. split; [reflexivity|].
    split; [|auto]. destruct p as [q|]; cbn [v6_form].
    + destruct (P q eq_refl) as (ds & -> & D1). exists u, ds. split; [rewrite <- !app_assoc; reflexivity|auto].
    + subst. right. exists u. auto.
Qed.

(** C111, names: a host name is accepted by a domain validator whose policies admit it, and kept in lower case. *)
Theorem C111_domain : forall idna c t h p, idna_dns idna -> dns_name h -> ~ IPv4address h ->
  match p with None => t = h | Some p => exists ds, t = h ++ [58] ++ ds /\ std_port ds p end ->
  port_ok (d_port c) p -> d_ipv4 c <> Must -> local_ok (d_local c) (localhost (List.map lower h)) ->
  two_ok (d_two c) (localhost (List.map lower h)) (List.map lower h) ->
  exists v, domain_parse_str idna c t = Ok v /\ dv_domain v = List.map lower h /\ dv_port v = p.
Proof.
  intros idna c t h p Hi D N4 Ht Hp H4 Hl H2. destruct (dns_facts h D) as (F & Ne & Dot).
  assert (NC : ~ In 58 h).
  { intros X. rewrite Forall_forall in F. apply F in X as [_ X]. unfold let_dig, DIGIT in X. lia. }
  assert (SP : split_port t h p).
  { destruct p as [q|]; [|subst; split; auto]. destruct Ht as (ds & -> & X). exists ds. split; [reflexivity|exact (std_port_text _ _ X)]. }
  assert (V : valid_str t /\ t <> []).
  { assert (A : Forall (fun c => c < 128) h) by (eapply Forall_impl; [|exact F]; intros y [Y _]; exact Y).
    destruct p as [q|]; [|subst; split; [apply ascii_valid; exact A|exact Ne]].
    destruct Ht as (ds & -> & X). split; [|destruct h; discriminate]. apply ascii_valid, Forall_app. split; [exact A|].
    constructor; [lia|exact (port_ascii _ _ (std_port_text _ _ X))]. }
  destruct V as [V Nt].
  assert (W : forall b (loc : Prop), loc \/ ~ loc -> exists f, field b loc f).
  { intros b loc [L|L]; destruct b.
    - exists (Some true). split; [reflexivity|tauto].
    - exists None. reflexivity.
    - exists (Some false). split; [reflexivity|]. split; [discriminate|contradiction].
    - exists None. reflexivity. }
  assert (DL : localhost (List.map lower h) \/ ~ localhost (List.map lower h)).
  { destruct (is_local_domain (List.map lower h)) eqn:E; [left|right; intros X]; [apply localhost_spec; exact E|].
    apply localhost_spec in X. congruence. }
  assert (PD : no_policy c \/ ~ no_policy c).
  { unfold no_policy. destruct (d_ipv4 c), (d_local c), (d_two c); auto; right; intros (A & B & C); discriminate. }
  destruct PD as [PD|PD].
  - exists {| dv_domain := List.map lower h; dv_port := p; dv_is_ipv4 := None; dv_is_local := None |}. split; [|auto].
    apply C36_domain_accepts_exactly; [exact V|]. split; [exact Nt|]. exists h. split; [exact SP|]. split; [exact Hp|]. left.
    cbn [dv_domain dv_is_ipv4 dv_is_local]. split; [exact PD|]. split; [exact (Hi h D)|auto].
  - destruct (W (ipv4_field c) False) as [f4 F4]; [right; tauto|]. destruct (W (local_field c) _ DL) as [fl Fl].
    exists {| dv_domain := List.map lower h; dv_port := p; dv_is_ipv4 := f4; dv_is_local := fl |}. split; [|auto].
    apply C36_domain_accepts_exactly; [exact V|]. split; [exact Nt|]. exists h. split; [exact SP|]. split; [exact Hp|]. right. right.
    cbn [dv_domain dv_is_ipv4 dv_is_local]. split; [exact PD|]. split.
    { intros a (u & [E|E] & A); [subst u; apply N4, v4_iff; exists a; exact A|exact (Dot u E)]. }
    split; [exact H4|]. split; [exact (Hi h D)|]. auto.
Qed.

(** Hexadecimal identifiers. *)
Lemma grouped_cons_len sep n sizes g s v d : List.length g = n -> sep_form sep s -> grouped sep sizes v d ->
  grouped sep (n :: sizes) (g ++ s ++ v) (g ++ d).
Proof. intros <-. apply grouped_cons. Qed.
Lemma grouped_last_len sep n g : List.length g = n -> grouped sep [n] g g.
Proof. intros <-. apply grouped_last. Qed.
Lemma sep_no_digit c sep : ~ HEXDIG c -> sep = SepMust c \/ sep = SepAllow c -> sep_not_digit AnyCase sep.
Proof.
  intros Hc H x d -> X. apply hex_out in X. destruct H as [H|H]; [discriminate|]. injection H as ->. contradiction.
Qed.

(** C111, uuids: exactly the strings of RFC 4122 are accepted if hyphens are required, with their value; they are also
    accepted if hyphens are allowed. *)
Theorem C111_uuid : forall s,
  (forall x, uuid_parse_str AnyCase (SepMust 45) s = Ok x <-> exists ds, uuid_string s ds /\ x = hex_value ds) /\
  (forall ds, uuid_string s ds -> uuid_parse_str AnyCase (SepAllow 45) s = Ok (hex_value ds)).
Proof.
  intros s. assert (G : forall sep ds, sep = SepMust 45 \/ sep = SepAllow 45 -> uuid_string s ds ->
    uuid_parse_str AnyCase sep s = Ok (hex_value ds)).
  { intros sep ds Hs (a & b & c & d & e & -> & -> & L & F).
    apply C28_uuid_accepts_exactly; [apply (sep_no_digit 45); [unfold HEXDIG; lia|exact Hs]|].
    exists (a ++ b ++ c ++ d ++ e). split; [|apply hex_value_denotes; exact F]. injection L as L1 L2 L3 L4 L5.
    assert (SF : sep_form sep [45]) by (destruct Hs as [-> | ->]; [reflexivity|right; reflexivity]).
    unfold uuid_sizes. repeat (apply grouped_cons_len; [assumption|exact SF|]). apply grouped_last_len. assumption. }
  split; [|intros ds; apply G; auto]. intros x. split; [|intros (ds & H & ->); apply G; auto].
  intros H. pose proof H as H0. apply C28_uuid_accepts_only in H as (ds & Gr & Hd). exists ds. assert (U : uuid_string s ds).
  { unfold uuid_sizes in Gr.
    apply grouped_cons_inv in Gr as (a & s1 & v1 & d1 & La & S1 & Gr & -> & ->).
    apply grouped_cons_inv in Gr as (b & s2 & v2 & d2 & Lb & S2 & Gr & -> & ->).
    apply grouped_cons_inv in Gr as (c & s3 & v3 & d3 & Lc & S3 & Gr & -> & ->).
    apply grouped_cons_inv in Gr as (d & s4 & v4 & d4 & Ld & S4 & Gr & -> & ->).
    apply grouped_last_inv in Gr as [Le ->]. cbn [sep_form] in *. subst s1 s2 s3 s4.
    exists a, b, c, d, v4. split; [reflexivity|]. split; [reflexivity|]. split; [cbn; congruence|exact (denotes_hexdig _ _ _ Hd)]. }
  split; [exact U|]. rewrite (G (SepMust 45) ds) in H0 by auto. congruence.
Qed.

(** C111, MAC addresses, with any separator that is no digit. *)
Theorem C111_eui48 : forall sep s, ~ HEXDIG sep ->
  (forall x, mac_parse_str AnyCase (SepMust sep) s = Ok x <-> exists ds, eui48_string sep s ds /\ x = hex_value ds) /\
  (forall ds, eui48_string sep s ds -> mac_parse_str AnyCase (SepAllow sep) s = Ok (hex_value ds)).
Proof.
  intros sp s Hsp. assert (G : forall sep ds, sep = SepMust sp \/ sep = SepAllow sp -> eui48_string sp s ds ->
    mac_parse_str AnyCase sep s = Ok (hex_value ds)).
  { intros sep ds Hs (a & b & c & d & e & f & -> & -> & L & F).
    apply C25_mac_accepts_exactly; [apply (sep_no_digit sp); assumption|].
    exists (a ++ b ++ c ++ d ++ e ++ f). split; [|apply hex_value_denotes; exact F]. injection L as L1 L2 L3 L4 L5 L6.
    assert (SF : sep_form sep [sp]) by (destruct Hs as [-> | ->]; [reflexivity|right; reflexivity]).
    unfold mac_sizes. repeat (apply grouped_cons_len; [assumption|exact SF|]). apply grouped_last_len. assumption. }
  split; [|intros ds; apply G; auto]. intros x. split; [|intros (ds & H & ->); apply G; auto].
  intros H. pose proof H as H0. apply C25_mac_accepts_only in H as (ds & Gr & Hd). exists ds. assert (U : eui48_string sp s ds).
  { unfold mac_sizes in Gr.
    apply grouped_cons_inv in Gr as (a & s1 & v1 & d1 & La & S1 & Gr & -> & ->).
    apply grouped_cons_inv in Gr as (b & s2 & v2 & d2 & Lb & S2 & Gr & -> & ->).
    apply grouped_cons_inv in Gr as (c & s3 & v3 & d3 & Lc & S3 & Gr & -> & ->).
    apply grouped_cons_inv in Gr as (d & s4 & v4 & d4 & Ld & S4 & Gr & -> & ->).
    apply grouped_cons_inv in Gr as (e & s5 & v5 & d5 & Le & S5 & Gr & -> & ->).
    apply grouped_last_inv in Gr as [Lf ->]. cbn [sep_form] in *. subst s1 s2 s3 s4 s5.
    exists a, b, c, d, e, v5. split; [reflexivity|]. split; [reflexivity|]. split; [cbn; congruence|exact (denotes_hexdig _ _ _ Hd)]. }
  split; [exact U|]. rewrite (G (SepMust sp) ds) in H0 by auto. congruence.
Qed.

(** C111, numbers: a number of JSON is read by a number validator as the nearest float of its type. *)
Lemma digits_run ds : Forall DIGIT ds -> exists v, digit_run ds v.
Proof.
  induction ds as [|c ds IH] using rev_ind; intros F; [exists 0%Z; constructor|]. apply Forall_app in F as [F C]. apply Forall_inv in C.
  destruct (IH F) as [v H]. eexists. constructor; [exact H|exact C].
Qed.
Lemma json_number_text s : json_number s -> number_text s.
Proof.
  intros (g & i & f & e & -> & G & I & F & E). assert (EX : exists k, exponent_text e k).
  { destruct E as [-> |(c & h & ds & -> & C & H & Ne & D)]; [exists 0%Z; constructor|]. destruct (digits_run ds D) as [v R].
    destruct H as [-> |[-> | ->]]; eexists; eapply exp_some; try eassumption; constructor. }
  destruct EX as [k EX]. assert (Di : Forall DIGIT i /\ i <> []).
  { destruct I as [-> |(c & r & -> & C & R)]; [split; [repeat constructor; unfold DIGIT; lia|discriminate]|]. split; [|discriminate].
    constructor; [unfold DIGIT; lia|exact R]. }
  destruct Di as [Di Ni]. assert (SG : exists sg, sign_text g sg) by (destruct G as [-> | ->]; eexists; constructor).
  destruct SG as [sg SG]. exists g, sg, (i ++ f ++ e). split; [reflexivity|]. split; [exact SG|]. left.
  destruct F as [-> |(ds & -> & Ne & D)].
  - destruct (digits_run i Di) as [m R]. exists m, k. exact (dec_int i e m k Ni R EX).
  - destruct (digits_run (i ++ ds)) as [m R]; [apply Forall_app; auto|]. exists m, (k - Z.of_nat (List.length ds))%Z.
    apply (dec_point i ds e m k); [destruct i; [contradiction|discriminate]|exact R|exact EX].
Qed.
Lemma json_no_letter s : json_number s -> Forall (fun c => c <> 110 /\ c <> 78) s.
Proof.
  intros (g & i & f & e & -> & G & J & F & E).
  assert (K : forall ds, Forall DIGIT ds -> Forall (fun c => c <> 110 /\ c <> 78) ds).
  { intros ds D. eapply Forall_impl; [|exact D]. unfold DIGIT. intros; lia. }
  repeat (apply Forall_app; split).
  - destruct G as [-> | ->]; repeat constructor; lia.
  - destruct J as [-> |(c & r & -> & C & R)]; [repeat constructor; lia|]. constructor; [lia|exact (K r R)].
  - destruct F as [-> |(ds & -> & _ & D)]; [constructor|]. constructor; [lia|exact (K ds D)].
  - destruct E as [-> |(c & h & ds & -> & C & H & _ & D)]; [constructor|]. constructor; [lia|]. apply Forall_app. split; [|exact (K ds D)].
    destruct H as [-> |[-> | ->]]; repeat constructor; lia.
Qed.
Theorem C111_json_number : forall t nan s, json_number s -> readable s -> nan <> Must ->
  exists f, num_parse_str (float_of_text t) Unlimited nan s = Ok f /\ writes t s f /\ xval f <> None.
Proof.
  intros t nan s J R Hn. pose proof (json_number_text s J) as T. apply (C77_grammar t) in T as [f W].
  assert (X : xval f <> None).
  { destruct W as (g & sg & r & E & _ & [(m & k & p & q & _ & _ & Rn)|[[_ -> ]|[Cn ->]]]); [|discriminate|].
    - destruct Rn as (_ & Sg & _). intros E0. destruct f; discriminate.
    - exfalso. apply json_no_letter in J. rewrite E in J. apply Forall_app in J as [_ J]. destruct r as [|c r]; [discriminate|].
      apply Forall_inv in J. injection Cn as Cn _. unfold lower in Cn. destruct ((65 <=? c) && (c <=? 90)) eqn:Q; lia. }
  exists f. split; [|auto]. apply (C77_number_text_exact t Unlimited nan s); [exact I|intros [i E]; discriminate|exact R|].
  split; [exact W|]. destruct (xval f); [split; [exact Hn|exact I]|contradiction].
Qed.

(** Mailboxes of SMTP (the grammar of C108). Quoted content in which the characters that RFC 822 called specials are escaped,
    and no space is. *)
Inductive escaped_specials (na : bool) : list N -> Prop :=
| es_nil : escaped_specials na []
| es_text x l : PropMailbox.qtext na x -> ~ is_special x -> escaped_specials na l -> escaped_specials na (x :: l)
| es_pair x l : 33 <= x <= 126 -> escaped_specials na l -> escaped_specials na (92 :: x :: l).

(** The host a domain part stands for. *)
Definition mail_host (d : list N) (x : host) : Prop :=
  match x with
  | HDomain n => dns_name d /\ n = List.map lower d
  | HIPv4 a => exists u, d = [91] ++ u ++ [93] /\ v4_text u a
  | HIPv6 a => exists u, d = bs "[IPv6:" ++ u ++ [93] /\ v6_text u a
  end.

Lemma printable_cases x : 33 <= x <= 126 -> is_special x \/ x = 92 \/ is_atext x \/ x = 46.
Proof.
  intros H. assert (X : In x (List.map N.of_nat (List.seq 33 94))) by (apply in_map_iff; exists (N.to_nat x); split; [lia|apply in_seq; lia]).
  assert (F : forallb (fun x => existsb (N.eqb x) (bs "(),:;<>@[]" ++ [34; 92; 46] ++ bs "!#$%&'*+-/=?^_`{|}~") ||
    ((65 <=? x) && (x <=? 90)) || ((97 <=? x) && (x <=? 122)) || ((48 <=? x) && (x <=? 57))) (List.map N.of_nat (List.seq 33 94)) = true)
    by (vm_compute; reflexivity).
  rewrite forallb_forall in F. specialize (F x X). rewrite !orb_true_iff in F. unfold is_special, is_atext.
  destruct F as [[[F|F]|F]|F]; [|lia|lia|lia]. apply existsb_exists in F as (y & Y & E). apply N.eqb_eq in E as <-.
  apply in_app_or in Y as [Y|Y]; [tauto|]. apply in_app_or in Y as [Y|Y]; [|tauto]. cbn in Y. intuition.
Qed.
Lemma specials_items na l : escaped_specials na l -> quoted_items na l.
Proof.
  induction 1 as [|x l T Sp _ IH|x l R _ IH]; [constructor| |].
  - apply qi_char; [|exact IH]. unfold PropMailbox.qtext in T. unfold local_char.
    assert (x = 32 \/ 33 <= x <= 126 \/ (na = true /\ 128 <= x)) as [-> |[X|X]] by lia; [auto| |tauto].
    apply printable_cases in X. destruct X as [X|[X|[X|X]]]; [contradiction|lia|auto|auto].
  - apply qi_pair; [|exact IH]. unfold local_char. apply printable_cases in R. tauto.
Qed.
Lemma specials_content na l : escaped_specials na l -> PropMailbox.qcontent na l.
Proof. induction 1; [constructor|apply PropMailbox.qc_text; assumption|apply PropMailbox.qc_pair; [lia|assumption]]. Qed.

Lemma no_double_dot : forall r, ~ In 46 r -> forall t, ~ double_dot t -> (forall z, t <> 46 :: z) -> ~ double_dot (r ++ 46 :: t).
Proof.
  induction r as [|y r IH]; intros Hr t Hd Hz (u & w & E); destruct u as [|a u].
  - injection E as ->. exact (Hz _ eq_refl).
  - injection E as _ ->. apply Hd. exists u, w. reflexivity.
  - injection E as -> _. apply Hr. left. reflexivity.
  - injection E as _ E. apply (IH (fun X => Hr (or_intror X)) t Hd Hz). exists u, w. exact E.
Qed.
Lemma dot_atom_unquoted na l : dot_atom na l -> (List.length l <= 64)%nat -> unquoted na 0 l.
Proof.
  intros D L. assert (A46 : ~ atom_char na 46).
  { intros [X|[_ X]]; [apply PropMailbox.atext_range in X; lia|lia]. }
  assert (K : l <> [] /\ (forall r, l <> 46 :: r) /\ Forall (local_char na) l /\ ~ double_dot l).
  { clear L. assert (FL : forall r, Forall (atom_char na) r -> Forall (local_char na) r).
    { intros r F. eapply Forall_impl; [|exact F]. unfold atom_char, local_char. intros a. tauto. }
    assert (Hh : forall r, r <> [] -> Forall (atom_char na) r -> forall w z, r ++ w <> 46 :: z).
    { intros r Ne F w z E. destruct r as [|y r]; [contradiction|]. injection E as -> _. apply Forall_inv in F. contradiction. }
    assert (N46 : forall r, Forall (atom_char na) r -> ~ In 46 r).
    { intros r F I0. rewrite Forall_forall in F. exact (A46 (F 46 I0)). }
    induction D as [r Ne F|r t Ne F D (I1 & I2 & I3 & I4)].
    - split; [exact Ne|]. split; [intros z E; apply (Hh r Ne F [] z); rewrite app_nil_r; exact E|]. split; [exact (FL r F)|].
      intros (u & w & E). apply (N46 r F). rewrite E. apply in_or_app. right. left. reflexivity.
    - split; [destruct r; [contradiction|discriminate]|]. split; [apply (Hh r Ne F)|]. split.
      + apply Forall_app. split; [exact (FL r F)|]. constructor; [right; left; reflexivity|exact I3].
      + exact (no_double_dot r (N46 r F) t I4 I2). }
  destruct K as (K1 & K2 & K3 & K4). split; [exact K1|]. split; [exact K2|]. split; [exact K3|]. split; [exact K4|].
  intros i e E _ _. assert (i < List.length l)%nat by (apply nth_error_Some; congruence). lia.
Qed.

(** C111, e-mail addresses: a mailbox of SMTP is accepted by an e-mail validator whose policies admit its host, if the local part
    has at most 64 bytes and the domain part at most 255, as SMTP says, the domain is a host name with the limits of DNS, and the
    quoted content, if any, is not empty and has its specials escaped. The value has the local part and host as written. *)
Theorem C111_mailbox_partial : forall idna prof c t l d x, idna_dns idna -> valid_str t ->
  PropMailbox.mailbox (e_non_ascii c) t l d -> (List.length l <= 64)%nat -> (List.length d <= 255)%nat ->
  (forall q, l = [34] ++ q ++ [34] -> q <> [] /\ escaped_specials (e_non_ascii c) q) ->
  mail_host d x -> email_ip_ok (e_ip c) x -> local_ok (e_local c) (literal_local x) -> email_two_ok (e_two c) x ->
  exists v, email_parse_str idna prof c t = Ok v /\
    (l = ev_local v \/ l = [34] ++ ev_local v ++ [34]) /\ ev_domain v = x /\
    ev_c1 v = None /\ ev_c2 v = None /\ ev_c3 v = None /\ ev_c4 v = None.
Proof.
  intros idna prof c t l d x Hi V (Et & Hl & _) L64 L255 Hq Hx Hip Hlo H2.
  assert (LT : exists k nq q, local_text (e_non_ascii c) 0 l k nq q).
  { destruct Hl as [D|(q & E & _)].
    - exists l, false, false. left. split; [reflexivity|]. split; [reflexivity|]. split; [exact (dot_atom_unquoted _ _ D L64)|reflexivity].
    - destruct (Hq q E) as [Ne Es]. rewrite E in L64. rewrite !app_length in L64. cbn [List.length] in L64.
      assert (Q : quoted (e_non_ascii c) 0 q) by (apply items_quoted; [apply specials_items; exact Es|exact Ne|lia]).
      assert (NQ : exists nq : bool, nq = true <-> needs_quotes q).
      { destruct q as [|y b]; [contradiction|]. eexists. apply quoted_body in Q as (Q1 & _ & Q3 & _). exact (needs_spec _ _ y b Q1 Q3). }
      destruct NQ as [nq NQ]. exists q, nq, true. right. auto. }
  destruct LT as (k & nq & q & LT).
  assert (W : exists f, field (email_field c) (literal_local x) f).
  { assert (DL : literal_local x \/ ~ literal_local x).
    { destruct x as [n|a|a]; cbn [literal_local mail_host] in *.
      - destruct (is_local_domain n) eqn:E; [left|right; intros X]; [apply localhost_spec; exact E|]. apply localhost_spec in X. congruence.
      - destruct Hx as (u & _ & A). apply v4_text_addr in A.
        destruct (is_local_ipv4 a) eqn:E; [left|right; intros X]; [apply C32_ipv4_local_blocks; [exact A|exact E]|].
        apply C32_ipv4_local_blocks in X; [congruence|exact A].
      - destruct Hx as (u & _ & A). apply v6_text_addr in A.
        destruct (is_local_ipv6 a) eqn:E; [left|right; intros X]; [apply C32_ipv6_local_blocks; [exact A|exact E]|].
        apply C32_ipv6_local_blocks in X; [congruence|exact A]. }
    destruct DL as [L|L]; destruct (email_field c).
    - exists (Some true). split; [reflexivity|tauto].
    - exists None. reflexivity.
    - exists (Some false). split; [reflexivity|]. split; [discriminate|contradiction].
    - exists None. reflexivity. }
  destruct W as [f Hf].
  assert (HT : exists canon, host_text idna c d x canon /\ (List.length d < canon -> canon <= 255)%nat).
  { destruct x as [n|a|a]; cbn [literal_local mail_host email_two_ok host_text] in *.
    - destruct Hx as (D & ->). destruct (dns_facts d D) as (F & Ne & Dot). exists (List.length (List.map lower d)). split.
      + assert (Fc : forall y, In y d -> y <> 40 /\ y <> 91).
        { intros y Y. rewrite Forall_forall in F. apply F in Y as [_ Y]. unfold let_dig, DIGIT in Y. lia. }
        split; [intros E; rewrite E in Hip; exact Hip|]. split; [exact Ne|]. split; [intros X; apply Fc in X; lia|].
        split; [intros r E; destruct (Fc 91); [rewrite E; left; reflexivity|lia]|]. split; [exact Dot|].
        split; [exact (Hi d D)|]. split; [exact H2|reflexivity].
      + rewrite map_length. lia.
    - destruct Hx as (u & E & A). exists (List.length d). split; [|lia]. split; [intros X; rewrite X in Hip; exact Hip|].
      split; [exact H2|]. exists u. auto.
    - destruct Hx as (u & E & A). exists (List.length (ipv6_display a) + 7)%nat. split.
      + split; [intros X; rewrite X in Hip; exact Hip|]. split; [exact H2|]. exists u. auto.
      + pose proof (PropWidth.v6_width a (v6_text_addr _ _ A)). lia. }
  destruct HT as (canon & HT & Hc).
  exists {| ev_local := k; ev_need_quoted := nq; ev_domain := x; ev_c1 := None; ev_c2 := None; ev_c3 := None; ev_c4 := None;
            ev_is_local := f |}.
  split; [|cbn [ev_local ev_domain ev_c1 ev_c2 ev_c3 ev_c4]; split; [destruct LT as [(_ & -> & _)|(_ & -> & _)]; auto|auto]].
  apply C44_email_accepts_exactly; [exact V|]. exists l, q, d, [], canon.
  cbn [ev_local ev_need_quoted ev_domain ev_c1 ev_c2 ev_c3 ev_c4 ev_is_local ctext List.app List.length tail_ok].
  split; [rewrite Et, app_nil_r; reflexivity|]. split; [rewrite Et, !app_length; cbn [List.length]; lia|]. split; [exact LT|].
  split; [intros ? [=]|]. split; [intros ? [=]|]. split; [intros ? [=]|]. split; [reflexivity|].
  split; [intros ? [=]|]. split; [exact HT|]. split; [|auto]. rewrite app_nil_r. split; [exact L255|].
  destruct (q && nq)%bool; lia.
Qed.

(** A host name is a domain of SMTP. *)
Lemma dns_sub d : dns_name d -> PropMailbox.sub_domains d.
Proof.
  assert (L : forall l, dns_label l -> PropMailbox.ldh_label l).
  { intros l (A & F & H1 & H2 & _). split; [intros ->; cbn in A; lia|]. split; [|auto]. eapply Forall_impl; [|exact F].
    unfold let_dig, DIGIT, PropMailbox.let_dig. intros y. lia. }
  intros [D _]. induction D as [l H|l t H _ IH]; [apply PropMailbox.sd_one|apply PropMailbox.sd_dot]; auto.
Qed.
Lemma short_label l : (1 <= List.length l <= 63)%nat ->
  forallb (fun x => ((48 <=? x) && (x <=? 57)) || ((65 <=? x) && (x <=? 90)) || ((97 <=? x) && (x <=? 122))) l = true -> dns_label l.
Proof.
  intros L F. rewrite forallb_forall in F. assert (G : forall x, In x l -> let_dig x).
  { intros x X. specialize (F x X). unfold let_dig, DIGIT. lia. }
  assert (G45 : ~ In 45 l) by (intros X; specialize (F 45 X); discriminate).
  split; [exact L|]. split; [apply Forall_forall; auto|]. split; [intros r ->; apply G45; left; reflexivity|].
  split; [intros u ->; apply G45, in_elt|]. intros a b r ->. apply G45. cbn. auto.
Qed.
Lemma example_dns : dns_name (bs "example.com").
Proof.
  split; [|vm_compute; lia]. apply (dl_dot (bs "example") (bs "com")); [|apply dl_one]; apply short_label; try reflexivity; cbn; lia.
Qed.

(** A mailbox is not accepted for its quoted content: an at sign that SMTP leaves unescaped, an escaped space, no content. *)
Theorem C111_mailbox_refuted : exists c d x,
  mail_host d x /\ email_ip_ok (e_ip c) x /\ local_ok (e_local c) (literal_local x) /\ email_two_ok (e_two c) x /\
  Forall (fun l => PropMailbox.mailbox (e_non_ascii c) (l ++ [64] ++ d) l d /\ valid_str (l ++ [64] ++ d) /\
                   forall idna prof, ~ is_ok (email_parse_str idna prof c (l ++ [64] ++ d)))
    [bs """a@b"""; bs """a\ """; bs """"""].
Proof.
  pose proof example_dns as name. exists (ecfg false Allow Allow Allow false), (bs "example.com"), (HDomain (bs "example.com")).
  split; [split; [|reflexivity]|].
  { exact name. }
  split; [exact I|]. split; [exact I|]. split; [exact I|].
  assert (M : forall l, (exists q, l = [34] ++ q ++ [34] /\ PropMailbox.qcontent false q) -> Forall (fun c => c < 128) l ->
    PropMailbox.mailbox false (l ++ [64] ++ bs "example.com") l (bs "example.com") /\ valid_str (l ++ [64] ++ bs "example.com")).
  { intros l Q A. split.
    - split; [reflexivity|]. split; [right; exact Q|]. left. exact (dns_sub _ name).
    - apply ascii_valid, Forall_app. split; [exact A|]. repeat (constructor; [reflexivity|]). constructor. }
  assert (QT : forall x, (32 <=? x) && (x <=? 126) && negb (x =? 34) && negb (x =? 92) = true -> PropMailbox.qtext false x).
  { intros x X. unfold PropMailbox.qtext. lia. }
  assert (R : forall l, (exists q, l = [34] ++ q ++ [34] /\ PropMailbox.qcontent false q) -> Forall (fun c => c < 128) l ->
    (forall idna prof, ~ is_ok (email_parse_str idna prof (ecfg false Allow Allow Allow false) (l ++ [64] ++ bs "example.com"))) ->
    PropMailbox.mailbox false (l ++ [64] ++ bs "example.com") l (bs "example.com") /\ valid_str (l ++ [64] ++ bs "example.com") /\
    forall idna prof, ~ is_ok (email_parse_str idna prof (ecfg false Allow Allow Allow false) (l ++ [64] ++ bs "example.com"))).
  { intros l Q A H. destruct (M l Q A). auto. }
  constructor; [|constructor; [|constructor; [|constructor]]]; apply R; try (repeat (constructor; [reflexivity|]); constructor);
    try (intros idna prof [v E]; vm_compute in E; discriminate).
  - exists (bs "a@b"). split; [reflexivity|]. apply PropMailbox.qc_text; [apply QT; reflexivity|]. apply PropMailbox.qc_text; [apply QT; reflexivity|].
    apply PropMailbox.qc_text; [apply QT; reflexivity|constructor].
  - exists [97; 92; 32]. split; [reflexivity|]. apply PropMailbox.qc_text; [apply QT; reflexivity|]. apply PropMailbox.qc_pair; [lia|constructor].
  - exists []. split; [reflexivity|constructor].
Qed.
Lemma letter_no_v4 x r : (57 <? x) = true -> ~ IPv4address (x :: r).
Proof.
  intros X A. apply v4_iff in A as [a A]. apply v4_chars in A. apply Forall_inv in A. unfold v4_char in A. lia.
Qed.

(** RFC 3986 lets a port have no digits; such an authority is not accepted. *)
Theorem C111_empty_port_refuted : exists c h, std_host h /\ h_port c = Allow /\
  (forall idna, idna_dns idna -> is_ok (host_parse_str idna c h)) /\
  forall idna, ~ is_ok (host_parse_str idna c (h ++ [58])).
Proof.
  exists (hcfg Allow Allow Allow), (bs "example.com"). split; [right; right; exact example_dns|]. split; [reflexivity|]. split.
  - intros idna Hi. assert (S : std_authority (bs "example.com") (bs "example.com") None) by (split; [right; right; exact example_dns|reflexivity]).
    destruct (C111_authority idna (hcfg Allow Allow Allow) _ _ None (HDomain (bs "example.com")) Hi S) as (v & E & _).
    + split; [exact example_dns|]. split; [|reflexivity]. intros A. exact (letter_no_v4 101 _ eq_refl A).
    + exact I.
    + exact I.
    + exact I.
    + exists v. exact E.
  - intros idna [v E]. vm_compute in E. destruct (idna _) in E; discriminate.
Qed.

(** Cases that meet the hypotheses. *)
Example C111_ipv4_example : IPv4address (bs "192.0.2.255") /\ is_ok (ipv4_parse_str Disallow Allow (bs "192.0.2.255")).
Proof.
  split; [|eexists; vm_compute; reflexivity].
  exists (bs "192"), (bs "0"), (bs "2"), (bs "255"). split; [apply do_100; unfold DIGIT; cbn; lia|].
  split; [apply do_one; unfold DIGIT; cbn; lia|]. split; [apply do_one; unfold DIGIT; cbn; lia|].
  split; [apply do_250; cbn; lia|reflexivity].
Qed.
Example C111_ipv6_example : IPv6address (bs "2001:db8::C:1") /\ is_ok (ipv6_parse_str Disallow Allow (bs "2001:db8::C:1")).
Proof.
  assert (P : forall l, (1 <= List.length l <= 4)%nat ->
    forallb (fun x => ((48 <=? x) && (x <=? 57)) || ((65 <=? x) && (x <=? 70)) || ((97 <=? x) && (x <=? 102))) l = true -> hex_piece l).
  { intros l L F. split; [exact L|]. apply Forall_forall. intros x X. rewrite forallb_forall in F. specialize (F x X).
    unfold HEXDIG. lia. }
  split; [|eexists; vm_compute; reflexivity]. right. right. left.
  exists 4%nat, 0%nat, (bs "2001:db8"), [], (bs "C:1"). split; [cbn; tauto|]. split.
  - right. exists 1%nat, (bs "2001:"), (bs "db8"). split; [lia|]. split; [|split; [|reflexivity]].
    + apply (pc_more 0 (bs "2001") []); [|constructor]. apply P; [cbn; lia|reflexivity].
    + apply P; [cbn; lia|reflexivity].
  - split; [constructor|]. split; [|reflexivity]. left. exists (bs "C"), (bs "1").
    split; [apply P; [cbn; lia|reflexivity]|]. split; [apply P; [cbn; lia|reflexivity]|reflexivity].
Qed.
Example C111_authority_example : idna_dns idna_ascii /\ std_authority (bs "Example.com:00443") (bs "Example.com") (Some 443) /\
  host_meant (bs "Example.com") (HDomain (bs "example.com")).
Proof.
  assert (D : dns_name (bs "Example.com")).
  { split; [|vm_compute; lia]. apply (dl_dot (bs "Example") (bs "com")); [|apply dl_one]; apply short_label; try reflexivity; cbn; lia. }
  split; [exact idna_ascii_dns|]. split.
  - split; [right; right; exact D|]. exists (bs "00443"). split; [reflexivity|]. split; [discriminate|]. split; [|split; [reflexivity|lia]].
    unfold DIGIT. repeat (constructor; [cbn; lia|]). constructor.
  - split; [exact D|]. split; [|reflexivity]. intros A. exact (letter_no_v4 69 _ eq_refl A).
Qed.
Example C111_domain_example : idna_dns idna_ascii /\ dns_name (bs "example.com") /\ ~ IPv4address (bs "example.com") /\
  is_ok (domain_parse_str idna_ascii (cfg Disallow Disallow Must Must) (bs "example.com:80")).
Proof.
  split; [exact idna_ascii_dns|]. split; [exact example_dns|]. split; [|eexists; vm_compute; reflexivity].
  intros A. exact (letter_no_v4 101 _ eq_refl A).
Qed.
Example C111_uuid_example :
  uuid_string (bs "f81d4fae-7dec-11d0-A765-00a0c91e6bf6") (bs "f81d4fae7dec11d0A76500a0c91e6bf6").
Proof.
  exists (bs "f81d4fae"), (bs "7dec"), (bs "11d0"), (bs "A765"), (bs "00a0c91e6bf6"). split; [reflexivity|].
  split; [reflexivity|]. split; [reflexivity|]. unfold HEXDIG. repeat (constructor; [cbn; lia|]). constructor.
Qed.
Example C111_eui48_example : ~ HEXDIG 45 /\ eui48_string 45 (bs "00-00-5E-00-53-af") (bs "00005E0053af").
Proof.
  split; [unfold HEXDIG; lia|]. exists (bs "00"), (bs "00"), (bs "5E"), (bs "00"), (bs "53"), (bs "af"). split; [reflexivity|].
  split; [reflexivity|]. split; [reflexivity|]. unfold HEXDIG. repeat (constructor; [cbn; lia|]). constructor.
Qed.
Example C111_json_example : json_number (bs "-12.50E+3") /\ readable (bs "-12.50E+3").
Proof.
  split; [|left; vm_compute; discriminate]. exists [45], (bs "12"), (bs ".50"), (bs "E+3"). split; [reflexivity|]. split; [auto|].
  split; [|split].
  - right. exists 49, [50]. split; [reflexivity|]. split; [lia|]. constructor; [unfold DIGIT; lia|constructor].
  - right. exists [53; 48]. split; [reflexivity|]. split; [discriminate|]. unfold DIGIT. repeat (constructor; [lia|]). constructor.
  - right. exists 69, [43], [51]. split; [reflexivity|]. split; [auto|]. split; [auto|]. split; [discriminate|].
    unfold DIGIT. repeat (constructor; [lia|]). constructor.
Qed.
(** The address [["a\@ b"@example.com]] (RFC 5321). *)
Example C111_mailbox_example : PropMailbox.mailbox false (bs """a\@ b""@example.com") (bs """a\@ b""") (bs "example.com") /\
  escaped_specials false (bs "a\@ b") /\ mail_host (bs "example.com") (HDomain (bs "example.com")).
Proof.
  assert (QT : forall x, (32 <=? x) && (x <=? 126) && negb (x =? 34) && negb (x =? 92) = true -> PropMailbox.qtext false x).
  { intros x X. unfold PropMailbox.qtext. lia. }
  assert (NS : forall x, existsb (N.eqb x) (34 :: bs "(),:;<>@[]") = false -> ~ is_special x).
  { intros x E S. assert (X : existsb (N.eqb x) (34 :: bs "(),:;<>@[]") = true); [|congruence]. apply existsb_exists. exists x.
    split; [|apply N.eqb_refl]. destruct S as [S| ->]; [right; exact S|left; reflexivity]. }
  assert (E : escaped_specials false [97; 92; 64; 32; 98]).
  { apply es_text; [apply QT; reflexivity|apply NS; reflexivity|]. apply es_pair; [lia|].
    apply es_text; [apply QT; reflexivity|apply NS; reflexivity|]. apply es_text; [apply QT; reflexivity|apply NS; reflexivity|constructor]. }
  split; [|split; [exact E|split; [exact example_dns|reflexivity]]]. split; [reflexivity|]. split; [|left; exact (dns_sub _ example_dns)].
  right. exists [97; 92; 64; 32; 98]. split; [reflexivity|exact (specials_content _ _ E)].
Qed.

Print Assumptions C111_ipv4.
Print Assumptions C111_ipv6.
Print Assumptions C111_authority.
Print Assumptions C111_domain.
Print Assumptions C111_uuid.
Print Assumptions C111_eui48.
Print Assumptions C111_json_number.
Print Assumptions C111_mailbox_partial.
Print Assumptions C111_mailbox_refuted.
Print Assumptions C111_empty_port_refuted.
