(** Property C106: the authority string is an authority of a URI. *)
From Verif Require Import Base IntStr IntStrProofs MacModel MacSpec NetModel NetSpec NetProofs IpModel IpSpec IpProofs Utf8 StrFacts
  DomainModel DomainSpec DomainProofs IdnaFrag HostModel HostSpec.
From Verif Require HostProofs.
From Verif Require Import PropIp PropDomain PropHost PropEmail PropSafe PropWidth.
Local Open Scope N_scope.

(** RFC 3986: unreserved characters and sub-delims (a name needs no percent-encoding here). *)
Definition unreserved (c : N) : Prop :=
  65 <= c <= 90 \/ 97 <= c <= 122 \/ 48 <= c <= 57 \/ In c (bs "-._~").
Definition sub_delim (c : N) : Prop := In c (bs "!$&'()*+,;=").

(** The host of an authority, RFC 3986 section 3.2.2: an IPv6 address in brackets, a dotted address or a name that is not empty. *)
Definition uri_host (t : list N) : Prop :=
  (exists u a, t = [91] ++ u ++ [93] /\ v6_text u a) \/ (exists a, v4_text t a) \/
  (t <> [] /\ Forall (fun c => unreserved c \/ sub_delim c) t).

(** An authority without user information, section 3.2: a host, and a port of at least one digit if there is one. *)
Definition uri_authority (t h : list N) (q : option (list N)) : Prop :=
  uri_host h /\
  match q with
  | None => t = h
  | Some d => t = h ++ [58] ++ d /\ d <> [] /\ Forall (fun c => 48 <= c <= 57) d
  end.
Definition is_authority (t : list N) : Prop := exists h q, uri_authority t h q.

(** What may follow an authority: nothing, a path, a query or a fragment. *)
Definition follows (r : list N) : Prop := r = [] \/ exists c r', r = c :: r' /\ (c = 47 \/ c = 63 \/ c = 35).

Definition reg_char (c : N) : Prop := unreserved c \/ sub_delim c.
Lemma reg_not c x : reg_char c -> In x [58; 47; 63; 35; 64; 91; 93; 92; 32; 37; 34; 60; 62] -> c <> x.
Proof.
  intros H I ->. cbn [In] in I. unfold reg_char, unreserved, sub_delim in H. cbn in H. lia.
Qed.
Lemma v4_reg t a : v4_text t a -> t <> [] /\ Forall reg_char t.
Proof.
  intros H. pose proof (v4_head _ _ H) as (ds & r & _ & X & E). split; [rewrite E; destruct ds; [contradiction|discriminate]|].
  destruct H as (d1 & d2 & d3 & d4 & n1 & n2 & n3 & n4 & O1 & O2 & O3 & O4 & -> & ->).
  assert (forall d n, octet d n -> Forall reg_char d) as K.
  { intros d n (O & _). apply numeral_digits in O. eapply Forall_impl; [|exact O]. intros c [k Hk]. apply digit10_range in Hk.
    left. right. right. left. lia. }
  assert (reg_char 46) as D by (left; right; right; right; cbn; lia).
  repeat (apply Forall_app; split; try (eapply K; eassumption); try (constructor; [exact D|constructor])).
Qed.
Definition literal_char (c : N) : Prop := c = 46 \/ 48 <= c <= 58 \/ 65 <= c <= 70 \/ 97 <= c <= 102.
Lemma numeral_literal r d n : numeral r d n -> Forall literal_char d.
Proof.
  assert (forall c k, is_hex AnyCase c k -> literal_char c) as K.
  { intros c k (a & A & E). apply nth_error_In in E. cbn in A. unfold literal_char.
    destruct A as [<-|[<-|[]]]; cbn in E; lia. }
  induction 1 as [c k [H _]|ds n c k _ IH [H _]].
  - constructor; [exact (K _ _ H)|constructor].
  - apply Forall_app. split; [exact IH|]. constructor; [exact (K _ _ H)|constructor].
Qed.
Lemma v4_literal t a : v4_text t a -> Forall literal_char t.
Proof.
  intros (d1 & d2 & d3 & d4 & n1 & n2 & n3 & n4 & O1 & O2 & O3 & O4 & -> & ->).
  assert (forall d n, octet d n -> Forall literal_char d) as K by (intros d n (O & _); exact (numeral_literal _ _ _ O)).
  assert (literal_char 46) as D by (left; reflexivity).
  repeat (apply Forall_app; split; try (eapply K; eassumption); try (constructor; [exact D|constructor])).
Qed.
Lemma groups_literal b s l : groups b s l -> Forall literal_char s.
Proof.
  induction 1 as [d n [Hd _]|s n1 n2 n3 n4 Hb Hv|d n s l [Hd _] Hg IH].
  - exact (numeral_literal _ _ _ Hd).
  - exact (v4_literal _ _ Hv).
  - apply Forall_app. split; [exact (numeral_literal _ _ _ Hd)|]. constructor; [unfold literal_char; lia|exact IH].
Qed.
Lemma v6_literal s a : v6_text s a -> Forall literal_char s.
Proof.
  intros [[H _]|(h & t & lh & lt & -> & Hh & Ht & _)]; [exact (groups_literal _ _ _ H)|].
  apply Forall_app. split; [destruct Hh as [[-> _]|Hh]; [constructor|exact (groups_literal _ _ _ Hh)]|].
  cbn [app]. constructor; [unfold literal_char; lia|]. constructor; [unfold literal_char; lia|].
  destruct Ht as [[-> _]|Ht]; [constructor|exact (groups_literal _ _ _ Ht)].
Qed.
Lemma host_cases h : uri_host h -> (exists u, h = [91] ++ u ++ [93] /\ Forall literal_char u) \/ (h <> [] /\ Forall reg_char h).
Proof.
  intros [(u & a & -> & H)|[(a & H)|H]].
  - left. exists u. split; [reflexivity|exact (v6_literal _ _ H)].
  - right. exact (v4_reg _ _ H).
  - right. exact H.
Qed.
Lemma host_no h x : uri_host h -> In x [47; 63; 35; 64; 92; 32; 37; 34; 60; 62] -> ~ In x h.
Proof.
  intros H I J. apply host_cases in H as [(u & -> & H)|[_ H]].
  - rewrite !in_app_iff in J. rewrite Forall_forall in H. cbn [In] in I, J.
    destruct J as [J|[J|J]]; [lia| |lia]. specialize (H _ J). unfold literal_char in H. lia.
  - rewrite Forall_forall in H. refine (reg_not _ x (H _ J) _ eq_refl). cbn [In] in I |- *. tauto.
Qed.
Lemma authority_no t h q x : uri_authority t h q -> In x [47; 63; 35; 64; 92; 32; 37; 34; 60; 62] -> ~ In x t.
Proof.
  intros (H & Q) I. destruct q as [d|]; [|subst t; exact (host_no h x H I)].
  destruct Q as (-> & _ & D). rewrite !in_app_iff. intros [J|[J|J]].
  - exact (host_no h x H I J).
  - cbn [In] in I, J. lia.
  - rewrite Forall_forall in D. specialize (D _ J). cbn [In] in I. lia.
Qed.
Lemma same_prefix (P : N -> Prop) a a' r r' : (forall c, In c a -> ~ P c) -> (forall c, In c a' -> ~ P c) ->
  (r = [] \/ exists c k, r = c :: k /\ P c) -> (r' = [] \/ exists c k, r' = c :: k /\ P c) -> a ++ r = a' ++ r' -> a = a' /\ r = r'.
Proof.
  revert a'. induction a as [|x a IH]; intros [|y a'] A A' R R' E; cbn [app] in E.
  - now split.
  - exfalso. destruct R as [->|(c & k & -> & X)]; [discriminate E|]. injection E as -> _. exact (A' y (or_introl eq_refl) X).
  - exfalso. destruct R' as [->|(c & k & -> & X)]; [discriminate E|]. injection E as -> _. exact (A c (or_introl eq_refl) X).
  - injection E as <- E. destruct (IH a' (fun c H => A c (or_intror H)) (fun c H => A' c (or_intror H)) R R' E) as [-> ->]. now split.
Qed.

(** C106: an authority holds no character that ends it or that stands before user information, so it can be put into a URI, and
    taken out of it, as it is; the host and the port are determined by it. *)
Theorem C106_embeds : forall t t' r r', is_authority t -> is_authority t' -> follows r -> follows r' ->
  t ++ r = t' ++ r' -> t = t' /\ r = r'.
Proof.
  intros t t' r r' (h & q & A) (h' & q' & A') R R' E.
  apply (same_prefix (fun c => c = 47 \/ c = 63 \/ c = 35)); [| |exact R|exact R'|exact E].
  - intros c I P. refine (authority_no _ _ _ c A _ I). cbn [In]. lia.
  - intros c I P. refine (authority_no _ _ _ c A' _ I). cbn [In]. lia.
Qed.
Print Assumptions C106_embeds.

Theorem C106_no_delimiter : forall t c, is_authority t -> In c (bs "/?#@\ %<>") -> ~ In c t.
Proof. intros t c (h & q & A) I. apply (authority_no _ _ _ c A). cbn in I |- *. lia. Qed.
Print Assumptions C106_no_delimiter.

Theorem C106_unique : forall t h q h' q', uri_authority t h q -> uri_authority t h' q' -> h = h' /\ q = q'.
Proof.
  intros t h q h' q' (H & Q) (H' & Q').
  set (tail := fun q : option (list N) => match q with Some d => 58 :: d | None => [] end).
  assert (forall q, match q with None => t = h | Some d => t = h ++ [58] ++ d /\ d <> [] /\ Forall (fun c => 48 <= c <= 57) d end ->
    t = h ++ tail q) as T.
  { intros [d|]; [intros (-> & _); reflexivity|intros ->; symmetry; apply app_nil_r]. }
  assert (t = h ++ tail q) as E by (apply T, Q).
  assert (t = h' ++ tail q') as E'.
  { destruct q' as [d|]; [destruct Q' as (-> & _); reflexivity|rewrite Q'; symmetry; apply app_nil_r]. }
  assert (forall q, tail q = [] \/ exists c k, tail q = c :: k /\ (c = 58 \/ c = 93)) as K.
  { intros [d|]; [right; exists 58, d; cbn; auto|left; reflexivity]. }
  assert (h = h' /\ tail q = tail q') as [<- X].
  { rewrite E' in E. symmetry in E.
    apply host_cases in H as [(u & -> & U)|[N F]]; apply host_cases in H' as [(u' & -> & U')|[N' F']].
    - cbn [app] in E. rewrite <- !app_assoc in E. injection E as E.
      assert (u = u' /\ [93] ++ tail q = [93] ++ tail q') as [-> X].
      { apply (same_prefix (fun c => c = 93)); [| | | |exact E].
        - intros c I ->. rewrite Forall_forall in U. specialize (U _ I). unfold literal_char in U. lia.
        - intros c I ->. rewrite Forall_forall in U'. specialize (U' _ I). unfold literal_char in U'. lia.
        - right. cbn. eauto.
        - right. cbn. eauto. }
      split; [reflexivity|]. injection X as X. exact X.
    - exfalso. destruct h' as [|c h']; [contradiction|]. cbn [app] in E. injection E as E _. subst c.
      apply (reg_not _ 91 (Forall_inv F')); [cbn [In]; tauto|reflexivity].
    - exfalso. destruct h as [|c h]; [contradiction|]. cbn [app] in E. injection E as E _. subst c.
      apply (reg_not _ 91 (Forall_inv F)); [cbn [In]; tauto|reflexivity].
    - apply (same_prefix (fun c => c = 58 \/ c = 93)); [| |apply K|apply K|exact E].
      + intros c I P. rewrite Forall_forall in F. apply (reg_not _ c (F _ I)); [cbn [In]; lia|reflexivity].
      + intros c I P. rewrite Forall_forall in F'. apply (reg_not _ c (F' _ I)); [cbn [In]; lia|reflexivity]. }
  split; [reflexivity|]. destruct q, q'; cbn in X; congruence.
Qed.
Print Assumptions C106_unique.

Lemma port_part h p : uri_host h -> uri_authority (match p with Some q => h ++ [58] ++ dec_of_N q | None => h end) h (option_map dec_of_N p).
Proof.
  intros H. split; [exact H|]. destruct p as [q|]; cbn [option_map]; [|reflexivity].
  destruct (dec_of_N_digits q) as [D X]. split; [reflexivity|]. split; [exact X|]. eapply Forall_impl; [|exact D]. intros c. unfold is_digit. lia.
Qed.
Definition bracketed (a : list N) : list N := [91] ++ ipv6_display a ++ [93].
Lemma v4_auth a p : v4_addr a -> uri_authority (ipv4_authority (a, p)) (ipv4_display a) (option_map dec_of_N p).
Proof. intros A. apply port_part. right. left. exists a. exact (ipv4_display_text a A). Qed.
Lemma v6_auth a p : v6_addr a -> uri_authority (ipv6_authority (a, p)) (bracketed a) (option_map dec_of_N p).
Proof.
  intros A. replace (ipv6_authority (a, p)) with (match p with Some q => bracketed a ++ [58] ++ dec_of_N q | None => bracketed a end).
  - apply port_part. left. exists (ipv6_display a), a. split; [reflexivity|exact (ipv6_display_text a A)].
  - unfold bracketed, ipv6_authority. cbn [fst snd]. destruct p; [|reflexivity]. rewrite <- !app_assoc. reflexivity.
Qed.

(** C106, ip addresses. *)
Theorem C106_ip : forall port local s, valid_str s ->
  (forall a p, ipv4_parse_str port local s = Ok (a, p) -> uri_authority (ipv4_authority (a, p)) (ipv4_display a) (option_map dec_of_N p)) /\
  (forall a p, ipv6_parse_str port local s = Ok (a, p) -> uri_authority (ipv6_authority (a, p)) (bracketed a) (option_map dec_of_N p)) /\
  (forall x p, ip_parse_str port local s = Ok (x, p) ->
     uri_authority (ip_authority (x, p)) (match x with V4 a => ipv4_display a | V6 a => bracketed a end) (option_map dec_of_N p)).
Proof.
  intros port local s S. split; [|split].
  - intros a p H. apply C31_ipv4_accepts_exactly in H as (H & _); [|exact S]. apply v4_auth. exact (proj1 (v4_form_ok _ _ _ H)).
  - intros a p H. apply C31_ipv6_accepts_exactly in H as (H & _); [|exact S]. apply v6_auth. exact (proj1 (v6_form_ok _ _ _ H)).
  - intros x p H. apply C31_ip_accepts_exactly in H; [|exact S]. unfold ip_authority. cbn [fst snd].
    destruct x as [a|a]; destruct H as (H & _); [apply v4_auth; exact (proj1 (v4_form_ok _ _ _ H))|apply v6_auth; exact (proj1 (v6_form_ok _ _ _ H))].
Qed.
Print Assumptions C106_ip.

Lemma name_host idna n d t : idna_laws idna -> idna n = Some d -> t = d \/ t = strip_last 46 d -> uri_host t.
Proof.
  intros L I T. destruct (L _ _ I) as [F G]. right. right.
  destruct (G _ (proj2 (undotted_strip d _) eq_refl)) as [X _].
  assert (Forall reg_char d) as R.
  { eapply Forall_impl; [|exact F]. intros c H. unfold idna_char in H. left. unfold unreserved. cbn. lia. }
  destruct (proj2 (undotted_strip d _) eq_refl) as [E|[E _]].
  - destruct T as [->| ->].
    + split; [|exact R]. intros ->. destruct (strip_last 46 []); discriminate E.
    + split; [exact X|]. rewrite E in R. apply Forall_app in R. apply R.
  - destruct T as [->| ->]; [|rewrite <- E in *]; split; try exact R; congruence.
Qed.

(** C106, hosts. *)
Theorem C106_host : forall idna c s v, idna_laws idna -> valid_str s -> host_parse_str idna c s = Ok v ->
  uri_authority (host_authority v)
    (match hv_host v with HIPv4 a => ipv4_display a | HIPv6 a => bracketed a | HDomain d => d end)
    (option_map dec_of_N (hv_port v)).
Proof.
  intros idna c s v L S H. apply C39_host_accepts_exactly in H; [|exact S].
  destruct v as [h port f]. unfold host_authority. cbn [hv_host hv_port].
  destruct H as [(a & E & H)|[(a & E & H)|(name & d & E & H)]]; cbn [hv_host hv_port hv_is_local] in E, H; subst h.
  - apply v6_auth. destruct H as (F & _). exact (proj1 (v6_form_ok _ _ _ F)).
  - apply v4_auth. destruct H as (F & _). exact (proj1 (v4_form_ok _ _ _ F)).
  - apply port_part. assert (idna name = Some d) as I by tauto. exact (name_host idna name d d L I (or_introl eq_refl)).
Qed.
Print Assumptions C106_host.

(** C106, domains: if the port is not stored with the name, as it is for IPv4 addresses (C37). *)
Theorem C106_domain_partial : forall idna c s v, idna_laws idna -> valid_str s -> domain_parse_str idna c s = Ok v ->
  ~ In 58 (dv_domain v) ->
  exists t h, (forall E, @domain_authority E v = Ok t) /\ undotted (dv_domain v) h /\ uri_authority t h (option_map dec_of_N (dv_port v)).
Proof.
  intros idna c s v L S H N. apply C36_domain_accepts_exactly in H; [|exact S].
  destruct H as (_ & name & Sp & _ & H). eexists. exists (strip_last 46 (dv_domain v)).
  split; [intros E; apply domain_authority_ok|]. split; [apply undotted_strip; reflexivity|]. apply port_part.
  destruct H as [(_ & H & _)|[(_ & a & A & _ & _ & _ & E & _)|(_ & _ & _ & H & _)]];
    [exact (name_host _ _ _ _ L H (or_intror eq_refl))| |exact (name_host _ _ _ _ L H (or_intror eq_refl))].
  rewrite E in *. destruct (dv_port v) as [q|].
  - destruct Sp as (t & -> & _). exfalso. apply N. rewrite in_app_iff. right. now left.
  - destruct Sp as (-> & _). destruct A as (t & X & T). right. left. exists a.
    replace (strip_last 46 name) with t; [exact T|]. symmetry. apply undotted_strip.
    destruct X as [->| ->]; [right; split; [reflexivity|intros u; exact (HostProofs.v4_no_final_dot _ _ u T)]|left; reflexivity].
Qed.
Print Assumptions C106_domain_partial.

(** With the port stored the text has two of them, and is no authority. *)
Theorem C106_domain_refuted : exists idna s v t, idna_laws idna /\ valid_str s /\
  domain_parse_str idna (cfg Allow Allow Must Must) s = Ok v /\ @domain_authority domain_err v = Ok t /\ ~ is_authority t.
Proof.
  exists idna_ascii, (bs "8.8.8.8:80"). eexists. exists (bs "8.8.8.8:80:80").
  split; [exact idna_ascii_laws|]. split; [ascii_str|]. split; [vm_compute; reflexivity|]. split; [vm_compute; reflexivity|].
  intros (h & q & H & Q).
  assert (exists r, bs "8.8.8.8:80:80" = h ++ r /\ (r = [] \/ exists d, r = 58 :: d /\ ~ In 58 d)) as (r & E & R).
  { destruct q as [d|].
    - destruct Q as (E & _ & D). exists (58 :: d). split; [exact E|]. right. exists d. split; [reflexivity|].
      intros I. rewrite Forall_forall in D. specialize (D _ I). lia.
    - exists []. rewrite app_nil_r. auto. }
  apply host_cases in H as [(u & -> & _)|[_ F]]; [discriminate E|].
  assert (~ In 58 h) as NI.
  { intros I. rewrite Forall_forall in F. apply (reg_not _ 58 (F _ I)); [cbn [In]; tauto|reflexivity]. }
  change (bs "8.8.8.8:80:80") with (bs "8.8.8.8" ++ [58] ++ bs "80:80") in E.
  apply (same_prefix (fun c => c = 58)) in E.
  - destruct E as [_ E]. destruct R as [->|(d & -> & D)]; [discriminate E|]. injection E as <-. apply D. cbn. lia.
  - intros c I ->. cbn in I. lia.
  - intros c I ->. contradiction.
  - right. cbn. eauto.
  - destruct R as [->|(d & -> & _)]; [left; reflexivity|right; eauto].
Qed.
Print Assumptions C106_domain_refuted.

Example C106_example : exists v w x,
  idna_laws idna_ascii /\
  host_parse_str idna_ascii (hcfg Allow Allow Allow) (bs "[2001:DB8::0]:080") = Ok v /\ host_authority v = bs "[2001:db8::]:80" /\
  host_parse_str idna_ascii (hcfg Allow Allow Allow) (bs "Magiclen.org:+443") = Ok w /\ host_authority w = bs "magiclen.org:443" /\
  domain_parse_str idna_ascii (cfg Disallow Allow Allow Must) (bs "Magiclen.org.:443") = Ok x /\ ~ In 58 (dv_domain x) /\
  @domain_authority domain_err x = Ok (bs "magiclen.org:443") /\
  uri_authority (bs "magiclen.org:443") (bs "magiclen.org") (Some (bs "443")) /\ follows (bs "/p?q#f") /\
  ~ uri_host (bs "a/b") /\ ~ uri_host (bs "u@h").
Proof.
  eexists. eexists. eexists. split; [exact idna_ascii_laws|]. do 5 (split; [vm_compute; reflexivity|]).
  split; [vm_compute; lia|]. split; [vm_compute; reflexivity|]. split.
  { change (bs "magiclen.org:443") with (bs "magiclen.org" ++ [58] ++ dec_of_N 443). change (Some (bs "443")) with (option_map dec_of_N (Some 443)).
    apply (port_part (bs "magiclen.org") (Some 443)). right. right. split; [discriminate|].
    repeat (constructor; [left; unfold unreserved; cbn; lia|]). constructor. }
  split; [right; exists 47, (bs "p?q#f"); auto|]. split; intros H.
  - apply (host_no _ 47 H); cbn; lia.
  - apply (host_no _ 64 H); cbn; lia.
Qed.
