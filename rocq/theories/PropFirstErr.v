(** Property C135: which error is reported when a text breaks several rules of its validator. *)
From Verif Require Import Base IntStr NetModel NetSpec NetProofs IpModel IpSpec LocalProofs IpProofs Utf8 StrFacts Serde
  DomainModel DomainSpec DomainProofs IdnaFrag IdnaDigits HostModel HostSpec HostProofs PropIp PropDomain PropHost.
Local Open Scope N_scope.

(** The error of the rule on ports, and of the rule on locality, for a validator of addresses. *)
Definition ip_port_error (port : tri) : ip_err := match port with Must => IpPortMust | _ => IpPortDisallow end.
Definition ip_local_error (local : tri) : ip_err := match local with Must => IpLocalMust | _ => IpLocalDisallow end.

(** [r] reports the rule on ports first, then the rule on locality, and otherwise gives the value. *)
Definition port_then_local {A} (port local : tri) (p : option N) (is_local : Prop) (v : A) (r : outcome ip_err A) : Prop :=
  (~ port_ok port p -> r = Err (ip_port_error port)) /\
  (port_ok port p -> ~ local_ok local is_local -> r = Err (ip_local_error local)) /\
  (port_ok port p -> local_ok local is_local -> r = Ok v).

(** What the code does with an address and a port that it has read. *)
Definition ip_end {A} (port local : tri) (b : bool) (a : A) (p : option N) : outcome ip_err (A * option N * bool) :=
  match port, p with
  | Must, None => Err IpPortMust
  | Disallow, Some _ => Err IpPortDisallow
  | _, _ => finish local b a p
  end.

Ltac simp x := lazymatch x with
  | context [obind _ _] => fail | context [match _ with _ => _ end] => fail | context [finish _ _ _ _] => fail
  | context [h_finish _ _ _ _] => fail
  | _ => idtac end.
Ltac stepin H := cbn [obind negb andb] in H |- *; match type of H with
  | context [obind ?x _] => simp x; let E := fresh "E" in destruct x eqn:E; cbn [obind] in H |- *; try discriminate H
  | context [match ?x with _ => _ end] => simp x; let E := fresh "E" in destruct x eqn:E; try discriminate H
  end.

Lemma ipv4_rest_end s a p b : ipv4_rest Allow Allow s = Ok (a, p, b) -> v4_addr a /\ forall port local,
  ipv4_rest port local s = ip_end port local (is_local_ipv4 a) a p.
Proof.
  unfold ipv4_rest. intros H. repeat stepin H.
  - cbn in H. injection H as <- <- <-. split; [eapply v4_text_addr, ipv4_from_str_spec; eassumption|].
    intros [] ?; reflexivity.
  - cbn in H. injection H as <- <- <-. split; [eapply v4_text_addr, ipv4_from_str_spec; eassumption|].
    intros [] ?; reflexivity.
Qed.

Lemma ipv6_bracket_end s a p b : ipv6_bracket Allow Allow s = Ok (a, p, b) -> v6_addr a /\ forall port local,
  ipv6_bracket port local s = ip_end port local (is_local_ipv6 a) a p.
Proof.
  unfold ipv6_bracket, ipv6_without_port, ipv6_with_port. intros H. repeat stepin H;
    cbn in H; injection H as <- <- <-; (split; [eapply v6_text_addr, ipv6_from_str_spec; eassumption|]);
    intros [] ?; reflexivity.
Qed.

Lemma ipv6_non_bracket_end s a p b ip : ipv6_from_str s = Some ip -> ipv6_non_bracket Allow Allow ip = Ok (a, p, b) ->
  v6_addr a /\ forall port local, ipv6_non_bracket port local ip = ip_end port local (is_local_ipv6 a) a p.
Proof.
  intros E H. cbn in H. injection H as <- <- <-. split; [exact (v6_text_addr _ _ (proj1 (ipv6_from_str_spec _ _) E))|].
  intros [] ?; reflexivity.
Qed.

Lemma ip_end_order {A} port local b (a : A) p (P : Prop) : (b = true <-> P) ->
  port_then_local port local p P (a, p) (let? r := ip_end port local b a p in create_instance port r).
Proof.
  intros B. unfold port_then_local. assert (NB : b = false <-> ~ P) by (destruct b; intuition congruence).
  destruct port, p as [n|]; cbn; (split; [intros K; try reflexivity; exfalso; apply K; easy|]);
    (split; intros K; [|]); try (exfalso; easy); destruct local, b; cbn; intros L; try reflexivity; exfalso; intuition congruence.
Qed.
Lemma omap_bind {E A B C} (f : A -> B) (x : outcome E A) (k : B -> outcome E C) :
  (let? r := omap f x in k r) = (let? r := x in k (f r)).
Proof. destruct x; reflexivity. Qed.

Lemma ipv4_first port local s a p : ipv4_parse_str Allow Allow s = Ok (a, p) ->
  port_then_local port local p (v4_local a) (a, p) (ipv4_parse_str port local s).
Proof.
  unfold ipv4_parse_str, ipv4_v_parse_str. intros H. destruct s as [|c s]; [discriminate H|].
  destruct (ipv4_rest Allow Allow (c :: s)) as [[[a' p'] b]| |] eqn:E; try discriminate H.
  cbn in H. injection H as -> ->. destruct (ipv4_rest_end _ _ _ _ E) as [V R]. rewrite R.
  apply ip_end_order, is_local_ipv4_spec, V.
Qed.

Lemma ipv6_first port local s a p : ipv6_parse_str Allow Allow s = Ok (a, p) ->
  port_then_local port local p (v6_local a) (a, p) (ipv6_parse_str port local s).
Proof.
  unfold ipv6_parse_str, ipv6_v_parse_str. intros H. destruct s as [|c s]; [discriminate H|].
  destruct (c =? 91).
  - destruct (ipv6_bracket Allow Allow (c :: s)) as [[[a' p'] b]| |] eqn:E; try discriminate H.
    cbn in H. injection H as -> ->. destruct (ipv6_bracket_end _ _ _ _ E) as [V R]. rewrite R.
    apply ip_end_order, is_local_ipv6_spec, V.
  - destruct (ipv6_from_str (c :: s)) as [ip|] eqn:F; [|discriminate H].
    destruct (ipv6_non_bracket Allow Allow ip) as [[[a' p'] b]| |] eqn:E; try discriminate H.
    cbn in H. injection H as -> ->. destruct (ipv6_non_bracket_end _ _ _ _ _ F E) as [V R]. rewrite R.
    apply ip_end_order, is_local_ipv6_spec, V.
Qed.

(** An address the validator with free policies returns; the rules on ports come first. *)
Lemma ip_first port local s x p : ip_parse_str Allow Allow s = Ok (x, p) ->
  port_then_local port local p (match x with V4 a => v4_local a | V6 a => v6_local a end) (x, p) (ip_parse_str port local s).
Proof.
  unfold ip_parse_str, ip_v_parse_str. intros H. destruct s as [|c s]; [discriminate H|].
  assert (W : forall f (r : outcome ip_err (list N * option N * bool)) q a P,
    port_then_local port local q P (a, q) (let? r := r in create_instance port r) ->
    port_then_local port local q P (f a : ip_addr, q) (let? r := omap (wrap f) r in create_instance port r)).
  { intros f r q a P (A & B & C). rewrite omap_bind.
    assert (M : (let? r := r in create_instance port (wrap f r)) =
      omap (fun v => (f (fst v), snd v)) (let? r := r in create_instance port r)).
    { destruct r as [[[u v] w]| |]; [|reflexivity|reflexivity]. cbn. destruct port, v; reflexivity. }
    rewrite M. split; [|split].
    - intros K. rewrite (A K). reflexivity.
    - intros K L. rewrite (B K L). reflexivity.
    - intros K L. rewrite (C K L). reflexivity. }
  destruct (c =? 91).
  - destruct (ipv6_bracket Allow Allow (c :: s)) as [[[a' p'] b]| |] eqn:E; try discriminate H.
    cbn in H. injection H as <- ->. destruct (ipv6_bracket_end _ _ _ _ E) as [V R]. rewrite R.
    apply W, ip_end_order, is_local_ipv6_spec, V.
  - destruct (ipv6_from_str (c :: s)) as [ip|] eqn:F.
    + destruct (ipv6_non_bracket Allow Allow ip) as [[[a' p'] b]| |] eqn:E; try discriminate H.
      cbn in H. injection H as <- ->. destruct (ipv6_non_bracket_end _ _ _ _ _ F E) as [V R]. rewrite R.
      apply W, ip_end_order, is_local_ipv6_spec, V.
    + destruct (ipv4_rest Allow Allow (c :: s)) as [[[a' p'] b]| |] eqn:E; try discriminate H.
      cbn in H. injection H as <- ->. destruct (ipv4_rest_end _ _ _ _ E) as [V R]. rewrite R.
      apply W, ip_end_order, is_local_ipv4_spec, V.
Qed.

(** C135. For a text that ip, ipv4 or ipv6 accepts without policies, the policies decide as follows: a broken rule on
    ports is reported, whatever the address; otherwise a broken rule on locality; otherwise the same value results. *)
Theorem C135_ip : forall port local s,
  (forall x p, ip_parse_str Allow Allow s = Ok (x, p) ->
    port_then_local port local p (match x with V4 a => v4_local a | V6 a => v6_local a end) (x, p) (ip_parse_str port local s)) /\
  (forall a p, ipv4_parse_str Allow Allow s = Ok (a, p) ->
    port_then_local port local p (v4_local a) (a, p) (ipv4_parse_str port local s)) /\
  (forall a p, ipv6_parse_str Allow Allow s = Ok (a, p) ->
    port_then_local port local p (v6_local a) (a, p) (ipv6_parse_str port local s)).
Proof.
  intros port local s. split; [|split]; intros x p H.
  - exact (ip_first _ _ _ _ _ H).
  - exact (ipv4_first _ _ _ _ _ H).
  - exact (ipv6_first _ _ _ _ _ H).
Qed.

(** Hosts. *)
Definition host_port_error (p : tri) : host_err := match p with Must => HoPortMust | _ => HoPortDisallow end.
Definition host_two_error (t : tri) : host_err := match t with Must => HoTwoLabelsMust | _ => HoTwoLabelsDisallow end.
Definition host_local_error (l : tri) : host_err := match l with Must => HoLocalMust | _ => HoLocalDisallow end.

(** [r] is the error of the first rule, of those listed in order, that does not hold, and a value meeting [good] if
    they all hold. *)
Fixpoint first_broken {E A} (good : A -> Prop) (rules : list (Prop * E)) (r : outcome E A) : Prop :=
  match rules with
  | [] => exists w, r = Ok w /\ good w
  | (P, e) :: rest => (~ P -> r = Err e) /\ (P -> first_broken good rest r)
  end.

(** The same with tests in place of the rules. *)
Lemma fb_cons {E A} (good : A -> Prop) (P : Prop) (e : E) rest (r : outcome E A) (b : bool) : (b = true <-> P) ->
  (b = false -> r = Err e) -> (b = true -> first_broken good rest r) ->
  first_broken good ((P, e) :: rest) r.
Proof.
  intros B F T. split.
  - intros N. apply F. destruct b; [destruct (N (proj1 B eq_refl))|reflexivity].
  - intros K. apply T, B, K.
Qed.
Definition port_test (p : tri) (q : option N) : bool :=
  match p, q with Must, None => false | Disallow, Some _ => false | _, _ => true end.
Definition local_test (l : tri) (b : bool) : bool := match l with Must => b | Allow => true | Disallow => negb b end.
Definition two_test (t : tri) (b w : bool) : bool :=
  match t with Must => b || w | Allow => true | Disallow => b || negb w end.
Definition is_not (t t' : tri) : bool :=
  match t, t' with Must, Must => false | Allow, Allow => false | Disallow, Disallow => false | _, _ => true end.
Lemma port_test_spec p q : port_test p q = true <-> port_ok p q.
Proof. destruct p, q; cbn; intuition congruence. Qed.
Lemma local_test_spec l b (P : Prop) : (b = true <-> P) -> local_test l b = true <-> local_ok l P.
Proof. intros B. destruct l, b; cbn; intuition congruence. Qed.
Lemma two_test_spec t b w (P : Prop) d : (b = true <-> P) -> (w = true <-> two_labels d) -> two_test t b w = true <-> two_ok t P d.
Proof. intros B W. destruct t, b, w; cbn; intuition congruence. Qed.
Lemma is_not_spec t t' : is_not t t' = true <-> t <> t'.
Proof. destruct t, t'; cbn; intuition congruence. Qed.

(** The rules on a host that has been read, in the order in which they are reported. *)
Definition host_order (l p t : tri) (v : host_val) : list (Prop * host_err) :=
  let port := (port_ok p (hv_port v), host_port_error p) in
  match hv_host v with
  | HIPv6 a => [(t <> Disallow, host_two_error t); port; (local_ok l (v6_local a), host_local_error l)]
  | HIPv4 a => [port; (t <> Disallow, host_two_error t); (local_ok l (v4_local a), host_local_error l)]
  | HDomain d => [port; (two_ok t (localhost d) d, host_two_error t); (local_ok l (localhost d), host_local_error l)]
  end.

(** The end of each branch of the code. *)
Definition port_end {A} (p : tri) (q : option N) (r : outcome host_err A) : outcome host_err A :=
  match p, q with
  | Must, None => Err HoPortMust
  | Disallow, Some _ => Err HoPortDisallow
  | _, _ => r
  end.
Definition host_end (c : host_cfg) (h : host) (q : option N) : outcome host_err (host * option N * bool) :=
  match h with
  | HIPv6 a => if is_disallow (h_two c) then Err HoTwoLabelsDisallow
               else port_end (h_port c) q (h_finish c (is_local_ipv6 a) h q)
  | HIPv4 a => port_end (h_port c) q (if is_disallow (h_two c) then Err HoTwoLabelsDisallow
                                      else h_finish c (is_local_ipv4 a) h q)
  | HDomain d => port_end (h_port c) q (let is_local := h_flag c (is_local_domain d) in
                   let? _ := h_check_two c is_local d in let? _ := h_check_local c is_local in Ok (h, q, is_local))
  end.
Definition host_addr (h : host) : Prop :=
  match h with HIPv4 a => v4_addr a | HIPv6 a => v6_addr a | HDomain _ => True end.

Lemma h_end idna s h q b : host_v_parse_str idna (hcfg Allow Allow Allow) s = Ok (h, q, b) ->
  host_addr h /\ forall l p t, host_v_parse_str idna (hcfg l p t) s = host_end (hcfg l p t) h q.
Proof.
  unfold host_v_parse_str. intros H. destruct s as [|c s]; [discriminate H|]. destruct (c =? 91) eqn:E0.
  - unfold h_ipv6_bracket, h_ipv6_without_port, h_ipv6_with_port in *. cbn [is_disallow h_two h_port hcfg] in *. repeat stepin H;
      cbn in H; injection H as <- <- <-; (split; [eapply v6_text_addr, ipv6_from_str_spec; eassumption|]);
      intros ? [] []; reflexivity.
  - destruct (ipv6_from_str (c :: s)) as [ip|] eqn:F.
    + cbn in H. injection H as <- <- <-. split; [exact (v6_text_addr _ _ (proj1 (ipv6_from_str_spec _ _) F))|].
      intros ? [] []; reflexivity.
    + unfold h_rest in *. unfold h_split in *. cbn [h_port hcfg] in *.
      destruct (rposition 58 (c :: s)) as [i|].
      * destruct (str_slice (c :: s) 0 i) as [ds| |] eqn:S0; cbn [obind] in *; try discriminate H.
        destruct (str_slice_from (c :: s) (i + 1)) as [ps| |] eqn:S1; cbn [obind] in *; try discriminate H.
        assert (Q : forall x : outcome host_err (list N), x = x) by reflexivity.
        destruct (ends_with 46 ds) eqn:D.
        { discriminate H. }
        destruct (ipv4_from_str ds) as [ip|] eqn:I.
        -- cbn in H. destruct (parse_u16 ps) as [n|] eqn:P; [|discriminate H]. cbn in H. injection H as <- <- <-.
           split; [exact (v4_text_addr _ _ (proj1 (ipv4_from_str_spec _ _) I))|].
           intros ? [] []; cbn [obind]; try rewrite D; try rewrite I; cbn; try rewrite P; reflexivity.
        -- unfold h_name in *. cbn in H. destruct (idna ds) as [d|] eqn:J; [|discriminate H].
           cbn in H. destruct (parse_u16 ps) as [n|] eqn:P; [|discriminate H]. cbn in H. injection H as <- <- <-.
           split; [exact Logic.I|].
           intros ? [] []; cbn [obind]; try rewrite D; try rewrite I; try rewrite J; cbn; try rewrite P; reflexivity.
      * cbn [obind] in *. destruct (ends_with 46 (c :: s)) eqn:D; [discriminate H|].
        destruct (ipv4_from_str (c :: s)) as [ip|] eqn:I.
        -- cbn in H. injection H as <- <- <-.
           split; [exact (v4_text_addr _ _ (proj1 (ipv4_from_str_spec _ _) I))|].
           intros ? [] []; cbn [obind]; try rewrite D; try rewrite I; reflexivity.
        -- unfold h_name in *. destruct (idna (c :: s)) as [d|] eqn:J; [|discriminate H].
           cbn in H. injection H as <- <- <-. split; [exact Logic.I|].
           intros ? [] []; cbn [obind]; try rewrite D; try rewrite I; try rewrite J; reflexivity.
Qed.

Lemma host_end_order l p t h q v : host_addr h -> hv_host v = h -> hv_port v = q ->
  first_broken (fun w => hv_host w = h /\ hv_port w = q) (host_order l p t v)
    (let? r := host_end (hcfg l p t) h q in h_create (hcfg l p t) r).
Proof.
  intros V Eh Ep. unfold host_order. rewrite Eh, Ep. clear v Eh Ep. destruct h as [d|a|a]; cbn [host_addr] in V.
  - apply (fb_cons _ _ _ _ _ _ (port_test_spec p q));
      [|intros K1; apply (fb_cons _ _ _ _ _ _ (two_test_spec t _ _ _ d (localhost_spec d) (two_labels_spec d)));
        [|intros K2; apply (fb_cons _ _ _ _ _ _ (local_test_spec l _ _ (localhost_spec d)));
          [|intros K3; unfold first_broken]]];
      unfold host_end, h_check_two; destruct (is_local_domain d), (is_at_least_two_labels_domain d), q, p, t, l; cbn;
      try discriminate; try reflexivity; (eexists; split; [reflexivity|cbn; auto]).
  - apply (fb_cons _ _ _ _ _ _ (port_test_spec p q));
      [|intros K1; apply (fb_cons _ _ _ _ _ _ (is_not_spec t Disallow));
        [|intros K2; apply (fb_cons _ _ _ _ _ _ (local_test_spec l _ _ (is_local_ipv4_spec a V)));
          [|intros K3; unfold first_broken]]];
      unfold host_end; destruct (is_local_ipv4 a), q, p, t, l; cbn; try discriminate; try reflexivity; (eexists; split; [reflexivity|cbn; auto]).
  - apply (fb_cons _ _ _ _ _ _ (is_not_spec t Disallow));
      [|intros K1; apply (fb_cons _ _ _ _ _ _ (port_test_spec p q));
        [|intros K2; apply (fb_cons _ _ _ _ _ _ (local_test_spec l _ _ (is_local_ipv6_spec a V)));
          [|intros K3; unfold first_broken]]];
      unfold host_end; destruct (is_local_ipv6 a), q, p, t, l; cbn; try discriminate; try reflexivity; (eexists; split; [reflexivity|cbn; auto]).
Qed.

(** For a text that the host validator accepts without policies, the error under any policies is that of the first
    broken rule in the order of [host_order], and a text that breaks none is accepted
    with the same host and port. For an IPv6 address the rule on
    labels comes before the rule on ports; for an IPv4 address or a name it comes after it. *)
Theorem C135_host_partial : forall idna l p t s v, host_parse_str idna (hcfg Allow Allow Allow) s = Ok v ->
  first_broken (fun w => hv_host w = hv_host v /\ hv_port w = hv_port v) (host_order l p t v)
    (host_parse_str idna (hcfg l p t) s).
Proof.
  intros idna l p t s v H. unfold host_parse_str in *.
  destruct (host_v_parse_str idna (hcfg Allow Allow Allow) s) as [[[h q] b]| |] eqn:E; try discriminate H.
  cbn in H. injection H as <-. destruct (h_end _ _ _ _ _ E) as [V R]. rewrite R.
  apply host_end_order; [exact V|reflexivity|reflexivity].
Qed.

(** Where the rule on labels stands depends on how the host is written: with the same policies, an IPv4 address is
    refused for its missing port and an IPv6 address, in either of its two forms, for its labels. *)
Theorem C135_host_order_refuted : exists idna l p t s s' s'' v v' v'', idna_laws idna /\
  host_parse_str idna (hcfg Allow Allow Allow) s = Ok v /\ host_parse_str idna (hcfg Allow Allow Allow) s' = Ok v' /\
  host_parse_str idna (hcfg Allow Allow Allow) s'' = Ok v'' /\
  ~ port_ok p (hv_port v) /\ ~ port_ok p (hv_port v') /\ ~ port_ok p (hv_port v'') /\
  ~ host_two_ok t (hv_host v) /\ ~ host_two_ok t (hv_host v') /\ ~ host_two_ok t (hv_host v'') /\
  host_parse_str idna (hcfg l p t) s = Err HoPortMust /\
  host_parse_str idna (hcfg l p t) s' = Err HoTwoLabelsDisallow /\
  host_parse_str idna (hcfg l p t) s'' = Err HoTwoLabelsDisallow.
Proof.
  exists idna_frag, Allow, Must, Disallow, (bs "1.2.3.4"), (bs "::1"), (bs "[::1]"),
    {| hv_host := HIPv4 [1; 2; 3; 4]; hv_port := None; hv_is_local := None |},
    {| hv_host := HIPv6 [0; 0; 0; 0; 0; 0; 0; 1]; hv_port := None; hv_is_local := None |},
    {| hv_host := HIPv6 [0; 0; 0; 0; 0; 0; 0; 1]; hv_port := None; hv_is_local := None |}.
  split; [exact idna_frag_laws|]. split; [vm_compute; reflexivity|]. split; [vm_compute; reflexivity|].
  split; [vm_compute; reflexivity|]. cbn [port_ok host_two_ok hv_port hv_host].
  split; [congruence|]. split; [congruence|]. split; [congruence|]. split; [congruence|]. split; [congruence|].
  split; [congruence|]. split; [vm_compute; reflexivity|]. split; vm_compute; reflexivity.
Qed.

(** Domains. *)
Definition domain_port_error (p : tri) : domain_err := match p with Must => DPortMust | _ => DPortDisallow end.
Definition domain_two_error (t : tri) : domain_err := match t with Must => DTwoLabelsMust | _ => DTwoLabelsDisallow end.
Definition domain_local_error (l : tri) : domain_err := match l with Must => DLocalMust | _ => DLocalDisallow end.

Lemma split_end s name q : valid_str s -> split_port s name q -> exists qs, forall i l p t,
  d_split (cfg i l p t) s = match p, q with Must, None => Err DPortMust | Disallow, Some _ => Err DPortDisallow
                                          | _, _ => Ok (name, qs) end /\
  d_parse_port (cfg i l p t) qs = match p with Disallow => Ok None | _ => Ok q end.
Proof.
  intros V S. destruct q as [n|]; cbn [split_port] in S.
  - destruct S as (u & -> & P). exists (Some u). intros i l p t.
    pose proof (port_text_not_in _ _ 58 P ltac:(lia)) as N. change ([58] ++ u) with (58 :: u) in *. split.
    + unfold d_split. rewrite (proj2 (rposition_some 58 (name ++ 58 :: u) (List.length name))) by (exists name, u; auto).
      rewrite (str_slice_before name 58 u) by lia. rewrite (str_slice_after name 58 u) by (assumption || lia).
      destruct p; reflexivity.
    + unfold d_parse_port. rewrite (proj2 (parse_u16_spec _ _) P). destruct p; reflexivity.
  - destruct S as [-> N]. exists None. intros i l p t. split.
    + unfold d_split. rewrite (proj2 (rposition_none 58 name) N). destruct p; reflexivity.
    + destruct p; reflexivity.
Qed.

(** For a text that the domain validator accepts without policies, written as [name] and an optional port: the rule on
    ports comes first, then the one on IPv4 addresses, then the one on labels, then the one on locality. The rules are
    about the text if it is an IPv4 address, and about the returned domain if it is a name. *)
Theorem C135_domain : forall idna i l p t s v name, valid_str s ->
  domain_parse_str idna (cfg Allow Allow Allow Allow) s = Ok v -> split_port s name (dv_port v) ->
  let port := (port_ok p (dv_port v), domain_port_error p) in
  let r := domain_parse_str idna (cfg i l p t) s in
  (forall a, v4_dotted name a ->
    first_broken (fun w => dv_port w = dv_port v)
                 [port; (i <> Disallow, DIPv4Disallow); (t <> Disallow, DTwoLabelsDisallow);
                  (local_ok l (v4_local a), domain_local_error l)] r) /\
  ((forall a, ~ v4_dotted name a) ->
    first_broken (fun w => dv_domain w = dv_domain v /\ dv_port w = dv_port v)
                 [port; (i <> Must, DIPv4Must); (two_ok t (localhost (dv_domain v)) (dv_domain v), domain_two_error t);
                  (local_ok l (localhost (dv_domain v)), domain_local_error l)] r).
Proof.
  intros idna i l p t s v name V H S port r. destruct (split_end _ _ _ V S) as (qs & Q).
  assert (N : s <> []) by (intros ->; discriminate H).
  assert (U : forall c, domain_v_parse_str idna c s = let? r := d_split c s in let '(d, u) := r in d_rest idna c s d u).
  { intros c. destruct s; [destruct (N eq_refl)|reflexivity]. }
  subst r. unfold domain_parse_str in *. rewrite U in H |- *.
  destruct (Q Allow Allow Allow Allow) as [Q1 Q2]. rewrite Q1 in H. cbn [obind] in H.
  unfold d_rest in H. cbn [all_allow cfg d_ipv4 d_local d_port d_two is_allow_only andb] in H.
  destruct (idna name) as [d|] eqn:J; [|discriminate H]. rewrite Q2 in H. cbn in H.
  assert (D : dv_domain v = d) by (injection H as <-; reflexivity). clear H U Q1 Q2 N.
  destruct (Q i l p t) as [Q1 Q2]. rewrite Q1. subst port. split.
  - intros a A. pose proof (is_local_ipv4_spec a (v4_dotted_addr _ _ A)) as L. apply v4_dotted_spec in A.
    unfold d_rest. apply (fb_cons _ _ _ _ _ _ (port_test_spec p (dv_port v))).
    { destruct p, (dv_port v); try discriminate; reflexivity. }
    intros K. replace (match p with Must => _ | _ => _ end) with (Ok (E := domain_err) (name, qs))
      by (destruct p, (dv_port v); try discriminate K; reflexivity).
    cbn [obind]. rewrite A, J, Q2. clear Q Q1 Q2 S A J.
    apply (fb_cons _ _ _ _ _ _ (is_not_spec i Disallow));
      [|intros K1; apply (fb_cons _ _ _ _ _ _ (is_not_spec t Disallow));
        [|intros K2; apply (fb_cons _ _ _ _ _ _ (local_test_spec l _ _ L)); [|intros K3; unfold first_broken]]];
      destruct (is_local_ipv4 a), (dv_port v), p, i, t, l; cbn; try discriminate; try reflexivity; (eexists; split; [reflexivity|cbn; auto]).
  - intros A. rewrite D. assert (A' : parse_ipv4_allow_an_ended_dot name = None).
    { destruct (parse_ipv4_allow_an_ended_dot name) as [a|] eqn:E; [|reflexivity]. destruct (A a). apply v4_dotted_spec, E. }
    unfold d_rest. apply (fb_cons _ _ _ _ _ _ (port_test_spec p (dv_port v))).
    { destruct p, (dv_port v); try discriminate; reflexivity. }
    intros K. replace (match p with Must => _ | _ => _ end) with (Ok (E := domain_err) (name, qs))
      by (destruct p, (dv_port v); try discriminate K; reflexivity).
    cbn [obind]. rewrite A', J, Q2. clear Q Q1 Q2 S A A' J. unfold d_check_two.
    apply (fb_cons _ _ _ _ _ _ (is_not_spec i Must));
      [|intros K1; apply (fb_cons _ _ _ _ _ _ (two_test_spec t _ _ _ d (localhost_spec d) (two_labels_spec d)));
        [|intros K2; apply (fb_cons _ _ _ _ _ _ (local_test_spec l _ _ (localhost_spec d))); [|intros K3; unfold first_broken]]];
      destruct (is_local_domain d), (is_at_least_two_labels_domain d), (dv_port v), p, i, t, l; cbn; try discriminate; try reflexivity; (eexists; split; [reflexivity|cbn; auto]).
Qed.

(** Texts that break several rules at once. *)
Example C135_example :
  ip_parse_str Allow Allow (bs "127.0.0.1:80") = Ok (V4 [127; 0; 0; 1], Some 80) /\
  ip_parse_str Disallow Disallow (bs "127.0.0.1:80") = Err IpPortDisallow /\
  ip_parse_str Allow Disallow (bs "127.0.0.1:80") = Err IpLocalDisallow /\
  host_parse_str idna_frag (hcfg Must Must Must) (bs "com") = Err HoPortMust /\
  host_parse_str idna_frag (hcfg Must Allow Must) (bs "com") = Err HoTwoLabelsMust /\
  host_parse_str idna_frag (hcfg Must Allow Allow) (bs "com") = Err HoLocalMust /\
  domain_parse_str idna_frag (cfg Must Must Must Must) (bs "com") = Err DPortMust /\
  domain_parse_str idna_frag (cfg Must Must Allow Must) (bs "com") = Err DIPv4Must /\
  domain_parse_str idna_frag (cfg Allow Must Allow Must) (bs "com") = Err DTwoLabelsMust /\
  domain_parse_str idna_frag (cfg Allow Must Allow Allow) (bs "com") = Err DLocalMust.
Proof. repeat (split; [vm_compute; reflexivity|]). vm_compute; reflexivity. Qed.

Print Assumptions C135_ip.
Print Assumptions C135_host_partial.
Print Assumptions C135_host_order_refuted.
Print Assumptions C135_domain.
