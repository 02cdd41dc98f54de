(** Property C75, second part: addresses and hosts.
    (/repo/validators/src/errors/ip.rs:5-15 and host.rs:5-20.) *)
From Verif Require Import Base IntStr NetModel NetSpec NetProofs IpModel IpSpec LocalProofs IpProofs Utf8 StrFacts Serde
  DomainModel DomainSpec DomainProofs IdnaFrag IdnaDigits HostModel HostSpec HostProofs PropIp PropDomain PropHost PropUnion
  PropErrors PropGuar.
Local Open Scope N_scope.

(** A text with no place for a port: no colon, or colons that all belong to an IPv6 address. *)
Definition no_port (s : list N) : Prop := ~ In 58 s \/ (exists a, v6_text s a) \/ exists t, s = [91] ++ t ++ [93].
(** A text that may have a port: one with a colon, or an opening bracket and more after the closing one. *)
Definition some_port (s : list N) : Prop := In 58 s \/ exists r x, s = [91] ++ r /\ (exists t, s = t ++ [x]) /\ x <> 93.

Definition ip_guarantee (is : bool -> list N -> Prop) (s : list N) (e : ip_err) : Prop :=
  match e with
  | IpInvalid => True
  | IpPortMust => no_port s
  | IpPortDisallow => some_port s
  | IpLocalMust => is false s
  | IpLocalDisallow => is true s
  end.
(** The text is an address, with or without a port, that is local or not. *)
Definition v4_is (b : bool) (s : list N) : Prop := exists a p, v4_form s a p /\ (v4_local a <-> b = true).
Definition v6_is (b : bool) (s : list N) : Prop := exists a p, v6_form s a p /\ (v6_local a <-> b = true).

Lemma finish_port {A} local b (a : A) p e : finish local b a p = Err e -> e <> IpPortMust /\ e <> IpPortDisallow.
Proof. unfold finish. destruct local, b; cbn; intros [= <-]; split; discriminate. Qed.
Lemma finish_both {A} local b (a : A) p e : finish local b a p = Err e ->
  (e = IpLocalMust /\ b = false) \/ (e = IpLocalDisallow /\ b = true).
Proof. unfold finish. destruct local, b; cbn; intros [= <-]; auto. Qed.
Lemma finish6 local s t a p e : v6_text t a -> v6_form s a p -> finish local (is_local_ipv6 a) a p = Err e ->
  ip_guarantee v6_is s e.
Proof.
  intros T F H. pose proof (is_local_ipv6_spec a (v6_addr_of _ _ _ F)) as L. apply finish_both in H.
  destruct H as [(-> & E)|(-> & E)]; exists a, p; (split; [exact F|]); rewrite <- L, E; tauto.
Qed.
Lemma finish4 local s t a p e : v4_text t a -> v4_form s a p -> finish local (is_local_ipv4 a) a p = Err e ->
  ip_guarantee v4_is s e.
Proof.
  intros T F H. pose proof (is_local_ipv4_spec a (v4_addr_of _ _ _ F)) as L. apply finish_both in H.
  destruct H as [(-> & E)|(-> & E)]; exists a, p; (split; [exact F|]); rewrite <- L, E; tauto.
Qed.

Lemma with_port_not_must port local s : ipv6_with_port port local s <> Err IpPortMust.
Proof.
  unfold ipv6_with_port. intros H. destruct port; [| |discriminate];
    (destruct (rposition 58 s) as [i|]; [|discriminate]);
    (destruct (2 <? i)%nat; [|discriminate]);
    (destruct (idx s (i - 1)) as [b|?|] eqn:I; cbn [obind] in H; [|exact (idx_err _ _ _ I)|discriminate]);
    (destruct (b =? 93); [|discriminate]);
    (destruct (str_slice s 1 (i - 1)) as [t|?|] eqn:S1; cbn [obind] in H; [|exact (PropErrors.str_slice_err _ _ _ _ S1)|discriminate]);
    (destruct (ipv6_from_str t); [|discriminate]);
    (destruct (str_slice_from s (i + 1)) as [q|?|] eqn:S2; cbn [obind] in H; [|exact (str_slice_from_err _ _ _ S2)|discriminate]);
    (destruct (parse_u16 q); [|discriminate]);
    apply finish_port in H; destruct H; congruence.
Qed.

Lemma local_guar {A} (P : tri -> outcome ip_err A) (form : list N -> option N -> Prop) (loc : list N -> Prop) (bloc : list N -> bool)
  (Hf : forall a p, form a p -> (bloc a = true <-> loc a))
  (Hs : forall l, is_ok (P l) <-> exists a p, form a p /\ local_ok l (loc a)) local e :
  P local = Err e -> local <> Allow -> is_ok (P Allow) ->
  exists a p, form a p /\ (loc a <-> local = Disallow).
Proof.
  intros H Hl Ho. apply Hs in Ho. destruct Ho as (a & p & F & _). exists a, p. split; [exact F|].
  assert (N : ~ local_ok local (loc a)). { intros K. assert (O : is_ok (P local)) by (apply Hs; eauto). rewrite H in O. destruct O; discriminate. }
  pose proof (Hf a p F) as D. destruct local; cbn in N; [|congruence|].
  - split; [tauto|discriminate].
  - split; [reflexivity|]. intros _. apply D. destruct (bloc a) eqn:B; [reflexivity|].
    exfalso. apply N. intros K. apply D in K. discriminate.
Qed.

Lemma bracket_ok port local r : valid_str (91 :: r) ->
  is_ok (ipv6_bracket port local (91 :: r)) <-> exists a p, (v6_form (91 :: r) a p /\ port_ok port p) /\ local_ok local (v6_local a).
Proof.
  intros Hs. split.
  - intros [x H]. apply bracket_spec in H; [|exact Hs]. destruct H as (a & p & (F & Q & L) & _). exists a, p. auto.
  - intros (a & p & (F & Q) & L). eexists. apply bracket_spec; [exact Hs|]. exists a, p. split; [split; [exact F|split; [exact Q|exact L]]|reflexivity].
Qed.
Lemma rest_ok port local s : valid_str s ->
  is_ok (ipv4_rest port local s) <-> exists a p, (v4_form s a p /\ port_ok port p) /\ local_ok local (v4_local a).
Proof.
  intros Hs. split.
  - intros [x H]. apply ipv4_rest_spec in H; [|exact Hs]. destruct H as (a & p & (F & Q & L) & _). exists a, p. auto.
  - intros (a & p & (F & Q) & L). eexists. apply ipv4_rest_spec; [exact Hs|]. exists a, p. split; [split; [exact F|split; [exact Q|exact L]]|reflexivity].
Qed.

Lemma bracket_guar port local r e : valid_str (91 :: r) -> ipv6_bracket port local (91 :: r) = Err e ->
  ip_guarantee v6_is (91 :: r) e.
Proof.
  intros Hs H. pose proof (ipv6_bracket_says port local (91 :: r)) as Sy. rewrite H in Sy.
  assert (L : local <> Allow -> is_ok (ipv6_bracket port Allow (91 :: r)) -> v6_is (match local with Disallow => true | _ => false end) (91 :: r)).
  { intros Hl Ho.
    destruct (local_guar (fun l => ipv6_bracket port l (91 :: r)) (fun a p => v6_form (91 :: r) a p /\ port_ok port p) v6_local is_local_ipv6
      (fun a p F => is_local_ipv6_spec a (v6_addr_of _ _ _ (proj1 F))) (fun l => bracket_ok port l r Hs) local e H Hl Ho) as (a & p & (F & _) & K).
    exists a, p. split; [exact F|]. rewrite K. destruct local; intuition congruence. }
  destruct e; cbn [ip_says ip_guarantee] in *; [exact I| | | |].
  - destruct Sy as (-> & Sy). apply L; [discriminate|exact Sy].
  - destruct Sy as (-> & Sy). apply L; [discriminate|exact Sy].
  - destruct (ends_cases r) as [->|(t & x & ->)]; [|destruct (N.eq_dec x 93) as [->|X]].
    + exfalso. apply (with_port_not_must port local [91]). exact H.
    + right. right. exists t. reflexivity.
    + rewrite bracket_last in H by exact X. destruct (with_port_not_must _ _ _ H).
  - destruct (ends_cases r) as [->|(t & x & ->)]; [|destruct (N.eq_dec x 93) as [->|X]].
    + right. exists [], 91. split; [reflexivity|]. split; [exists []; reflexivity|discriminate].
    + rewrite bracket_plain in H by exact Hs. exfalso. subst port. destruct (ipv6_from_str t); [|discriminate].
      apply finish_port in H. destruct H. congruence.
    + right. exists (t ++ [x]), x. split; [reflexivity|]. split; [exists (91 :: t); reflexivity|exact X].
Qed.
Lemma non_bracket_guar port local s a e : v6_text s a -> ipv6_non_bracket port local a = Err e -> ip_guarantee v6_is s e.
Proof.
  intros T H. unfold ipv6_non_bracket in H. assert (F : v6_form s a None) by (left; exact T).
  destruct port; [injection H as <-; right; left; eauto| |]; eapply finish6; eassumption.
Qed.
Lemma rest_guar port local s e : valid_str s -> ipv4_rest port local s = Err e -> ip_guarantee v4_is s e.
Proof.
  intros Hs H. destruct (last_colon s) as [(t & q & -> & Q)|Q].
  - rewrite ipv4_rest_colon in H by assumption.
    destruct port; [| |injection H as <-; left; apply in_or_app; right; left; reflexivity];
      (destruct (ipv4_from_str t) as [a|] eqn:P; [|injection H as <-; exact I]);
      (destruct (parse_u16 q) as [p|] eqn:U; [|injection H as <-; exact I]);
      apply ipv4_from_str_spec in P; apply parse_u16_spec in U;
      (eapply finish4; [exact P| |exact H]); exists t, q; auto.
  - rewrite ipv4_rest_plain in H by assumption.
    destruct port; [injection H as <-; left; exact Q| |];
      (destruct (ipv4_from_str s) as [a|] eqn:P; [|injection H as <-; exact I]);
      apply ipv4_from_str_spec in P; exact (finish4 local s s a None e P P H).
Qed.

Lemma create_instance_err {A} port (r : A * option N * bool) e : create_instance port r <> Err e.
Proof. destruct r as [[a p] l]. unfold create_instance. destruct port, p; discriminate. Qed.
Lemma lift_err {A} port (r : outcome ip_err (A * option N * bool)) e : obind r (create_instance port) = Err e -> r = Err e.
Proof.
  destruct r as [x|e'|]; cbn [obind]; intros H; [|congruence|discriminate]. destruct (create_instance_err _ _ _ H).
Qed.
Lemma omap_err_inv {E A B} (f : A -> B) (x : outcome E A) e : omap f x = Err e -> x = Err e.
Proof. destruct x; cbn; congruence. Qed.
Lemma guarantee_mono (P Q : bool -> list N -> Prop) s e : (forall b, P b s -> Q b s) -> ip_guarantee P s e -> ip_guarantee Q s e.
Proof. intros H. destruct e; cbn; auto. Qed.

(** C75, addresses. *)
Theorem C75_ip_guarantees : forall port local s e, valid_str s ->
  (ip_parse_str port local s = Err e -> ip_guarantee (fun b s => v4_is b s \/ v6_is b s) s e) /\
  (ipv4_parse_str port local s = Err e -> ip_guarantee v4_is s e) /\
  (ipv6_parse_str port local s = Err e -> ip_guarantee v6_is s e).
Proof.
  intros port local s e Hs. split; [|split]; intros H; apply lift_err in H.
  - destruct s as [|f r]; [injection H as <-; exact I|]. cbn [ip_v_parse_str] in H. destruct (f =? 91) eqn:F.
    + apply N.eqb_eq in F. subst f. apply omap_err_inv, bracket_guar in H; [|exact Hs]. revert H. now apply guarantee_mono; auto.
    + destruct (ipv6_from_str (f :: r)) as [a|] eqn:P; apply omap_err_inv in H.
      * apply ipv6_from_str_spec in P. apply (non_bracket_guar _ _ _ _ _ P) in H. revert H. now apply guarantee_mono; auto.
      * apply rest_guar in H; [|exact Hs]. revert H. now apply guarantee_mono; auto.
  - destruct s as [|f r]; [injection H as <-; exact I|]. apply rest_guar in H; assumption.
  - destruct s as [|f r]; [injection H as <-; exact I|]. cbn [ipv6_v_parse_str] in H. destruct (f =? 91) eqn:F.
    + apply N.eqb_eq in F. subst f. apply bracket_guar in H; assumption.
    + destruct (ipv6_from_str (f :: r)) as [a|] eqn:P; [|injection H as <-; exact I].
      apply ipv6_from_str_spec in P. eapply non_bracket_guar; eassumption.
Qed.

(** The host a text stands for. *)
Definition stands_for_host (idna : list N -> option (list N)) (s : list N) (h : host) : Prop :=
  (exists a p, v6_form s a p /\ h = HIPv6 a) \/
  (exists name, domain_part s name /\ exists a, v4_text name a /\ h = HIPv4 a) \/
  (exists name d, domain_part s name /\ (forall a, ~ v4_text name a) /\ idna name = Some d /\ h = HDomain d).

(** C75, hosts. A text that starts with a bracket is said to have two labels whatever follows. *)
Definition host_guarantee (idna : list N -> option (list N)) (s : list N) (e : host_err) : Prop :=
  match e with
  | HoInvalid => True
  | HoPortMust => no_port s
  | HoPortDisallow => some_port s
  | HoLocalMust => exists h, stands_for_host idna s h /\ ~ host_local h
  | HoLocalDisallow => exists h, stands_for_host idna s h /\ host_local h
  | HoTwoLabelsMust => exists d, stands_for_host idna s (HDomain d) /\ ~ two_labels d
  | HoTwoLabelsDisallow => (exists r, s = [91] ++ r) \/
      exists h, stands_for_host idna s h /\ match h with HDomain d => two_labels d | _ => True end
  end.

Lemma h_finish_err c b h p e : h_finish c b h p = Err e ->
  (e = HoLocalMust /\ b = false) \/ (e = HoLocalDisallow /\ b = true).
Proof.
  unfold h_finish, h_check_local, h_flag. destruct (h_local c), (h_two c), b; cbn; intros [= <-]; auto.
Qed.
Lemma v6_guar idna s e : ip_guarantee v6_is s e -> host_guarantee idna s (ip2h e).
Proof.
  destruct e; cbn; auto; intros (a & p & F & K); exists (HIPv6 a); (split; [left; eauto|]); cbn; intuition congruence.
Qed.
Lemma omap_err_err {E E' A} (f : E -> E') (x : outcome E A) e : omap_err f x = Err e -> exists e', x = Err e' /\ e = f e'.
Proof. destruct x; cbn; intros H; try discriminate. injection H as <-. eauto. Qed.

Theorem C75_host_guarantees_partial : forall idna c s e, idna_no_new_ipv4 idna -> valid_str s ->
  host_parse_str idna c s = Err e -> host_guarantee idna s e.
Proof.
  intros idna c s e Hn Hs H.
  assert (V : host_v_parse_str idna c s = Err e).
  { unfold host_parse_str in H. destruct (host_v_parse_str idna c s) as [[[h p] l]|e'|]; cbn [obind] in H.
    - exfalso. revert H. unfold h_create. destruct (h_port c), p; discriminate.
    - congruence.
    - discriminate. }
  clear H. destruct s as [|f r]; [injection V as <-; exact I|]. unfold host_v_parse_str in V. destruct (f =? 91) eqn:F.
  { apply N.eqb_eq in F. subst f. rewrite h_bracket_eq in V. destruct (is_disallow (h_two c)).
    - injection V as <-. left. exists r. reflexivity.
    - apply omap_err_err in V. destruct V as (e' & V & ->). apply omap_err_inv, bracket_guar in V; [|exact Hs]. now apply v6_guar. }
  clear F. set (s := f :: r) in *. clearbody s.
  destruct (ipv6_from_str s) as [a|] eqn:P6.
  { apply ipv6_from_str_spec in P6. rewrite h_non_bracket_eq in V. destruct (is_disallow (h_two c)).
    - injection V as <-. right. exists (HIPv6 a). split; [left; exists a, None; split; [left; exact P6|reflexivity]|exact I].
    - apply omap_err_err in V. destruct V as (e' & V & ->). apply omap_err_inv in V. apply (non_bracket_guar _ _ _ _ _ P6) in V. now apply v6_guar. }
  unfold h_rest in V. rewrite h_split_eq in V. destruct (d_split (dc c) s) as [[name q]|e'|] eqn:Sp; cbn [omap_err obind] in V; [| |discriminate].
  2:{ injection V as <-. apply d_split_err in Sp. destruct Sp as [(-> & _ & K)|(-> & _ & K)]; left; exact K. }
  pose proof (d_split_part _ _ _ _ Hs Sp) as D.
  destruct (ends_with 46 name) eqn:En; [injection V as <-; exact I|].
  destruct (ipv4_from_str name) as [a|] eqn:P4.
  - apply ipv4_from_str_spec in P4.
    assert (St : stands_for_host idna s (HIPv4 a)) by (right; left; eauto 6).
    destruct (is_disallow (h_two c)); [injection V as <-; right; exists (HIPv4 a); split; [exact St|exact I]|].
    rewrite h_parse_port_eq in V. destruct (d_parse_port (dc c) q) as [p|e'|] eqn:Pp; cbn [omap_err obind] in V; try discriminate.
    2:{ injection V as <-. rewrite (d_parse_port_err _ _ _ Pp). exact I. }
    pose proof (is_local_ipv4_spec a (v4_addr_of name a None P4)) as L.
    apply h_finish_err in V. destruct V as [(-> & B)|(-> & B)]; exists (HIPv4 a); (split; [exact St|]); cbn; rewrite <- L; congruence.
  - assert (N4 : forall a, ~ v4_text name a) by (intros a K; apply ipv4_from_str_spec in K; congruence).
    unfold h_name in V. destruct (idna name) as [d|] eqn:Id; [|injection V as <-; exact I].
    assert (St : stands_for_host idna s (HDomain d)) by (right; right; eauto 8).
    rewrite h_parse_port_eq in V. destruct (d_parse_port (dc c) q) as [p|e'|] eqn:Pp; cbn [omap_err obind] in V; try discriminate.
    2:{ injection V as <-. rewrite (d_parse_port_err _ _ _ Pp). exact I. }
    rewrite h_check_two_eq in V. destruct (d_check_two (dc c) _ d) as [u|e'|] eqn:T; cbn [omap_err obind] in V; try discriminate.
    2:{ injection V as <-. apply d_check_two_err in T. destruct T as [(-> & _ & _ & T)|(-> & _ & _ & T)]; cbn; eauto. }
    rewrite h_check_local_eq in V. destruct (d_check_local (dc c) _) as [w|e'|] eqn:L; cbn [omap_err obind] in V; try discriminate.
    injection V as <-. apply d_check_local_err in L. unfold h_flag in L.
    assert (DL : domain_local d <-> localhost d).
    { apply name_local. intros a K. destruct (Hn _ _ _ Id K) as (b & t & [->| ->] & Kb); [exact (N4 _ Kb)|].
      assert (ends_with 46 (t ++ [46]) = true) by (apply ends_with_spec; eauto). congruence. }
    destruct L as [(-> & L & B)|(-> & L & B)]; cbn in L; rewrite L in B;
      replace (is_allow_only (h_two c) && _)%bool with false in B by (now destruct (h_two c));
      exists (HDomain d); (split; [exact St|]); cbn; rewrite DL, <- localhost_spec; congruence.
Qed.

(** Any text that starts with a bracket is said to have at least two labels, although it may denote no host at all. *)
Theorem C75_host_guarantees_refuted : exists s, valid_str s /\
  host_parse_str idna_ascii (hcfg Allow Allow Disallow) s = Err HoTwoLabelsDisallow /\ ~ In 46 s /\
  forall h, ~ stands_for_host idna_ascii s h.
Proof.
  exists (bs "[localhost"). split; [apply ascii_valid; vm_compute; repeat constructor|]. split; [vm_compute; reflexivity|].
  split; [intros H; vm_compute in H; repeat (destruct H as [H|H]; [discriminate|]); exact H|].
  intros h [(a & p & F & _)|[(name & D & a & T & _)|(name & d & D & _ & T & _)]].
  - assert (Hi : is_ok (ipv6_parse_str Allow Allow (bs "[localhost"))).
    { exists (a, p). apply ipv6_parse_spec; [apply ascii_valid; vm_compute; repeat constructor|]. split; [exact F|]. split; exact I. }
    destruct Hi as (x & Hi). vm_compute in Hi. discriminate.
  - destruct D as [(<- & _)|(q & E & _)].
    + apply ipv4_from_str_spec in T. vm_compute in T. discriminate.
    + assert (K : In 58 (bs "[localhost")) by (rewrite E; apply in_or_app; right; left; reflexivity).
      vm_compute in K. repeat (destruct K as [K|K]; [discriminate|]). exact K.
  - destruct D as [(<- & _)|(q & E & _)].
    + vm_compute in T. discriminate.
    + assert (K : In 58 (bs "[localhost")) by (rewrite E; apply in_or_app; right; left; reflexivity).
      vm_compute in K. repeat (destruct K as [K|K]; [discriminate|]). exact K.
Qed.

Example C75_example_b :
  ip_parse_str Must Allow (bs "[::1]") = Err IpPortMust /\
  ip_parse_str Disallow Disallow (bs "127.0.0.1") = Err IpLocalDisallow /\
  host_parse_str idna_ascii (hcfg Must Allow Allow) (bs "example.com:80") = Err HoLocalMust /\
  host_parse_str idna_ascii (hcfg Allow Allow Must) (bs "example:80") = Err HoTwoLabelsMust /\
  host_parse_str idna_ascii (hcfg Allow Allow Disallow) (bs "8.8.8.8") = Err HoTwoLabelsDisallow.
Proof. vm_compute. repeat split; reflexivity. Qed.

Print Assumptions C75_ip_guarantees.
Print Assumptions C75_host_guarantees_partial.
Print Assumptions C75_host_guarantees_refuted.
