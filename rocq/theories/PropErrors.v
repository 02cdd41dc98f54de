(** Property C74: what the error of a validator with policies says. *)
From Verif Require Import Base IntStr NetModel NetSpec NetProofs IpModel IpSpec LocalProofs IpProofs Utf8 StrFacts Serde
  DomainModel DomainSpec DomainProofs IdnaFrag IdnaDigits HostModel HostSpec HostProofs EmailModel EmailSpec
  PropIp PropDomain PropHost PropEmail PropUnion.
Local Open Scope N_scope.

(** Slices panic or succeed. *)
Lemma str_slice_err {E} l i j (e : E) : str_slice l i j <> Err e.
Proof. unfold str_slice. destruct (_ && _)%bool; discriminate. Qed.
Lemma slice_from_err {E} l i (e : E) : slice_from l i <> Err e.
Proof. unfold slice_from. destruct (_ <=? _)%nat; discriminate. Qed.
Lemma str_slice_from_err {E} l i (e : E) : str_slice_from l i <> Err e.
Proof. apply str_slice_err. Qed.
Lemma idx_err {E} l i (e : E) : idx l i <> Err e.
Proof. unfold idx. destruct (nth_error l i); discriminate. Qed.
Ltac noerr := exfalso; (eapply str_slice_err; eassumption) || (eapply slice_from_err; eassumption)
  || (eapply str_slice_from_err; eassumption) || (eapply idx_err; eassumption).

(** Case analysis on an innermost scrutinee that is not a final check. *)
Ltac simple x := lazymatch x with
  | context [obind _ _] => fail | context [match _ with _ => _ end] => fail | context [finish _ _ _ _] => fail
  | _ => idtac end.
Ltac step := cbn [obind negb andb]; match goal with
  | |- context [obind ?x _] => simple x; destruct x eqn:?; cbn [obind]
  | |- context [match ?x with _ => _ end] => simple x; destruct x eqn:?
  end.
Ltac bash := repeat (step; try reflexivity; try exact I; try noerr).

Lemma finish_err {A} local b (a : A) p :
  match finish local b a p with
  | Ok _ => is_ok (finish Allow b a p)
  | Err IpLocalMust => local = Must /\ is_ok (finish Allow b a p)
  | Err IpLocalDisallow => local = Disallow /\ is_ok (finish Allow b a p)
  | _ => False
  end.
Proof. unfold finish, is_ok. destruct local, b; cbn; eauto. Qed.

(** What each error of the address validators implies; [relaxed] is the result under [local(Allow)], [free] the one
    without any policy. *)
Definition ip_says {A} (port local : tri) (r relaxed free : outcome ip_err A) : Prop :=
  match r with
  | Err IpInvalid => free = Err IpInvalid
  | Err IpPortMust => port = Must
  | Err IpPortDisallow => port = Disallow
  | Err IpLocalMust => local = Must /\ is_ok relaxed
  | Err IpLocalDisallow => local = Disallow /\ is_ok relaxed
  | _ => True
  end.

Ltac fin := match goal with |- context [finish ?l ?b ?a ?p] => 
  pose proof (finish_err l b a p); destruct (finish l b a p) as [|[]|]; tauto end.

Lemma ipv4_rest_says port local s :
  ip_says port local (ipv4_rest port local s) (ipv4_rest port Allow s) (ipv4_rest Allow Allow s).
Proof. unfold ipv4_rest, ip_says. destruct port; bash; try congruence; fin. Qed.

Lemma ipv6_bracket_says port local s :
  ip_says port local (ipv6_bracket port local s) (ipv6_bracket port Allow s) (ipv6_bracket Allow Allow s).
Proof.
  unfold ipv6_bracket, ipv6_without_port, ipv6_with_port, ip_says. destruct port; bash; try congruence; fin.
Qed.

Lemma ipv6_non_bracket_says port local ip :
  ip_says port local (ipv6_non_bracket port local ip) (ipv6_non_bracket port Allow ip) (ipv6_non_bracket Allow Allow ip).
Proof. unfold ipv6_non_bracket, ip_says. destruct port; bash; try congruence; fin. Qed.

(** C74 for the address validators: [parse] as a function of the two policies. *)
Definition ip_error_means {A} (parse : tri -> tri -> outcome ip_err A) : Prop := forall port local e,
  parse port local = Err e ->
  match e with
  | IpInvalid => forall port' local', ~ is_ok (parse port' local')
  | IpPortMust => port = Must /\ (is_ok (parse Allow local) -> is_ok (parse Disallow local))
  | IpPortDisallow => port = Disallow /\ (is_ok (parse Allow local) -> is_ok (parse Must local))
  | IpLocalMust => local = Must /\ is_ok (parse port Disallow)
  | IpLocalDisallow => local = Disallow /\ is_ok (parse port Must)
  end.

Lemma splits_ok {E A B} (f : A -> B) (al mu di : outcome E A) : splits f al mu di ->
  is_ok al <-> is_ok mu \/ is_ok di.
Proof.
  intros [U _]. split.
  - intros (v & H). destruct (proj1 (U (f v)) (ex_intro _ v (conj H eq_refl))) as [(w & K & _)|(w & K & _)];
      [left | right]; exists w; exact K.
  - intros [(v & H)|(v & H)].
    + destruct (proj2 (U (f v)) (or_introl (ex_intro _ v (conj H eq_refl)))) as (w & K & _). exists w. exact K.
    + destruct (proj2 (U (f v)) (or_intror (ex_intro _ v (conj H eq_refl)))) as (w & K & _). exists w. exact K.
Qed.
Lemma union_ok {E A B} (f : A -> B) (al mu di : outcome E A) : union f al mu di ->
  is_ok al <-> is_ok mu \/ is_ok di.
Proof.
  intros U. split.
  - intros (v & H). destruct (proj1 (U (f v)) (ex_intro _ v (conj H eq_refl))) as [(w & K & _)|(w & K & _)];
      [left | right]; exists w; exact K.
  - intros [(v & H)|(v & H)].
    + destruct (proj2 (U (f v)) (or_introl (ex_intro _ v (conj H eq_refl)))) as (w & K & _). exists w. exact K.
    + destruct (proj2 (U (f v)) (or_intror (ex_intro _ v (conj H eq_refl)))) as (w & K & _). exists w. exact K.
Qed.
Lemma not_ok_err {E A} (e : E) : ~ is_ok (@Err E A e).
Proof. intros (v & H). discriminate. Qed.

Lemma ip_lift {A} (v : tri -> tri -> outcome ip_err (A * option N * bool)) (parse : tri -> tri -> outcome ip_err (instance A)) :
  (forall p l, parse p l = let? r := v p l in create_instance p r) ->
  (forall p l, ip_says p l (v p l) (v p Allow) (v Allow Allow)) ->
  (forall p l, parse p l <> Panic) ->
  (forall l, splits (fun v => v) (parse Allow l) (parse Must l) (parse Disallow l)) ->
  (forall p, splits (fun v => v) (parse p Allow) (parse p Must) (parse p Disallow)) ->
  ip_error_means parse.
Proof.
  intros Hp Hs Hn HP HL port local e H.
  assert (CE : forall p r e, @create_instance A p r <> Err e).
  { intros p [[a q] l] e'. unfold create_instance. destruct p, q; discriminate. }
  assert (V : v port local = Err e).
  { rewrite Hp in H. destruct (v port local) as [r|e'|]; cbn in H; [exfalso; exact (CE _ _ _ H) | congruence | discriminate]. }
  assert (OK : forall p l, is_ok (v p l) -> is_ok (parse p l)).
  { intros p l (r & K). specialize (Hn p l). rewrite Hp, K in *. cbn in *.
    destruct (create_instance p r) as [x|e'|] eqn:C; [exists x; reflexivity | exfalso; exact (CE _ _ _ C) | congruence]. }
  specialize (Hs port local). rewrite V in Hs. cbn in Hs.
  pose proof (splits_ok _ _ _ _ (HL port)) as SL. pose proof (splits_ok _ _ _ _ (HP local)) as SP.
  destruct e.
  - intros p' l' K.
    assert (F : is_ok (parse Allow Allow)).
    { apply (splits_ok _ _ _ _ (HP Allow)).
      assert (X : is_ok (parse p' Allow)) by (destruct l'; [| exact K |]; apply (splits_ok _ _ _ _ (HL p')); auto).
      destruct p'; auto. apply (splits_ok _ _ _ _ (HP Allow)). exact X. }
    rewrite Hp, Hs in F. exact (not_ok_err _ F).
  - destruct Hs as [-> Hr]. split; [reflexivity|]. apply OK, SL in Hr. destruct Hr as [Hr|Hr]; [|exact Hr].
    rewrite H in Hr. destruct (not_ok_err _ Hr).
  - destruct Hs as [-> Hr]. split; [reflexivity|]. apply OK, SL in Hr. destruct Hr as [Hr|Hr]; [exact Hr|].
    rewrite H in Hr. destruct (not_ok_err _ Hr).
  - subst port. split; [reflexivity|]. intros K. apply SP in K. destruct K as [K|K]; [|exact K].
    rewrite H in K. destruct (not_ok_err _ K).
  - subst port. split; [reflexivity|]. intros K. apply SP in K. destruct K as [K|K]; [exact K|].
    rewrite H in K. destruct (not_ok_err _ K).
Qed.

Lemma says_omap {A B} (g : A -> B) port local r relaxed free :
  ip_says port local r relaxed free -> ip_says port local (omap g r) (omap g relaxed) (omap g free).
Proof.
  unfold ip_says. destruct r as [x|[]|]; cbn; auto; try (intros ->; reflexivity);
    intros [-> (y & ->)]; (split; [reflexivity|]); eexists; reflexivity.
Qed.

(** C74. [Invalid] means that no choice of policies accepts the text; every other error names a policy that is set, and the
    text passes or fails every other check as it would with the opposite value. *)
Theorem C74_ip_errors : forall s, valid_str s ->
  ip_error_means (fun port local => ip_parse_str port local s) /\
  ip_error_means (fun port local => ipv4_parse_str port local s) /\
  ip_error_means (fun port local => ipv6_parse_str port local s).
Proof.
  intros s Hs. split; [|split].
  - apply (ip_lift (fun p l => ip_v_parse_str p l s)); try (intros; now apply C31_ip_no_panic); try (apply (C73_ip s Hs)).
    + reflexivity.
    + intros p l. unfold ip_v_parse_str. destruct s as [|f r]; [reflexivity|]. destruct (f =? 91).
      * apply says_omap, ipv6_bracket_says.
      * destruct (ipv6_from_str (f :: r)); apply says_omap; [apply ipv6_non_bracket_says | apply ipv4_rest_says].
  - apply (ip_lift (fun p l => ipv4_v_parse_str p l s)); try (intros; now apply C31_ip_no_panic); try (apply (C73_ipv4 s Hs)).
    + reflexivity.
    + intros p l. unfold ipv4_v_parse_str. destruct s as [|f r]; [reflexivity|]. apply ipv4_rest_says.
  - apply (ip_lift (fun p l => ipv6_v_parse_str p l s)); try (intros; now apply C31_ip_no_panic); try (apply (C73_ipv6 s Hs)).
    + reflexivity.
    + intros p l. unfold ipv6_v_parse_str. destruct s as [|f r]; [reflexivity|]. destruct (f =? 91); [apply ipv6_bracket_says|].
      destruct (ipv6_from_str (f :: r)); [apply ipv6_non_bracket_says | reflexivity].
Qed.

(** A port error does not mean that the text is fine otherwise, nor even that there is a port. *)
Theorem C74_ip_port_error_refuted : exists s t, valid_str s /\ valid_str t /\
  ip_parse_str Disallow Allow s = Err IpPortDisallow /\ ip_parse_str Must Allow t = Err IpPortMust /\
  (forall port local v, ip_parse_str port local s <> Ok v) /\ (forall port local v, ip_parse_str port local t <> Ok v) /\
  ipv6_parse_str Disallow Allow (bs "[::1") = Err IpPortDisallow.
Proof.
  exists (bs "no:address"), (bs "neither"). split; [apply ascii_valid; repeat constructor|].
  split; [apply ascii_valid; repeat constructor|]. repeat split.
  - intros [] [] v; vm_compute; discriminate.
  - intros [] [] v; vm_compute; discriminate.
Qed.

(** Domains. *)
Definition domain_error_means (parse : tri -> tri -> tri -> tri -> outcome domain_err domain_val) : Prop := forall i l p t e,
  parse i l p t = Err e ->
  match e with
  | DInvalid => forall i' l' p' t', ~ is_ok (parse i' l' p' t')
  | DIPv4Must => i = Must /\ (is_ok (parse Allow l p t) -> is_ok (parse Disallow l p t))
  | DIPv4Disallow => i = Disallow /\ (is_ok (parse Allow l p t) -> is_ok (parse Must l p t))
  | DPortMust => p = Must /\ (is_ok (parse i l Allow t) -> is_ok (parse i l Disallow t))
  | DPortDisallow => p = Disallow /\ (is_ok (parse i l Allow t) -> is_ok (parse i l Must t))
  | DTwoLabelsMust => t = Must /\ (is_ok (parse i l p Allow) -> is_ok (parse i l p Disallow))
  | DTwoLabelsDisallow => t = Disallow /\ (is_ok (parse i l p Allow) -> is_ok (parse i l p Must))
  | DLocalMust => l = Must /\ is_ok (parse i Disallow p t)
  | DLocalDisallow => l = Disallow /\ is_ok (parse i Must p t)
  end.

Definition domain_says (i l p t : tri) {A} (r free : outcome domain_err A) (other : tri -> outcome domain_err A) : Prop :=
  match r with
  | Err DInvalid => free = Err DInvalid
  | Err DIPv4Must => i = Must
  | Err DIPv4Disallow => i = Disallow
  | Err DPortMust => p = Must
  | Err DPortDisallow => p = Disallow
  | Err DTwoLabelsMust => t = Must
  | Err DTwoLabelsDisallow => t = Disallow
  | Err DLocalMust => l = Must /\ is_ok (other Disallow)
  | Err DLocalDisallow => l = Disallow /\ is_ok (other Must)
  | _ => True
  end.

Lemma domain_v_says idna i l p t s :
  domain_says i l p t (domain_v_parse_str idna (cfg i l p t) s) (domain_v_parse_str idna (cfg Allow Allow Allow Allow) s)
    (fun l' => domain_v_parse_str idna (cfg i l' p t) s).
Proof.
  unfold domain_v_parse_str. destruct s as [|f r]; [reflexivity|]. set (s := f :: r). clearbody s.
  unfold d_split, d_rest, d_parse_port, d_check_local, d_check_two, d_flag, all_allow, domain_says.
  cbn [d_ipv4 d_local d_port d_two cfg].
  destruct i, l, p, t; cbn [is_allow_only is_must is_disallow andb obind negb]; bash; try congruence;
    try discriminate; (split; [reflexivity | eexists; reflexivity]).
Qed.


(** C74, domains, for an IDNA library that accepts IPv4 addresses. *)
Theorem C74_domain_errors : forall idna s, idna_digits idna -> valid_str s ->
  domain_error_means (fun i l p t => domain_parse_str idna (cfg i l p t) s).
Proof.
  intros idna s Hi Hs i l p t e H.
  assert (CE : forall c r e, d_create c r <> Err e).
  { intros c [[[d q] b1] b2] e'. unfold d_create. destruct (d_port c), q; discriminate. }
  assert (V : domain_v_parse_str idna (cfg i l p t) s = Err e).
  { unfold domain_parse_str in H. destruct (domain_v_parse_str idna (cfg i l p t) s) as [r|e'|]; cbn in H;
      [exfalso; exact (CE _ _ _ H) | congruence | discriminate]. }
  assert (OK : forall c, is_ok (domain_v_parse_str idna c s) -> is_ok (domain_parse_str idna c s)).
  { intros c (r & K). pose proof (proj1 (C38_domain_no_panic idna c s Hs)) as Hn. unfold domain_parse_str in *. rewrite K in *.
    cbn in *. destruct (d_create c r) as [x|e'|] eqn:C; [exists x; reflexivity | exfalso; exact (CE _ _ _ C) | congruence]. }
  pose proof (domain_v_says idna i l p t s) as S. rewrite V in S. cbn in S.
  pose proof (fun l p t => splits_ok _ _ _ _ (C73_domain_ipv4 idna l p t s Hi Hs)) as SI.
  pose proof (fun i p t => splits_ok _ _ _ _ (C73_domain_local idna i p t s Hi Hs)) as SL.
  pose proof (fun i l t => splits_ok _ _ _ _ (C73_domain_port idna i l t s Hs)) as SP.
  pose proof (fun i l p => union_ok _ _ _ _ (proj1 (C73_domain_two idna i l p s Hi Hs))) as ST.
  assert (NO : ~ is_ok (domain_parse_str idna (cfg i l p t) s)) by (rewrite H; apply not_ok_err).
  destruct e.
  - intros i' l' p' t' K.
    assert (K1 : is_ok (domain_parse_str idna (cfg Allow l' p' t') s))
      by (destruct i'; [| exact K |]; apply SI; auto).
    assert (K2 : is_ok (domain_parse_str idna (cfg Allow Allow p' t') s))
      by (destruct l'; [| exact K1 |]; apply SL; auto).
    assert (K3 : is_ok (domain_parse_str idna (cfg Allow Allow Allow t') s))
      by (destruct p'; [| exact K2 |]; apply SP; auto).
    assert (K4 : is_ok (domain_parse_str idna (cfg Allow Allow Allow Allow) s))
      by (destruct t'; [| exact K3 |]; apply ST; auto).
    unfold domain_parse_str in K4. rewrite S in K4. exact (not_ok_err _ K4).
  - subst i. split; [reflexivity|]. intros K. apply SI in K. tauto.
  - subst i. split; [reflexivity|]. intros K. apply SI in K. tauto.
  - destruct S as [-> S]. split; [reflexivity|]. exact (OK _ S).
  - destruct S as [-> S]. split; [reflexivity|]. exact (OK _ S).
  - subst t. split; [reflexivity|]. intros K. apply ST in K. tauto.
  - subst t. split; [reflexivity|]. intros K. apply ST in K. tauto.
  - subst p. split; [reflexivity|]. intros K. apply SP in K. tauto.
  - subst p. split; [reflexivity|]. intros K. apply SP in K. tauto.
Qed.

(** Hosts. *)
Definition host_error_means (parse : tri -> tri -> tri -> outcome host_err host_val) : Prop := forall l p t e,
  parse l p t = Err e ->
  match e with
  | HoInvalid => forall l' p' t', ~ is_ok (parse l' p' t')
  | HoPortMust => p = Must /\ (is_ok (parse l Allow t) -> is_ok (parse l Disallow t))
  | HoPortDisallow => p = Disallow /\ (is_ok (parse l Allow t) -> is_ok (parse l Must t))
  | HoTwoLabelsMust => t = Must /\ (is_ok (parse l p Allow) -> is_ok (parse l p Disallow))
  | HoTwoLabelsDisallow => t = Disallow /\ (is_ok (parse l p Allow) -> is_ok (parse l p Must))
  | HoLocalMust => l = Must /\ is_ok (parse Disallow p t)
  | HoLocalDisallow => l = Disallow /\ is_ok (parse Must p t)
  end.

Definition host_says (l p t : tri) {A} (r free : outcome host_err A) (other : tri -> outcome host_err A) : Prop :=
  match r with
  | Err HoInvalid => free = Err HoInvalid
  | Err HoPortMust => p = Must
  | Err HoPortDisallow => p = Disallow
  | Err HoTwoLabelsMust => t = Must
  | Err HoTwoLabelsDisallow => t = Disallow
  | Err HoLocalMust => l = Must /\ is_ok (other Disallow)
  | Err HoLocalDisallow => l = Disallow /\ is_ok (other Must)
  | _ => True
  end.

Lemma h_finish_says l p t b h q :
  host_says l p t (h_finish (hcfg l p t) b h q) (h_finish (hcfg Allow Allow Allow) b h q)
    (fun l' => h_finish (hcfg l' p t) b h q).
Proof.
  unfold h_finish, h_check_local, h_flag, host_says. cbn [h_local h_port h_two hcfg].
  destruct l, t, b; cbn; auto; split; auto; eexists; reflexivity.
Qed.
Lemma h_bracket_says l p t s :
  host_says l p t (h_ipv6_bracket (hcfg l p t) s) (h_ipv6_bracket (hcfg Allow Allow Allow) s)
    (fun l' => h_ipv6_bracket (hcfg l' p t) s).
Proof.
  unfold h_ipv6_bracket, h_ipv6_without_port, h_ipv6_with_port. cbn [h_local h_port h_two hcfg is_disallow].
  destruct (is_disallow t) eqn:Et; [destruct t; try discriminate; reflexivity|].
  destruct (idx s (List.length s - 1)) as [b|e|] eqn:Ei; cbn [obind]; [|exfalso; exact (idx_err _ _ _ Ei)|exact I].
  destruct (b =? 93).
  - destruct p; [reflexivity | |]; (destruct (str_slice s 1 (List.length s - 1)) as [x|e|] eqn:Es; cbn [obind];
      [|exfalso; exact (str_slice_err _ _ _ _ Es)|exact I]); (destruct (ipv6_from_str x); [|reflexivity]).
    + exact (h_finish_says l Allow t _ _ _).
    + exact (h_finish_says l Disallow t _ _ _).
  - destruct p; [| |reflexivity]; (destruct (rposition 58 s) as [n|]; [|reflexivity]);
      (destruct (2 <? n)%nat; cbn [obind]; [|reflexivity]);
      (destruct (idx s (n - 1)) as [y|e|] eqn:Ey; cbn [obind]; [|exfalso; exact (idx_err _ _ _ Ey)|exact I]);
      (destruct (y =? 93); [|reflexivity]);
      (destruct (str_slice s 1 (n - 1)) as [x|e|] eqn:Es; cbn [obind];
         [|exfalso; exact (str_slice_err _ _ _ _ Es)|exact I]);
      (destruct (ipv6_from_str x); [|reflexivity]);
      (destruct (str_slice_from s (n + 1)) as [z|e|] eqn:Ez; cbn [obind];
         [|exfalso; exact (str_slice_from_err _ _ _ Ez)|exact I]);
      (destruct (parse_u16 z); [|reflexivity]).
    + exact (h_finish_says l Must t _ _ _).
    + exact (h_finish_says l Allow t _ _ _).
Qed.

Lemma h_name_says idna l p t d q : (p = Disallow -> q = None) ->
  host_says l p t (h_name idna (hcfg l p t) d q) (h_name idna (hcfg Allow Allow Allow) d q)
    (fun l' => h_name idna (hcfg l' p t) d q).
Proof.
  intros Hq. unfold h_name, h_parse_port, h_check_two, h_check_local, h_flag, host_says. cbn [h_local h_port h_two hcfg].
  destruct (idna d) as [x|]; [|reflexivity]. generalize (is_local_domain x), (is_at_least_two_labels_domain x). intros b1 b2.
  destruct q as [q|].
  - destruct p; [| |discriminate (Hq eq_refl)]; (destruct (parse_u16 q); cbn [obind]; [|reflexivity]);
      destruct l, t, b1, b2; cbn; auto; split; auto; eexists; reflexivity.
  - destruct p, l, t, b1, b2; cbn; auto; split; auto; eexists; reflexivity.
Qed.

Lemma h_rest_says idna l p t s :
  host_says l p t (h_rest idna (hcfg l p t) s) (h_rest idna (hcfg Allow Allow Allow) s)
    (fun l' => h_rest idna (hcfg l' p t) s).
Proof.
  assert (K : forall d q, (p = Disallow -> q = None) ->
    let k := fun c : host_cfg =>
      if ends_with 46 d then Err HoInvalid
      else match ipv4_from_str d with
           | Some ip => if is_disallow (h_two c) then Err HoTwoLabelsDisallow
                        else let? port := h_parse_port c q in h_finish c (is_local_ipv4 ip) (HIPv4 ip) port
           | None => h_name idna c d q
           end in
    host_says l p t (k (hcfg l p t)) (k (hcfg Allow Allow Allow)) (fun l' => k (hcfg l' p t))).
  { intros d q Hq. cbv zeta. destruct (ends_with 46 d); [reflexivity|].
    destruct (ipv4_from_str d); [|now apply h_name_says].
    cbn [h_two hcfg is_disallow]. destruct (is_disallow t) eqn:Et; [destruct t; try discriminate; reflexivity|].
    unfold h_parse_port. cbn [h_port hcfg]. destruct q as [q|].
    - destruct p; [| |discriminate (Hq eq_refl)]; (destruct (parse_u16 q); cbn [obind]; [|reflexivity]).
      + exact (h_finish_says l Must t _ _ _).
      + exact (h_finish_says l Allow t _ _ _).
    - destruct p; cbn [obind].
      + exact (h_finish_says l Must t _ _ _).
      + exact (h_finish_says l Allow t _ _ _).
      + exact (h_finish_says l Disallow t _ _ _). }
  unfold h_rest, h_split. cbn [h_port hcfg]. destruct (rposition 58 s) as [n|].
  - destruct p; [| |reflexivity]; (destruct (str_slice s 0 n) as [x|e|] eqn:Es; cbn [obind];
         [|exfalso; exact (str_slice_err _ _ _ _ Es)|exact I]);
      (destruct (str_slice_from s (n + 1)) as [z|e|] eqn:Ez; cbn [obind];
         [|exfalso; exact (str_slice_from_err _ _ _ Ez)|exact I]); apply (K x (Some z)); discriminate.
  - destruct p; cbn [obind]; [reflexivity | |]; apply (K s None); reflexivity.
Qed.

Lemma host_v_says idna l p t s :
  host_says l p t (host_v_parse_str idna (hcfg l p t) s) (host_v_parse_str idna (hcfg Allow Allow Allow) s)
    (fun l' => host_v_parse_str idna (hcfg l' p t) s).
Proof.
  unfold host_v_parse_str. destruct s as [|f r]; [reflexivity|].
  destruct (f =? 91); [apply h_bracket_says|]. destruct (ipv6_from_str (f :: r)); [|apply h_rest_says].
  unfold h_ipv6_non_bracket. cbn [h_port h_two hcfg is_disallow is_must].
  destruct (is_disallow t) eqn:Et; [destruct t; try discriminate; reflexivity|].
  destruct p; cbn [is_must]; [reflexivity| |].
  - exact (h_finish_says l Allow t _ _ _).
  - exact (h_finish_says l Disallow t _ _ _).
Qed.

(** C74, hosts. *)
Theorem C74_host_errors : forall idna s, valid_str s ->
  host_error_means (fun l p t => host_parse_str idna (hcfg l p t) s).
Proof.
  intros idna s Hs l p t e H.
  assert (CE : forall c r e, h_create c r <> Err e).
  { intros c [[d q] b1] e'. unfold h_create. destruct (h_port c), q; discriminate. }
  assert (V : host_v_parse_str idna (hcfg l p t) s = Err e).
  { unfold host_parse_str in H. destruct (host_v_parse_str idna (hcfg l p t) s) as [r|e'|]; cbn in H;
      [exfalso; exact (CE _ _ _ H) | congruence | discriminate]. }
  assert (OK : forall c, is_ok (host_v_parse_str idna c s) -> is_ok (host_parse_str idna c s)).
  { intros c (r & K). pose proof (proj1 (C40_host_no_panic idna c s Hs)) as Hn. unfold host_parse_str in *. rewrite K in *.
    cbn in *. destruct (h_create c r) as [x|e'|] eqn:C; [exists x; reflexivity | exfalso; exact (CE _ _ _ C) | congruence]. }
  pose proof (host_v_says idna l p t s) as S. rewrite V in S. cbn in S.
  pose proof (fun p t => splits_ok _ _ _ _ (C73_host_local idna p t s Hs)) as SL.
  pose proof (fun l t => splits_ok _ _ _ _ (C73_host_port idna l t s Hs)) as SP.
  pose proof (fun l p => union_ok _ _ _ _ (proj1 (C73_host_two idna l p s Hs))) as ST.
  assert (NO : ~ is_ok (host_parse_str idna (hcfg l p t) s)) by (rewrite H; apply not_ok_err).
  destruct e.
  - intros l' p' t' K.
    assert (K2 : is_ok (host_parse_str idna (hcfg Allow p' t') s))
      by (destruct l'; [| exact K |]; apply SL; auto).
    assert (K3 : is_ok (host_parse_str idna (hcfg Allow Allow t') s))
      by (destruct p'; [| exact K2 |]; apply SP; auto).
    assert (K4 : is_ok (host_parse_str idna (hcfg Allow Allow Allow) s))
      by (destruct t'; [| exact K3 |]; apply ST; auto).
    unfold host_parse_str in K4. rewrite S in K4. exact (not_ok_err _ K4).
  - destruct S as [-> S]. split; [reflexivity|]. exact (OK _ S).
  - destruct S as [-> S]. split; [reflexivity|]. exact (OK _ S).
  - subst t. split; [reflexivity|]. intros K. apply ST in K. tauto.
  - subst t. split; [reflexivity|]. intros K. apply ST in K. tauto.
  - subst p. split; [reflexivity|]. intros K. apply SP in K. tauto.
  - subst p. split; [reflexivity|]. intros K. apply SP in K. tauto.
Qed.

Example C74_example :
  idna_digits idna_ascii /\ valid_str (bs "a.b:80") /\
  ip_parse_str Disallow Allow (bs "1.2.3.4:80") = Err IpPortDisallow /\ is_ok (ip_parse_str Must Allow (bs "1.2.3.4:80")) /\
  ip_parse_str Disallow Allow (bs "1.2.3.400") = Err IpInvalid /\
  domain_parse_str idna_ascii (cfg Allow Allow Disallow Allow) (bs "a.b:80") = Err DPortDisallow /\
  is_ok (domain_parse_str idna_ascii (cfg Allow Allow Must Allow) (bs "a.b:80")) /\
  host_parse_str idna_ascii (hcfg Must Allow Allow) (bs "a.b") = Err HoLocalMust /\
  is_ok (host_parse_str idna_ascii (hcfg Disallow Allow Allow) (bs "a.b")).
Proof.
  split; [intros x a H; rewrite (idna_ascii_digits x a H); discriminate|].
  split; [now apply ascii_valid; repeat constructor|].
  repeat split; try reflexivity; eexists; reflexivity.
Qed.

Print Assumptions C74_ip_errors.
Print Assumptions C74_ip_port_error_refuted.
Print Assumptions C74_domain_errors.
Print Assumptions C74_host_errors.
