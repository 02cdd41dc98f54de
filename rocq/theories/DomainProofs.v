(** The domain validator: exact acceptance, panics, round trips. *)
From Verif Require Import Base IntStr IntStrProofs NetModel NetSpec NetProofs IpModel IpSpec LocalProofs IpProofs
  Utf8 StrFacts Serde DomainModel DomainSpec.
Local Open Scope N_scope.

(** Final dots. *)
Lemma strip_last_snoc c l x : strip_last c (l ++ [x]) = if x =? c then l else l ++ [x].
Proof.
  induction l as [|y l IH]; [reflexivity|]. cbn [app]. destruct (l ++ [x]) as [|z r] eqn:E.
  { destruct l; discriminate. }
  change (strip_last c (y :: z :: r)) with (y :: strip_last c (z :: r)). rewrite IH.
  destruct (x =? c); reflexivity.
Qed.

Lemma ends_with_snoc c l x : ends_with c (l ++ [x]) = (x =? c).
Proof.
  induction l as [|y l IH]; [reflexivity|]. cbn [app]. destruct (l ++ [x]) as [|z r] eqn:E.
  { destruct l; discriminate. }
  change (ends_with c (y :: z :: r)) with (ends_with c (z :: r)). exact IH.
Qed.

Lemma undotted_strip d t : undotted d t <-> strip_last 46 d = t.
Proof.
  unfold undotted. destruct (ends_cases d) as [->|(l & x & ->)].
  - cbn. split.
    + intros [E|[E _]]; [destruct t; discriminate|exact E].
    + intros <-. right. split; [reflexivity|]. intros u E. destruct u; discriminate.
  - rewrite strip_last_snoc. destruct (N.eqb_spec x 46) as [->|Hx]; split.
    + intros [E|[_ E]]; [apply app_inj_tail in E as [E _]; exact E|destruct (E l eq_refl)].
    + intros <-. left. reflexivity.
    + intros [E|[E _]]; [apply app_inj_tail in E as [_ E]; contradiction|exact E].
    + intros <-. right. split; [reflexivity|]. intros u E. apply app_inj_tail in E as [_ E]. contradiction.
Qed.

Lemma strip_cases d : d = strip_last 46 d \/ d = strip_last 46 d ++ [46].
Proof.
  destruct (ends_cases d) as [->|(l & x & ->)]; [left; reflexivity|].
  rewrite strip_last_snoc. destruct (N.eqb_spec x 46) as [->|]; [right; reflexivity|left; reflexivity].
Qed.

Lemma v4_text_no_final_dot t a : v4_text t a -> strip_last 46 t = t.
Proof.
  intros H. destruct (strip_cases t) as [E|E]; [congruence|]. exfalso.
  destruct H as (d1 & d2 & d3 & d4 & n1 & n2 & n3 & n4 & O1 & O2 & O3 & O4 & _ & Et).
  pose proof (octet_length _ _ O4) as L. destruct (ends_cases d4) as [->|(l & x & Ex)]; [cbn in L; lia|].
  apply octet_digits in O4. rewrite Ex in O4. apply Forall_app in O4 as [_ O4]. apply Forall_inv in O4 as [e He].
  rewrite Et in E. rewrite Ex in E. rewrite !app_assoc in E. apply app_inj_tail in E as [_ ->]. discriminate He.
Qed.

Lemma v4_dotted_spec d a : parse_ipv4_allow_an_ended_dot d = Some a <-> v4_dotted d a.
Proof.
  unfold parse_ipv4_allow_an_ended_dot, v4_dotted. rewrite ipv4_from_str_spec. split.
  - intros H. exists (strip_last 46 d). split; [exact (strip_cases d)|exact H].
  - intros (t & [->| ->] & H).
    + rewrite (v4_text_no_final_dot _ _ H). exact H.
    + rewrite strip_last_snoc. exact H.
Qed.

Lemma eq_ignore_case_map : forall a b, eq_ignore_case a b = true <-> List.map lower a = List.map lower b.
Proof.
  induction a as [|x a IH]; intros [|y b]; cbn [eq_ignore_case List.map]; try (split; discriminate).
  - tauto.
  - rewrite andb_true_iff, N.eqb_eq, IH. split; [intros [-> ->]; reflexivity|intros H; injection H as -> ->; auto].
Qed.

Lemma localhost_spec d : is_local_domain d = true <-> localhost d.
Proof.
  unfold is_local_domain, localhost. rewrite eq_ignore_case_map.
  change (List.map lower (bs "localhost")) with (bs "localhost"). split.
  - intros H. exists (strip_last 46 d). split; [exact (strip_cases d)|exact H].
  - intros (t & [->| ->] & H).
    + destruct (strip_cases t) as [E|E]; [congruence|]. exfalso. rewrite E in H. rewrite map_app in H.
      assert (X : List.map lower (strip_last 46 t) ++ [46] = bs "localhos" ++ [116]) by exact H.
      apply app_inj_tail in X as [_ X]. discriminate X.
    + rewrite strip_last_snoc. exact H.
Qed.

Lemma contains_in c l : contains c l = true <-> In c l.
Proof.
  unfold contains. rewrite existsb_exists. split.
  - intros (x & Hi & E). apply N.eqb_eq in E. subst. exact Hi.
  - intros H. exists c. split; [exact H|apply N.eqb_refl].
Qed.

Lemma two_labels_spec d : is_at_least_two_labels_domain d = true <-> two_labels d.
Proof.
  unfold is_at_least_two_labels_domain, two_labels. rewrite contains_in.
  destruct (ends_cases d) as [->|(l & x & ->)].
  - cbn. split; [tauto|]. intros (a & b & E & _). destruct a; discriminate.
  - rewrite strip_last_snoc. split.
    + destruct (N.eqb_spec x 46) as [->|Hx]; intros H.
      * apply in_split in H as (a & b & ->). exists a, (b ++ [46]). split; [rewrite <- app_assoc; reflexivity|].
        destruct b; discriminate.
      * apply in_app_or in H as [H|[H|[]]]; [|contradiction (Hx H)].
        apply in_split in H as (a & b & ->). exists a, (b ++ [x]). split; [rewrite <- app_assoc; reflexivity|].
        destruct b; discriminate.
    + intros (a & b & E & Hb). destruct (ends_cases b) as [->|(b' & y & ->)]; [contradiction|].
      rewrite !app_assoc in E. apply app_inj_tail in E as [-> <-].
      assert (X : In 46 ((a ++ [46]) ++ b')) by (apply in_or_app; left; apply in_or_app; right; left; reflexivity).
      destruct (x =? 46); [exact X|apply in_or_app; left; exact X].
Qed.

Lemma v4_dotted_fun d a b : v4_dotted d a -> v4_dotted d b -> a = b.
Proof. rewrite <- !v4_dotted_spec. congruence. Qed.

Lemma v4_dotted_addr d a : v4_dotted d a -> v4_addr a.
Proof. intros (t & _ & H). exact (v4_text_addr _ _ H). Qed.

Lemma v4_dotted_not_localhost d a : v4_dotted d a -> ~ localhost d.
Proof.
  intros (t & Ht & Hv) (u & Hu & Hl). pose proof (v4_head _ _ Hv) as (ds & r & Hds & Hne & E).
  destruct ds as [|c ds]; [contradiction|]. pose proof (v4_chars _ _ Hv) as Hc.
  rewrite E in Hc. apply Forall_inv in Hc. unfold v4_char in Hc.
  destruct u as [|y u]; [discriminate Hl|]. cbn [List.map] in Hl.
  assert (c = y) as -> by (destruct Ht as [->| ->], Hu as [Hu|Hu]; rewrite E in Hu; cbn in Hu; congruence).
  injection Hl as Hl _. unfold lower in Hl. destruct ((65 <=? y) && (y <=? 90)) eqn:El; lia.
Qed.

Lemma v4_two_labels d a : v4_dotted d a -> two_labels d.
Proof.
  intros (t & Ht & d1 & d2 & d3 & d4 & n1 & n2 & n3 & n4 & O1 & O2 & O3 & O4 & _ & E).
  destruct Ht as [-> | ->]; rewrite E; [exists d1, (d2 ++ [46] ++ d3 ++ [46] ++ d4)|
    exists d1, ((d2 ++ [46] ++ d3 ++ [46] ++ d4) ++ [46])]; (split; [rewrite <- ?app_assoc; reflexivity|]);
  destruct d2; discriminate.
Qed.

(** The exact acceptance. *)
Lemma d_split_spec c s dom q : valid_str s ->
  (d_split c s = Ok (dom, q) <->
   match q with
   | None => s = dom /\ ~ In 58 s /\ d_port c <> Must
   | Some q => s = dom ++ [58] ++ q /\ ~ In 58 q /\ d_port c <> Disallow
   end).
Proof.
  intros Hv. unfold d_split. destruct (last_colon s) as [(t & u & -> & Hu)|H].
  - rewrite (proj2 (rposition_some 58 (t ++ 58 :: u) (List.length t))) by (exists t, u; auto).
    rewrite (str_slice_before t 58 u) by lia. rewrite (str_slice_after t 58 u) by (assumption || lia).
    cbn [obind]. split.
    + intros H. assert (X : d_port c <> Disallow /\ Ok (t, Some u) = Ok (E := domain_err) (dom, q)).
      { destruct (d_port c); try discriminate H; (split; [discriminate|exact H]). }
      destruct X as [Hp X]. injection X as <- <-. auto.
    + destruct q as [q|].
      * intros (E & Hq & Hp). apply app_eq_unit_split in E as [-> ->]; [|assumption|assumption].
        destruct (d_port c); [reflexivity|reflexivity|contradiction].
      * intros (_ & Hn & _). exfalso. apply Hn. apply in_or_app. right. left. reflexivity.
  - pose proof (proj2 (rposition_none 58 s) H) as R. rewrite R. split.
    + intros X. assert (Y : d_port c <> Must /\ Ok (s, None) = Ok (E := domain_err) (dom, q)).
      { destruct (d_port c); try discriminate X; (split; [discriminate|exact X]). }
      destruct Y as [Hp Y]. injection Y as <- <-. auto.
    + destruct q as [q|].
      * intros (E & _). exfalso. apply H. rewrite E. apply in_or_app. right. left. reflexivity.
      * intros (-> & _ & Hp). destruct (d_port c); [contradiction|reflexivity|reflexivity].
Qed.

Lemma d_split_no_panic c s : valid_str s -> d_split c s <> Panic.
Proof.
  intros Hv. unfold d_split. destruct (last_colon s) as [(t & u & -> & Hu)|H].
  - rewrite (proj2 (rposition_some 58 (t ++ 58 :: u) (List.length t))) by (exists t, u; auto).
    rewrite (str_slice_before t 58 u) by lia. rewrite (str_slice_after t 58 u) by (assumption || lia).
    cbn [obind]. destruct (d_port c); discriminate.
  - rewrite (proj2 (rposition_none 58 s) H). destruct (d_port c); discriminate.
Qed.

(** What a successful port parse means, once the split is known. *)
Lemma split_port_spec c s dom p : valid_str s ->
  ((exists q, d_split c s = Ok (dom, q) /\ d_parse_port c q = Ok p) <-> split_port s dom p /\ port_ok (d_port c) p).
Proof.
  intros Hv. split.
  - intros (q & H1 & H2). apply d_split_spec in H1; [|exact Hv]. unfold d_parse_port in H2. destruct q as [q|].
    + destruct H1 as (-> & Hq & Hp). assert (X : exists n, parse_u16 q = Some n /\ p = Some n).
      { destruct (d_port c); try contradiction; destruct (parse_u16 q) as [n|]; try discriminate H2;
        injection H2 as <-; exists n; auto. }
      destruct X as (n & Hn & ->). apply parse_u16_spec in Hn. split; [exists q; auto|].
      destruct (d_port c); cbn; [discriminate|exact I|contradiction].
    + destruct H1 as (<- & Hn & Hp). assert (p = None) as -> by (destruct (d_port c); congruence).
      split; [split; auto|]. destruct (d_port c); cbn; [contradiction|exact I|reflexivity].
  - intros (Hs & Hp). destruct p as [p|]; cbn [split_port] in Hs.
    + destruct Hs as (q & E & Hq). exists (Some q). split.
      * apply d_split_spec; [exact Hv|]. split; [exact E|]. split; [apply (port_text_not_in _ _ 58 Hq); lia|].
        destruct (d_port c); cbn in Hp; try discriminate Hp; discriminate.
      * unfold d_parse_port. rewrite (proj2 (parse_u16_spec _ _) Hq).
        destruct (d_port c); cbn in Hp; try discriminate Hp; reflexivity.
    + destruct Hs as [-> Hn]. exists None. split.
      * apply d_split_spec; [exact Hv|]. split; [reflexivity|]. split; [exact Hn|].
        destruct (d_port c); cbn in Hp; try discriminate. contradiction.
      * unfold d_parse_port. destruct (d_port c); reflexivity.
Qed.

Lemma d_check_local_spec c b : d_check_local c b = Ok tt <-> local_ok (d_local c) (b = true).
Proof.
  unfold d_check_local. destruct (d_local c), b; cbn; split; intros H;
    try reflexivity; try discriminate; try exact I. exfalso. apply H. reflexivity.
Qed.

Lemma d_check_local_cases c b : d_check_local c b = Ok tt \/ exists e, d_check_local c b = Err e.
Proof. unfold d_check_local. destruct (d_local c), b; cbn; eauto. Qed.

Lemma d_check_two_spec c l d : d_check_two c l d = Ok tt <-> two_ok (d_two c) (l = true) d.
Proof.
  unfold d_check_two, two_ok. pose proof (two_labels_spec d) as T.
  destruct (d_two c), l; cbn [negb andb]; try (split; [intros _|]; auto; fail);
    destruct (is_at_least_two_labels_domain d) eqn:E; cbn [negb]; split; intros H; try reflexivity; try discriminate H;
    try (right; apply T; reflexivity); try (right; intros X; apply T in X; discriminate X).
  - destruct H as [H|H]; [discriminate H|]. apply T in H. discriminate H.
  - destruct H as [H|H]; [discriminate H|]. exfalso. apply H. apply T. reflexivity.
Qed.

Lemma d_check_two_cases c l d : d_check_two c l d = Ok tt \/ exists e, d_check_two c l d = Err e.
Proof.
  unfold d_check_two. destruct (d_two c), l, (is_at_least_two_labels_domain d); cbn; eauto.
Qed.

Section WithIdna.
Variable idna : list N -> option (list N).

(** The three ways to be accepted: domain [d], port [p], [is4], [isl]. *)
Definition acc_plain c s dom p d (is4 isl : bool) : Prop :=
  all_allow c = true /\ split_port s dom p /\ port_ok (d_port c) p /\ idna dom = Some d /\ is4 = false /\ isl = false.
Definition acc_ipv4 c s dom p d (is4 isl : bool) : Prop :=
  all_allow c = false /\ split_port s dom p /\ port_ok (d_port c) p /\
  exists a, v4_dotted dom a /\ d_ipv4 c <> Disallow /\ d_two c <> Disallow /\
    isl = d_flag c (is_local_ipv4 a) /\ local_ok (d_local c) (isl = true) /\ d = s /\ is4 = true.
Definition acc_name c s dom p d (is4 isl : bool) : Prop :=
  all_allow c = false /\ split_port s dom p /\ port_ok (d_port c) p /\
  (forall a, ~ v4_dotted dom a) /\ d_ipv4 c <> Must /\ idna dom = Some d /\
  isl = d_flag c (is_local_domain d) /\ two_ok (d_two c) (isl = true) d /\ local_ok (d_local c) (isl = true) /\
  is4 = false.

Lemma d_rest_spec c s d p is4 isl : valid_str s -> s <> [] ->
  (domain_v_parse_str idna c s = Ok (d, p, is4, isl) <->
   exists dom, acc_plain c s dom p d is4 isl \/ acc_ipv4 c s dom p d is4 isl \/ acc_name c s dom p d is4 isl).
Proof.
  intros Hv Hne. destruct s as [|x s]; [contradiction|].
  change (domain_v_parse_str idna c (x :: s)) with
    (let? r := d_split c (x :: s) in let '(domain_str, port_str) := r in d_rest idna c (x :: s) domain_str port_str).
  set (w := x :: s) in *. split.
  - destruct (d_split c w) as [[dom q]| |] eqn:Es; try discriminate. cbn [obind]. unfold d_rest.
    assert (SP : forall n, d_parse_port c q = Ok n -> split_port w dom n /\ port_ok (d_port c) n).
    { intros n Hn. apply split_port_spec; [exact Hv|]. exists q. auto. }
    destruct (all_allow c) eqn:Ea.
    + destruct (idna dom) as [e|] eqn:Ei; [|discriminate]. destruct (d_parse_port c q) as [n| |] eqn:Ep; try discriminate.
      cbn [obind]. intros H. injection H as <- <- <- <-. destruct (SP n eq_refl) as [S1 S2].
      exists dom. left. repeat split; auto.
    + destruct (parse_ipv4_allow_an_ended_dot dom) as [a|] eqn:E4.
      * apply v4_dotted_spec in E4. destruct (is_disallow (d_ipv4 c)) eqn:D1; [discriminate|].
        destruct (is_disallow (d_two c)) eqn:D2; [discriminate|].
        destruct (d_parse_port c q) as [n| |] eqn:Ep; try discriminate. cbn [obind].
        destruct (d_check_local c (d_flag c (is_local_ipv4 a))) as [u| |] eqn:El; try discriminate. cbn [obind].
        intros H. injection H as <- <- <- <-. destruct (SP n eq_refl) as [S1 S2]. destruct u.
        exists dom. right. left. split; [exact Ea|]. split; [exact S1|]. split; [exact S2|]. exists a.
        split; [exact E4|]. split; [destruct (d_ipv4 c); congruence || discriminate|].
        split; [destruct (d_two c); congruence || discriminate|]. split; [reflexivity|].
        split; [apply d_check_local_spec; exact El|]. split; reflexivity.
      * assert (N4 : forall a, ~ v4_dotted dom a) by (intros a X; apply v4_dotted_spec in X; congruence).
        destruct (is_must (d_ipv4 c)) eqn:D1; [discriminate|].
        destruct (idna dom) as [e|] eqn:Ei; [|discriminate]. destruct (d_parse_port c q) as [n| |] eqn:Ep; try discriminate.
        cbn [obind]. set (isl0 := d_flag c (is_local_domain e)).
        destruct (d_check_two c isl0 e) as [u| |] eqn:Et; try discriminate. cbn [obind].
        destruct (d_check_local c isl0) as [u'| |] eqn:El; try discriminate. cbn [obind].
        intros H. injection H as <- <- <- <-. destruct (SP n eq_refl) as [S1 S2]. destruct u, u'.
        exists dom. right. right. split; [exact Ea|]. split; [exact S1|]. split; [exact S2|].
        split; [exact N4|]. split; [destruct (d_ipv4 c); congruence || discriminate|]. split; [exact Ei|].
        split; [reflexivity|]. split; [apply d_check_two_spec; exact Et|]. split; [apply d_check_local_spec; exact El|reflexivity].
  - intros (dom & H).
    assert (SP : split_port w dom p /\ port_ok (d_port c) p).
    { destruct H as [H|[H|H]]; destruct H as (_ & H1 & H2 & _); auto. }
    apply split_port_spec in SP; [|exact Hv]. destruct SP as (q & Es & Ep). rewrite Es. cbn [obind]. unfold d_rest.
    destruct H as [H|[H|H]].
    + destruct H as (Ha & _ & _ & Hi & -> & ->). rewrite Ha, Hi, Ep. reflexivity.
    + destruct H as (Ha & _ & _ & a & H4 & H1 & H2 & -> & Hl & -> & ->). rewrite Ha.
      apply v4_dotted_spec in H4. rewrite H4. apply d_check_local_spec in Hl. rewrite Ep, Hl.
      destruct (d_ipv4 c); try contradiction; destruct (d_two c); try contradiction; reflexivity.
    + destruct H as (Ha & _ & _ & H4 & H1 & Hi & -> & Ht & Hl & ->). rewrite Ha.
      destruct (parse_ipv4_allow_an_ended_dot dom) as [a|] eqn:E4; [apply v4_dotted_spec in E4; destruct (H4 a E4)|].
      apply d_check_local_spec in Hl. apply d_check_two_spec in Ht. rewrite Hi, Ep. cbn [obind]. rewrite Ht. cbn [obind].
      rewrite Hl. destruct (d_ipv4 c); try contradiction; reflexivity.
Qed.

Lemma d_parse_port_no_panic c q : d_parse_port c q <> Panic.
Proof. unfold d_parse_port. destruct (d_port c), q as [q|]; try discriminate; destruct (parse_u16 q); discriminate. Qed.

Lemma domain_v_no_panic c s : valid_str s -> domain_v_parse_str idna c s <> Panic.
Proof.
  intros Hv. destruct s as [|x s]; [discriminate|].
  change (domain_v_parse_str idna c (x :: s)) with
    (let? r := d_split c (x :: s) in let '(domain_str, port_str) := r in d_rest idna c (x :: s) domain_str port_str).
  pose proof (d_split_no_panic c (x :: s) Hv) as Hs.
  destruct (d_split c (x :: s)) as [[dom q]| |]; [|discriminate|contradiction]. cbn [obind]. unfold d_rest.
  pose proof (d_parse_port_no_panic c q) as Hp.
  destruct (all_allow c).
  - destruct (idna dom); [|discriminate]. destruct (d_parse_port c q); [discriminate|discriminate|contradiction].
  - destruct (parse_ipv4_allow_an_ended_dot dom) as [a|].
    + destruct (is_disallow (d_ipv4 c)); [discriminate|]. destruct (is_disallow (d_two c)); [discriminate|].
      destruct (d_parse_port c q); [|discriminate|contradiction]. cbn [obind].
      destruct (d_check_local_cases c (d_flag c (is_local_ipv4 a))) as [E|[e E]]; rewrite E; discriminate.
    + destruct (is_must (d_ipv4 c)); [discriminate|]. destruct (idna dom) as [e|]; [|discriminate].
      destruct (d_parse_port c q); [|discriminate|contradiction]. cbn [obind].
      destruct (d_check_two_cases c (d_flag c (is_local_domain e)) e) as [E|[e' E]]; rewrite E; [|discriminate]. cbn [obind].
      destruct (d_check_local_cases c (d_flag c (is_local_domain e))) as [E'|[e' E']]; rewrite E'; discriminate.
Qed.

Lemma d_create_spec c d p is4 isl v : port_ok (d_port c) p ->
  (d_create c (d, p, is4, isl) = Ok v <->
   v = {| dv_domain := d; dv_port := p; dv_is_ipv4 := if has_is_ipv4 c then Some is4 else None;
          dv_is_local := if has_is_local c then Some isl else None |}).
Proof.
  intros Hp. unfold d_create. destruct (d_port c); cbn in Hp.
  - destruct p as [p|]; [|contradiction]. split; [intros H; injection H as <-; reflexivity|intros ->; reflexivity].
  - split; [intros H; injection H as <-; reflexivity|intros ->; reflexivity].
  - subst p. split; [intros H; injection H as <-; reflexivity|intros ->; reflexivity].
Qed.

Lemma acc_port_ok c s dom p d is4 isl :
  acc_plain c s dom p d is4 isl \/ acc_ipv4 c s dom p d is4 isl \/ acc_name c s dom p d is4 isl ->
  port_ok (d_port c) p.
Proof. intros [H|[H|H]]; destruct H as (_ & _ & H & _); exact H. Qed.

Lemma domain_parse_v c s v : valid_str s ->
  (domain_parse_str idna c s = Ok v <->
   s <> [] /\ exists dom is4 isl,
     (acc_plain c s dom (dv_port v) (dv_domain v) is4 isl \/ acc_ipv4 c s dom (dv_port v) (dv_domain v) is4 isl \/
      acc_name c s dom (dv_port v) (dv_domain v) is4 isl) /\
     dv_is_ipv4 v = (if has_is_ipv4 c then Some is4 else None) /\
     dv_is_local v = (if has_is_local c then Some isl else None)).
Proof.
  intros Hv. unfold domain_parse_str. split.
  - destruct (domain_v_parse_str idna c s) as [[[[d p] is4] isl]| |] eqn:E; try discriminate. cbn [obind].
    assert (Hne : s <> []) by (intros ->; discriminate E).
    apply d_rest_spec in E as [dom H]; [|exact Hv|exact Hne]. intros C.
    apply d_create_spec in C; [|exact (acc_port_ok _ _ _ _ _ _ _ H)]. subst v. cbn [dv_port dv_domain dv_is_ipv4 dv_is_local].
    split; [exact Hne|]. exists dom, is4, isl. auto.
  - intros (Hne & dom & is4 & isl & H & E1 & E2).
    rewrite (proj2 (d_rest_spec c s _ _ is4 isl Hv Hne) (ex_intro _ dom H)). cbn [obind].
    apply d_create_spec; [exact (acc_port_ok _ _ _ _ _ _ _ H)|]. destruct v as [vd vp v4 vl].
    cbn [dv_port dv_domain dv_is_ipv4 dv_is_local] in *. subst v4 vl. reflexivity.
Qed.

Lemma domain_no_panic c s : valid_str s ->
  domain_parse_str idna c s <> Panic /\ domain_validate_str idna c s <> Panic.
Proof.
  intros Hv. unfold domain_parse_str, domain_validate_str. pose proof (domain_v_no_panic c s Hv) as H.
  destruct (domain_v_parse_str idna c s) as [[[[d p] is4] isl]| |] eqn:E; [|split; discriminate|contradiction].
  cbn [obind]. split; [|discriminate].
  assert (Hne : s <> []) by (intros ->; discriminate E).
  apply d_rest_spec in E as [dom A]; [|exact Hv|exact Hne]. apply acc_port_ok in A.
  rewrite (proj2 (d_create_spec c d p is4 isl _ A) eq_refl). discriminate.
Qed.

Lemma domain_validate_parse c s : valid_str s ->
  (is_ok (domain_validate_str idna c s) <-> is_ok (domain_parse_str idna c s)).
Proof.
  intros Hv. unfold domain_parse_str, domain_validate_str.
  destruct (domain_v_parse_str idna c s) as [[[[d p] is4] isl]| |] eqn:E; cbn [obind]; [|split; intros [? X]; discriminate X..].
  split; intros _; [|exists tt; reflexivity].
  assert (Hne : s <> []) by (intros ->; discriminate E).
  apply d_rest_spec in E as [dom A]; [|exact Hv|exact Hne]. apply acc_port_ok in A.
  eexists. apply (proj2 (d_create_spec c d p is4 isl _ A)). reflexivity.
Qed.
End WithIdna.

(** Authority strings. *)
Lemma get_domain_ok {E} d : @get_domain_non_fully_qualified E d = Ok (strip_last 46 d).
Proof.
  unfold get_domain_non_fully_qualified, is_fully_qualified. destruct (ends_cases d) as [->|(l & x & ->)]; [reflexivity|].
  rewrite ends_with_snoc, strip_last_snoc. destruct (N.eqb_spec x 46) as [->|]; [|reflexivity].
  rewrite app_length. cbn [List.length]. replace (List.length l + 1 - 1)%nat with (List.length l) by lia.
  apply str_slice_before. lia.
Qed.

Lemma domain_authority_ok {E} v : @domain_authority E v = Ok (
  match dv_port v with
  | Some p => strip_last 46 (dv_domain v) ++ [58] ++ dec_of_N p
  | None => strip_last 46 (dv_domain v)
  end).
Proof. unfold domain_authority. rewrite get_domain_ok. cbn [obind]. destruct (dv_port v); reflexivity. Qed.

Lemma strip_idem d : (forall u, strip_last 46 d <> u ++ [46]) -> strip_last 46 (strip_last 46 d) = strip_last 46 d.
Proof.
  intros H. destruct (strip_cases (strip_last 46 d)) as [E|E]; [congruence|]. destruct (H _ E).
Qed.

(** The acceptance in terms of the specification. *)
Lemma all_allow_spec c : all_allow c = true <-> no_policy c.
Proof.
  unfold all_allow, no_policy. destruct (d_ipv4 c), (d_local c), (d_two c); cbn; intuition discriminate.
Qed.

Lemma has_fields c : has_is_local c = local_field c /\ has_is_ipv4 c = ipv4_field c.
Proof.
  unfold has_is_ipv4, has_is_local, ipv4_field, local_field.
  destruct (d_ipv4 c), (d_local c), (d_two c); split; reflexivity.
Qed.

Lemma d_flag_cases c b : (d_local c = Allow /\ d_two c = Allow) \/ d_flag c b = b.
Proof. unfold d_flag. destruct (d_local c), (d_two c); cbn; auto. Qed.

Lemma field_iff (present : bool) (P : Prop) (b : bool) (f : option bool) : (b = true <-> P) ->
  (f = (if present then Some b else None) <-> field present P f).
Proof.
  intros H. unfold field. split.
  - intros ->. destruct present; cbn; auto.
  - destruct f as [x|]; [|intros ->; reflexivity]. intros [-> E]. f_equal. destruct x, b; auto; exfalso.
    + assert (X : false = true) by tauto. discriminate X.
    + assert (X : false = true) by tauto. discriminate X.
Qed.

Lemma flag_local c b (P : Prop) : (b = true <-> P) -> (local_ok (d_local c) (d_flag c b = true) <-> local_ok (d_local c) P).
Proof.
  intros H. destruct (d_flag_cases c b) as [[E _]|E]; [rewrite E; cbn; tauto|]. rewrite E. apply local_ok_iff, H.
Qed.

Lemma flag_two c b (P : Prop) d : (b = true <-> P) -> (two_ok (d_two c) (d_flag c b = true) d <-> two_ok (d_two c) P d).
Proof.
  intros H. destruct (d_flag_cases c b) as [[_ E]|E]; [rewrite E; cbn; tauto|]. rewrite E.
  unfold two_ok. destruct (d_two c); tauto.
Qed.

Lemma flag_field c b (P : Prop) f : (b = true <-> P) ->
  (f = (if has_is_local c then Some (d_flag c b) else None) <-> field (local_field c) P f).
Proof.
  intros H. destruct (has_fields c) as [-> _]. destruct (d_flag_cases c b) as [[E1 E2]|E].
  - unfold local_field. rewrite E1, E2. cbn. split; [intros ->; reflexivity|].
    destruct f; [intros [X _]; discriminate X|reflexivity].
  - rewrite E. apply field_iff, H.
Qed.

Theorem domain_parse_spec idna c s v : valid_str s ->
  (domain_parse_str idna c s = Ok v <-> domain_accepts idna c s v).
Proof.
  intros Hv. rewrite domain_parse_v by exact Hv. unfold domain_accepts. destruct (has_fields c) as [HL H4].
  split.
  - intros (Hne & dom & is4 & isl & H & E4 & EL). split; [exact Hne|]. exists dom.
    destruct H as [H|[H|H]].
    + destruct H as (Ha & S1 & S2 & Hi & -> & ->). split; [exact S1|]. split; [exact S2|]. left.
      apply all_allow_spec in Ha. split; [exact Ha|]. split; [exact Hi|]. destruct Ha as (A1 & A2 & A3).
      unfold has_is_ipv4, has_is_local in *. rewrite A1, A2, A3 in *. cbn in *. auto.
    + destruct H as (Ha & S1 & S2 & a & Hd & N1 & N2 & -> & Hl & -> & ->). split; [exact S1|]. split; [exact S2|].
      right. left. split; [rewrite <- all_allow_spec; congruence|]. exists a.
      pose proof (is_local_ipv4_spec a (v4_dotted_addr _ _ Hd)) as L.
      split; [exact Hd|]. split; [exact N1|]. split; [exact N2|]. split; [apply (flag_local c _ _ L); exact Hl|].
      split; [reflexivity|]. split; [|apply (flag_field c _ _ _ L); exact EL].
      rewrite H4 in E4. apply (field_iff _ True true _); [tauto|exact E4].
    + destruct H as (Ha & S1 & S2 & N4 & N1 & Hi & -> & Ht & Hl & ->). split; [exact S1|]. split; [exact S2|].
      right. right. split; [rewrite <- all_allow_spec; congruence|].
      pose proof (localhost_spec (dv_domain v)) as L.
      split; [exact N4|]. split; [exact N1|]. split; [exact Hi|]. split; [apply (flag_two c _ _ _ L); exact Ht|].
      split; [apply (flag_local c _ _ L); exact Hl|]. split; [|apply (flag_field c _ _ _ L); exact EL].
      rewrite H4 in E4. apply (field_iff _ False false _); [intuition discriminate|exact E4].
  - intros (Hne & dom & S1 & S2 & H). split; [exact Hne|]. exists dom. destruct H as [H|[H|H]].
    + destruct H as (Ha & Hi & E4 & EL). exists false, false. split.
      * left. repeat split; auto. apply all_allow_spec. exact Ha.
      * destruct Ha as (A1 & A2 & A3). unfold has_is_ipv4, has_is_local. rewrite A1, A2, A3. cbn. auto.
    + destruct H as (Ha & a & Hd & N1 & N2 & Hl & -> & F4 & FL).
      pose proof (is_local_ipv4_spec a (v4_dotted_addr _ _ Hd)) as L.
      exists true, (d_flag c (is_local_ipv4 a)). split; [|split].
      * right. left. split; [destruct (all_allow c) eqn:E; [apply all_allow_spec in E; contradiction|reflexivity]|].
        split; [exact S1|]. split; [exact S2|]. exists a. repeat split; auto. apply (flag_local c _ _ L); exact Hl.
      * rewrite H4. apply (field_iff _ True true _); [tauto|exact F4].
      * apply (flag_field c _ _ _ L). exact FL.
    + destruct H as (Ha & N4 & N1 & Hi & Ht & Hl & F4 & FL).
      pose proof (localhost_spec (dv_domain v)) as L.
      exists false, (d_flag c (is_local_domain (dv_domain v))). split; [|split].
      * right. right. split; [destruct (all_allow c) eqn:E; [apply all_allow_spec in E; contradiction|reflexivity]|].
        split; [exact S1|]. split; [exact S2|]. split; [exact N4|]. split; [exact N1|]. split; [exact Hi|].
        split; [reflexivity|]. split; [apply (flag_two c _ _ _ L); exact Ht|].
        split; [apply (flag_local c _ _ L); exact Hl|reflexivity].
      * rewrite H4. apply (field_iff _ False false _); [intuition discriminate|exact F4].
      * apply (flag_field c _ _ _ L). exact FL.
Qed.

(** Policies hold of the name that is stored (without the port that an IPv4 address keeps). *)
Theorem domain_policies idna c s v : idna_no_new_ipv4 idna -> valid_str s -> domain_parse_str idna c s = Ok v ->
  exists name dom, split_port s name (dv_port v) /\
    (((exists a, v4_dotted name a) /\ dom = name /\ dv_domain v = s) \/
     (idna name = Some dom /\ dv_domain v = dom)) /\
    port_ok (d_port c) (dv_port v) /\ ipv4_ok (d_ipv4 c) (exists a, v4_dotted dom a) /\
    local_ok (d_local c) (domain_local dom) /\ two_ok (d_two c) (domain_local dom) dom /\
    field (ipv4_field c) (exists a, v4_dotted dom a) (dv_is_ipv4 v) /\
    field (local_field c) (domain_local dom) (dv_is_local v).
Proof.
  intros Hlaw Hv H. apply domain_parse_spec in H; [|exact Hv]. destruct H as (_ & name & S1 & S2 & H).
  exists name. destruct H as [H|[H|H]].
  - destruct H as ((A1 & A2 & A3) & Hi & E4 & EL). exists (dv_domain v). split; [exact S1|].
    split; [right; auto|]. split; [exact S2|]. unfold local_field, ipv4_field, local_field.
    rewrite A1, A2, A3, E4, EL. cbn. auto.
  - destruct H as (_ & a & Hd & N1 & N2 & Hl & E & F4 & FL). exists name. split; [exact S1|].
    split; [left; eauto|]. split; [exact S2|].
    assert (L : v4_local a <-> domain_local name).
    { unfold domain_local. split; [intros X; right; exists a; auto|].
      intros [X|(b & Hb & X)]; [destruct (v4_dotted_not_localhost _ _ Hd X)|].
      rewrite (v4_dotted_fun _ _ _ Hd Hb). exact X. }
    split; [destruct (d_ipv4 c); cbn; [eauto|exact I|contradiction]|].
    split; [apply (local_ok_iff _ _ _ L); exact Hl|].
    split; [destruct (d_two c); cbn; [right; exact (v4_two_labels _ _ Hd)|exact I|contradiction]|].
    split.
    + unfold field in *. destruct (dv_is_ipv4 v); [|exact F4]. destruct F4 as [F4 F5]. split; [exact F4|].
      split; [eauto|tauto].
    + unfold field in *. destruct (dv_is_local v); [|exact FL]. destruct FL as [F5 F6]. split; [exact F5|tauto].
  - destruct H as (_ & N4 & N1 & Hi & Ht & Hl & F4 & FL). exists (dv_domain v). split; [exact S1|].
    split; [right; auto|]. split; [exact S2|].
    assert (N4' : forall a, ~ v4_dotted (dv_domain v) a).
    { intros a X. destruct (Hlaw _ _ _ Hi X) as [b Hb]. exact (N4 b Hb). }
    assert (L : localhost (dv_domain v) <-> domain_local (dv_domain v)).
    { unfold domain_local. split; [auto|]. intros [X|(a & Ha & _)]; [exact X|destruct (N4' a Ha)]. }
    split; [destruct (d_ipv4 c); cbn; [contradiction|exact I|intros [a Ha]; exact (N4' a Ha)]|].
    split; [apply (local_ok_iff _ _ _ L); exact Hl|].
    split; [unfold two_ok in *; destruct (d_two c); tauto|].
    split.
    + unfold field in *. destruct (dv_is_ipv4 v); [|exact F4]. destruct F4 as [F4 F5]. split; [exact F4|].
      split; [tauto|]. intros [a Ha]. destruct (N4' a Ha).
    + unfold field in *. destruct (dv_is_local v); [|exact FL]. destruct FL as [F5 F6]. split; [exact F5|tauto].
Qed.

Lemma split_port_text name p : ~ In 58 name -> (forall q, p = Some q -> q <= 65535) ->
  split_port (match p with Some q => name ++ [58] ++ dec_of_N q | None => name end) name p.
Proof.
  intros Hn Hp. destruct p as [p|]; cbn [split_port]; [|auto].
  exists (dec_of_N p). split; [reflexivity|]. apply dec_port_text, Hp. reflexivity.
Qed.

Lemma split_port_bound s name p : split_port s name p -> forall q, p = Some q -> q <= 65535.
Proof. destruct p as [p|]; cbn; [|discriminate]. intros (q & _ & _ & H) q' E. injection E as <-. exact H. Qed.

Lemma ascii_text name p : Forall (fun c => c < 128) name -> (forall q, p = Some q -> q <= 65535) ->
  valid_str (match p with Some q => name ++ [58] ++ dec_of_N q | None => name end).
Proof.
  intros Hn Hp. apply ascii_valid. destruct p as [p|]; [|exact Hn].
  apply Forall_app. split; [exact Hn|]. constructor; [lia|].
  exact (port_ascii _ _ (dec_port_text p (Hp p eq_refl))).
Qed.

Lemma strip_facts d t : strip_last 46 d = t -> (forall u, t <> u ++ [46]) ->
  strip_last 46 t = t /\ is_local_domain t = is_local_domain d /\
  is_at_least_two_labels_domain t = is_at_least_two_labels_domain d.
Proof.
  intros E H. assert (S : strip_last 46 t = t) by (destruct (strip_cases t) as [X|X]; [congruence|destruct (H _ X)]).
  unfold is_local_domain, is_at_least_two_labels_domain. rewrite S, E. auto.
Qed.

Lemma idna_char_ascii d : Forall idna_char d -> Forall (fun x => x < 128) d.
Proof. intros H. eapply Forall_impl; [|exact H]. intros c Hc. unfold idna_char in Hc. cbn beta. lia. Qed.

Lemma idna_char_not_in d c : Forall idna_char d -> ~ idna_char c -> ~ In c d.
Proof. intros H Hc Hi. rewrite Forall_forall in H. exact (Hc (H c Hi)). Qed.

(** A value without a stored port survives printing. *)
Theorem domain_roundtrip idna c s v : idna_laws idna -> idna_no_new_ipv4 idna -> valid_str s ->
  domain_parse_str idna c s = Ok v -> ~ In 58 (dv_domain v) ->
  exists w t, (forall E, @domain_authority E v = Ok w) /\ undotted (dv_domain v) t /\
    domain_parse_str idna c w =
    Ok {| dv_domain := t; dv_port := dv_port v; dv_is_ipv4 := dv_is_ipv4 v; dv_is_local := dv_is_local v |}.
Proof.
  intros Hlaw Hnew Hv H Hc. apply domain_parse_spec in H; [|exact Hv]. destruct H as (Hne & name & S1 & S2 & H).
  pose proof (split_port_bound _ _ _ S1) as Hb. set (t := strip_last 46 (dv_domain v)).
  set (w := match dv_port v with Some q => t ++ [58] ++ dec_of_N q | None => t end).
  exists w, t. split; [intros E; apply domain_authority_ok|]. split; [apply undotted_strip; reflexivity|].
  assert (Ht58 : ~ In 58 t).
  { intros X. apply Hc. destruct (strip_cases (dv_domain v)) as [E|E]; rewrite E; [exact X|apply in_or_app; left; exact X]. }
  pose proof (split_port_text t (dv_port v) Ht58 Hb) as Sw. fold w in Sw.
  assert (Hname : forall d, idna name = Some d -> dv_domain v = d ->
    Forall (fun x => x < 128) t /\ t <> [] /\ (forall u, t <> u ++ [46]) /\ idna t = Some t).
  { intros d Hi E. destruct (Hlaw _ _ Hi) as (L1 & L3). apply idna_char_ascii in L1. rewrite <- E in *.
    destruct (L3 t) as (L4 & L5 & L6); [apply undotted_strip; reflexivity|].
    split; [|auto]. destruct (strip_cases (dv_domain v)) as [X|X]; fold t in X; rewrite X in L1; [exact L1|].
    apply Forall_app in L1 as [L1 _]. exact L1. }
  assert (Hwne : t <> [] -> w <> []).
  { intros X. unfold w. destruct (dv_port v); [destruct t; discriminate|exact X]. }
  destruct H as [H|[H|H]].
  - destruct H as (Ha & Hi & E4 & EL). destruct (Hname _ Hi eq_refl) as (L1 & L2 & L3 & L4).
    apply domain_parse_spec; [apply ascii_text; assumption|]. split; [exact (Hwne L2)|]. exists t.
    cbn [dv_port dv_domain dv_is_ipv4 dv_is_local]. split; [exact Sw|]. split; [exact S2|]. left. auto.
  - destruct H as (Ha & a & Hd & N1 & N2 & Hl & E & F4 & FL).
    assert (Ep : dv_port v = None).
    { destruct (dv_port v) as [p|]; [|reflexivity]. destruct S1 as (q & Eq & _). exfalso. apply Hc. rewrite E, Eq.
      apply in_or_app. right. left. reflexivity. }
    rewrite Ep in *. destruct S1 as [En _]. subst name.
    assert (Hd' : v4_text t a) by (apply v4_dotted_spec in Hd; apply ipv4_from_str_spec; unfold t; rewrite E; exact Hd).
    assert (Hw : w = t) by (unfold w; rewrite Ep; reflexivity).
    apply domain_parse_spec; [rewrite Hw; exact (ascii_valid _ (v4_ascii _ _ Hd'))|]. split.
    { apply Hwne. intros X. rewrite X in Hd'. destruct (v4_form_nonempty a None Hd'). }
    exists t. cbn [dv_port dv_domain dv_is_ipv4 dv_is_local]. split; [exact Sw|]. split; [exact S2|]. right. left.
    split; [exact Ha|]. exists a. split; [exists t; auto|]. repeat split; auto.
  - destruct H as (Ha & N4 & N1 & Hi & Ht & Hl & F4 & FL). destruct (Hname _ Hi eq_refl) as (L1 & L2 & L3 & L4).
    destruct (strip_facts (dv_domain v) t eq_refl L3) as (T1 & T2 & T3).
    apply domain_parse_spec; [apply ascii_text; assumption|]. split; [exact (Hwne L2)|]. exists t.
    cbn [dv_port dv_domain dv_is_ipv4 dv_is_local]. split; [exact Sw|]. split; [exact S2|]. right. right.
    split; [exact Ha|].
    assert (EL : localhost t <-> localhost (dv_domain v)) by (rewrite <- !localhost_spec, T2; tauto).
    assert (ET : two_labels t <-> two_labels (dv_domain v)) by (rewrite <- !two_labels_spec, T3; tauto).
    split.
    { intros a X. assert (Y : v4_dotted (dv_domain v) a).
      { apply v4_dotted_spec in X. apply v4_dotted_spec. unfold parse_ipv4_allow_an_ended_dot in *.
        rewrite T1 in X. exact X. }
      destruct (Hnew _ _ _ Hi Y) as [b Hb']. exact (N4 b Hb'). }
    split; [exact N1|]. split; [exact L4|].
    split; [unfold two_ok in *; destruct (d_two c); tauto|].
    split; [apply (local_ok_iff _ _ _ EL); exact Hl|]. split; [exact F4|].
    unfold field in *. destruct (dv_is_local v); [|exact FL]. tauto.
Qed.
