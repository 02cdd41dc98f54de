(** The host validator: exact acceptance, panics, round trips. *)
From Verif Require Import Base IntStr IntStrProofs NetModel NetSpec NetProofs IpModel IpSpec LocalProofs IpProofs
  Utf8 StrFacts Serde DomainModel DomainSpec DomainProofs HostModel HostSpec.
Local Open Scope N_scope.

(** The address branches are those of the ip validator, with other errors. *)
Definition ip2h (e : ip_err) : host_err :=
  match e with
  | IpInvalid => HoInvalid | IpLocalMust => HoLocalMust | IpLocalDisallow => HoLocalDisallow
  | IpPortMust => HoPortMust | IpPortDisallow => HoPortDisallow
  end.
Definition lift6 (c : host_cfg) (r : list N * option N * bool) : host * option N * bool :=
  let '(a, p, _) := r in (HIPv6 a, p, h_flag c (is_local_ipv6 a)).

Lemma h_finish_eq c a p :
  h_finish c (is_local_ipv6 a) (HIPv6 a) p =
  omap_err ip2h (omap (lift6 c) (finish (h_local c) (is_local_ipv6 a) a p)).
Proof.
  unfold h_finish, h_check_local, finish. destruct (h_local c) eqn:EL; cbn.
  - replace (h_flag c (is_local_ipv6 a)) with (is_local_ipv6 a)
      by (unfold h_flag; rewrite EL; destruct (h_two c); reflexivity).
    destruct (is_local_ipv6 a) eqn:E; cbn; [|reflexivity].
    rewrite E. unfold h_flag. rewrite EL. destruct (h_two c); reflexivity.
  - reflexivity.
  - replace (h_flag c (is_local_ipv6 a)) with (is_local_ipv6 a)
      by (unfold h_flag; rewrite EL; destruct (h_two c); reflexivity).
    destruct (is_local_ipv6 a) eqn:E; cbn; [reflexivity|].
    rewrite E. unfold h_flag. rewrite EL. destruct (h_two c); reflexivity.
Qed.

Lemma str_slice_err {E E'} s a b :
  (exists x, @str_slice E s a b = Ok x /\ @str_slice E' s a b = Ok x) \/
  (@str_slice E s a b = Panic /\ @str_slice E' s a b = Panic).
Proof. unfold str_slice. destruct (_ && _); [left; eauto|right; auto]. Qed.

Lemma h_without_eq c s n : h_ipv6_without_port c s n =
  omap_err ip2h (omap (lift6 c) (ipv6_without_port (h_port c) (h_local c) s n)).
Proof.
  unfold h_ipv6_without_port, ipv6_without_port.
  destruct (@str_slice_err host_err ip_err s 1 n) as [(x & -> & ->)|(-> & ->)]; cbn [obind].
  - destruct (ipv6_from_str x); [rewrite h_finish_eq|]; destruct (h_port c); reflexivity.
  - destruct (h_port c); reflexivity.
Qed.

Lemma h_with_eq c s : h_ipv6_with_port c s =
  omap_err ip2h (omap (lift6 c) (ipv6_with_port (h_port c) (h_local c) s)).
Proof.
  unfold h_ipv6_with_port, ipv6_with_port, str_slice_from. destruct (rposition 58 s) as [i|]; [|destruct (h_port c); reflexivity].
  assert (X : (if (2 <? i)%nat then let? b := @idx host_err s (i - 1) in Ok (b =? 93) else Ok false) =
              omap_err ip2h (if (2 <? i)%nat then let? b := @idx ip_err s (i - 1) in Ok (b =? 93) else Ok false)).
  { destruct (2 <? i)%nat; [|reflexivity]. unfold idx. destruct (nth_error s (i - 1)); reflexivity. }
  rewrite X. destruct (if (2 <? i)%nat then let? b := @idx ip_err s (i - 1) in Ok (b =? 93) else Ok false) as [[]| |];
    cbn [obind omap_err]; try (destruct (h_port c); reflexivity).
  destruct (@str_slice_err host_err ip_err s 1 (i - 1)) as [(x & -> & ->)|(-> & ->)]; cbn [obind];
    [|destruct (h_port c); reflexivity].
  destruct (ipv6_from_str x); [|destruct (h_port c); reflexivity].
  destruct (@str_slice_err host_err ip_err s (i + 1) (List.length s)) as [(y & -> & ->)|(-> & ->)]; cbn [obind];
    [|destruct (h_port c); reflexivity].
  destruct (parse_u16 y); [rewrite h_finish_eq|]; destruct (h_port c); reflexivity.
Qed.

Lemma h_bracket_eq c s : h_ipv6_bracket c s =
  if is_disallow (h_two c) then Err HoTwoLabelsDisallow
  else omap_err ip2h (omap (lift6 c) (ipv6_bracket (h_port c) (h_local c) s)).
Proof.
  unfold h_ipv6_bracket, ipv6_bracket. destruct (is_disallow (h_two c)); [reflexivity|]. unfold idx.
  destruct (nth_error s (List.length s - 1)) as [b|]; cbn [obind]; [|reflexivity].
  destruct (b =? 93); [apply h_without_eq|apply h_with_eq].
Qed.

Lemma h_non_bracket_eq c ip : h_ipv6_non_bracket c ip =
  if is_disallow (h_two c) then Err HoTwoLabelsDisallow
  else omap_err ip2h (omap (lift6 c) (ipv6_non_bracket (h_port c) (h_local c) ip)).
Proof.
  unfold h_ipv6_non_bracket, ipv6_non_bracket. destruct (is_disallow (h_two c)); [reflexivity|].
  rewrite h_finish_eq. destruct (h_port c); reflexivity.
Qed.

Lemma omap_err_ok {E E' A} (f : E -> E') (x : outcome E A) a : omap_err f x = Ok a <-> x = Ok a.
Proof. destruct x; cbn; split; intros H; try discriminate H; injection H as ->; reflexivity. Qed.
Lemma omap_err_panic {E E' A} (f : E -> E') (x : outcome E A) : x <> Panic -> omap_err f x <> Panic.
Proof. destruct x; cbn; congruence. Qed.

Lemma disallow_spec t : is_disallow t = false <-> t <> Disallow.
Proof. destruct t; cbn; split; congruence. Qed.

(** The name branch is that of the domain validator, with other errors. *)
Definition dc (c : host_cfg) : domain_cfg :=
  {| d_ipv4 := Allow; d_local := h_local c; d_port := h_port c; d_two := h_two c |}.
Definition d2h (e : domain_err) : host_err :=
  match e with
  | DInvalid | DIPv4Must | DIPv4Disallow => HoInvalid
  | DLocalMust => HoLocalMust | DLocalDisallow => HoLocalDisallow
  | DTwoLabelsMust => HoTwoLabelsMust | DTwoLabelsDisallow => HoTwoLabelsDisallow
  | DPortMust => HoPortMust | DPortDisallow => HoPortDisallow
  end.

Lemma h_split_eq c s : h_split c s = omap_err d2h (d_split (dc c) s).
Proof.
  unfold h_split, d_split, str_slice_from. cbn [dc d_port].
  destruct (rposition 58 s) as [i|]; [|destruct (h_port c); reflexivity].
  destruct (@str_slice_err host_err domain_err s 0 i) as [(x & -> & ->)|(-> & ->)]; cbn [obind];
    [|destruct (h_port c); reflexivity].
  destruct (@str_slice_err host_err domain_err s (i + 1) (List.length s)) as [(y & -> & ->)|(-> & ->)];
    destruct (h_port c); reflexivity.
Qed.
Lemma h_parse_port_eq c q : h_parse_port c q = omap_err d2h (d_parse_port (dc c) q).
Proof.
  unfold h_parse_port, d_parse_port. cbn [dc d_port].
  destruct q as [q|]; [destruct (parse_u16 q)|]; destruct (h_port c); reflexivity.
Qed.
Lemma h_check_local_eq c b : h_check_local c b = omap_err d2h (d_check_local (dc c) b).
Proof. unfold h_check_local, d_check_local. cbn [dc d_local]. destruct (h_local c), b; reflexivity. Qed.
Lemma h_check_two_eq c b d : h_check_two c b d = omap_err d2h (d_check_two (dc c) b d).
Proof.
  unfold h_check_two, d_check_two. cbn [dc d_two].
  destruct (h_two c), b, (is_at_least_two_labels_domain d); reflexivity.
Qed.
Lemma h_flag_eq c b : h_flag c b = d_flag (dc c) b.
Proof. unfold h_flag, d_flag. cbn [dc d_two d_local]. rewrite andb_comm. reflexivity. Qed.

Lemma h_finish_spec c b h p r : h_finish c b h p = Ok r <->
  local_ok (h_local c) (h_flag c b = true) /\ r = (h, p, h_flag c b).
Proof.
  unfold h_finish. rewrite h_check_local_eq. pose proof (d_check_local_spec (dc c) (h_flag c b)) as S.
  destruct (d_check_local_cases (dc c) (h_flag c b)) as [E|[e E]]; rewrite E in *; cbn [omap_err obind].
  - split; [intros H; injection H as <-; split; [apply S; reflexivity|reflexivity]|intros [_ ->]; reflexivity].
  - split; [discriminate|]. intros [H _]. apply S in H. discriminate.
Qed.

Lemma h_finish_no_panic c b h p : h_finish c b h p <> Panic.
Proof.
  unfold h_finish. rewrite h_check_local_eq.
  destruct (d_check_local_cases (dc c) (h_flag c b)) as [E|[e E]]; rewrite E; discriminate.
Qed.

(** A split and its port. *)
Lemma h_port_spec c s dom p : valid_str s ->
  ((exists q, h_split c s = Ok (dom, q) /\ h_parse_port c q = Ok p) <-> split_port s dom p /\ port_ok (h_port c) p).
Proof.
  intros Hv. rewrite <- (split_port_spec (dc c) s dom p Hv). split; intros (q & A & B); exists q;
    rewrite h_split_eq, h_parse_port_eq, ?omap_err_ok in *; auto.
Qed.

Lemma v4_form_split s a p : v4_form s a p <-> exists t, split_port s t p /\ v4_text t a.
Proof.
  unfold v4_form, split_port. destruct p as [p|]; split.
  - intros (t & q & -> & A & B). exists t. split; [exists q; auto|exact A].
  - intros (t & (q & -> & B) & A). exists t, q. auto.
  - intros H. exists s. split; [|exact H]. split; [reflexivity|]. apply (v4_not_in _ _ _ H). unfold v4_char. lia.
  - intros (t & (-> & _) & H). exact H.
Qed.

Lemma ends_with_spec d : ends_with 46 d = true <-> exists u, d = u ++ [46].
Proof.
  destruct (ends_cases d) as [->|(l & x & ->)].
  - split; [discriminate|]. intros (u & E). destruct u; discriminate.
  - rewrite ends_with_snoc, N.eqb_eq. split; [intros ->; eauto|]. intros (u & E). apply app_inj_tail in E as [_ E]. exact E.
Qed.

Lemma v4_no_final_dot t a u : v4_text t a -> t <> u ++ [46].
Proof.
  intros H E. apply v4_text_no_final_dot in H. rewrite E, strip_last_snoc in H. change (46 =? 46) with true in H. cbn iota in H.
  apply (f_equal (@List.length N)) in H. rewrite app_length in H. cbn in H. lia.
Qed.

Section WithIdna.
Variable idna : list N -> option (list N).

Definition v_ipv6 c s h p (l : bool) : Prop :=
  exists a, h = HIPv6 a /\ v6_form s a p /\ port_ok (h_port c) p /\ h_two c <> Disallow /\
    local_ok (h_local c) (v6_local a) /\ l = h_flag c (is_local_ipv6 a).
Definition v_ipv4 c s h p (l : bool) : Prop :=
  exists a, h = HIPv4 a /\ v4_form s a p /\ port_ok (h_port c) p /\ h_two c <> Disallow /\
    local_ok (h_local c) (h_flag c (is_local_ipv4 a) = true) /\ l = h_flag c (is_local_ipv4 a).
Definition v_name c s h p (l : bool) : Prop :=
  exists name d, h = HDomain d /\ split_port s name p /\ port_ok (h_port c) p /\ (forall u, name <> u ++ [46]) /\
    (forall a, ~ v4_text name a) /\ idna name = Some d /\ l = h_flag c (is_local_domain d) /\
    two_ok (h_two c) (l = true) d /\ local_ok (h_local c) (l = true).

Lemma h_rest_spec c s h p l : valid_str s ->
  (h_rest idna c s = Ok (h, p, l) <-> v_ipv4 c s h p l \/ v_name c s h p l).
Proof.
  intros Hv. unfold h_rest. split.
  - destruct (h_split c s) as [[dom q]| |] eqn:ES; cbn [obind]; try discriminate.
    destruct (ends_with 46 dom) eqn:EW; [discriminate|].
    destruct (ipv4_from_str dom) as [ip|] eqn:E4.
    + apply ipv4_from_str_spec in E4. destruct (is_disallow (h_two c)) eqn:ED; [discriminate|].
      destruct (h_parse_port c q) as [p'| |] eqn:EP; cbn [obind]; try discriminate.
      rewrite h_finish_spec. intros [Hl E]. injection E as -> -> ->. left. exists ip.
      destruct (proj1 (h_port_spec c s dom p' Hv) (ex_intro _ q (conj ES EP))) as [S1 S2].
      split; [reflexivity|]. split; [apply v4_form_split; eauto|]. apply disallow_spec in ED. auto.
    + unfold h_name. destruct (idna dom) as [d|] eqn:Hi; [|discriminate].
      destruct (h_parse_port c q) as [p'| |] eqn:EP; cbn [obind]; try discriminate.
      rewrite h_check_two_eq, h_check_local_eq.
      pose proof (d_check_two_spec (dc c) (h_flag c (is_local_domain d)) d) as S2.
      pose proof (d_check_local_spec (dc c) (h_flag c (is_local_domain d))) as S1.
      destruct (d_check_two_cases (dc c) (h_flag c (is_local_domain d)) d) as [X|[e X]]; rewrite X in *; cbn [omap_err obind];
        [|discriminate].
      destruct (d_check_local_cases (dc c) (h_flag c (is_local_domain d))) as [Y|[e Y]]; rewrite Y in *; cbn [omap_err obind];
        [|discriminate].
      intros E. injection E as <- <- <-. right. exists dom, d.
      destruct (proj1 (h_port_spec c s dom p' Hv) (ex_intro _ q (conj ES EP))) as [P1 P2].
      split; [reflexivity|]. split; [exact P1|]. split; [exact P2|].
      split; [intros u Hu; apply not_true_iff_false in EW; apply EW, ends_with_spec; eauto|].
      split; [intros a Ha; apply ipv4_from_str_spec in Ha; congruence|].
      split; [exact Hi|]. split; [reflexivity|]. split; [apply S2; reflexivity|apply S1; reflexivity].
  - intros [H|H].
    + destruct H as (a & -> & F & P2 & Ht & Hl & ->). apply v4_form_split in F as (t & P1 & Ha).
      destruct (proj2 (h_port_spec c s t p Hv) (conj P1 P2)) as (q & ES & EP). rewrite ES. cbn [obind].
      replace (ends_with 46 t) with false.
      2: { symmetry. apply not_true_iff_false. rewrite ends_with_spec. intros (u & Hu). exact (v4_no_final_dot _ _ _ Ha Hu). }
      rewrite (proj2 (ipv4_from_str_spec t a) Ha). rewrite (proj2 (disallow_spec _) Ht), EP. cbn [obind].
      apply h_finish_spec. auto.
    + destruct H as (t & d & -> & P1 & P2 & Hd & H4 & Hi & -> & Ht & Hl).
      destruct (proj2 (h_port_spec c s t p Hv) (conj P1 P2)) as (q & ES & EP). rewrite ES. cbn [obind].
      replace (ends_with 46 t) with false.
      2: { symmetry. apply not_true_iff_false. rewrite ends_with_spec. intros (u & Hu). exact (Hd _ Hu). }
      destruct (ipv4_from_str t) as [a|] eqn:E4; [apply ipv4_from_str_spec in E4; destruct (H4 _ E4)|].
      unfold h_name. rewrite Hi, EP. cbn [obind]. rewrite h_check_two_eq, h_check_local_eq.
      rewrite (proj2 (d_check_two_spec (dc c) _ _) Ht), (proj2 (d_check_local_spec (dc c) _) Hl). reflexivity.
Qed.

Lemma h_parse_port_no_panic c q : h_parse_port c q <> Panic.
Proof. rewrite h_parse_port_eq. apply omap_err_panic, d_parse_port_no_panic. Qed.

Lemma h_rest_no_panic c s : valid_str s -> h_rest idna c s <> Panic.
Proof.
  intros Hv. unfold h_rest. assert (X : h_split c s <> Panic) by (rewrite h_split_eq; apply omap_err_panic, d_split_no_panic, Hv).
  destruct (h_split c s) as [[dom q]| |]; cbn [obind]; try discriminate; [|contradiction].
  destruct (ends_with 46 dom); [discriminate|]. pose proof (h_parse_port_no_panic c q) as P.
  destruct (ipv4_from_str dom).
  - destruct (is_disallow (h_two c)); [discriminate|].
    destruct (h_parse_port c q); cbn [obind]; try discriminate; [|contradiction]. apply h_finish_no_panic.
  - unfold h_name. destruct (idna dom) as [d|]; [|discriminate].
    destruct (h_parse_port c q); cbn [obind]; try discriminate; [|contradiction].
    rewrite h_check_two_eq, h_check_local_eq.
    destruct (d_check_two_cases (dc c) (h_flag c (is_local_domain d)) d) as [->|[e ->]]; cbn [omap_err obind]; [|discriminate].
    destruct (d_check_local_cases (dc c) (h_flag c (is_local_domain d))) as [->|[e ->]]; discriminate.
Qed.

Lemma lift_spec c s (x : outcome ip_err (list N * option N * bool)) h p l :
  (forall r, x = Ok r <-> exists a p, v6_accepts (h_port c) (h_local c) s a p /\ r = (a, p, flag (h_local c) (is_local_ipv6 a))) ->
  ((if is_disallow (h_two c) then Err HoTwoLabelsDisallow else omap_err ip2h (omap (lift6 c) x)) = Ok (h, p, l) <->
   v_ipv6 c s h p l).
Proof.
  intros H. unfold v_ipv6. destruct (is_disallow (h_two c)) eqn:E.
  - split; [discriminate|]. intros (a & _ & _ & _ & Ht & _). apply disallow_spec in Ht. congruence.
  - apply disallow_spec in E. rewrite omap_err_ok, omap_ok. split.
    + intros (r & Hx & Hr). apply H in Hx as (a & p' & (A1 & A2 & A3) & ->). cbn in Hr. injection Hr as -> -> ->.
      exists a. auto 10.
    + intros (a & -> & A1 & A2 & _ & A3 & ->). exists (a, p, flag (h_local c) (is_local_ipv6 a)). split; [|reflexivity].
      apply H. exists a, p. split; [split; auto|reflexivity].
Qed.

Definition not_v6 (s : list N) : Prop := s <> [] /\ (forall r, s <> 91 :: r) /\ (forall a, ~ v6_text s a).

Lemma host_v_spec c s h p l : valid_str s ->
  (host_v_parse_str idna c s = Ok (h, p, l) <->
   v_ipv6 c s h p l \/ v_ipv4 c s h p l \/ (not_v6 s /\ v_name c s h p l)).
Proof.
  intros Hv. unfold host_v_parse_str, not_v6. destruct s as [|x r].
  { split; [discriminate|]. intros [(a & _ & F & _)|[(a & _ & F & _)|((F & _) & _)]].
    - destruct (v6_form_nonempty _ _ F).
    - destruct (v4_form_nonempty _ _ F).
    - contradiction. }
  destruct (N.eqb_spec x 91) as [->|Hx].
  - rewrite h_bracket_eq, (lift_spec c (91 :: r)) by (intros y; apply bracket_spec, Hv).
    split; [auto|]. intros [H|[(a & _ & F & _)|((_ & F & _) & _)]]; [exact H| |].
    + destruct (v4_form_not_bracket _ _ _ F _ eq_refl).
    + destruct (F _ eq_refl).
  - destruct (ipv6_from_str (x :: r)) as [b|] eqn:E6.
    + apply ipv6_from_str_spec in E6. rewrite h_non_bracket_eq, (lift_spec c (x :: r)) by (intros y; apply non_bracket_spec, E6).
      split; [auto|]. intros [H|[(a & _ & F & _)|((_ & _ & F) & _)]]; [exact H| |].
      * destruct (v4_form_not_v6 _ _ _ _ F E6).
      * destruct (F _ E6).
    + assert (N6 : forall a, ~ v6_text (x :: r) a) by (intros a Ha; apply ipv6_from_str_spec in Ha; congruence).
      rewrite h_rest_spec by exact Hv. split.
      * intros [H|H]; [auto|]. right. right. split; [|exact H]. split; [discriminate|]. split; [|exact N6].
        intros r' E. injection E as E _. contradiction.
      * intros [(a & _ & F & _)|[H|[_ H]]]; [|auto|auto]. apply v6_form_not_text in F; [|exact Hx]. destruct (N6 _ F).
Qed.

Lemma host_v_no_panic c s : valid_str s -> host_v_parse_str idna c s <> Panic.
Proof.
  intros Hv. unfold host_v_parse_str. destruct s as [|x r]; [discriminate|].
  destruct (N.eqb_spec x 91) as [->|Hx].
  - rewrite h_bracket_eq. destruct (is_disallow (h_two c)); [discriminate|].
    apply omap_err_panic, omap_panic, bracket_no_panic, Hv.
  - destruct (ipv6_from_str (x :: r)).
    + rewrite h_non_bracket_eq. destruct (is_disallow (h_two c)); [discriminate|].
      apply omap_err_panic, omap_panic, non_bracket_no_panic.
    + apply h_rest_no_panic, Hv.
Qed.

Lemma v_port_ok c s h p l : v_ipv6 c s h p l \/ v_ipv4 c s h p l \/ (not_v6 s /\ v_name c s h p l) ->
  port_ok (h_port c) p.
Proof.
  intros [(a & _ & _ & H & _)|[(a & _ & _ & H & _)|(_ & n & d & _ & _ & H & _)]]; exact H.
Qed.

Lemma h_create_spec c h p l v : port_ok (h_port c) p ->
  (h_create c (h, p, l) = Ok v <->
   hv_host v = h /\ hv_port v = p /\ hv_is_local v = if host_field c then Some l else None).
Proof.
  intros Hp. unfold h_create.
  replace (is_allow_only (h_local c) && negb (is_allow_only (h_two c))) with (host_field c)
    by (unfold host_field; destruct (h_local c), (h_two c); reflexivity).
  assert (X : forall f, Ok {| hv_host := h; hv_port := p; hv_is_local := f |} = Ok (E := host_err) v <->
    hv_host v = h /\ hv_port v = p /\ hv_is_local v = f).
  { intros f. destruct v as [a b d]. cbn. split; [intros E; injection E as <- <- <-; auto|intros (-> & -> & ->); reflexivity]. }
  destruct (h_port c) eqn:E; cbn in Hp.
  - destruct p as [p|]; [apply X|congruence].
  - apply X.
  - subst p. apply X.
Qed.

Lemma host_parse_v c s v : valid_str s ->
  (host_parse_str idna c s = Ok v <->
   exists l, (v_ipv6 c s (hv_host v) (hv_port v) l \/ v_ipv4 c s (hv_host v) (hv_port v) l \/
              (not_v6 s /\ v_name c s (hv_host v) (hv_port v) l)) /\
     hv_is_local v = if host_field c then Some l else None).
Proof.
  intros Hv. unfold host_parse_str. split.
  - destruct (host_v_parse_str idna c s) as [[[h p] l]| |] eqn:E; cbn [obind]; try discriminate.
    apply host_v_spec in E; [|exact Hv]. intros H. apply h_create_spec in H as (<- & <- & H); [|eapply v_port_ok; exact E].
    eauto.
  - intros (l & H & E). pose proof (v_port_ok _ _ _ _ _ H) as Hp. apply host_v_spec in H; [|exact Hv]. rewrite H.
    cbn [obind]. apply h_create_spec; auto.
Qed.

Lemma host_no_panic c s : valid_str s -> host_parse_str idna c s <> Panic /\ host_validate_str idna c s <> Panic.
Proof.
  intros Hv. pose proof (host_v_no_panic c s Hv) as X. unfold host_parse_str, host_validate_str.
  destruct (host_v_parse_str idna c s) as [[[h p] l]| |] eqn:E; cbn [obind]; [|split; discriminate|contradiction].
  split; [|discriminate]. apply host_v_spec, v_port_ok in E; [|exact Hv]. unfold h_create.
  destruct (h_port c); try discriminate. destruct p; [discriminate|cbn in E; congruence].
Qed.

Lemma host_validate_parse c s : valid_str s ->
  (is_ok (host_validate_str idna c s) <-> is_ok (host_parse_str idna c s)).
Proof.
  intros Hv. unfold host_parse_str, host_validate_str.
  destruct (host_v_parse_str idna c s) as [[[h p] l]| |] eqn:E; cbn [obind].
  - apply host_v_spec, v_port_ok in E; [|exact Hv]. split; intros _; [|eexists; reflexivity]. unfold h_create.
    destruct (h_port c); try (eexists; reflexivity). destruct p; [eexists; reflexivity|cbn in E; congruence].
  - split; intros [? X]; discriminate X.
  - split; intros [? X]; discriminate X.
Qed.
End WithIdna.

(** The flag against what it says. *)
Lemma h_flag_local c b (P : Prop) : (b = true <-> P) -> (local_ok (h_local c) (h_flag c b = true) <-> local_ok (h_local c) P).
Proof. rewrite h_flag_eq. apply (flag_local (dc c)). Qed.
Lemma h_flag_two c b (P : Prop) d : (b = true <-> P) -> (two_ok (h_two c) (h_flag c b = true) d <-> two_ok (h_two c) P d).
Proof. rewrite h_flag_eq. apply (flag_two (dc c)). Qed.
Lemma h_flag_field c b (P : Prop) (f : option bool) : (b = true <-> P) ->
  (f = (if host_field c then Some (h_flag c b) else None) <-> field (host_field c) P f).
Proof.
  intros H. unfold host_field, h_flag.
  assert (F : f = None <-> field false P f) by (destruct f; cbn; intuition congruence).
  pose proof (field_iff true P b f H) as T. destruct (h_local c), (h_two c); cbn [is_allow_only andb]; assumption.
Qed.

Lemma v6_addr_of s a p : v6_form s a p -> v6_addr a.
Proof. intros H. exact (proj1 (v6_form_addr _ _ _ H)). Qed.
Lemma v4_addr_of s a p : v4_form s a p -> v4_addr a.
Proof. intros H. exact (proj1 (v4_form_addr _ _ _ H)). Qed.

Theorem host_parse_spec idna c s v : valid_str s ->
  (host_parse_str idna c s = Ok v <-> host_accepts idna c s v).
Proof.
  intros Hv. rewrite host_parse_v by exact Hv. unfold host_accepts. split.
  - intros (l & H & E). destruct H as [H|[H|[H0 H]]].
    + left. destruct H as (a & A1 & A2 & A3 & A4 & A5 & ->). exists a.
      pose proof (is_local_ipv6_spec a (v6_addr_of _ _ _ A2)) as L. apply (h_flag_field c _ _ _ L) in E. auto 10.
    + right. left. destruct H as (a & A1 & A2 & A3 & A4 & A5 & ->). exists a.
      pose proof (is_local_ipv4_spec a (v4_addr_of _ _ _ A2)) as L. apply (h_flag_field c _ _ _ L) in E.
      apply (h_flag_local c _ _ L) in A5. auto 10.
    + right. right. destruct H as (n & d & A1 & A2 & A3 & A4 & A5 & A6 & -> & A7 & A8).
      destruct H0 as (B1 & B2 & B3). exists n, d. pose proof (localhost_spec d) as L.
      apply (h_flag_field c _ _ _ L) in E. apply (h_flag_local c _ _ L) in A8. apply (h_flag_two c _ _ d L) in A7. auto 15.
  - intros [H|[H|H]].
    + destruct H as (a & A1 & A2 & A3 & A4 & A5 & A6). exists (h_flag c (is_local_ipv6 a)).
      pose proof (is_local_ipv6_spec a (v6_addr_of _ _ _ A2)) as L. split; [|apply (h_flag_field c _ _ _ L); exact A6].
      left. exists a. auto 10.
    + destruct H as (a & A1 & A2 & A3 & A4 & A5 & A6). exists (h_flag c (is_local_ipv4 a)).
      pose proof (is_local_ipv4_spec a (v4_addr_of _ _ _ A2)) as L. split; [|apply (h_flag_field c _ _ _ L); exact A6].
      right. left. exists a. apply (h_flag_local c _ _ L) in A5. auto 10.
    + destruct H as (n & d & A1 & B1 & B2 & B3 & A2 & A3 & A4 & A5 & A6 & A7 & A8 & A9).
      pose proof (localhost_spec d) as L. exists (h_flag c (is_local_domain d)).
      split; [|apply (h_flag_field c _ _ _ L); exact A9]. right. right. split; [split; auto|].
      exists n, d. apply (h_flag_local c _ _ L) in A8. apply (h_flag_two c _ _ d L) in A7. auto 15.
Qed.

(** A name that is not an IPv4 address is local exactly when it is localhost. *)
Lemma name_local d : (forall a, ~ v4_dotted d a) -> (domain_local d <-> localhost d).
Proof. intros H. unfold domain_local. split; [intros [X|(a & X & _)]; [exact X|destruct (H a X)]|auto]. Qed.
Lemma two_ok_iff two (P Q : Prop) d : (P <-> Q) -> (two_ok two P d <-> two_ok two Q d).
Proof. intros H. destruct two; cbn; tauto. Qed.
Lemma field_prop present (P Q : Prop) f : (P <-> Q) -> (field present P f <-> field present Q f).
Proof. intros H. destruct f; cbn; tauto. Qed.

Theorem host_policies idna c s v : idna_no_new_ipv4 idna -> valid_str s -> host_parse_str idna c s = Ok v ->
  port_ok (h_port c) (hv_port v) /\ local_ok (h_local c) (host_local (hv_host v)) /\ host_two_ok (h_two c) (hv_host v) /\
  field (host_field c) (host_local (hv_host v)) (hv_is_local v).
Proof.
  intros Hn Hv H. apply host_parse_spec in H; [|exact Hv]. destruct H as [H|[H|H]].
  - destruct H as (a & -> & _ & A3 & A4 & A5 & A6). cbn. auto.
  - destruct H as (a & -> & _ & A3 & A4 & A5 & A6). cbn. auto.
  - destruct H as (n & d & -> & B1 & B2 & B3 & A2 & A3 & A4 & A5 & A6 & A7 & A8 & A9). cbn [host_local host_two_ok].
    assert (N4 : forall a, ~ v4_dotted d a).
    { intros a Ha. destruct (Hn _ _ _ A6 Ha) as (b & t & [->| ->] & Hb); [exact (A5 _ Hb)|exact (A4 _ eq_refl)]. }
    pose proof (name_local d N4) as L.
    split; [exact A3|]. split; [apply (local_ok_iff _ _ _ L); exact A8|]. split; [apply (two_ok_iff _ _ _ d L); exact A7|].
    apply (field_prop _ _ _ _ L). exact A9.
Qed.

(** An IPv6 address has at least two colons. *)
Lemma v6_two_colons s a : v6_text s a -> exists u m r, s = u ++ [58] ++ m ++ [58] ++ r.
Proof.
  intros [[G L]|(h & t & lh & lt & -> & _)]; [|exists h, [], t; reflexivity].
  destruct G as [d n _|s' n1 n2 n3 n4 _ _|d n s' l _ G]; try discriminate L.
  destruct G as [d' n' _|s'' n1 n2 n3 n4 _ _|d' n' s'' l' _ G]; try discriminate L.
  exists d, d', s''. reflexivity.
Qed.

Lemma name_not_v6 name p a : ~ In 58 name -> (forall q, p = Some q -> q <= 65535) ->
  ~ v6_text (match p with Some q => name ++ [58] ++ dec_of_N q | None => name end) a.
Proof.
  intros Hn Hp H. apply v6_two_colons in H as (u & m & r & E). apply (f_equal (fun l => count_occ N.eq_dec l 58)) in E.
  rewrite !count_occ_app in E. change (count_occ N.eq_dec [58] 58) with 1%nat in E.
  apply (count_occ_not_In N.eq_dec) in Hn. destruct p as [q|]; [|lia].
  assert (~ In 58 (dec_of_N q)) as Hq.
  { apply (port_text_not_in _ q); [apply dec_port_text, Hp; reflexivity|lia]. }
  apply (count_occ_not_In N.eq_dec) in Hq. rewrite !count_occ_app in E.
  change (count_occ N.eq_dec [58] 58) with 1%nat in E. lia.
Qed.

Lemma undotted_self d : (forall u, d <> u ++ [46]) -> undotted d d.
Proof. intros H. right. auto. Qed.

Theorem host_roundtrip idna c s v : idna_laws idna -> valid_str s -> host_parse_str idna c s = Ok v ->
  plain_host (hv_host v) ->
  valid_str (host_authority v) /\ host_parse_str idna c (host_authority v) = Ok v.
Proof.
  intros Hlaw Hv H Hp. apply host_parse_spec in H; [|exact Hv]. destruct v as [h p f]. cbn [hv_host hv_port hv_is_local] in *.
  assert (R : forall w, Forall (fun x => x < 128) w ->
    host_accepts idna c w {| hv_host := h; hv_port := p; hv_is_local := f |} ->
    valid_str w /\ host_parse_str idna c w = Ok {| hv_host := h; hv_port := p; hv_is_local := f |}).
  { intros w W1 W2. apply ascii_valid in W1. split; [exact W1|]. apply host_parse_spec; assumption. }
  unfold host_authority. cbn [hv_host hv_port]. destruct H as [H|[H|H]].
  - destruct H as (a & A1 & A2 & A3 & A4 & A5 & A6). cbn [hv_host hv_port hv_is_local] in *. subst h.
    destruct (v6_form_addr _ _ _ A2) as [B1 B2]. destruct (ipv6_authority_form a p B1 B2) as [F1 F2].
    apply R; [exact F2|]. left. exists a. cbn [hv_host hv_port hv_is_local]. auto 10.
  - destruct H as (a & A1 & A2 & A3 & A4 & A5 & A6). cbn [hv_host hv_port hv_is_local] in *. subst h.
    destruct (v4_form_addr _ _ _ A2) as [B1 B2]. destruct (ipv4_authority_form a p B1 B2) as [F1 F2].
    apply R; [exact F2|]. right. left. exists a. cbn [hv_host hv_port hv_is_local]. auto 10.
  - destruct H as (n & d & A1 & B1 & B2 & B3 & A2 & A3 & A4 & A5 & A6 & A7 & A8 & A9).
    cbn [hv_host hv_port hv_is_local] in *. subst h. destruct Hp as [P1 P2].
    destruct (Hlaw _ _ A6) as (L1 & L2). destruct (L2 d (undotted_self d P2)) as (L3 & _ & L4).
    pose proof (split_port_bound _ _ _ A2) as Hb.
    assert (N58 : ~ In 58 d) by (apply (idna_char_not_in _ _ L1); unfold idna_char; lia).
    assert (N91 : ~ In 91 d) by (apply (idna_char_not_in _ _ L1); unfold idna_char; lia).
    pose proof (idna_char_ascii _ L1) as LA.
    assert (W : valid_str (match p with Some q => d ++ [58] ++ dec_of_N q | None => d end)) by (apply ascii_text; assumption).
    split; [exact W|]. apply host_parse_spec; [exact W|]. right. right. exists d, d. cbn [hv_host hv_port hv_is_local].
    split; [reflexivity|]. split; [destruct p, d; try discriminate; contradiction|].
    split. { destruct d as [|x d']; [contradiction|]. intros r E. apply N91. left. destruct p; injection E as E _; exact E. }
    split; [intros a; apply name_not_v6; assumption|]. split; [apply split_port_text; assumption|]. auto 15.
Qed.
