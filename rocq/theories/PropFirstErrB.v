(** Property C135, continued: e-mail addresses. *)
From Verif Require Import Base IntStr NetModel NetSpec NetProofs IpModel IpSpec LocalProofs IpProofs Utf8 StrFacts Serde
  DomainModel DomainSpec DomainProofs IdnaFrag IdnaDigits HostModel HostSpec HostProofs EmailModel EmailSpec
  PropIp PropDomain PropHost PropEmail PropErrors PropErrorsB PropFirstErr.
Local Open Scope N_scope.

Definition email_two_error (t : tri) : email_err := match t with Must => ETwoLabelsMust | _ => ETwoLabelsDisallow end.
Definition email_local_error (l : tri) : email_err := match l with Must => ELocalMust | _ => ELocalDisallow end.

(** The rules on an address that has been read, in the order in which they are reported. *)
Definition email_order (com : bool) (ip l t : tri) (v : email_val) : list (Prop * email_err) :=
  [(com = true \/ (ev_c1 v = None /\ ev_c2 v = None /\ ev_c3 v = None), ECommentDisallow)] ++
  match ev_domain v with
  | HDomain d => [(ip <> Must, EIPMust); (two_ok t (localhost d) d, email_two_error t);
                  (local_ok l (localhost d), email_local_error l)]
  | HIPv4 a => [(ip <> Disallow, EIPDisallow); (t <> Disallow, ETwoLabelsDisallow);
                (local_ok l (v4_local a), email_local_error l)]
  | HIPv6 a => [(ip <> Disallow, EIPDisallow); (t <> Disallow, ETwoLabelsDisallow);
                (local_ok l (v6_local a), email_local_error l)]
  end ++
  [(com = true \/ ev_c4 v = None, ECommentDisallow)].

(** The parts of an address. *)
Definition same_parts (v w : email_val) : Prop :=
  ev_local w = ev_local v /\ ev_need_quoted w = ev_need_quoted v /\ ev_domain w = ev_domain v /\
  ev_c1 w = ev_c1 v /\ ev_c2 w = ev_c2 v /\ ev_c3 w = ev_c3 v /\ ev_c4 w = ev_c4 v.

(** What the code does with a comment, or none, that it has read. *)
Definition com_end {A} (com : bool) (o : option (list N)) (r : A) : outcome email_err A :=
  match o with Some _ => if com then Ok r else Err ECommentDisallow | None => Ok r end.

Ltac stepe H := cbn [obind negb e_comment ecfg] in H |- *; match type of H with
  | context [obind ?x _] => simp x; let E := fresh "E" in destruct x eqn:E; cbn [obind] in H |- *; try discriminate H
  | context [match ?x with _ => _ end] => simp x; let E := fresh "E" in destruct x eqn:E; try discriminate H
  end.

Section Fixed.
Variables (com : bool) (ip l t : tri) (na : bool).
Let c := ecfg com ip l t na.
Let f := ecfg true Allow Allow Allow na.

Lemma lead_end n s k o : e_leading_comment f n s = Ok (k, o) -> e_leading_comment c n s = com_end com o (k, o).
Proof.
  unfold e_leading_comment, c, f. intros H. repeat stepe H; injection H as <- <-; destruct com; reflexivity.
Qed.
Lemma second_end prof s n k o : e_comment2 prof f s n = Ok (k, o) -> e_comment2 prof c s n = com_end com o (k, o).
Proof.
  unfold e_comment2, c, f. intros H. repeat stepe H; injection H as <- <-; destruct com; reflexivity.
Qed.
Lemma fourth_end s n o : e_comment4 f s n = Ok o -> e_comment4 c s n = com_end com o o.
Proof.
  unfold e_comment4, c, f. intros H. repeat stepe H; injection H as <-; destruct com; reflexivity.
Qed.

Definition addr_local (h : host) : bool :=
  match h with HDomain d => is_local_domain d | HIPv4 a => is_local_ipv4 a | HIPv6 a => is_local_ipv6 a end.
Definition host_check (h : host) : outcome email_err unit :=
  match h with
  | HDomain d => if is_must ip then Err EIPMust else e_check_two c (e_flag c (is_local_domain d)) d
  | _ => if is_disallow ip then Err EIPDisallow else if is_disallow t then Err ETwoLabelsDisallow else Ok tt
  end.

Lemma ip_part_end s n h b k z : e_handle_ip f s n = Ok (h, b, k, z) ->
  host_addr h /\ e_handle_ip c s n = let? _ := host_check h in Ok (h, e_flag c (addr_local h), k, z).
Proof.
  unfold e_handle_ip. intros H. change (e_ip f) with Allow in H. change (is_disallow (e_two f)) with false in H.
  cbn [e_ip e_two c ecfg]. repeat stepe H; injection H as <- <- <- <-.
  all: (split; [first [eapply v6_text_addr, ipv6_from_str_spec; eassumption
                      |eapply v4_text_addr, ipv4_from_str_spec; eassumption]|]); unfold host_check; destruct ip, t; reflexivity.
Qed.
Lemma name_part_end idna s n h b k z : e_handle_domain idna f s n = Ok (h, b, k, z) ->
  host_addr h /\ e_handle_domain idna c s n = let? _ := host_check h in Ok (h, e_flag c (addr_local h), k, z).
Proof.
  unfold e_handle_domain. intros H. change (e_ip f) with Allow in H. cbn [e_ip c ecfg].
  destruct (slice_from s n) as [rest| |] eqn:E; cbn [obind] in *; try discriminate H.
  destruct (match position 40 rest with Some i => _ | None => _ end) as [d| |] eqn:E1; cbn [obind] in *; try discriminate H.
  destruct (ends_with 46 d) eqn:E2; [discriminate H|]. destruct (idna d) as [u|] eqn:E3; [|discriminate H].
  injection H as <- <- <- <-. split; [exact I|]. unfold host_check, addr_local. destruct ip; try reflexivity;
    cbn [is_must]; destruct (e_check_two c _ u); reflexivity.
Qed.

(** The end of the whole text. *)
Definition email_end (r : email_raw) : outcome email_err email_raw :=
  let? _ := com_end com (er_c1 r) tt in let? _ := com_end com (er_c2 r) tt in let? _ := com_end com (er_c3 r) tt in
  let? _ := host_check (er_host r) in
  let? _ := e_check_local c (e_flag c (addr_local (er_host r))) in
  let? _ := com_end com (er_c4 r) tt in
  Ok {| er_local := er_local r; er_need_quoted := er_need_quoted r; er_host := er_host r; er_c1 := er_c1 r;
        er_c2 := er_c2 r; er_c3 := er_c3 r; er_c4 := er_c4 r; er_is_local := e_flag c (addr_local (er_host r)) |}.

Lemma com_bind {A B} o (r : A) (k : A -> outcome email_err B) :
  (let? x := com_end com o r in k x) = (let? _ := com_end com o tt in k r).
Proof. unfold com_end. destruct o, com; reflexivity. Qed.

Lemma domain_part_end idna s q h b o3 o4 : e_domain_part idna f s q = Ok (h, b, o3, o4) ->
  host_addr h /\ e_domain_part idna c s q =
    let? _ := com_end com o3 tt in let? _ := host_check h in let? _ := e_check_local c (e_flag c (addr_local h)) in
    let? _ := com_end com o4 tt in Ok (h, e_flag c (addr_local h), o3, o4).
Proof.
  unfold e_domain_part. intros H. destruct (255 <? List.length s)%nat; [discriminate H|].
  destruct (e_leading_comment f 253 s) as [[n o]| |] eqn:E3; cbn [obind] in H; try discriminate H.
  rewrite (lead_end _ _ _ _ E3), com_bind.
  destruct (idx s n) as [x| |] eqn:X; cbn [obind] in *; try discriminate H.
  destruct (x =? 40); [discriminate H|].
  assert (P : forall r r' : outcome email_err (host * bool * nat * Z),
    (forall h b k z, r = Ok (h, b, k, z) ->
      host_addr h /\ r' = let? _ := host_check h in Ok (h, e_flag c (addr_local h), k, z)) ->
    forall off,
    (let? r := r in let '(h, is_local, dl, added) := r in let offset := (off + added)%Z in
     let? _ := e_check_local f is_local in
     if ((0 <? offset)%Z && (255 <? Z.of_nat (List.length s) + offset)%Z)%bool then Err EInvalid
     else let? c4 := e_comment4 f s dl in Ok (h, is_local, o, c4)) = Ok (h, b, o3, o4) ->
    host_addr h /\ o3 = o /\
    (let? r := r' in let '(h, is_local, dl, added) := r in let offset := (off + added)%Z in
     let? _ := e_check_local c is_local in
     if ((0 <? offset)%Z && (255 <? Z.of_nat (List.length s) + offset)%Z)%bool then Err EInvalid
     else let? c4 := e_comment4 c s dl in Ok (h, is_local, o, c4)) =
    let? _ := host_check h in let? _ := e_check_local c (e_flag c (addr_local h)) in
    let? _ := com_end com o4 tt in Ok (h, e_flag c (addr_local h), o3, o4)).
  { intros r r' R off G. destruct r as [[[[h' b'] k] z]| |]; cbn [obind] in G; try discriminate G.
    destruct (R _ _ _ _ eq_refl) as [V ->]. clear R. change (e_check_local f b') with (Ok (E := email_err) tt) in G.
    cbn [obind] in G. cbv zeta in G. destruct (_ && _)%bool eqn:O; [discriminate G|].
    destruct (e_comment4 f s k) as [o'| |] eqn:E4; cbn [obind] in G; try discriminate G. injection G as -> -> -> ->.
    split; [exact V|]. split; [reflexivity|].
    destruct (host_check h); cbn [obind]; try reflexivity.
    destruct (e_check_local c (e_flag c (addr_local h))); cbn [obind]; try reflexivity.
    cbv zeta. rewrite O, (fourth_end _ _ _ E4), com_bind. reflexivity. }
  destruct (x =? 91).
  - destruct (P _ _ (ip_part_end s n) _ H) as (V & -> & R). split; [exact V|]. rewrite <- R. reflexivity.
  - destruct (P _ _ (name_part_end idna s n) _ H) as (V & -> & R). split; [exact V|]. rewrite <- R. reflexivity.
Qed.

Lemma email_v_end idna prof s r : email_v_parse_str idna prof f s = Ok r ->
  host_addr (er_host r) /\ email_v_parse_str idna prof c s = email_end r.
Proof.
  unfold email_v_parse_str. intros H. destruct (_ || _)%bool; [discriminate H|].
  destruct (e_leading_comment f 62 s) as [[n1 o1]| |] eqn:E1; cbn [obind] in H; try discriminate H.
  rewrite (lead_end _ _ _ _ E1), com_bind.
  assert (L : e_local_part c s n1 = e_local_part f s n1) by (symmetry; exact (local_part_free c s n1)). rewrite L. clear L.
  destruct (e_local_part f s n1) as [[[[lp nq] qu] n2]| |]; cbn [obind] in *; try discriminate H.
  destruct (e_comment2 prof f s n2) as [[n3 o2]| |] eqn:E2; cbn [obind] in H; try discriminate H.
  rewrite (second_end _ _ _ _ _ E2), (com_bind o2 (n3, o2)).
  destruct (idx s n3) as [x| |]; cbn [obind] in *; try discriminate H.
  destruct (_ || _)%bool; [discriminate H|].
  destruct (str_slice_from s (n3 + 1)) as [d| |]; cbn [obind] in *; try discriminate H.
  destruct (e_domain_part idna f d (qu && nq)) as [[[[h b] o3] o4]| |] eqn:E; cbn [obind] in H; try discriminate H.
  injection H as <-. destruct (domain_part_end _ _ _ _ _ _ _ E) as [V ->]. split; [exact V|].
  unfold email_end. cbn [er_c1 er_c2 er_c3 er_c4 er_host er_local er_need_quoted].
  destruct (com_end com o1 tt); cbn [obind]; try reflexivity.
  destruct (com_end com o2 tt); cbn [obind]; try reflexivity.
  destruct (com_end com o3 tt); cbn [obind]; try reflexivity.
  destruct (host_check h); cbn [obind]; try reflexivity.
  destruct (e_check_local c (e_flag c (addr_local h))); cbn [obind]; try reflexivity.
  destruct (com_end com o4 tt); reflexivity.
Qed.

End Fixed.

Definition com_test (com b : bool) : bool := com || b.
Definition none (o : option (list N)) : bool := match o with None => true | _ => false end.
Lemma com_first_spec com o1 o2 o3 : com_test com (none o1 && none o2 && none o3) = true <->
  com = true \/ (o1 = None /\ o2 = None /\ o3 = None).
Proof. unfold com_test. destruct com, o1, o2, o3; cbn; intuition congruence. Qed.
Lemma com_last_spec com o : com_test com (none o) = true <-> com = true \/ o = None.
Proof. unfold com_test. destruct com, o; cbn; intuition congruence. Qed.

Lemma email_end_order com ip l t na r v : host_addr (er_host r) -> e_create (ecfg true Allow Allow Allow na) r = Ok v ->
  first_broken (same_parts v) (email_order com ip l t v)
    (let? r := email_end com ip l t na r in e_create (ecfg com ip l t na) r).
Proof.
  intros V H. injection H as <-. unfold email_order, same_parts. cbn [ev_c1 ev_c2 ev_c3 ev_c4 ev_domain ev_local ev_need_quoted].
  cbn [e_comment ecfg app].
  apply (fb_cons _ _ _ _ _ _ (com_first_spec com _ _ _)).
  { unfold com_test, email_end, com_end. destruct com, (er_c1 r), (er_c2 r), (er_c3 r); try discriminate; reflexivity. }
  intros K. unfold email_end.
  replace (com_end com (er_c1 r) tt) with (Ok (E := email_err) tt)
    by (unfold com_test in K; destruct com, (er_c1 r); try discriminate K; reflexivity).
  replace (com_end com (er_c2 r) tt) with (Ok (E := email_err) tt)
    by (unfold com_test in K; destruct com, (er_c1 r), (er_c2 r); try discriminate K; reflexivity).
  replace (com_end com (er_c3 r) tt) with (Ok (E := email_err) tt)
    by (unfold com_test in K; destruct com, (er_c1 r), (er_c2 r), (er_c3 r); try discriminate K; reflexivity).
  cbn [obind].
  assert (G : com_test com (none (er_c4 r)) = true ->
    (if com then er_c1 r else None) = er_c1 r /\ (if com then er_c2 r else None) = er_c2 r /\
    (if com then er_c3 r else None) = er_c3 r /\ (if com then er_c4 r else None) = er_c4 r).
  { unfold com_test in *. destruct com; [auto|]. destruct (er_c1 r), (er_c2 r), (er_c3 r); try discriminate K.
    destruct (er_c4 r); [discriminate|auto]. }
  clear K. destruct (er_host r) as [d|a|a] eqn:HH; cbn [host_check addr_local app host_addr] in *.
  - apply (fb_cons _ _ _ _ _ _ (is_not_spec ip Must)); [destruct ip; try discriminate; reflexivity|intros K1].
    apply (fb_cons _ _ _ _ _ _ (two_test_spec t _ _ _ d (localhost_spec d) (two_labels_spec d))).
    { unfold e_check_two, e_flag. cbn [ecfg e_two e_local].
      destruct ip, t, l, (is_local_domain d), (is_at_least_two_labels_domain d); try discriminate; reflexivity. }
    intros K2. apply (fb_cons _ _ _ _ _ _ (local_test_spec l _ _ (localhost_spec d))).
    { unfold e_check_two, e_flag. cbn [ecfg e_two e_local].
      destruct ip, t, l, (is_local_domain d), (is_at_least_two_labels_domain d); try discriminate; reflexivity. }
    intros K3. apply (fb_cons _ _ _ _ _ _ (com_last_spec com (er_c4 r))).
    { unfold e_check_two, e_flag. cbn [ecfg e_two e_local]. unfold com_test, com_end.
      destruct com, (er_c4 r); try discriminate;
      destruct ip, t, l, (is_local_domain d), (is_at_least_two_labels_domain d); try discriminate; reflexivity. }
    intros K4. destruct (G K4) as (G1 & G2 & G3 & G4). cbn [first_broken].
    assert (C4 : com_end com (er_c4 r) tt = Ok tt) by (unfold com_test in K4; destruct com, (er_c4 r); try discriminate K4; reflexivity).
    rewrite C4. unfold e_check_two, e_check_local, e_flag. cbn [ecfg e_two e_local].
    destruct ip, t, l, (is_local_domain d), (is_at_least_two_labels_domain d); try discriminate;
      (eexists; split; [reflexivity|]); cbn; auto 10.
  - apply (fb_cons _ _ _ _ _ _ (is_not_spec ip Disallow)); [destruct ip; try discriminate; reflexivity|intros K1].
    apply (fb_cons _ _ _ _ _ _ (is_not_spec t Disallow)); [destruct ip, t; try discriminate; reflexivity|intros K2].
    apply (fb_cons _ _ _ _ _ _ (local_test_spec l _ _ (is_local_ipv4_spec a V))).
    { unfold e_flag. cbn [ecfg e_two e_local]. destruct ip, t, l, (is_local_ipv4 a); try discriminate; reflexivity. }
    intros K3. apply (fb_cons _ _ _ _ _ _ (com_last_spec com (er_c4 r))).
    { unfold e_flag. cbn [ecfg e_two e_local]. unfold com_test, com_end. destruct com, (er_c4 r); try discriminate;
      destruct ip, t, l, (is_local_ipv4 a); try discriminate; reflexivity. }
    intros K4. destruct (G K4) as (G1 & G2 & G3 & G4). cbn [first_broken].
    assert (C4 : com_end com (er_c4 r) tt = Ok tt) by (unfold com_test in K4; destruct com, (er_c4 r); try discriminate K4; reflexivity).
    rewrite C4. unfold e_check_local, e_flag. cbn [ecfg e_two e_local].
    destruct ip, t, l, (is_local_ipv4 a); try discriminate; (eexists; split; [reflexivity|]); cbn; auto 10.
  - apply (fb_cons _ _ _ _ _ _ (is_not_spec ip Disallow)); [destruct ip; try discriminate; reflexivity|intros K1].
    apply (fb_cons _ _ _ _ _ _ (is_not_spec t Disallow)); [destruct ip, t; try discriminate; reflexivity|intros K2].
    apply (fb_cons _ _ _ _ _ _ (local_test_spec l _ _ (is_local_ipv6_spec a V))).
    { unfold e_flag. cbn [ecfg e_two e_local]. destruct ip, t, l, (is_local_ipv6 a); try discriminate; reflexivity. }
    intros K3. apply (fb_cons _ _ _ _ _ _ (com_last_spec com (er_c4 r))).
    { unfold e_flag. cbn [ecfg e_two e_local]. unfold com_test, com_end. destruct com, (er_c4 r); try discriminate;
      destruct ip, t, l, (is_local_ipv6 a); try discriminate; reflexivity. }
    intros K4. destruct (G K4) as (G1 & G2 & G3 & G4). cbn [first_broken].
    assert (C4 : com_end com (er_c4 r) tt = Ok tt) by (unfold com_test in K4; destruct com, (er_c4 r); try discriminate K4; reflexivity).
    rewrite C4. unfold e_check_local, e_flag. cbn [ecfg e_two e_local].
    destruct ip, t, l, (is_local_ipv6 a); try discriminate; (eexists; split; [reflexivity|]); cbn; auto 10.
Qed.

(** For a text that the e-mail validator accepts without policies (and with the same rule on non-ASCII local parts): a
    comment before the domain comes first, then the rule on IP addresses, then the one on labels, then the one on
    locality, and last a comment behind the domain. An address that breaks no rule is accepted with the same parts. *)
Theorem C135_email_partial : forall idna prof com ip l t na s v,
  email_parse_str idna prof (ecfg true Allow Allow Allow na) s = Ok v ->
  first_broken (same_parts v) (email_order com ip l t v) (email_parse_str idna prof (ecfg com ip l t na) s).
Proof.
  intros idna prof com ip l t na s v H. unfold email_parse_str in *.
  destruct (email_v_parse_str idna prof (ecfg true Allow Allow Allow na) s) as [r| |] eqn:E; try discriminate H.
  cbn [obind] in H. destruct (email_v_end com ip l t na _ _ _ _ E) as [V ->]. exact (email_end_order _ _ _ _ _ _ _ V H).
Qed.

(** So which of two broken rules is reported depends on where the comment stands. *)
Theorem C135_email_order_refuted : exists idna prof com ip l t na s s' v v', idna_laws idna /\
  email_parse_str idna prof (ecfg true Allow Allow Allow na) s = Ok v /\
  email_parse_str idna prof (ecfg true Allow Allow Allow na) s' = Ok v' /\
  ev_local v = ev_local v' /\ ev_domain v = ev_domain v' /\ ev_c1 v = ev_c4 v' /\ ev_c1 v <> None /\
  email_parse_str idna prof (ecfg com ip l t na) s = Err ECommentDisallow /\
  email_parse_str idna prof (ecfg com ip l t na) s' = Err ELocalDisallow.
Proof.
  exists idna_frag, Release, false, Allow, Disallow, Allow, false, (bs "(c)a@localhost"), (bs "a@localhost(c)"),
    {| ev_local := bs "a"; ev_need_quoted := false; ev_domain := HDomain (bs "localhost"); ev_c1 := Some (bs "c");
       ev_c2 := None; ev_c3 := None; ev_c4 := None; ev_is_local := None |},
    {| ev_local := bs "a"; ev_need_quoted := false; ev_domain := HDomain (bs "localhost"); ev_c1 := None;
       ev_c2 := None; ev_c3 := None; ev_c4 := Some (bs "c"); ev_is_local := None |}.
  split; [exact idna_frag_laws|]. split; [vm_compute; reflexivity|]. split; [vm_compute; reflexivity|].
  split; [reflexivity|]. split; [reflexivity|]. split; [reflexivity|]. split; [discriminate|].
  split; [vm_compute; reflexivity|vm_compute; reflexivity].
Qed.

(** An address that breaks four rules. *)
Example C135_email_example :
  email_parse_str idna_frag Debug (ecfg false Must Must Must true) (bs "a(b)@com") = Err ECommentDisallow /\
  email_parse_str idna_frag Debug (ecfg true Must Must Must true) (bs "a(b)@com") = Err EIPMust /\
  email_parse_str idna_frag Debug (ecfg true Allow Must Must true) (bs "a(b)@com") = Err ETwoLabelsMust /\
  email_parse_str idna_frag Debug (ecfg true Allow Must Allow true) (bs "a(b)@com") = Err ELocalMust /\
  is_ok (email_parse_str idna_frag Debug (ecfg true Allow Allow Allow true) (bs "a(b)@com")).
Proof.
  split; [vm_compute; reflexivity|]. split; [vm_compute; reflexivity|]. split; [vm_compute; reflexivity|].
  split; [vm_compute; reflexivity|]. eexists. vm_compute. reflexivity.
Qed.

Print Assumptions C135_email_partial.
Print Assumptions C135_email_order_refuted.
