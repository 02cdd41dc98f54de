(** Property C72: the macro refuses contradictory policies, and only those. *)
From Verif Require Import Base Utf8 StrFacts RangeModel IntModel NumberModel NumberSpec MacModel MacSpec NetSpec IpModel IpSpec DomainModel
  DomainSpec HostModel HostSpec EmailModel EmailSpec IdnaFrag MetaModel MacroModel MetaSpec MacroSpec MacroProofs
  IpProofs PropDomain PropEmail PropMac.
Local Open Scope N_scope.

(** The names used as witnesses are kept by [to_ascii]. *)
Definition idna_keeps (idna : list N -> option (list N)) : Prop :=
  idna (bs "localhost") = Some (bs "localhost") /\ idna (bs "a") = Some (bs "a") /\ idna (bs "a.org") = Some (bs "a.org").

Example C72_example_idna : idna_keeps idna_ascii.
Proof. repeat split. Qed.

Lemma ascii_text : forall s, forallb (fun b => b <? 128) s = true -> valid_str s.
Proof.
  intros s H. apply ascii_valid. apply Forall_forall. intros b Hb. apply N.ltb_lt.
  exact (proj1 (forallb_forall _ _) H b Hb).
Qed.

(** C72, domain: a text is accepted under the policies unless IPv4 addresses are required and two labels forbidden. *)
Theorem C72_domain : forall idna c, idna_keeps idna ->
  (exists s v, valid_str s /\ domain_parse_str idna c s = Ok v) <-> ~ (d_ipv4 c = Must /\ d_two c = Disallow).
Proof.
  intros idna [i l p t] (H1 & H2 & H3). cbn [d_ipv4 d_two]. split.
  - intros (s & v & V & H) [-> ->]. apply C36_domain_accepts_exactly in H; [|exact V].
    destruct H as (_ & name & _ & _ & [((E & _) & _)|[(_ & a & _ & _ & E & _)|(_ & _ & E & _)]]).
    + discriminate E.
    + apply E; reflexivity.
    + apply E; reflexivity.
  - intros Nc. vm_compute in H1, H2, H3.
    assert (K : forall s v, forallb (fun b => b <? 128) s = true -> domain_parse_str idna
      {| d_ipv4 := i; d_local := l; d_port := p; d_two := t |} s = Ok v ->
      exists s v, valid_str s /\ domain_parse_str idna {| d_ipv4 := i; d_local := l; d_port := p; d_two := t |} s = Ok v).
    { intros s v A B. exists s, v. split; [apply ascii_text, A|exact B]. }
    destruct i, l, p, t; try (exfalso; apply Nc; split; reflexivity);
      first
      [ eapply (K (bs "localhost")); [reflexivity|vm_compute; rewrite ?H1; reflexivity]
      | eapply (K (bs "a")); [reflexivity|vm_compute; rewrite ?H2; reflexivity]
      | eapply (K (bs "a.org")); [reflexivity|vm_compute; rewrite ?H3; reflexivity]
      | eapply (K (bs "127.0.0.1")); [reflexivity|vm_compute; reflexivity]
      | eapply (K (bs "8.8.8.8")); [reflexivity|vm_compute; reflexivity]
      | eapply (K (bs "localhost:80")); [reflexivity|vm_compute; rewrite ?H1; reflexivity]
      | eapply (K (bs "a:80")); [reflexivity|vm_compute; rewrite ?H2; reflexivity]
      | eapply (K (bs "a.org:80")); [reflexivity|vm_compute; rewrite ?H3; reflexivity]
      | eapply (K (bs "127.0.0.1:80")); [reflexivity|vm_compute; reflexivity]
      | eapply (K (bs "8.8.8.8:80")); [reflexivity|vm_compute; reflexivity] ].
Qed.
Print Assumptions C72_domain.

(** C72, email: likewise. *)
Theorem C72_email : forall idna prof c, idna_keeps idna ->
  (exists s v, valid_str s /\ email_parse_str idna prof c s = Ok v) <-> ~ (e_ip c = Must /\ e_two c = Disallow).
Proof.
  intros idna prof [co i l t na] (H1 & H2 & H3). cbn [e_ip e_two]. split.
  - intros (s & v & V & H) [-> ->]. apply C44_email_accepts_exactly in H; [|exact V].
    destruct H as (lt & q & dt & tail & canon & _ & _ & _ & _ & _ & _ & _ & _ & H & _).
    unfold host_text in H. cbn [e_ip e_two] in H.
    destruct (ev_domain v); [destruct H as (H & _)|destruct H as (_ & H & _)|destruct H as (_ & H & _)]; apply H; reflexivity.
  - intros Nc. vm_compute in H1, H2, H3.
    assert (K : forall s v, forallb (fun b => b <? 128) s = true -> email_parse_str idna prof
      {| e_comment := co; e_ip := i; e_local := l; e_two := t; e_non_ascii := na |} s = Ok v ->
      exists s v, valid_str s /\ email_parse_str idna prof
        {| e_comment := co; e_ip := i; e_local := l; e_two := t; e_non_ascii := na |} s = Ok v).
    { intros s v A B. exists s, v. split; [apply ascii_text, A|exact B]. }
    destruct prof, co, na, i, l, t; try (exfalso; apply Nc; split; reflexivity);
      first
      [ eapply (K (bs "a@localhost")); [reflexivity|vm_compute; rewrite ?H1; reflexivity]
      | eapply (K (bs "a@a")); [reflexivity|vm_compute; rewrite ?H2; reflexivity]
      | eapply (K (bs "a@a.org")); [reflexivity|vm_compute; rewrite ?H3; reflexivity]
      | eapply (K (bs "a@[127.0.0.1]")); [reflexivity|vm_compute; reflexivity]
      | eapply (K (bs "a@[8.8.8.8]")); [reflexivity|vm_compute; reflexivity] ].
Qed.
Print Assumptions C72_email.

(** C72, host and ip: all policies can be satisfied together. *)
Theorem C72_host : forall idna c, idna_keeps idna -> exists s v, valid_str s /\ host_parse_str idna c s = Ok v.
Proof.
  intros idna [l p t] (H1 & H2 & H3). vm_compute in H1, H2, H3.
  assert (K : forall s v, forallb (fun b => b <? 128) s = true -> host_parse_str idna
    {| h_local := l; h_port := p; h_two := t |} s = Ok v ->
    exists s v, valid_str s /\ host_parse_str idna {| h_local := l; h_port := p; h_two := t |} s = Ok v).
  { intros s v A B. exists s, v. split; [apply ascii_text, A|exact B]. }
  destruct l, p, t;
    first
    [ eapply (K (bs "localhost")); [reflexivity|vm_compute; rewrite ?H1; reflexivity]
    | eapply (K (bs "a")); [reflexivity|vm_compute; rewrite ?H2; reflexivity]
    | eapply (K (bs "a.org")); [reflexivity|vm_compute; rewrite ?H3; reflexivity]
    | eapply (K (bs "localhost:80")); [reflexivity|vm_compute; rewrite ?H1; reflexivity]
    | eapply (K (bs "a:80")); [reflexivity|vm_compute; rewrite ?H2; reflexivity]
    | eapply (K (bs "a.org:80")); [reflexivity|vm_compute; rewrite ?H3; reflexivity] ].
Qed.
Print Assumptions C72_host.

Theorem C72_ip : forall port local,
  (exists s v, valid_str s /\ ip_parse_str port local s = Ok v) /\
  (exists s v, valid_str s /\ ipv4_parse_str port local s = Ok v) /\
  (exists s v, valid_str s /\ ipv6_parse_str port local s = Ok v).
Proof.
  intros port local.
  assert (K : forall A (parse : list N -> outcome ip_err A) s v, forallb (fun b => b <? 128) s = true ->
    parse s = Ok v -> exists s v, valid_str s /\ parse s = Ok v).
  { intros A parse s v B C. exists s, v. split; [apply ascii_text, B|exact C]. }
  destruct port, local; repeat split;
    first
    [ eapply (K _ _ (bs "127.0.0.1")); [reflexivity|vm_compute; reflexivity]
    | eapply (K _ _ (bs "8.8.8.8")); [reflexivity|vm_compute; reflexivity]
    | eapply (K _ _ (bs "127.0.0.1:80")); [reflexivity|vm_compute; reflexivity]
    | eapply (K _ _ (bs "8.8.8.8:80")); [reflexivity|vm_compute; reflexivity]
    | eapply (K _ _ (bs "::1")); [reflexivity|vm_compute; reflexivity]
    | eapply (K _ _ (bs "2001::1")); [reflexivity|vm_compute; reflexivity]
    | eapply (K _ _ (bs "[::1]:80")); [reflexivity|vm_compute; reflexivity]
    | eapply (K _ _ (bs "[2001::1]:80")); [reflexivity|vm_compute; reflexivity] ].
Qed.
Print Assumptions C72_ip.

(** C72: the macro refuses a readable domain or email attribute as contradictory exactly if no text could ever be
    accepted and [conflict(Allow)] is not given. *)
Theorem C72_domain_refused : forall cid (id_from_str : list N -> option cid) cid_eqb compiles float_lit pw f m a fs idna,
  idna_keeps idna -> domain_attribute f m = Ok a ->
  (handler id_from_str cid_eqb compiles float_lit pw Vdomain f m (DataStruct fs) = Err XConflict <->
   da_conflict a = false /\ forall s v, valid_str s -> domain_parse_str idna (domain_cfg_of a) s <> Ok v).
Proof.
  intros cid ifs ceq comp fl pw f m a fs idna K H. cbn [handler]. unfold domain_handler. rewrite H. cbn [obind].
  assert (S := C72_domain idna (domain_cfg_of a) K). cbn [d_ipv4 d_two domain_cfg_of] in S.
  assert (D : domain_conflicts a = true <-> da_conflict a = false /\ da_ipv4 a = Must /\ da_two a = Disallow).
  { unfold domain_conflicts. destruct (da_ipv4 a), (da_two a), (da_conflict a); cbn; intuition congruence. }
  destruct (domain_conflicts a) eqn:E; cbn [omap].
  - split; [intros _|reflexivity]. destruct (proj1 D eq_refl) as (D1 & D2). split; [exact D1|].
    intros s v V P. apply (proj1 S); [exists s, v; auto|exact D2].
  - split.
    + destruct (domain_shape a fs); discriminate.
    + intros (D1 & D2). exfalso.
      assert (Nc : ~ (da_ipv4 a = Must /\ da_two a = Disallow)).
      { intros Q. assert (false = true) by (apply D; auto). discriminate. }
      destruct (proj2 S Nc) as (s & v & V & P). exact (D2 s v V P).
Qed.
Print Assumptions C72_domain_refused.

Theorem C72_email_refused : forall cid (id_from_str : list N -> option cid) cid_eqb compiles float_lit pw f m a fs idna prof,
  idna_keeps idna -> email_attribute f m = Ok a ->
  (handler id_from_str cid_eqb compiles float_lit pw Vemail f m (DataStruct fs) = Err XConflict <->
   ea_conflict a = false /\ forall s v, valid_str s -> email_parse_str idna prof (email_cfg_of a) s <> Ok v).
Proof.
  intros cid ifs ceq comp fl pw f m a fs idna prof K H. cbn [handler]. unfold email_handler. rewrite H. cbn [obind].
  assert (S := C72_email idna prof (email_cfg_of a) K). cbn [e_ip e_two email_cfg_of] in S.
  assert (D : email_conflicts a = true <-> ea_conflict a = false /\ ea_ip a = Must /\ ea_two a = Disallow).
  { unfold email_conflicts. destruct (ea_ip a), (ea_two a), (ea_conflict a); cbn; intuition congruence. }
  destruct (email_conflicts a) eqn:E; cbn [omap].
  - split; [intros _|reflexivity]. destruct (proj1 D eq_refl) as (D1 & D2). split; [exact D1|].
    intros s v V P. apply (proj1 S); [exists s, v; auto|exact D2].
  - split.
    + destruct (email_shape a fs); discriminate.
    + intros (D1 & D2). exfalso.
      assert (Nc : ~ (ea_ip a = Must /\ ea_two a = Disallow)).
      { intros Q. assert (false = true) by (apply D; auto). discriminate. }
      destruct (proj2 S Nc) as (s & v & V & P). exact (D2 s v V P).
Qed.
Print Assumptions C72_email_refused.

Definition two_policies (name p1 v1 p2 v2 : ident) (rest : list item) : meta :=
  MList [name] ([IMeta (MNameValue [p1] (EPath [v1])); IMeta (MNameValue [p2] (EPath [v2]))] ++ rest) false.
Example C72_example :
  let f := {| f_serde := true; f_rocket := true; f_full := false |} in
  let run v m := handler (cid := unit) (fun _ => None) (fun _ _ => true) (fun _ => true) (fun _ _ => None) W64 v f m in
  run Vdomain (two_policies (bs "domain") (bs "ipv4") (bs "Must") (bs "at_least_two_labels") (bs "Disallow") [])
    (DataStruct (FNamed [bs "domain"; bs "is_local"; bs "port"])) = Err XConflict /\
  run Vdomain (two_policies (bs "domain") (bs "ipv4") (bs "Must") (bs "at_least_two_labels") (bs "Disallow")
                 [IMeta (MNameValue [bs "conflict"] (EPath [bs "Allow"]))])
    (DataStruct (FNamed [bs "domain"; bs "is_local"; bs "port"])) =
    Ok (GDomain (mk_domain_attr Must Allow Allow Disallow true opts0)) /\
  run Vdomain (two_policies (bs "domain") (bs "ipv4") (bs "Allow") (bs "at_least_two_labels") (bs "Disallow") [])
    (DataStruct (FNamed [bs "domain"; bs "is_ipv4"; bs "is_local"; bs "port"])) =
    Ok (GDomain (mk_domain_attr Allow Allow Allow Disallow false opts0)).
Proof. repeat split. Qed.

(** C72, number: not so. Every configuration the macro refuses as contradictory, [nan(Must)] with [range(Inside(..))],
    accepts a value: NaN passes every range. *)
Theorem C72_number_refuted :
  (exists cid (id_from_str : list N -> option cid) cid_eqb compiles float_lit pw f m fs,
     handler id_from_str cid_eqb compiles float_lit pw Vnumber f m (DataStruct fs) = Err XConflict) /\
  (forall t r n c, number_conflict r n c = true -> own_parse_f t r n SpecFloat.S754_nan = Ok SpecFloat.S754_nan).
Proof.
  split.
  - exists unit, (fun _ => None), (fun _ _ => true), (fun _ => true),
      (fun _ s => if eqbs s (bs "1.5") then Some (SpecFloat.S754_finite false 3 (-1)) else None), W64,
      {| f_serde := true; f_rocket := true; f_full := false |},
      (MList [bs "number"]
         [IMeta (MNameValue [bs "nan"] (EPath [bs "Must"]));
          IMeta (MList [bs "range"] [IMeta (MList [bs "Inside"] [IMeta (MNameValue [bs "min"] (ELit (LitFloat (bs "1.5"))))] false)]
                   false)] false), (FUnnamed [bs "f64"]).
    reflexivity.
  - intros t r n c H. unfold number_conflict in H. destruct n; try discriminate H. destruct r as [mn mx i| |]; try discriminate H.
    assert (Q : v_parse_f (Inside mn mx i) Must SpecFloat.S754_nan = Ok tt).
    { unfold v_parse_f, to_tokens, num_handle_range, range_equal, float_inc.
      destruct mn as [a|], mx as [b|], i; try destruct (SpecFloat.SFeqb a b); cbn;
        unfold SpecFloat.SFltb, SpecFloat.SFleb, SpecFloat.SFcompare; cbn; try destruct a; try destruct b; reflexivity. }
    destruct t; unfold own_parse_f, num_parse_f32, num_parse_f64; rewrite Q; reflexivity.
Qed.
Print Assumptions C72_number_refuted.

(** C72, mac_address and uuid: every accepted configuration can be satisfied. False: the separator may be any byte,
    also one that occurs in no string. *)
Lemma no_255 : forall s, valid_str s -> ~ In 255 s.
Proof.
  intros s (cs & Hc & ->) H. unfold utf8 in H. apply in_flat_map in H. destruct H as (c & Hin & H).
  assert (B : c < 1114112).
  { assert (Q := proj1 (Forall_forall _ _) Hc c Hin). unfold is_scalar in Q. cbn beta in Q. lia. }
  unfold utf8_char in H.
  assert (c / 262144 <= 4) by (apply N.lt_succ_r, N.div_lt_upper_bound; lia).
  assert (c mod 64 < 64) by (apply N.mod_lt; lia). assert ((c / 64) mod 64 < 64) by (apply N.mod_lt; lia).
  assert ((c / 4096) mod 64 < 64) by (apply N.mod_lt; lia).
  destruct (c <? 128) eqn:E1; [apply N.ltb_lt in E1|apply N.ltb_ge in E1; destruct (c <? 2048) eqn:E2;
    [apply N.ltb_lt in E2|apply N.ltb_ge in E2; destruct (c <? 65536) eqn:E3; [apply N.ltb_lt in E3|]]]; cbn in H.
  - lia.
  - assert (c / 64 < 32) by (apply N.div_lt_upper_bound; lia). lia.
  - assert (c / 4096 < 16) by (apply N.div_lt_upper_bound; lia). lia.
  - lia.
Qed.

Lemma grouped_has : forall c k k' sizes v digits, grouped (SepMust c) (k :: k' :: sizes) v digits -> In c v.
Proof.
  intros c k k' sizes v digits H. inversion H; subst. cbn in *. subst. apply in_or_app. right. left. reflexivity.
Qed.

Theorem C72_separator_refuted : exists f m1 m2 fs a,
  (forall cid (id_from_str : list N -> option cid) cid_eqb compiles float_lit pw,
   handler id_from_str cid_eqb compiles float_lit pw Vmac_address f m1 (DataStruct fs) = Ok (GMac a) /\
   handler id_from_str cid_eqb compiles float_lit pw Vuuid f m2 (DataStruct fs) = Ok (GUuid a)) /\
  forall s x, valid_str s ->
    mac_parse_str (xa_case a) (xa_sep a) s <> Ok x /\ uuid_parse_str (xa_case a) (xa_sep a) s <> Ok x.
Proof.
  exists {| f_serde := true; f_rocket := true; f_full := false |},
    (MList [bs "mac_address"] [IMeta (MList [bs "separator"] [IMeta (MNameValue [bs "Must"] (ELit (LitByte 255)))] false)] false),
    (MList [bs "uuid"] [IMeta (MList [bs "separator"] [IMeta (MNameValue [bs "Must"] (ELit (LitByte 255)))] false)] false),
    (FUnnamed [bs "u64"]), (mk_hex_attr AnyCase (SepMust 255) opts0).
  split; [intros; split; reflexivity|]. intros s x V. cbn [xa_case xa_sep]. split; intros H.
  - apply C25_mac_accepts_only in H. destruct H as (digits & G & _). apply grouped_has in G. exact (no_255 s V G).
  - apply C28_uuid_accepts_only in H. destruct H as (digits & G & _). apply grouped_has in G. exact (no_255 s V G).
Qed.
Print Assumptions C72_separator_refuted.

(** C72, what holds: with an ASCII separator (and, if it is optional, not a hexadecimal digit) the address zero is
    accepted. *)
Lemma zeros_denote : forall case n, hex_denotes case (repeat 48 n) 0.
Proof.
  intros case n. induction n as [|n IH]; [constructor|]. cbn [repeat].
  replace 0 with (0 * 16 ^ N.of_nat (List.length (repeat 48 n)) + 0) by lia. constructor; [|exact IH].
  destruct case; cbn; eexists; (split; [left; reflexivity|reflexivity]).
Qed.

Theorem C72_separator_partial : forall case sep, (forall c, sep = SepMust c -> c < 128) -> sep_not_digit case sep ->
  (exists s, valid_str s /\ mac_parse_str case sep s = Ok 0) /\ (exists s, valid_str s /\ uuid_parse_str case sep s = Ok 0).
Proof.
  intros case sep H D.
  set (z := match sep with SepMust c => [c] | _ => [] end).
  assert (F : sep_form sep z) by (unfold z; destruct sep; cbn; auto).
  assert (V : Forall (fun c => c < 128) z) by (unfold z; destruct sep; constructor; auto).
  assert (R : forall n, Forall (fun c => c < 128) (repeat 48 n)) by (intros n; apply Forall_forall; intros x Hx; apply repeat_spec in Hx; subst; lia).
  split.
  - exists (repeat 48 2 ++ z ++ repeat 48 2 ++ z ++ repeat 48 2 ++ z ++ repeat 48 2 ++ z ++ repeat 48 2 ++ z ++ repeat 48 2).
    split; [apply ascii_valid; repeat (apply Forall_app; split); auto|].
    apply C25_mac_accepts_exactly; [exact D|]. exists (repeat 48 12). split; [|apply zeros_denote].
    change (repeat 48 12) with (repeat 48 2 ++ repeat 48 2 ++ repeat 48 2 ++ repeat 48 2 ++ repeat 48 2 ++ repeat 48 2).
    do 5 (apply (grouped_cons sep (repeat 48 2)); [exact F|]). apply (grouped_last sep (repeat 48 2)).
  - exists (repeat 48 8 ++ z ++ repeat 48 4 ++ z ++ repeat 48 4 ++ z ++ repeat 48 4 ++ z ++ repeat 48 12).
    split; [apply ascii_valid; repeat (apply Forall_app; split); auto|].
    apply C28_uuid_accepts_exactly; [exact D|]. exists (repeat 48 32). split; [|apply zeros_denote].
    change (repeat 48 32) with (repeat 48 8 ++ repeat 48 4 ++ repeat 48 4 ++ repeat 48 4 ++ repeat 48 12).
    apply (grouped_cons sep (repeat 48 8)); [exact F|].
    do 3 (apply (grouped_cons sep (repeat 48 4)); [exact F|]). apply (grouped_last sep (repeat 48 12)).
Qed.
Print Assumptions C72_separator_partial.

Example C72_separator_example : sep_not_digit UpperCase (SepAllow 58) /\
  mac_parse_str UpperCase (SepMust 45) (bs "00-00-00-00-00-00") = Ok 0.
Proof.
  split; [|reflexivity]. intros c d E. injection E as <-. intros (a & [<-|[]] & H).
  apply nth_error_In in H. vm_compute in H. intuition discriminate.
Qed.
