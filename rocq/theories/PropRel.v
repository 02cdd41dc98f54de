(** Property C76: validators for related things agree with each other. *)
From Verif Require Import Base IntStr NetModel NetSpec NetProofs IpModel IpSpec LocalProofs IpProofs Utf8 StrFacts Serde
  DomainModel DomainSpec DomainProofs IdnaFrag HostModel HostSpec HostProofs EmailModel EmailSpec
  PropIp PropDomain PropHost PropEmail PropUnion EmailRound.
Local Open Scope N_scope.

(** UTS #46 with STD3 rules: none of the ASCII delimiters '(' ':' '[' may occur in a name (none is mapped to another
    character either). A hypothesis about the external crate idna. *)
Definition idna_std3 (idna : list N -> option (list N)) : Prop := forall x d, idna x = Some d ->
  ~ In 40 x /\ ~ In 58 x /\ ~ In 91 x.

Lemma idna_ascii_std3 : idna_std3 idna_ascii.
Proof.
  intros x d H. pose proof (proj1 (idna_ascii_laws x d H)) as F.
  apply idna_ascii_frag in H as [H Ha]. unfold idna_frag in H. destruct (map_dots x) as [d'|] eqn:Em; [|discriminate H].
  destruct (ok_name (strip_last 46 d')); [|discriminate H]. injection H as <-. apply (map_ascii _ _ Ha) in Em.
  assert (I : forall c, In c x -> idna_char (lower c)).
  { intros c Hc. rewrite Forall_forall in F. apply F. rewrite Em. apply in_map. exact Hc. }
  assert (N : forall c, In c [40; 58; 91] -> ~ idna_char (lower c)).
  { intros c Hc. repeat destruct Hc as [<-|Hc]; try contradiction; vm_compute; clear; intuition discriminate. }
  repeat split; intros X; apply I in X; revert X; apply N; cbn; auto.
Qed.

Lemma field_fun b P f f' : field b P f -> field b P f' -> f = f'.
Proof.
  unfold field. destruct f as [[|]|], f' as [[|]|]; intros H H'; try reflexivity;
    try (destruct H; congruence); try (destruct H'; congruence).
  - destruct H as [_ H], H' as [_ H']. exfalso. assert (P) by (apply H; reflexivity).
    assert (false = true) by (apply H'; assumption). discriminate.
  - destruct H as [_ H], H' as [_ H']. exfalso. assert (P) by (apply H'; reflexivity).
    assert (false = true) by (apply H; assumption). discriminate.
Qed.

Lemma field_ex b P x : (x = true <-> P) -> field b P (if b then Some x else None).
Proof. destruct b; cbn; [auto|reflexivity]. Qed.

Lemma v4_form_addr s a q : v4_form s a q -> v4_addr a.
Proof. destruct q; cbn; [intros (t & r & _ & H & _)|intros H]; exact (v4_text_addr _ _ H). Qed.
Lemma v6_form_addr s a q : v6_form s a q -> v6_addr a.
Proof.
  destruct q; cbn; [intros (t & r & _ & H & _)|intros [H|(t & _ & H)]]; exact (v6_text_addr _ _ H).
Qed.

(** C76. A host validator accepts a text as an IP address exactly when the ip validator with the same policies does, with the
    same address and port; except that at_least_two_labels(Disallow) refuses every address. *)
Theorem C76_host_address_is_ip : forall idna l p t s q, valid_str s ->
  (forall a, (exists v, host_parse_str idna (hcfg l p t) s = Ok v /\ hv_host v = HIPv4 a /\ hv_port v = q) <->
             ip_parse_str p l s = Ok (V4 a, q) /\ t <> Disallow) /\
  (forall a, (exists v, host_parse_str idna (hcfg l p t) s = Ok v /\ hv_host v = HIPv6 a /\ hv_port v = q) <->
             ip_parse_str p l s = Ok (V6 a, q) /\ t <> Disallow).
Proof.
  intros idna l p t s q Hs. split; intros a; rewrite (C31_ip_accepts_exactly p l s _ q Hs); split.
  - intros (v & H & Hh & <-). apply (C39_host_accepts_exactly idna _ s v Hs) in H.
    destruct H as [(b & E & _)|[(b & E & F & P & T & L & _)|(n & d & E & _)]]; rewrite Hh in E; try discriminate E.
    injection E as <-. cbn [hcfg h_port h_two h_local] in *. auto.
  - intros ((F & P & L) & T).
    exists {| hv_host := HIPv4 a; hv_port := q;
              hv_is_local := if host_field (hcfg l p t) then Some (is_local_ipv4 a) else None |}.
    split; [|split; reflexivity]. apply (C39_host_accepts_exactly idna _ s _ Hs). right. left. exists a.
    cbn [hv_host hv_port hv_is_local hcfg h_port h_two h_local]. repeat split; try assumption.
    apply field_ex, is_local_ipv4_spec, (v4_form_addr _ _ _ F).
  - intros (v & H & Hh & <-). apply (C39_host_accepts_exactly idna _ s v Hs) in H.
    destruct H as [(b & E & F & P & T & L & _)|[(b & E & _)|(n & d & E & _)]]; rewrite Hh in E; try discriminate E.
    injection E as <-. cbn [hcfg h_port h_two h_local] in *. auto.
  - intros ((F & P & L) & T).
    exists {| hv_host := HIPv6 a; hv_port := q;
              hv_is_local := if host_field (hcfg l p t) then Some (is_local_ipv6 a) else None |}.
    split; [|split; reflexivity]. apply (C39_host_accepts_exactly idna _ s _ Hs). left. exists a.
    cbn [hv_host hv_port hv_is_local hcfg h_port h_two h_local]. repeat split; try assumption.
    apply field_ex, is_local_ipv6_spec, (v6_form_addr _ _ _ F).
Qed.
Print Assumptions C76_host_address_is_ip.

(** The name in front of the port, if there is one, ends in a dot. *)
Definition final_dot (s : list N) (q : option N) : Prop := exists name u, split_port s name q /\ name = u ++ [46].

Lemma v6_no_split s a name q : v6_text s a -> split_port s name q -> In 58 name.
Proof.
  intros H. destruct (v6_two_colons _ _ H) as (u & m & r & E). destruct q as [q|]; cbn.
  - intros (k & -> & Hk).
    assert (K : ~ In 58 k) by (apply (port_text_not_in _ _ 58 Hk); lia).
    destruct (in_dec N.eq_dec 58 name) as [I|I]; [exact I|]. exfalso.
    change (name ++ [58] ++ k = u ++ [58] ++ m ++ [58] ++ r) in E.
    assert (C : count_occ N.eq_dec (name ++ [58] ++ k) 58 = 1%nat).
    { rewrite !count_occ_app, (proj1 (count_occ_not_In N.eq_dec name 58) I), (proj1 (count_occ_not_In N.eq_dec k 58) K).
      reflexivity. }
    rewrite E, !count_occ_app in C. cbn [count_occ] in C. destruct (N.eq_dec 58 58) as [_|X]; [lia|congruence].
  - intros (<- & K). exfalso. apply K. rewrite E. apply in_app_iff. right. left. reflexivity.
Qed.

(** C76. A host validator accepts a text as a domain exactly when the domain validator with the same policies and
    ipv4(Disallow) does, with the same domain, port and is_local; except for a name that ends in a dot. *)
Theorem C76_host_name_is_domain_partial : forall idna l p t s d q, idna_std3 idna -> valid_str s ->
  forall i, (exists v, host_parse_str idna (hcfg l p t) s = Ok v /\
               hv_host v = HDomain d /\ hv_port v = q /\ hv_is_local v = i) <->
            (exists w, domain_parse_str idna (cfg Disallow l p t) s = Ok w /\
               dv_domain w = d /\ dv_port w = q /\ dv_is_local w = i) /\ ~ final_dot s q.
Proof.
  intros idna l p t s d q HI Hs i. split.
  - intros (v & H & Hh & <- & <-). apply (C39_host_accepts_exactly idna _ s v Hs) in H.
    destruct H as [(b & E & _)|[(b & E & _)|(name & d' & E & Hne & Hb & H6 & Sp & P & Dot & H4 & Id & T & L & F)]];
      rewrite Hh in E; try discriminate E. injection E as <-. cbn [hcfg h_port h_two h_local] in *. split.
    + exists {| dv_domain := d; dv_port := hv_port v; dv_is_ipv4 := None; dv_is_local := hv_is_local v |}.
      split; [|repeat split; reflexivity]. apply (C36_domain_accepts_exactly idna _ s _ Hs). split; [exact Hne|].
      exists name. cbn [dv_port dv_domain dv_is_ipv4 dv_is_local]. split; [exact Sp|]. split; [exact P|].
      right. right. split; [intros (X & _); discriminate X|]. split.
      { intros a (u & [->| ->] & Hu); [exact (H4 _ Hu)|exact (Dot u eq_refl)]. }
      split; [discriminate|]. split; [exact Id|]. split; [exact T|]. split; [exact L|]. split; [reflexivity|exact F].
    + intros (name' & u & Sp' & E). destruct (split_unique s _ _ _ _ Hs Sp Sp') as [<- _]. exact (Dot u E).
  - intros ((w & H & <- & <- & <-) & ND). apply (C36_domain_accepts_exactly idna _ s w Hs) in H.
    destruct H as (Hne & name & Sp & P & [((X & _) & _)|[(_ & a & _ & X & _)|(_ & H4 & _ & Id & T & L & F4 & F)]]);
      [discriminate X|exfalso; apply X; reflexivity|].
    exists {| hv_host := HDomain (dv_domain w); hv_port := dv_port w; hv_is_local := dv_is_local w |}.
    split; [|repeat split; reflexivity]. apply (C39_host_accepts_exactly idna _ s _ Hs). right. right.
    exists name, (dv_domain w). cbn [hv_host hv_port hv_is_local hcfg cfg h_port h_two h_local d_port d_two d_local] in *.
    destruct (HI _ _ Id) as (_ & Ic & Ib).
    split; [reflexivity|]. split; [exact Hne|]. split.
    { intros r E. destruct (dv_port w) as [k|]; cbn in Sp.
      - destruct Sp as (z & E2 & _). rewrite E in E2. destruct name as [|x name]; [discriminate E2|].
        injection E2 as <- _. apply Ib. left. reflexivity.
      - destruct Sp as [<- _]. rewrite E in Ib. apply Ib. left. reflexivity. }
    split; [intros a A; exact (Ic (v6_no_split _ _ _ _ A Sp))|]. split; [exact Sp|]. split; [exact P|]. split.
    { intros u E. apply ND. exists name, u. auto. }
    split; [intros a A; apply (H4 a); exists name; auto|]. split; [exact Id|]. split; [exact T|]. split; [exact L|exact F].
Qed.
Print Assumptions C76_host_name_is_domain_partial.

(** C76. The exception is real: the domain validator accepts a fully qualified name, the host validator refuses it under every
    policy. *)
Theorem C76_host_name_final_dot_refuted : exists s, valid_str s /\ final_dot s None /\
  (exists idna, idna_laws idna /\ idna_std3 idna /\
     is_ok (domain_parse_str idna (cfg Disallow Disallow Disallow Must) s)) /\
  (forall idna l p t, ~ is_ok (host_parse_str idna (hcfg l p t) s)).
Proof.
  exists (bs "magiclen.org."). assert (V : valid_str (bs "magiclen.org.")) by ascii_str.
  assert (S : split_port (bs "magiclen.org.") (bs "magiclen.org.") None).
  { split; [reflexivity|]. intros H. repeat destruct H as [H|H]; try discriminate H. exact H. }
  split; [exact V|]. split; [|split].
  - exists (bs "magiclen.org."), (bs "magiclen.org"). split; [exact S|reflexivity].
  - exists idna_ascii. split; [exact idna_ascii_laws|]. split; [exact idna_ascii_std3|].
    eexists. vm_compute. reflexivity.
  - intros idna l p t (v & H). apply (C39_host_accepts_exactly idna _ _ v V) in H.
    destruct H as [(a & _ & F & _)|[(a & _ & F & _)|(n & d & _ & _ & _ & _ & Sp & _ & Dot & _)]].
    + destruct (hv_port v); cbn [v4_form v6_form] in F.
      * destruct F as (t' & r & E & _). discriminate E.
      * destruct F as [F|(t' & E & _)]; [|discriminate E].
        apply v6_chars in F. apply Forall_inv in F. vm_compute in F. clear - F. intuition discriminate.
    + destruct (hv_port v); cbn [v4_form v6_form] in F.
      * destruct F as (t' & r & E & _). destruct S as [_ S]. apply S. rewrite E. apply in_app_iff. right. left. reflexivity.
      * apply v4_chars in F. apply Forall_inv in F. vm_compute in F. clear - F. intuition discriminate.
    + destruct (split_unique _ _ _ _ _ V S Sp) as [<- _]. exact (Dot (bs "magiclen.org") eq_refl).
Qed.
Print Assumptions C76_host_name_final_dot_refuted.

Lemma domain_text_valid k dt tail c c4 : valid_str (ctext k ++ dt ++ tail) -> tail_ok c c4 tail -> valid_str dt.
Proof.
  intros V T.
  assert (V2 : valid_str (dt ++ tail)).
  { destruct k as [t|]; [|exact V]. cbn [ctext] in V.
    apply (valid_after (40 :: t) 41); [|lia]. rewrite !app_assoc_reverse in V. exact V. }
  destruct c4 as [t|]; cbn [tail_ok] in T.
  - destruct T as (_ & _ & junk & ->). cbn [ctext] in V2. apply (valid_before dt 40 (t ++ [41] ++ junk)); [|lia].
    rewrite !app_assoc_reverse in V2. exact V2.
  - subst tail. rewrite app_nil_r in V2. exact V2.
Qed.

(** C76. The domain of an accepted email address is one that the host validator with the same policies accepts, with the same
    domain and is_local, unless it is the text of an IPv4 address; an address literal holds what the ip validator accepts. *)
Theorem C76_email_domain_is_host_partial : forall idna prof c s v, idna_std3 idna -> valid_str s ->
  email_parse_str idna prof c s = Ok v ->
  exists pre dt tail, s = pre ++ [64] ++ ctext (ev_c3 v) ++ dt ++ tail /\
    match ev_domain v with
    | HDomain d => (forall a, ~ v4_text dt a) ->
        host_parse_str idna (hcfg (e_local c) Disallow (e_two c)) dt =
          Ok {| hv_host := HDomain d; hv_port := None; hv_is_local := ev_is_local v |}
    | HIPv4 a => exists t, dt = [91] ++ t ++ [93] /\ ip_parse_str Disallow (e_local c) t = Ok (V4 a, None)
    | HIPv6 a => exists t, dt = bs "[IPv6:" ++ t ++ [93] /\ ip_parse_str Disallow (e_local c) t = Ok (V6 a, None)
    end.
Proof.
  intros idna prof c s v HI Hs H.
  pose proof (proj1 (C44_email_accepts_exactly idna prof c s v Hs) H) as
    (lt & q & dt & tail & canon & E & _ & _ & _ & _ & _ & TO & _ & HT & _ & L & F).
  exists (ctext (ev_c1 v) ++ lt ++ ctext (ev_c2 v)), dt, tail.
  assert (E' : s = (ctext (ev_c1 v) ++ lt ++ ctext (ev_c2 v)) ++ [64] ++ ctext (ev_c3 v) ++ dt ++ tail)
    by (rewrite E, !app_assoc_reverse; reflexivity).
  split; [exact E'|].
  assert (Vd : valid_str dt).
  { apply (domain_text_valid (ev_c3 v) dt tail c (ev_c4 v)); [|exact TO].
    rewrite E' in Hs. apply (valid_after _ 64 _ Hs). lia. }
  destruct (ev_domain v) as [d|a|a]; cbn [host_text literal_local] in *.
  - destruct HT as (Ip & Ne & _ & Br & Dot & Id & T & _). intros H4. destruct (HI _ _ Id) as (_ & Ic & _).
    apply (C39_host_accepts_exactly idna _ dt _ Vd). right. right. exists dt, d.
    cbn [hv_host hv_port hv_is_local hcfg h_port h_two h_local].
    split; [reflexivity|]. split; [exact Ne|]. split; [exact Br|]. split.
    { intros a A. destruct (v6_two_colons _ _ A) as (u & m & r & X). apply Ic. rewrite X. apply in_app_iff. right. left.
      reflexivity. }
    split; [split; [reflexivity|exact Ic]|]. split; [reflexivity|]. repeat (split; [assumption|]). exact F.
  - destruct HT as (_ & _ & t & -> & Ht & _). exists t. split; [reflexivity|].
    apply C31_ip_accepts_exactly; [exact (ascii_valid _ (v4_ascii _ _ Ht))|]. repeat split; assumption.
  - destruct HT as (_ & _ & t & -> & Ht & _). exists t. split; [reflexivity|].
    apply C31_ip_accepts_exactly; [exact (ascii_valid _ (v6_ascii _ _ Ht))|]. split; [left; exact Ht|]. split; [reflexivity|exact L].
Qed.
Print Assumptions C76_email_domain_is_host_partial.

(** C76. And every such host of at most 255 octets, in the text and after IDNA, is accepted behind an '@'. *)
Theorem C76_host_is_email_domain : forall idna prof c dt d i, idna_std3 idna -> valid_str dt ->
  e_ip c <> Must -> (List.length dt <= 255)%nat -> (List.length d <= 255)%nat ->
  host_parse_str idna (hcfg (e_local c) Disallow (e_two c)) dt =
    Ok {| hv_host := HDomain d; hv_port := None; hv_is_local := i |} ->
  exists v, email_parse_str idna prof c (bs "a@" ++ dt) = Ok v /\ ev_local v = bs "a" /\
    ev_domain v = HDomain d /\ ev_is_local v = i.
Proof.
  intros idna prof c dt d i HI Vd Ip Ln Ld H. apply (C39_host_accepts_exactly idna _ dt _ Vd) in H.
  destruct H as [(a & E & _)|[(a & E & _)|(name & d' & E & Ne & Br & _ & Sp & _ & Dot & _ & Id & T & L & F)]];
    cbn [hv_host hv_port hv_is_local hcfg h_port h_two h_local] in *; try discriminate E.
  injection E as <-. destruct Sp as [<- _]. destruct (HI _ _ Id) as (Ip' & _ & _).
  exists {| ev_local := bs "a"; ev_need_quoted := false; ev_domain := HDomain d; ev_c1 := None; ev_c2 := None;
            ev_c3 := None; ev_c4 := None; ev_is_local := i |}.
  split; [|repeat split; reflexivity]. apply C44_email_accepts_exactly.
  { apply valid_app; [ascii_str|exact Vd]. }
  exists (bs "a"), false, dt, [], (List.length d).
  cbn [ev_local ev_need_quoted ev_domain ev_c1 ev_c2 ev_c3 ev_c4 ev_is_local ctext host_text tail_ok literal_local andb].
  assert (K : forall n, comment_ok c n None) by (intros n t X; discriminate X).
  split; [rewrite app_nil_r; reflexivity|]. split; [rewrite app_length; cbn [bs]; vm_compute (List.length (bs "a@")); lia|].
  split.
  { left. split; [reflexivity|]. split; [reflexivity|]. split; [|reflexivity]. split; [discriminate|]. split; [discriminate|].
    split.
    { constructor; [|constructor]. left. right. left. vm_compute. split; discriminate. }
    split; [intros (u & w & X); destruct u as [|? [|? ?]]; discriminate X|].
    intros j e X Hj. destruct j as [|j]; [lia|]. destruct j; discriminate X. }
  split; [apply K|]. split; [apply K|]. split; [apply K|]. split; [reflexivity|].
  split; [intros t X; discriminate X|].
  split; [repeat (split; [assumption|]); reflexivity|].
  split; [cbn [app]; rewrite app_nil_r; lia|]. split; [exact L|exact F].
Qed.
Print Assumptions C76_host_is_email_domain.

Example C76_example :
  idna_std3 idna_ascii /\
  host_parse_str idna_ascii (hcfg Allow Allow Must) (bs "[::1]:443") =
    Ok {| hv_host := HIPv6 [0; 0; 0; 0; 0; 0; 0; 1]; hv_port := Some 443; hv_is_local := Some true |} /\
  ip_parse_str Allow Allow (bs "[::1]:443") = Ok (V6 [0; 0; 0; 0; 0; 0; 0; 1], Some 443) /\
  host_parse_str idna_ascii (hcfg Allow Must Must) (bs "MagicLen.org:443") =
    Ok {| hv_host := HDomain (bs "magiclen.org"); hv_port := Some 443; hv_is_local := Some false |} /\
  domain_parse_str idna_ascii (cfg Disallow Allow Must Must) (bs "MagicLen.org:443") =
    Ok {| dv_domain := bs "magiclen.org"; dv_port := Some 443; dv_is_ipv4 := None; dv_is_local := Some false |} /\
  ~ final_dot (bs "MagicLen.org:443") (Some 443) /\
  (exists v, email_parse_str idna_ascii Debug (ecfg true Allow Allow Must true) (bs "me@(c)MagicLen.org(d)") = Ok v /\
     ev_domain v = HDomain (bs "magiclen.org")) /\
  (forall a, ~ v4_text (bs "MagicLen.org") a) /\
  host_parse_str idna_ascii (hcfg Allow Disallow Must) (bs "MagicLen.org") =
    Ok {| hv_host := HDomain (bs "magiclen.org"); hv_port := None; hv_is_local := Some false |}.
Proof.
  split; [exact idna_ascii_std3|].
  split; [vm_compute; reflexivity|]. split; [vm_compute; reflexivity|]. split; [vm_compute; reflexivity|].
  split; [vm_compute; reflexivity|]. split.
  { assert (Sp : split_port (bs "MagicLen.org:443") (bs "MagicLen.org") (Some 443)).
    { exists (bs "443"). split; [reflexivity|]. apply parse_u16_spec. vm_compute. reflexivity. }
    intros (n & u & Sp' & E). assert (V : valid_str (bs "MagicLen.org:443")) by ascii_str.
    destruct (split_unique _ _ _ _ _ V Sp Sp') as [<- _].
    apply (f_equal (fun l => last l 0)) in E. rewrite last_last in E. discriminate E. }
  split; [eexists; split; vm_compute; reflexivity|]. split; [|vm_compute; reflexivity].
  intros a F. apply v4_chars in F. apply Forall_inv in F. vm_compute in F. clear - F. intuition discriminate.
Qed.
