(** Property C73: [Allow] accepts exactly what [Must] or [Disallow] accepts. *)
From Verif Require Import Base IntStr NetModel NetSpec NetProofs IpModel IpSpec LocalProofs IpProofs Utf8 StrFacts Serde
  DomainModel DomainSpec DomainProofs IdnaFrag IdnaDigits HostModel HostSpec HostProofs EmailModel EmailSpec
  PropIp PropDomain PropHost PropEmail.
Local Open Scope N_scope.

(** [o] is accepted, and the returned value shows [x]. *)
Definition yields {E A B} (f : A -> B) (o : outcome E A) (x : B) : Prop := exists v, o = Ok v /\ f v = x.

(** A text is accepted under [allow] exactly when it is under [must] or under [disallow], with the same result. *)
Definition union {E A B} (f : A -> B) (allow must disallow : outcome E A) : Prop :=
  forall x, yields f allow x <-> yields f must x \/ yields f disallow x.

(** No text is accepted under both. *)
Definition exclusive {E A B} (o1 o2 : outcome E A) (_ : A -> B) : Prop := ~ (is_ok o1 /\ is_ok o2).

Definition splits {E A B} (f : A -> B) (allow must disallow : outcome E A) : Prop :=
  union f allow must disallow /\ exclusive must disallow f.

(** IDNA accepts every dotted IPv4 address. *)
Definition idna_digits (idna : list N -> option (list N)) : Prop := forall x a, v4_dotted x a -> idna x <> None.

Lemma ok_local (b : bool) P : (b = true <-> P) -> local_ok Must P \/ local_ok Disallow P.
Proof. intros H. cbn. destruct b; [left; now apply H | right; intros X; apply H in X; discriminate]. Qed.
Lemma v4_loc s a : v4_text s a -> v4_local a \/ ~ v4_local a.
Proof. intros H. apply (ok_local (is_local_ipv4 a)). apply (v4_local_bool a s Must H). Qed.
Lemma v6_loc s a : v6_text s a -> v6_local a \/ ~ v6_local a.
Proof. intros H. apply (ok_local (is_local_ipv6 a)). apply (v6_local_bool a s Must H). Qed.
Lemma v4_form_loc s a p : v4_form s a p -> v4_local a \/ ~ v4_local a.
Proof. destruct p; cbn; [intros (t & q & _ & H & _) | intros H]; eapply v4_loc; eassumption. Qed.
Lemma v6_form_loc s a p : v6_form s a p -> v6_local a \/ ~ v6_local a.
Proof.
  destruct p; cbn; [intros (t & q & _ & H & _) | intros [H | (t & _ & H)]]; eapply v6_loc; eassumption.
Qed.
Lemma localhost_dec d : localhost d \/ ~ localhost d.
Proof. apply (ok_local (is_local_domain d)), localhost_spec. Qed.
Lemma two_dec d : two_labels d \/ ~ two_labels d.
Proof. apply (ok_local (is_at_least_two_labels_domain d)), two_labels_spec. Qed.

(** Acceptance under [Allow] is [P], under the other two [P] with [Q] and [P] without [Q]; [f] shows enough. *)
Lemma splits_by {E A B} (f : A -> B) (al mu di : outcome E A) (P Q : B -> Prop) :
  (forall x, yields f al x <-> P x) -> (forall x, yields f mu x <-> P x /\ Q x) ->
  (forall x, yields f di x <-> P x /\ ~ Q x) -> (forall x, P x -> Q x \/ ~ Q x) ->
  splits f al mu di.
Proof.
  intros Ha Hm Hd Hq. split.
  - intros x. rewrite Ha, Hm, Hd. split; [|tauto]. intros H. destruct (Hq x H); tauto.
  - intros [(v & H) (w & K)].
    assert (M : P (f v) /\ Q (f v)) by (apply Hm; exists v; auto).
    assert (D : P (f w) /\ ~ Q (f w)) by (apply Hd; exists w; auto).
    destruct M as [M1 M2], D as [D1 D2]. apply Ha in M1. apply Ha in D1.
    destruct M1 as (v1 & A1 & B1), D1 as (w1 & A2 & B2). rewrite A1 in A2. injection A2 as <-.
    apply D2. now rewrite <- B2, B1.
Qed.

Lemma yields_id {E A} (o : outcome E A) (P : A -> Prop) :
  (forall v, o = Ok v <-> P v) -> forall x, yields (fun v => v) o x <-> P x.
Proof. intros H x. unfold yields. rewrite <- H. split; [intros (v & K & <-); exact K | intros K; exists x; auto]. Qed.

(** C73. Addresses: both policies of each validator. *)
Theorem C73_ipv4 : forall s, valid_str s ->
  (forall local, splits (fun v => v) (ipv4_parse_str Allow local s) (ipv4_parse_str Must local s)
                        (ipv4_parse_str Disallow local s)) /\
  (forall port, splits (fun v => v) (ipv4_parse_str port Allow s) (ipv4_parse_str port Must s)
                       (ipv4_parse_str port Disallow s)).
Proof.
  intros s Hs. split; intros k.
  - apply (splits_by _ _ _ _ (fun x => v4_form s (fst x) (snd x) /\ local_ok k (v4_local (fst x)))
             (fun x => snd x <> None)); try (apply yields_id; intros [a p]; rewrite (C31_ipv4_accepts_exactly _ _ _ _ _ Hs)).
    + cbn [port_ok local_ok fst snd]. tauto.
    + cbn [port_ok local_ok fst snd]. tauto.
    + cbn [port_ok local_ok fst snd]. destruct p; intuition congruence.
    + intros [a [p|]] _; cbn; [left; discriminate | right; congruence].
  - apply (splits_by _ _ _ _ (fun x => v4_form s (fst x) (snd x) /\ port_ok k (snd x))
             (fun x => v4_local (fst x))); try (apply yields_id; intros [a p]; rewrite (C31_ipv4_accepts_exactly _ _ _ _ _ Hs)).
    + cbn [port_ok local_ok fst snd]. tauto.
    + cbn [port_ok local_ok fst snd]. tauto.
    + cbn [port_ok local_ok fst snd]. tauto.
    + intros [a p] [H _]. exact (v4_form_loc _ _ _ H).
Qed.

Theorem C73_ipv6 : forall s, valid_str s ->
  (forall local, splits (fun v => v) (ipv6_parse_str Allow local s) (ipv6_parse_str Must local s)
                        (ipv6_parse_str Disallow local s)) /\
  (forall port, splits (fun v => v) (ipv6_parse_str port Allow s) (ipv6_parse_str port Must s)
                       (ipv6_parse_str port Disallow s)).
Proof.
  intros s Hs. split; intros k.
  - apply (splits_by _ _ _ _ (fun x => v6_form s (fst x) (snd x) /\ local_ok k (v6_local (fst x)))
             (fun x => snd x <> None)); try (apply yields_id; intros [a p]; rewrite (C31_ipv6_accepts_exactly _ _ _ _ _ Hs)).
    + cbn [port_ok local_ok fst snd]. tauto.
    + cbn [port_ok local_ok fst snd]. tauto.
    + cbn [port_ok local_ok fst snd]. destruct p; intuition congruence.
    + intros [a [p|]] _; cbn; [left; discriminate | right; congruence].
  - apply (splits_by _ _ _ _ (fun x => v6_form s (fst x) (snd x) /\ port_ok k (snd x))
             (fun x => v6_local (fst x))); try (apply yields_id; intros [a p]; rewrite (C31_ipv6_accepts_exactly _ _ _ _ _ Hs)).
    + cbn [port_ok local_ok fst snd]. tauto.
    + cbn [port_ok local_ok fst snd]. tauto.
    + cbn [port_ok local_ok fst snd]. tauto.
    + intros [a p] [H _]. exact (v6_form_loc _ _ _ H).
Qed.

Theorem C73_ip : forall s, valid_str s ->
  (forall local, splits (fun v => v) (ip_parse_str Allow local s) (ip_parse_str Must local s)
                        (ip_parse_str Disallow local s)) /\
  (forall port, splits (fun v => v) (ip_parse_str port Allow s) (ip_parse_str port Must s)
                       (ip_parse_str port Disallow s)).
Proof.
  intros s Hs.
  pose (F := fun x : ip_addr * option N =>
    match fst x with V4 a => v4_form s a (snd x) | V6 a => v6_form s a (snd x) end).
  pose (L := fun x : ip_addr * option N => match fst x with V4 a => v4_local a | V6 a => v6_local a end).
  assert (G : forall port local x p, ip_parse_str port local s = Ok (x, p) <->
            F (x, p) /\ port_ok port p /\ local_ok local (L (x, p))).
  { intros. rewrite (C31_ip_accepts_exactly _ _ _ _ _ Hs). destruct x; cbn; tauto. }
  split; intros k.
  - apply (splits_by _ _ _ _ (fun x => F x /\ local_ok k (L x))
             (fun x => snd x <> None)); try (apply yields_id; intros [a p]; rewrite G).
    + cbn [port_ok]. tauto.
    + cbn [port_ok snd]. tauto.
    + cbn [port_ok snd]. destruct p; intuition congruence.
    + intros [a [p|]] _; cbn; [left; discriminate | right; congruence].
  - apply (splits_by _ _ _ _ (fun x => F x /\ port_ok k (snd x)) L);
      try (apply yields_id; intros [a p]; rewrite G).
    + cbn [local_ok snd]. tauto.
    + cbn [local_ok snd]. tauto.
    + cbn [local_ok snd]. tauto.
    + intros [[a|a] p] [H _]; [exact (v4_form_loc _ _ _ H) | exact (v6_form_loc _ _ _ H)].
Qed.

(** Domains. *)
Section Domains.
Variable idna : list N -> option (list N).

Definition dom_shape (i l p t : tri) (s : list N) (port : option N) : Prop :=
  s <> [] /\ exists name, split_port s name port /\ port_ok p port /\
  ((exists a, v4_dotted name a /\ i <> Disallow /\ t <> Disallow /\ local_ok l (v4_local a)) \/
   ((forall a, ~ v4_dotted name a) /\ i <> Must /\
    exists d, idna name = Some d /\ two_ok t (localhost d) d /\ local_ok l (localhost d))).

Lemma field_ex present P (b : bool) : (b = true <-> P) -> exists f, field present P f.
Proof. intros H. destruct present; [exists (Some b) | exists None]; cbn; auto. Qed.
Lemma v4_dotted_loc name a : v4_dotted name a -> is_local_ipv4 a = true <-> v4_local a.
Proof. intros (t & _ & H). apply (v4_local_bool a t Must H). Qed.

Lemma no_policy_dec c : no_policy c \/ ~ no_policy c.
Proof. destruct (all_allow c) eqn:E; [left; now apply all_allow_spec | right; rewrite <- all_allow_spec; congruence]. Qed.

Lemma dom_yields i l p t s port : idna_digits idna -> valid_str s ->
  yields dv_port (domain_parse_str idna (cfg i l p t) s) port <-> dom_shape i l p t s port.
Proof.
  intros Hi Hs. unfold yields, dom_shape. split.
  - intros (v & H & <-). apply (C36_domain_accepts_exactly _ _ _ _ Hs) in H.
    destruct H as (Hn & name & Sp & Pp & H). split; [exact Hn|]. exists name. split; [exact Sp|]. split; [exact Pp|].
    cbn [d_ipv4 d_local d_two d_port cfg] in H.
    destruct H as [((Ei & El & Et) & Hd & _) | [(_ & a & Ha & H1 & H2 & H3 & _) | (_ & Ha & H1 & H2 & H3 & H4 & _)]].
    + cbn in Ei, El, Et. subst. destruct (parse_ipv4_allow_an_ended_dot name) as [a|] eqn:Ea.
      * left. exists a. rewrite <- v4_dotted_spec. cbn. repeat split; auto; discriminate.
      * right. split; [intros a Ha; apply v4_dotted_spec in Ha; congruence|]. split; [discriminate|].
        exists (dv_domain v). cbn. auto.
    + left. exists a. auto.
    + right. split; [exact Ha|]. split; [exact H1|]. eauto.
  - intros (Hn & name & Sp & Pp & H).
    enough (X : exists v, domain_accepts idna (cfg i l p t) s v /\ dv_port v = port).
    { destruct X as (v & X & Y). exists v. split; [now apply C36_domain_accepts_exactly | exact Y]. }
    unfold domain_accepts. destruct (no_policy_dec (cfg i l p t)) as [Np|Np].
    + assert (X : exists d, idna name = Some d).
      { destruct H as [(a & Ha & _) | (_ & _ & d & Hd & _)]; [|eauto].
        specialize (Hi _ _ Ha). destruct (idna name); [eauto | congruence]. }
      destruct X as (d & Hd).
      exists {| dv_domain := d; dv_port := port; dv_is_ipv4 := None; dv_is_local := None |}.
      split; [|reflexivity]. split; [exact Hn|]. exists name. cbn [dv_port dv_domain dv_is_ipv4 dv_is_local d_port cfg].
      auto 10.
    + destruct H as [(a & Ha & H1 & H2 & H3) | (Ha & H1 & d & Hd & H2 & H3)].
      * destruct (field_ex (ipv4_field (cfg i l p t)) True true) as (f4 & F4); [tauto|].
        destruct (field_ex (local_field (cfg i l p t)) (v4_local a) (is_local_ipv4 a)) as (fl & Fl);
          [exact (v4_dotted_loc _ _ Ha)|].
        exists {| dv_domain := s; dv_port := port; dv_is_ipv4 := f4; dv_is_local := fl |}.
        split; [|reflexivity]. split; [exact Hn|]. exists name. split; [exact Sp|]. split; [exact Pp|].
        right. left. split; [exact Np|]. exists a. cbn [dv_port dv_domain dv_is_ipv4 dv_is_local]. auto 10.
      * destruct (field_ex (ipv4_field (cfg i l p t)) False false) as (f4 & F4); [intuition discriminate|].
        destruct (field_ex (local_field (cfg i l p t)) (localhost d) (is_local_domain d)) as (fl & Fl);
          [apply localhost_spec|].
        exists {| dv_domain := d; dv_port := port; dv_is_ipv4 := f4; dv_is_local := fl |}.
        split; [|reflexivity]. split; [exact Hn|]. exists name. split; [exact Sp|]. split; [exact Pp|].
        right. right. split; [exact Np|]. cbn [dv_port dv_domain dv_is_ipv4 dv_is_local]. auto 10.
Qed.

Lemma split_unique s n1 n2 p1 p2 : valid_str s -> split_port s n1 p1 -> split_port s n2 p2 -> n1 = n2 /\ p1 = p2.
Proof.
  intros Hs H K.
  destruct (proj2 (split_port_spec (cfg Allow Allow Allow Allow) s n1 p1 Hs)) as (q1 & A1 & B1); [cbn; auto|].
  destruct (proj2 (split_port_spec (cfg Allow Allow Allow Allow) s n2 p2 Hs)) as (q2 & A2 & B2); [cbn; auto|].
  rewrite A1 in A2. injection A2 as <- <-. rewrite B1 in B2. injection B2 as <-. auto.
Qed.
Lemma v4_dotted_unique d a b : v4_dotted d a -> v4_dotted d b -> a = b.
Proof. intros H K. apply v4_dotted_spec in H, K. congruence. Qed.
End Domains.

Theorem C73_domain_port : forall idna i l t s, valid_str s ->
  splits (fun v => v) (domain_parse_str idna (cfg i l Allow t) s) (domain_parse_str idna (cfg i l Must t) s)
         (domain_parse_str idna (cfg i l Disallow t) s).
Proof.
  intros idna i l t s Hs.
  apply (splits_by _ _ _ _ (domain_accepts idna (cfg i l Allow t) s) (fun v => dv_port v <> None));
    try (apply yields_id; intros v; rewrite (C36_domain_accepts_exactly _ _ _ _ Hs); unfold domain_accepts;
         change (no_policy (cfg i l Must t)) with (no_policy (cfg i l Allow t));
         change (no_policy (cfg i l Disallow t)) with (no_policy (cfg i l Allow t));
         change (ipv4_field (cfg i l Must t)) with (ipv4_field (cfg i l Allow t));
         change (ipv4_field (cfg i l Disallow t)) with (ipv4_field (cfg i l Allow t));
         change (local_field (cfg i l Must t)) with (local_field (cfg i l Allow t));
         change (local_field (cfg i l Disallow t)) with (local_field (cfg i l Allow t));
         cbn [d_port d_ipv4 d_local d_two cfg port_ok]).
  - tauto.
  - split; [intros (Hn & name & H) | intros ((Hn & name & H) & Hp)]; [split; [split; [|exists name]|] | split; [|exists name]]; tauto.
  - split; [intros (Hn & name & H) | intros ((Hn & name & H) & Hp)]; [split; [split; [|exists name]|] | split; [|exists name]];
      try tauto.
    assert (E : dv_port v = None) by (destruct (dv_port v); [exfalso; apply Hp; discriminate | reflexivity]). tauto.
  - intros v _. destruct (dv_port v); [left; discriminate | right; tauto].
Qed.

Theorem C73_domain_ipv4 : forall idna l p t s, idna_digits idna -> valid_str s ->
  splits dv_port (domain_parse_str idna (cfg Allow l p t) s) (domain_parse_str idna (cfg Must l p t) s)
         (domain_parse_str idna (cfg Disallow l p t) s).
Proof.
  intros idna l p t s Hi Hs. split.
  - intros port. rewrite !dom_yields by assumption. unfold dom_shape. split.
    + intros (Hn & name & Sp & Pp & [(a & Ha & _ & H) | (Ha & _ & H)]); [left | right]; (split; [exact Hn|]); exists name;
        (split; [exact Sp|]); (split; [exact Pp|]); [left; exists a | right]; split; auto; split; auto; discriminate.
    + intros [H|H]; destruct H as (Hn & name & Sp & Pp & H); (split; [exact Hn|]); exists name;
        (split; [exact Sp|]); (split; [exact Pp|]);
        (destruct H as [(a & Ha & _ & H) | (Ha & _ & H)]; [left; exists a | right]); split; auto; split; auto; discriminate.
  - intros [(v & H) (w & K)].
    assert (X : yields dv_port (domain_parse_str idna (cfg Must l p t) s) (dv_port v)) by (exists v; auto).
    assert (Y : yields dv_port (domain_parse_str idna (cfg Disallow l p t) s) (dv_port w)) by (exists w; auto).
    rewrite dom_yields in X, Y by assumption.
    destruct X as (_ & n1 & S1 & _ & [(a & Ha & _) | (_ & X & _)]); [|congruence].
    destruct Y as (_ & n2 & S2 & _ & [(_ & _ & Y & _) | (Hb & _)]); [congruence|].
    destruct (split_unique _ _ _ _ _ Hs S1 S2) as [-> _]. exact (Hb a Ha).
Qed.

Theorem C73_domain_local : forall idna i p t s, idna_digits idna -> valid_str s ->
  splits dv_port (domain_parse_str idna (cfg i Allow p t) s) (domain_parse_str idna (cfg i Must p t) s)
         (domain_parse_str idna (cfg i Disallow p t) s).
Proof.
  intros idna i p t s Hi Hs. split.
  - intros port. rewrite !dom_yields by assumption. unfold dom_shape. split.
    + intros (Hn & name & Sp & Pp & [(a & Ha & H1 & H2 & _) | (Ha & H1 & d & Hd & H2 & _)]).
      * assert (L : v4_local a \/ ~ v4_local a) by (destruct Ha as (x & _ & Ha); exact (v4_loc _ _ Ha)).
        destruct L; [left | right]; (split; [exact Hn|]); exists name; split; auto; split; auto; left; exists a; auto.
      * destruct (localhost_dec d); [left | right]; (split; [exact Hn|]); exists name; split; auto; split; auto;
          right; split; auto; split; auto; exists d; auto.
    + intros [H|H]; destruct H as (Hn & name & Sp & Pp & H); (split; [exact Hn|]); exists name;
        (split; [exact Sp|]); (split; [exact Pp|]);
        (destruct H as [(a & Ha & H1 & H2 & _) | (Ha & H1 & d & Hd & H2 & _)];
         [left; exists a | right; split; auto; split; auto; exists d]); cbn [local_ok]; auto.
  - intros [(v & H) (w & K)].
    assert (X : yields dv_port (domain_parse_str idna (cfg i Must p t) s) (dv_port v)) by (exists v; auto).
    assert (Y : yields dv_port (domain_parse_str idna (cfg i Disallow p t) s) (dv_port w)) by (exists w; auto).
    rewrite dom_yields in X, Y by assumption.
    destruct X as (_ & n1 & S1 & _ & X), Y as (_ & n2 & S2 & _ & Y).
    destruct (split_unique _ _ _ _ _ Hs S1 S2) as [-> _].
    destruct X as [(a & Ha & _ & _ & X) | (Ha & _ & d & Hd & _ & X)],
             Y as [(b & Hb & _ & _ & Y) | (Hb & _ & e & He & _ & Y)].
    + rewrite (v4_dotted_unique _ _ _ Ha Hb) in X. exact (Y X).
    + exact (Hb _ Ha).
    + exact (Ha _ Hb).
    + rewrite Hd in He. injection He as ->. exact (Y X).
Qed.

(** The two policies on labels overlap on local names, which both accept. *)
Theorem C73_domain_two : forall idna i l p s, idna_digits idna -> valid_str s ->
  union dv_port (domain_parse_str idna (cfg i l p Allow) s) (domain_parse_str idna (cfg i l p Must) s)
        (domain_parse_str idna (cfg i l p Disallow) s) /\
  (forall v w, domain_parse_str idna (cfg i l p Must) s = Ok v -> domain_parse_str idna (cfg i l p Disallow) s = Ok w ->
     localhost (dv_domain v) /\ dv_domain w = dv_domain v /\ dv_port w = dv_port v).
Proof.
  intros idna i l p s Hi Hs. split.
  - intros port. rewrite !dom_yields by assumption. unfold dom_shape. split.
    + intros (Hn & name & Sp & Pp & [(a & Ha & H1 & H2 & H3) | (Ha & H1 & d & Hd & _ & H3)]).
      * left. split; auto. exists name. split; auto. split; auto. left. exists a. repeat split; auto. discriminate.
      * destruct (two_dec d); [left | right]; (split; [exact Hn|]); exists name; split; auto; split; auto;
          right; split; auto; split; auto; exists d; cbn [two_ok]; auto.
    + intros [H|H]; destruct H as (Hn & name & Sp & Pp & H); (split; [exact Hn|]); exists name;
        (split; [exact Sp|]); (split; [exact Pp|]);
        (destruct H as [(a & Ha & H1 & H2 & H3) | (Ha & H1 & d & Hd & H2 & H3)];
         [left; exists a | right; split; auto; split; auto; exists d]); cbn [two_ok]; auto; repeat split; auto; discriminate.
  - intros v w H K. apply (C36_domain_accepts_exactly _ _ _ _ Hs) in H, K.
    destruct H as (_ & n1 & S1 & _ & H), K as (_ & n2 & S2 & _ & K).
    destruct (split_unique _ _ _ _ _ Hs S1 S2) as [-> Ep].
    destruct H as [((_ & _ & H) & _) | H]; [discriminate H|]. destruct K as [((_ & _ & K) & _) | K]; [discriminate K|].
    destruct K as [(_ & _ & _ & _ & K & _) | K]; [cbn in K; congruence|].
    destruct H as [(_ & a & Ha & _) | H]; [exfalso; exact (proj1 (proj2 K) a Ha)|].
    destruct H as (_ & _ & _ & Hd & H & _), K as (_ & _ & _ & Kd & K & _).
    rewrite Hd in Kd. injection Kd as Kd. rewrite <- Kd in K. cbn [two_ok d_two cfg] in H, K.
    repeat split; try congruence. destruct H; [assumption|]. destruct K; [assumption | contradiction].
Qed.

(** Hosts. *)
Definition host_shown (v : host_val) : host * option N := (hv_host v, hv_port v).

Definition host_shape (idna : list N -> option (list N)) (l p t : tri) (s : list N) (x : host * option N) : Prop :=
  port_ok p (snd x) /\
  match fst x with
  | HIPv6 a => v6_form s a (snd x) /\ t <> Disallow /\ local_ok l (v6_local a)
  | HIPv4 a => v4_form s a (snd x) /\ t <> Disallow /\ local_ok l (v4_local a)
  | HDomain d => exists name, s <> [] /\ (forall r, s <> 91 :: r) /\ (forall a, ~ v6_text s a) /\
      split_port s name (snd x) /\ (forall u, name <> u ++ [46]) /\ (forall a, ~ v4_text name a) /\
      idna name = Some d /\ two_ok t (localhost d) d /\ local_ok l (localhost d)
  end.

Lemma v4_form_bool s a p : v4_form s a p -> is_local_ipv4 a = true <-> v4_local a.
Proof. destruct p; cbn; [intros (t & q & _ & H & _) | intros H]; exact (v4_local_bool _ _ Must H). Qed.
Lemma v6_form_bool s a p : v6_form s a p -> is_local_ipv6 a = true <-> v6_local a.
Proof.
  destruct p; cbn; [intros (t & q & _ & H & _) | intros [H | (t & _ & H)]]; exact (v6_local_bool _ _ Must H).
Qed.

Lemma host_yields idna l p t s x : valid_str s ->
  yields host_shown (host_parse_str idna (hcfg l p t) s) x <-> host_shape idna l p t s x.
Proof.
  intros Hs. unfold yields, host_shape. split.
  - intros (v & H & <-). apply (C39_host_accepts_exactly _ _ _ _ Hs) in H.
    destruct v as [h port f]. cbn [host_shown hv_host hv_port fst snd].
    destruct H as [(a & E & H)|[(a & E & H)|(name & d & E & H)]]; cbn [hv_host hv_port hv_is_local] in E, H; subst h;
      cbn [h_port h_two h_local hcfg] in H.
    + tauto.
    + tauto.
    + split; [tauto|]. exists name. tauto.
  - destruct x as [h port]. cbn [fst snd]. intros (Pp & H).
    enough (X : exists v, host_accepts idna (hcfg l p t) s v /\ host_shown v = (h, port)).
    { destruct X as (v & X & Y). exists v. split; [now apply C39_host_accepts_exactly | exact Y]. }
    unfold host_accepts, accepts_ipv6, accepts_ipv4, accepts_name, host_shown.
    destruct h as [d|a|a].
    + destruct H as (name & H).
      destruct (field_ex (host_field (hcfg l p t)) (localhost d) (is_local_domain d)) as (f & F);
        [apply localhost_spec|].
      exists {| hv_host := HDomain d; hv_port := port; hv_is_local := f |}.
      split; [|reflexivity]. right. right. exists name, d. cbn [hv_host hv_port hv_is_local h_port h_two h_local hcfg].
      tauto.
    + destruct H as (H1 & H).
      destruct (field_ex (host_field (hcfg l p t)) (v4_local a) (is_local_ipv4 a)) as (f & F);
        [exact (v4_form_bool _ _ _ H1)|].
      exists {| hv_host := HIPv4 a; hv_port := port; hv_is_local := f |}.
      split; [|reflexivity]. right. left. exists a. cbn [hv_host hv_port hv_is_local h_port h_two h_local hcfg].
      tauto.
    + destruct H as (H1 & H).
      destruct (field_ex (host_field (hcfg l p t)) (v6_local a) (is_local_ipv6 a)) as (f & F);
        [exact (v6_form_bool _ _ _ H1)|].
      exists {| hv_host := HIPv6 a; hv_port := port; hv_is_local := f |}.
      split; [|reflexivity]. left. exists a. cbn [hv_host hv_port hv_is_local h_port h_two h_local hcfg].
      tauto.
Qed.

Theorem C73_host_port : forall idna l t s, valid_str s ->
  splits host_shown (host_parse_str idna (hcfg l Allow t) s) (host_parse_str idna (hcfg l Must t) s)
         (host_parse_str idna (hcfg l Disallow t) s).
Proof.
  intros idna l t s Hs.
  apply (splits_by _ _ _ _ (host_shape idna l Allow t s) (fun x => snd x <> None));
    try (intros x; rewrite (host_yields _ _ _ _ _ _ Hs); unfold host_shape; cbn [port_ok]).
  - tauto.
  - tauto.
  - destruct x as [h [q|]]; cbn [snd fst]; intuition congruence.
  - intros [h [q|]] _; cbn; [left; discriminate | right; tauto].
Qed.

Theorem C73_host_local : forall idna p t s, valid_str s ->
  splits host_shown (host_parse_str idna (hcfg Allow p t) s) (host_parse_str idna (hcfg Must p t) s)
         (host_parse_str idna (hcfg Disallow p t) s).
Proof.
  intros idna p t s Hs.
  apply (splits_by _ _ _ _ (host_shape idna Allow p t s) (fun x => literal_local (fst x)));
    try (intros x; rewrite (host_yields _ _ _ _ _ _ Hs); unfold host_shape; destruct x as [h q]; cbn [local_ok fst snd]).
  - tauto.
  - destruct h; cbn [literal_local]; [|tauto..].
    split; [intros (H & n & K) | intros ((H & n & K) & L)]; [split; [split; [exact H | exists n; tauto] | tauto] |
      split; [exact H | exists n; tauto]].
  - destruct h; cbn [literal_local]; [|tauto..].
    split; [intros (H & n & K) | intros ((H & n & K) & L)]; [split; [split; [exact H | exists n; tauto] | tauto] |
      split; [exact H | exists n; tauto]].
  - intros [h q] [_ H]. cbn [fst snd] in *. destruct h; cbn [literal_local].
    + apply localhost_dec.
    + exact (v4_form_loc _ _ _ (proj1 H)).
    + exact (v6_form_loc _ _ _ (proj1 H)).
Qed.

Theorem C73_host_two : forall idna l p s, valid_str s ->
  union host_shown (host_parse_str idna (hcfg l p Allow) s) (host_parse_str idna (hcfg l p Must) s)
        (host_parse_str idna (hcfg l p Disallow) s) /\
  (forall v w, host_parse_str idna (hcfg l p Must) s = Ok v -> host_parse_str idna (hcfg l p Disallow) s = Ok w ->
     host_shown w = host_shown v /\ exists d, hv_host v = HDomain d /\ localhost d).
Proof.
  intros idna l p s Hs.
  assert (U : union host_shown (host_parse_str idna (hcfg l p Allow) s) (host_parse_str idna (hcfg l p Must) s)
        (host_parse_str idna (hcfg l p Disallow) s)).
  { intros [h q]. rewrite !(host_yields _ _ _ _ _ _ Hs). unfold host_shape. cbn [fst snd]. destruct h; cbn [two_ok].
    - split.
      + intros (H & n & K). destruct (two_dec d); [left | right]; (split; [exact H|]); exists n; tauto.
      + intros [(H & n & K)|(H & n & K)]; (split; [exact H|]); exists n; tauto.
    - intuition congruence.
    - intuition congruence. }
  split; [exact U|]. intros v w H K.
  assert (X : yields host_shown (host_parse_str idna (hcfg l p Must) s) (host_shown v)) by (exists v; auto).
  assert (Y : yields host_shown (host_parse_str idna (hcfg l p Disallow) s) (host_shown w)) by (exists w; auto).
  assert (E : host_shown w = host_shown v).
  { destruct (proj2 (U (host_shown v)) (or_introl X)) as (v' & Av & Bv).
    destruct (proj2 (U (host_shown w)) (or_intror Y)) as (w' & Aw & Bw). rewrite Av in Aw. injection Aw as <-. congruence. }
  split; [exact E|]. rewrite E in Y. apply (host_yields _ _ _ _ _ _ Hs) in X. apply (host_yields _ _ _ _ _ _ Hs) in Y.
  unfold host_shape, host_shown in X, Y. cbn [fst snd] in X, Y. destruct (hv_host v) as [d|a|a]; [|intuition congruence..].
  exists d. split; [reflexivity|]. destruct X as (_ & n & X), Y as (_ & m & Y). cbn [two_ok] in X, Y. tauto.
Qed.

(** Email addresses. *)
Definition email_shown (v : email_val) :=
  (ev_local v, ev_need_quoted v, ev_domain v, (ev_c1 v, ev_c2 v, ev_c3 v, ev_c4 v)).

Definition email_shape (idna : list N -> option (list N)) (prof : profile) (c : email_cfg) (s : list N)
  (x : list N * bool * host * (option (list N) * option (list N) * option (list N) * option (list N))) : Prop :=
  let '(loc, nq, h, (c1, c2, c3, c4)) := x in
  exists lt q dt tail canon,
    (s = ctext c1 ++ lt ++ ctext c2 ++ [64] ++ ctext c3 ++ dt ++ tail /\
    (List.length s <= 320)%nat /\
    local_text (e_non_ascii c) (List.length (ctext c1)) lt loc nq q /\
    comment_ok c 62 c1 /\ comment_ok c 320 c2 /\ comment_ok c 253 c3 /\ tail_ok c c4 tail /\
    second_ok prof (List.length (ctext c1 ++ lt)) c2 /\
    (let n := List.length (ctext c3 ++ dt ++ tail) in
     (n <= 255 /\
      (List.length dt + (if q && nq then 2 else 0) < canon ->
       n + canon <= 255 + List.length dt + (if q && nq then 2 else 0)))%nat)) /\
    host_text idna c dt h canon /\ local_ok (e_local c) (literal_local h).

Lemma host_text_bool idna c dt h canon : host_text idna c dt h canon ->
  exists b : bool, b = true <-> literal_local h.
Proof.
  destruct h as [d|a|a]; cbn [host_text literal_local]; intros H.
  - exists (is_local_domain d). apply localhost_spec.
  - destruct H as (_ & _ & t & _ & H & _). exists (is_local_ipv4 a). exact (v4_local_bool _ _ Must H).
  - destruct H as (_ & _ & t & _ & H & _). exists (is_local_ipv6 a). exact (v6_local_bool _ _ Must H).
Qed.

Lemma email_yields idna prof c s x : valid_str s ->
  yields email_shown (email_parse_str idna prof c s) x <-> email_shape idna prof c s x.
Proof.
  intros Hs. split.
  - intros (v & H & <-). apply (C44_email_accepts_exactly _ _ _ _ _ Hs) in H.
    destruct H as (lt & q & dt & tail & canon & H1 & H2 & H3 & H4 & H5 & H6 & H7 & H8 & H9 & H10 & H11 & _).
    exists lt, q, dt, tail, canon. split; [|split; assumption].
    exact (conj H1 (conj H2 (conj H3 (conj H4 (conj H5 (conj H6 (conj H7 (conj H8 H10)))))))).
  - destruct x as [[[loc nq] h] [[[c1 c2] c3] c4]]. intros (lt & q & dt & tail & canon & (H1 & H2 & H3 & H4 & H5 & H6 & H7 & H8 & H10) & H9 & H11).
    destruct (host_text_bool idna c dt h canon H9) as (b & Hb).
    destruct (field_ex (email_field c) (literal_local h) b Hb) as (f & F).
    exists {| ev_local := loc; ev_need_quoted := nq; ev_domain := h; ev_c1 := c1; ev_c2 := c2; ev_c3 := c3; ev_c4 := c4;
              ev_is_local := f |}.
    split; [|reflexivity]. apply C44_email_accepts_exactly; [exact Hs|]. exists lt, q, dt, tail, canon.
    cbn [ev_local ev_need_quoted ev_domain ev_c1 ev_c2 ev_c3 ev_c4 ev_is_local].
    exact (conj H1 (conj H2 (conj H3 (conj H4 (conj H5 (conj H6 (conj H7 (conj H8 (conj H9 (conj H10 (conj H11 F))))))))))).
Qed.

Theorem C73_email_local : forall idna prof com ip two na s, valid_str s ->
  splits email_shown (email_parse_str idna prof (ecfg com ip Allow two na) s)
         (email_parse_str idna prof (ecfg com ip Must two na) s) (email_parse_str idna prof (ecfg com ip Disallow two na) s).
Proof.
  intros idna prof com ip two na s Hs.
  apply (splits_by _ _ _ _ (email_shape idna prof (ecfg com ip Allow two na) s) (fun x => literal_local (snd (fst x))));
    try (intros x; rewrite (email_yields _ _ _ _ _ Hs); destruct x as [[[loc nq] h] [[[c1 c2] c3] c4]]; cbn [fst snd]).
  - tauto.
  - split.
    + intros (lt & q & dt & tail & canon & H & T & L). split; [|exact L]. exists lt, q, dt, tail, canon.
      split; [exact H|]. split; [exact T | exact I].
    + intros ((lt & q & dt & tail & canon & H & T & _) & L). exists lt, q, dt, tail, canon.
      split; [exact H|]. split; [exact T | exact L].
  - split.
    + intros (lt & q & dt & tail & canon & H & T & L). split; [|exact L]. exists lt, q, dt, tail, canon.
      split; [exact H|]. split; [exact T | exact I].
    + intros ((lt & q & dt & tail & canon & H & T & _) & L). exists lt, q, dt, tail, canon.
      split; [exact H|]. split; [exact T | exact L].
  - intros [[[loc nq] h] [[[c1 c2] c3] c4]] (lt & q & dt & tail & canon & H & T & _). cbn [fst snd].
    destruct (host_text_bool _ _ _ _ _ T) as (b & Hb). exact (ok_local b _ Hb).
Qed.

Definition is_name (h : host) : Prop := exists d, h = HDomain d.

Theorem C73_email_ip : forall idna prof com local two na s, valid_str s ->
  splits email_shown (email_parse_str idna prof (ecfg com Allow local two na) s)
         (email_parse_str idna prof (ecfg com Must local two na) s)
         (email_parse_str idna prof (ecfg com Disallow local two na) s).
Proof.
  intros idna prof com local two na s Hs.
  apply (splits_by _ _ _ _ (email_shape idna prof (ecfg com Allow local two na) s) (fun x => ~ is_name (snd (fst x))));
    try (intros x; rewrite (email_yields _ _ _ _ _ Hs); destruct x as [[[loc nq] h] [[[c1 c2] c3] c4]]; cbn [fst snd]).
  - tauto.
  - split.
    + intros (lt & q & dt & tail & canon & H & T & L). split.
      * exists lt, q, dt, tail, canon. split; [exact H|]. split; [|exact L].
        destruct h; cbn [host_text e_ip ecfg] in *; [exfalso; now apply (proj1 T) | split; [discriminate | apply T]..].
      * intros (d & ->). cbn in T. now apply (proj1 T).
    + intros ((lt & q & dt & tail & canon & H & T & L) & Nn). exists lt, q, dt, tail, canon.
      split; [exact H|]. split; [|exact L].
      destruct h; cbn [host_text e_ip ecfg] in *; [exfalso; apply Nn; eexists; reflexivity | split; [discriminate | apply T]..].
  - split.
    + intros (lt & q & dt & tail & canon & H & T & L). split.
      * exists lt, q, dt, tail, canon. split; [exact H|]. split; [|exact L].
        destruct h; cbn [host_text e_ip ecfg] in *; [split; [discriminate | apply T] | exfalso; now apply (proj1 T)..].
      * intros Nn. apply Nn. destruct h as [d|a|a]; [exists d; reflexivity | exfalso; now apply (proj1 T)..].
    + intros ((lt & q & dt & tail & canon & H & T & L) & Nn). exists lt, q, dt, tail, canon.
      split; [exact H|]. split; [|exact L].
      destruct h; cbn [host_text e_ip ecfg] in *;
        [split; [discriminate | apply T] | exfalso; apply Nn; intros (d & X); discriminate X..].
  - intros [[[loc nq] h] cs] _. cbn [fst snd]. destruct h as [d|a|a]; [right; intros X; apply X; exists d; reflexivity | left; intros (d & X); discriminate X..].
Qed.

Theorem C73_email_two : forall idna prof com ip local na s, valid_str s ->
  union email_shown (email_parse_str idna prof (ecfg com ip local Allow na) s)
        (email_parse_str idna prof (ecfg com ip local Must na) s) (email_parse_str idna prof (ecfg com ip local Disallow na) s).
Proof.
  intros idna prof com ip local na s Hs x. rewrite !(email_yields _ _ _ _ _ Hs).
  destruct x as [[[loc nq] h] [[[c1 c2] c3] c4]]. split.
  - intros (lt & q & dt & tail & canon & H & T & L).
    assert (X : host_text idna (ecfg com ip local Must na) dt h canon \/ host_text idna (ecfg com ip local Disallow na) dt h canon).
    { destruct h as [d|a|a]; cbn [host_text e_ip e_two ecfg two_ok] in *.
      - destruct (two_dec d); [left | right]; tauto.
      - left. intuition discriminate.
      - left. intuition discriminate. }
    destruct X; [left | right]; exists lt, q, dt, tail, canon; auto.
  - intros [(lt & q & dt & tail & canon & H & T & L)|(lt & q & dt & tail & canon & H & T & L)];
      exists lt, q, dt, tail, canon; (split; [exact H|]); (split; [|exact L]);
      (destruct h as [d|a|a]; cbn [host_text e_ip e_two ecfg two_ok] in *; [tauto | intuition discriminate..]).
Qed.

(** The two policies with the values [Allow] and [Disallow] only: allowing more accepts more, with the same result. *)
Theorem C73_email_comment_non_ascii : forall idna prof com ip local two na s v, valid_str s ->
  email_parse_str idna prof (ecfg com ip local two na) s = Ok v -> forall com' na',
  (com = true -> com' = true) -> (na = true -> na' = true) ->
  yields email_shown (email_parse_str idna prof (ecfg com' ip local two na') s) (email_shown v).
Proof.
  intros idna prof com ip local two na s v Hs H com' na' Hc Hn. rewrite (email_yields _ _ _ _ _ Hs).
  assert (X : yields email_shown (email_parse_str idna prof (ecfg com ip local two na) s) (email_shown v)) by (exists v; auto).
  rewrite (email_yields _ _ _ _ _ Hs) in X. destruct v as [loc nq h c1 c2 c3 c4 f].
  destruct X as (lt & q & dt & tail & canon & X & T & L). exists lt, q, dt, tail, canon.
  split; [|split; [exact T | exact L]].
  destruct X as (X1 & X2 & X3 & K1 & K2 & K3 & K4 & X4). split; [exact X1|]. split; [exact X2|].
  assert (C : forall lim k, comment_ok (ecfg com ip local two na) lim k -> comment_ok (ecfg com' ip local two na') lim k).
  { intros lim k Hk t Ht. destruct (Hk t Ht) as (A & B). split; [exact (Hc A) | exact B]. }
  assert (LC : forall e, local_char na e -> local_char na' e).
  { intros e [A|[A|[A B]]]; [left | right; left | right; right]; auto. }
  split; [|split; [now apply C|]; split; [now apply C|]; split; [now apply C|]; split; [|exact X4]].
  - destruct X3 as [(A & B & Q & R)|(A & B & Q & R)]; [left | right]; (split; [exact A|]); (split; [exact B|]);
      (split; [|exact R]).
    + destruct Q as (Q1 & Q2 & Q3 & Q4). split; [exact Q1|]. split; [exact Q2|]. split; [|exact Q4].
      eapply Forall_impl; [|exact Q3]. exact LC.
    + destruct Q as (Q1 & Q2 & Q3). split; [exact Q1|]. split; [|exact Q3].
      intros u e v E. destruct (Q2 u e v E) as [A'|A']; [left; exact (LC _ A') | right; exact A'].
  - destruct c4; cbn in *; [|exact K4]. destruct K4 as (A & B). split; [exact (Hc A) | exact B].
Qed.

(** Witnesses: the hypothesis about IDNA is satisfied by the ASCII fragment, and each of the three values is seen at work. *)
Example C73_example :
  idna_digits idna_ascii /\ valid_str (bs "127.0.0.1:80") /\
  ip_parse_str Allow Must (bs "127.0.0.1:80") = Ok (V4 [127; 0; 0; 1], Some 80) /\
  ip_parse_str Must Must (bs "127.0.0.1:80") = Ok (V4 [127; 0; 0; 1], Some 80) /\
  ip_parse_str Disallow Must (bs "127.0.0.1:80") = Err IpPortDisallow /\
  yields dv_port (domain_parse_str idna_ascii (cfg Allow Allow Allow Allow) (bs "127.0.0.1:80")) (Some 80) /\
  yields dv_port (domain_parse_str idna_ascii (cfg Must Allow Allow Allow) (bs "127.0.0.1:80")) (Some 80) /\
  domain_parse_str idna_ascii (cfg Disallow Allow Allow Allow) (bs "127.0.0.1:80") = Err DIPv4Disallow /\
  yields host_shown (host_parse_str idna_ascii (hcfg Allow Allow Must) (bs "LocalHost")) (HDomain (bs "localhost"), None) /\
  yields host_shown (host_parse_str idna_ascii (hcfg Allow Allow Disallow) (bs "LocalHost")) (HDomain (bs "localhost"), None) /\
  is_ok (email_parse_str idna_ascii Debug (ecfg false Allow Allow Allow false) (bs "a@[10.0.0.1]")) /\
  is_ok (email_parse_str idna_ascii Debug (ecfg false Must Allow Allow false) (bs "a@[10.0.0.1]")) /\
  email_parse_str idna_ascii Debug (ecfg false Disallow Allow Allow false) (bs "a@[10.0.0.1]") = Err EIPDisallow.
Proof.
  split; [intros x a H; rewrite (idna_ascii_digits x a H); discriminate|].
  split; [now apply ascii_valid; repeat constructor|].
  repeat split; try reflexivity; try (eexists; split; reflexivity); eexists; reflexivity.
Qed.

Print Assumptions C73_ipv4.
Print Assumptions C73_ipv6.
Print Assumptions C73_ip.
Print Assumptions C73_domain_port.
Print Assumptions C73_domain_ipv4.
Print Assumptions C73_domain_local.
Print Assumptions C73_domain_two.
Print Assumptions C73_host_port.
Print Assumptions C73_host_local.
Print Assumptions C73_host_two.
Print Assumptions C73_email_local.
Print Assumptions C73_email_ip.
Print Assumptions C73_email_two.
Print Assumptions C73_email_comment_non_ascii.
