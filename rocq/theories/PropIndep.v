(** Property C103: policies act independently of each other. *)
From Verif Require Import Base RangeModel IntModel IntSpec IntStr NumberModel NumberSpec NumberProofs NetModel NetSpec NetProofs IpModel
  IpSpec LocalProofs IpProofs Utf8 LengthModel LineModel LineSpec MacModel MacSpec StrFacts DomainModel DomainSpec DomainProofs
  IdnaFrag IdnaDigits HostModel HostSpec HostProofs EmailModel EmailSpec.
From Verif Require Import PropIp PropDomain PropHost PropEmail PropUnion PropInject.
From Verif Require PropInt PropNumber PropLine PropMac PropReflect PropLoose.
From Coq Require Import Floats.SpecFloat.
Local Open Scope N_scope.

(** C103, addresses: a text passes both policies iff it passes each of them with the other at [Allow]. *)
Theorem C103_ip : forall port local s, valid_str s ->
  (forall v, ip_parse_str port local s = Ok v <-> ip_parse_str port Allow s = Ok v /\ ip_parse_str Allow local s = Ok v) /\
  (forall v, ipv4_parse_str port local s = Ok v <-> ipv4_parse_str port Allow s = Ok v /\ ipv4_parse_str Allow local s = Ok v) /\
  (forall v, ipv6_parse_str port local s = Ok v <-> ipv6_parse_str port Allow s = Ok v /\ ipv6_parse_str Allow local s = Ok v).
Proof.
  intros port local s Hs. split; [|split]; intros [a p].
  - rewrite !(C31_ip_accepts_exactly _ _ _ _ _ Hs). destruct a; cbn [port_ok local_ok]; tauto.
  - rewrite !(C31_ipv4_accepts_exactly _ _ _ _ _ Hs). cbn [port_ok local_ok]. tauto.
  - rewrite !(C31_ipv6_accepts_exactly _ _ _ _ _ Hs). cbn [port_ok local_ok]. tauto.
Qed.
Print Assumptions C103_ip.

(** C103, domains. *)
Theorem C103_domain : forall idna i l p t s port, idna_digits idna -> valid_str s ->
  yields dv_port (domain_parse_str idna (cfg i l p t) s) port <->
  yields dv_port (domain_parse_str idna (cfg i Allow Allow Allow) s) port /\
  yields dv_port (domain_parse_str idna (cfg Allow l Allow Allow) s) port /\
  yields dv_port (domain_parse_str idna (cfg Allow Allow p Allow) s) port /\
  yields dv_port (domain_parse_str idna (cfg Allow Allow Allow t) s) port.
Proof.
  intros idna i l p t s port Hi Hs. rewrite !dom_yields by assumption. unfold dom_shape. cbn [port_ok two_ok local_ok]. split.
  - intros (Hn & name & Sp & Pp & [(a & Ha & H1 & H2 & H3)|(Ha & H1 & d & Hd & H2 & H3)]).
    + split; [|split; [|split]]; (split; [exact Hn|]); exists name; (split; [exact Sp|]); (split; [auto|]); left; exists a;
        repeat split; auto; discriminate.
    + split; [|split; [|split]]; (split; [exact Hn|]); exists name; (split; [exact Sp|]); (split; [auto|]); right;
        (split; [exact Ha|]); (split; [auto; discriminate|]); exists d; auto.
  - intros ((Hn & n1 & S1 & _ & H1) & (_ & n2 & S2 & _ & H2) & (_ & n3 & S3 & P3 & _) & (_ & n4 & S4 & _ & H4)).
    destruct (split_unique _ _ _ _ _ Hs S1 S2) as [<- _]. destruct (split_unique _ _ _ _ _ Hs S1 S4) as [<- _].
    split; [exact Hn|]. exists n1. split; [exact S1|]. split; [exact P3|].
    destruct H1 as [(a & Ha & A1 & _)|(Ha & A1 & d & Hd & _)].
    + left. exists a. split; [exact Ha|]. split; [exact A1|].
      destruct H2 as [(b & Hb & _ & _ & B)|(Hb & _)]; [|now destruct (Hb a)].
      destruct H4 as [(e & He & _ & E & _)|(He & _)]; [|now destruct (He a)].
      rewrite (v4_dotted_unique _ _ _ Ha Hb). auto.
    + right. split; [exact Ha|]. split; [exact A1|]. exists d.
      destruct H2 as [(b & Hb & _)|(_ & _ & d2 & D2 & _ & B)]; [now destruct (Ha b)|].
      destruct H4 as [(e & He & _)|(_ & _ & d4 & D4 & E & _)]; [now destruct (Ha e)|].
      rewrite Hd in D2, D4. injection D2 as <-. injection D4 as <-. auto.
Qed.
Print Assumptions C103_domain.

(** C103, hosts. *)
Theorem C103_host : forall idna l p t s x, valid_str s ->
  yields host_shown (host_parse_str idna (hcfg l p t) s) x <->
  yields host_shown (host_parse_str idna (hcfg l Allow Allow) s) x /\
  yields host_shown (host_parse_str idna (hcfg Allow p Allow) s) x /\
  yields host_shown (host_parse_str idna (hcfg Allow Allow t) s) x.
Proof.
  intros idna l p t s [h port] Hs. rewrite !host_yields by assumption. unfold host_shape. cbn [fst snd port_ok].
  destruct h as [d|a|a]; cbn [two_ok local_ok].
  - split.
    + intros (Pp & name & H). split; [|split]; (split; [auto|]); exists name; tauto.
    + intros ((_ & n1 & H1) & (Pp & n2 & _) & (_ & n3 & H3)). split; [exact Pp|]. exists n1. tauto.
  - intuition congruence.
  - intuition congruence.
Qed.
Print Assumptions C103_host.

(** The parts of the text of an email address are determined by what is shown. *)
Lemma email_host_dt idna c dt h k : host_text idna c dt h k -> ~ In 40 dt.
Proof.
  destruct h as [d|a|a]; cbn [host_text].
  - tauto.
  - intros (_ & _ & t & -> & H & _) I. rewrite !in_app_iff in I. destruct I as [[X|[]]|[I|[X|[]]]]; try discriminate X.
    revert I. apply (v4_not_in _ _ _ H). unfold v4_char. lia.
  - intros (_ & _ & t & -> & H & _) I. rewrite !in_app_iff in I. destruct I as [I|[I|[X|[]]]]; try discriminate X.
    + vm_compute in I. intuition discriminate.
    + revert I. apply (v6_not_in _ _ _ H). unfold v6_char. lia.
Qed.
Lemma email_tail_out c k tail : tail_ok c k tail -> starts_outside (fun x => x <> 40) tail.
Proof.
  destruct k; cbn [tail_ok]; [|now intros ->]. intros (_ & _ & j & ->) x r E. cbn [ctext app] in E. injection E as <- _. tauto.
Qed.
Lemma email_parts idna c c' o lt q dt tail k lt' q' dt' tail' k' loc nq h c2 c3 c4 :
  local_text (e_non_ascii c) o lt loc nq q -> local_text (e_non_ascii c') o lt' loc nq q' ->
  host_text idna c dt h k -> host_text idna c' dt' h k' -> tail_ok c c4 tail -> tail_ok c' c4 tail' ->
  lt ++ ctext c2 ++ [64] ++ ctext c3 ++ dt ++ tail = lt' ++ ctext c2 ++ [64] ++ ctext c3 ++ dt' ++ tail' ->
  lt = lt' /\ q = q' /\ dt = dt' /\ tail = tail' /\ k = k'.
Proof.
  intros L L' H H' T T' E.
  assert (lt = lt' /\ q = q') as [-> ->].
  { assert (forall na na' o lt lt' l nq nq' r r', local_text na o lt l nq false -> local_text na' o lt' l nq' true ->
      lt ++ r <> lt' ++ r') as X.
    { intros na na' o0 a b l n n' r r' A B X.
      destruct A as [(_ & -> & (N & _ & F & _) & _)|(A & _)]; [|discriminate A].
      destruct B as [(B & _)|(_ & -> & _)]; [discriminate B|].
      destruct l as [|x l]; [congruence|]. injection X as -> _.
      inversion F as [|? ? Y]; subst. destruct Y as [Y|[Y|[_ Y]]]; [|discriminate Y|lia].
      unfold is_atext in Y. destruct Y as [Y|[Y|[Y|Y]]]; [lia..|]. vm_compute in Y. intuition discriminate. }
    destruct q, q'.
    - destruct L as [(L & _)|(_ & -> & _)]; [discriminate L|]. destruct L' as [(L' & _)|(_ & -> & _)]; [discriminate L'|]. auto.
    - exfalso. symmetry in E. exact (X _ _ _ _ _ _ _ _ _ _ L' L E).
    - exfalso. exact (X _ _ _ _ _ _ _ _ _ _ L L' E).
    - destruct L as [(_ & -> & _)|(L & _)]; [|discriminate L]. destruct L' as [(_ & -> & _)|(L' & _)]; [|discriminate L']. auto. }
  do 4 apply app_inv_head in E.
  apply (run_unique (fun x => x <> 40)) in E.
  - destruct E as [-> ->]. do 4 (split; [reflexivity|]).
    destruct h as [d|a|a]; cbn [host_text] in H, H'.
    + destruct H as (_ & _ & _ & _ & _ & _ & _ & ->), H' as (_ & _ & _ & _ & _ & _ & _ & ->). reflexivity.
    + destruct H as (_ & _ & t & _ & _ & ->), H' as (_ & _ & t' & _ & _ & ->). reflexivity.
    + destruct H as (_ & _ & t & _ & _ & ->), H' as (_ & _ & t' & _ & _ & ->). reflexivity.
  - apply Forall_forall. intros x X ->. exact (email_host_dt _ _ _ _ _ H X).
  - apply Forall_forall. intros x X ->. exact (email_host_dt _ _ _ _ _ H' X).
  - exact (email_tail_out _ _ _ T).
  - exact (email_tail_out _ _ _ T').
Qed.

Lemma local_text_na na o lt l nq q : local_text na o lt l nq q -> local_text true o lt l nq q.
Proof.
  assert (forall e, local_char na e -> local_char true e) as M by (unfold local_char; tauto).
  intros [(-> & -> & (N & D & F & DD & X) & ->)|(-> & -> & (N & F & X) & Q)]; [left|right].
  - repeat split; auto. revert F. apply Forall_impl, M.
  - repeat split; try apply X; try apply Q; auto. intros u e v E. destruct (F u e v E) as [Y|Y]; auto.
Qed.
Lemma host_text_allow idna com ip l two na com' l' na' dt h k : host_text idna (ecfg com ip l two na) dt h k ->
  host_text idna (ecfg com' ip l' Allow na') dt h k /\ host_text idna (ecfg com' Allow l' two na') dt h k /\
  host_text idna (ecfg com' Allow l' Allow na') dt h k.
Proof.
  destruct h as [d|a|a]; cbn [host_text ecfg e_ip e_two two_ok].
  - intros H. repeat split; try discriminate; try apply H.
  - intros (A & B & H). repeat split; auto; discriminate.
  - intros (A & B & H). repeat split; auto; discriminate.
Qed.
Lemma host_text_both idna com ip l two na com1 l1 na1 com2 l2 na2 dt h k :
  host_text idna (ecfg com1 ip l1 Allow na1) dt h k -> host_text idna (ecfg com2 Allow l2 two na2) dt h k ->
  host_text idna (ecfg com ip l two na) dt h k.
Proof. destruct h as [d|a|a]; cbn [host_text ecfg e_ip e_two]; tauto. Qed.
Lemma comment_ok_com com ip l two na ip' l' two' na' n k :
  comment_ok (ecfg com ip l two na) n k -> comment_ok (ecfg true ip' l' two' na') n k.
Proof. intros H t E. destruct (H t E) as (_ & X). auto. Qed.
Lemma tail_ok_com com ip l two na ip' l' two' na' k tail :
  tail_ok (ecfg com ip l two na) k tail -> tail_ok (ecfg true ip' l' two' na') k tail.
Proof. destruct k; cbn [tail_ok ecfg e_comment]; tauto. Qed.

(** C103, email addresses: comments, literal addresses, local hosts, two labels and non-ASCII local parts. *)
Theorem C103_email : forall idna prof com ip l two na s x, valid_str s ->
  yields email_shown (email_parse_str idna prof (ecfg com ip l two na) s) x <->
  yields email_shown (email_parse_str idna prof (ecfg com Allow Allow Allow true) s) x /\
  yields email_shown (email_parse_str idna prof (ecfg true ip Allow Allow true) s) x /\
  yields email_shown (email_parse_str idna prof (ecfg true Allow l Allow true) s) x /\
  yields email_shown (email_parse_str idna prof (ecfg true Allow Allow two true) s) x /\
  yields email_shown (email_parse_str idna prof (ecfg true Allow Allow Allow na) s) x.
Proof.
  intros idna prof com ip l two na s x Hs. rewrite !(email_yields _ _ _ _ _ Hs).
  destruct x as [[[loc nq] h] [[[c1 c2] c3] c4]]. unfold email_shape. split.
  - intros (lt & q & dt & tail & k & (E & Z & L & A1 & A2 & A3 & A4 & S & F) & H & O).
    pose proof (local_text_na _ _ _ _ _ _ L) as LT.
    assert (forall com' ip' l' two' na', (com' = com \/ com' = true) -> (na' = na \/ na' = true) ->
      host_text idna (ecfg com' ip' l' two' na') dt h k -> (l' = l \/ l' = Allow) ->
      exists lt q dt tail canon, (s = ctext c1 ++ lt ++ ctext c2 ++ [64] ++ ctext c3 ++ dt ++ tail /\
        (List.length s <= 320)%nat /\
        local_text (e_non_ascii (ecfg com' ip' l' two' na')) (List.length (ctext c1)) lt loc nq q /\
        comment_ok (ecfg com' ip' l' two' na') 62 c1 /\ comment_ok (ecfg com' ip' l' two' na') 320 c2 /\
        comment_ok (ecfg com' ip' l' two' na') 253 c3 /\ tail_ok (ecfg com' ip' l' two' na') c4 tail /\
        second_ok prof (List.length (ctext c1 ++ lt)) c2 /\
        (let n := List.length (ctext c3 ++ dt ++ tail) in
         (n <= 255 /\
          (List.length dt + (if q && nq then 2 else 0) < canon ->
           n + canon <= 255 + List.length dt + (if q && nq then 2 else 0)))%nat)) /\
        host_text idna (ecfg com' ip' l' two' na') dt h canon /\
        local_ok (e_local (ecfg com' ip' l' two' na')) (literal_local h)) as K.
    { intros com' ip' l' two' na' C N HT Ll. exists lt, q, dt, tail, k. split; [|split; [exact HT|]].
      - split; [exact E|]. split; [exact Z|]. split; [destruct N as [->| ->]; assumption|].
        destruct C as [->| ->].
        + exact (conj A1 (conj A2 (conj A3 (conj A4 (conj S F))))).
        + split; [exact (comment_ok_com _ _ _ _ _ _ _ _ _ _ _ A1)|]. split; [exact (comment_ok_com _ _ _ _ _ _ _ _ _ _ _ A2)|].
          split; [exact (comment_ok_com _ _ _ _ _ _ _ _ _ _ _ A3)|]. split; [exact (tail_ok_com _ _ _ _ _ _ _ _ _ _ _ A4)|]. auto.
      - destruct Ll as [->| ->]; [exact O|exact I]. }
    assert (forall com' l' na', host_text idna (ecfg com' ip l' Allow na') dt h k /\ host_text idna (ecfg com' Allow l' two na') dt h k /\
      host_text idna (ecfg com' Allow l' Allow na') dt h k) as HT.
    { intros. exact (host_text_allow _ _ _ _ _ _ _ _ _ _ _ _ H). }
    repeat split; apply K; auto; apply HT.
  - intros (X1 & X2 & X3 & X4 & X5).
    destruct X1 as (lt & q & dt & tail & k & (E & Z & L & A1 & A2 & A3 & A4 & S & F) & H & _).
    destruct X2 as (lt2 & q2 & dt2 & tail2 & k2 & (E2 & _ & L2 & _ & _ & _ & T2 & _) & H2 & _).
    destruct X3 as (_ & _ & _ & _ & _ & _ & _ & O).
    destruct X4 as (lt4 & q4 & dt4 & tail4 & k4 & (E4 & _ & L4 & _ & _ & _ & T4 & _) & H4 & _).
    destruct X5 as (lt5 & q5 & dt5 & tail5 & k5 & (E5 & _ & L5 & _ & _ & _ & T5 & _) & H5 & _).
    rewrite E in E2, E4, E5. apply app_inv_head in E2, E4, E5.
    destruct (email_parts _ _ _ _ _ _ _ _ _ _ _ _ _ _ _ _ _ _ _ _ L L2 H H2 A4 T2 E2) as (<- & <- & <- & <- & <-).
    destruct (email_parts _ _ _ _ _ _ _ _ _ _ _ _ _ _ _ _ _ _ _ _ L L4 H H4 A4 T4 E4) as (<- & <- & <- & <- & <-).
    destruct (email_parts _ _ _ _ _ _ _ _ _ _ _ _ _ _ _ _ _ _ _ _ L L5 H H5 A4 T5 E5) as (<- & <- & <- & <- & <-).
    exists lt, q, dt, tail, k. split; [|split; [exact (host_text_both _ _ _ _ _ _ _ _ _ _ _ _ _ _ _ H2 H4)|exact O]].
    exact (conj E (conj Z (conj L5 (conj A1 (conj A2 (conj A3 (conj A4 (conj S F)))))))).
Qed.
Print Assumptions C103_email.

(** C103, numbers: the range and the policy on NaN. *)
Theorem C103_number : forall t r nan f g, good_range t r -> ~ x_degenerate r -> is_float_of t f ->
  own_parse_f t r nan f = Ok g <-> own_parse_f t r Allow f = Ok g /\ own_parse_f t Unlimited nan f = Ok g.
Proof.
  intros t r nan f g G D F.
  rewrite (proj1 (PropNumber.C05_number_exact t r nan f G D F) g), (proj1 (PropNumber.C05_number_exact t r Allow f G D F) g).
  rewrite (proj1 (PropNumber.C05_number_exact t Unlimited nan f I (fun '(ex_intro _ _ E) => ltac:(discriminate E)) F) g).
  destruct (xval f); cbn [x_allowed]; intuition discriminate.
Qed.
Print Assumptions C103_number.

(** C103, the two bounds of an integer or float that must lie inside them. *)
Theorem C103_inside : forall mn mx i,
  (forall sg pw t m n v, ~ degenerate sg pw t (Inside mn mx i) -> ~ degenerate sg pw t (Inside mn None i) ->
    ~ degenerate sg pw t (Inside None mx i) -> fits sg pw m n ->
    int_parse sg pw t (Inside mn mx i) m n = Ok v <->
    int_parse sg pw t (Inside mn None i) m n = Ok v /\ int_parse sg pw t (Inside None mx i) m n = Ok v) /\
  (forall sg pw t s v, ~ degenerate sg pw t (Inside mn mx i) -> ~ degenerate sg pw t (Inside mn None i) ->
    ~ degenerate sg pw t (Inside None mx i) ->
    int_parse_str sg pw t (Inside mn mx i) s = Ok v <->
    int_parse_str sg pw t (Inside mn None i) s = Ok v /\ int_parse_str sg pw t (Inside None mx i) s = Ok v).
Proof.
  intros mn mx i. split.
  - intros sg pw t m n v D D1 D2 F.
    rewrite (proj1 (PropInt.C02_integer_entry_points _ _ _ _ _ _ D F) v), (proj1 (PropInt.C02_integer_entry_points _ _ _ _ _ _ D1 F) v),
      (proj1 (PropInt.C02_integer_entry_points _ _ _ _ _ _ D2 F) v).
    cbn [allowed]. unfold in_bounds. intuition discriminate.
  - intros sg pw t s v D D1 D2.
    rewrite (proj1 (PropInt.C03_integer_strings _ _ _ _ s D) v), (proj1 (PropInt.C03_integer_strings _ _ _ _ s D1) v),
      (proj1 (PropInt.C03_integer_strings _ _ _ _ s D2) v).
    cbn [allowed]. unfold in_bounds. intuition discriminate.
Qed.
Print Assumptions C103_inside.
Theorem C103_inside_floats : forall t mn mx i nan f g, good_bound t mn -> good_bound t mx -> is_float_of t f ->
  own_parse_f t (Inside mn mx i) nan f = Ok g <->
  own_parse_f t (Inside mn None i) nan f = Ok g /\ own_parse_f t (Inside None mx i) nan f = Ok g.
Proof.
  intros t mn mx i nan f g A B F.
  assert (forall a b, ~ x_degenerate (Inside a b i)) as D by (intros a b (j & E); discriminate E).
  assert (good_bound t None) as N by (intros m E; discriminate E).
  rewrite (proj1 (PropNumber.C05_number_exact t (Inside mn mx i) nan f (conj A B) (D _ _) F) g).
  rewrite (proj1 (PropNumber.C05_number_exact t (Inside mn None i) nan f (conj A N) (D _ _) F) g).
  rewrite (proj1 (PropNumber.C05_number_exact t (Inside None mx i) nan f (conj N B) (D _ _) F) g).
  destruct (xval f); cbn [x_allowed]; [unfold x_in_bounds; intuition discriminate|tauto].
Qed.
Print Assumptions C103_inside_floats.

(** C103, MAC addresses and UUIDs: the letter case and the separator, unless the separator is a digit in either case. *)
Lemma digit_case case c d : is_hex case c d -> is_hex AnyCase c d.
Proof. intros (a & A & E). destruct case; cbn in A; [exists a; auto| |]; destruct A as [<-|[]]; eexists; (split; [|exact E]); cbn; auto. Qed.
Lemma denotes_case case ds x : hex_denotes case ds x -> hex_denotes AnyCase ds x.
Proof. induction 1; constructor; eauto using digit_case. Qed.
Lemma denotes_no case ds x c : hex_denotes case ds x -> (forall d, ~ is_hex case c d) -> ~ In c ds.
Proof. induction 1 as [|y d ds x Y D IH]; intros N; [tauto|]. intros [->|X]; [exact (N _ Y)|exact (IH N X)]. Qed.

Definition about_sep (c : N) (sep : sep_option) : Prop := sep = SepMust c \/ sep = SepAllow c \/ sep = SepDisallow.

Theorem C103_hex_partial : forall case sep c v x, about_sep c sep -> (forall d, ~ is_hex AnyCase c d) ->
  (mac_parse_str case sep v = Ok x <-> mac_parse_str AnyCase sep v = Ok x /\ mac_parse_str case (SepAllow c) v = Ok x) /\
  (uuid_parse_str case sep v = Ok x <-> uuid_parse_str AnyCase sep v = Ok x /\ uuid_parse_str case (SepAllow c) v = Ok x).
Proof.
  intros case sep c v x A N.
  assert (forall k, sep_not_digit k (SepAllow c)) as NA.
  { intros k c' d E H. injection E as <-. exact (N d (digit_case _ _ _ H)). }
  assert (forall k, sep_not_digit k sep) as NS.
  { intros k c' d E H. destruct A as [->|[->| ->]]; try discriminate E. injection E as <-. exact (N d (digit_case _ _ _ H)). }
  assert (forall sizes d, grouped sep sizes v d -> grouped (SepAllow c) sizes v d) as G.
  { intros sizes d G. induction G as [|g s sizes v d F G IH]; constructor; [|exact IH].
    destruct A as [->|[->| ->]]; cbn in *; auto. }
  assert (forall sizes d d', grouped sep sizes v d -> grouped (SepAllow c) sizes v d' -> hex_denotes AnyCase d x ->
    hex_denotes case d' x -> d = d') as U.
  { intros sizes d d' X Y D D'.
    assert (s := PropReflect.grouped_filter). rewrite (s sep c _ _ _ X), (s (SepAllow c) c _ _ _ Y); auto.
    - apply (denotes_no _ _ _ _ (denotes_case _ _ _ D')), N.
    - destruct A as [->|[->| ->]]; cbn; auto.
    - exact (denotes_no _ _ _ _ D N). }
  rewrite !PropMac.C25_mac_accepts_exactly, !PropMac.C28_uuid_accepts_exactly by auto.
  split; (split; [intros (d & D & E)|intros ((d & D & E) & (d' & D' & E'))]).
  1,3: split; exists d; eauto using denotes_case.
  all: exists d; rewrite (U _ _ _ D D' E E') at 2; auto.
Qed.
Print Assumptions C103_hex_partial.

(** C103, lines and texts: the least and the greatest length. *)
Theorem C103_length_partial : forall k byte mn tmin mx s r,
  line_parse_str k (Some (byte, mk_len mn tmin mx)) s = Ok r <->
  line_parse_str k (Some (byte, mk_len mn tmin None)) s = Ok r /\ line_parse_str k (Some (byte, mk_len None tmin mx)) s = Ok r.
Proof.
  intros k byte mn tmin mx s r. destruct tmin as [t|].
  - rewrite !(PropLine.C12_trimmed_min_exact _ _ t) by reflexivity. cbn [a_min a_max a_byte l_min l_max]. split.
    + intros (E & a & m & b & T & F & A & B & C). split; (split; [exact E|]); exists a, m, b; repeat split; auto; try discriminate; apply T.
    + intros ((E & a & m & b & T & F & A & _ & C) & (_ & a' & m' & b' & T' & _ & _ & B & _)).
      split; [exact E|]. exists a, m, b. auto.
  - rewrite !PropLine.C11_no_trimmed_min_exact by reflexivity. cbn [a_min a_max a_byte l_min l_max].
    assert (forall n, at_least None n) by discriminate. assert (forall n, at_most None n) by discriminate. intuition.
Qed.
Print Assumptions C103_length_partial.

(** A least trimmed length also allows control characters at the start, so it does not act alone. *)
Theorem C103_trimmed_min_refuted : exists k s,
  line_parse_str k (Some (false, mk_len None (Some 1) (Some 5))) s = Ok s /\
  line_parse_str k (Some (false, mk_len None (Some 1) None)) s = Ok s /\
  line_parse_str k (Some (false, mk_len None None (Some 5))) s = Err LInvalid.
Proof. exists Line, [10; 97]. vm_compute. auto. Qed.
Print Assumptions C103_trimmed_min_refuted.

(** A separator that is a digit: a text without separators is not accepted when they are merely allowed. *)
Theorem C103_hex_refuted : exists sep c v x e, about_sep c sep /\
  mac_parse_str UpperCase sep v = Ok x /\ mac_parse_str UpperCase (SepAllow c) v = Err e.
Proof.
  exists SepDisallow, 65, (bs "00A000000000"). eexists. eexists. split; [unfold about_sep; auto|]. split; vm_compute; reflexivity.
Qed.
Print Assumptions C103_hex_refuted.

Example C103_example :
  idna_digits idna_ascii /\ valid_str (bs "user(x)@[127.0.0.1]") /\ valid_str (bs "www.magiclen.org:8080") /\
  is_ok (email_parse_str idna_ascii Debug (ecfg true Must Must Must false) (bs "user(x)@[127.0.0.1]")) /\
  is_ok (email_parse_str idna_ascii Debug (ecfg true Must Allow Allow true) (bs "user(x)@[127.0.0.1]")) /\
  is_ok (email_parse_str idna_ascii Debug (ecfg true Allow Must Allow true) (bs "user(x)@[127.0.0.1]")) /\
  ~ is_ok (email_parse_str idna_ascii Debug (ecfg false Allow Allow Allow true) (bs "user(x)@[127.0.0.1]")) /\
  ~ is_ok (email_parse_str idna_ascii Debug (ecfg false Must Must Must false) (bs "user(x)@[127.0.0.1]")) /\
  yields dv_port (domain_parse_str idna_ascii (cfg Disallow Disallow Must Must) (bs "www.magiclen.org:8080")) (Some 8080) /\
  yields host_shown (host_parse_str idna_ascii (hcfg Disallow Must Must) (bs "www.magiclen.org:8080"))
    (HDomain (bs "www.magiclen.org"), Some 8080) /\
  ip_parse_str Must Disallow (bs "8.8.8.8:53") = Ok (V4 [8; 8; 8; 8], Some 53) /\
  about_sep 58 (SepMust 58) /\ (forall d, ~ is_hex AnyCase 58 d) /\
  mac_parse_str LowerCase (SepMust 58) (bs "08:00:27:b4:6a:2b") = Ok 8796759157291 /\
  line_parse_str Line (Some (true, mk_len (Some 2) (Some 1) (Some 5))) [32; 97] = Ok [32; 97].
Proof.
  split; [intros x a H; rewrite (idna_ascii_digits x a H); discriminate|]. split; [ascii_str|]. split; [ascii_str|].
  split; [eexists; vm_compute; reflexivity|]. split; [eexists; vm_compute; reflexivity|]. split; [eexists; vm_compute; reflexivity|].
  split; [intros (v & H); vm_compute in H; discriminate H|]. split; [intros (v & H); vm_compute in H; discriminate H|].
  split; [eexists; split; vm_compute; reflexivity|]. split; [eexists; split; vm_compute; reflexivity|].
  split; [vm_compute; reflexivity|]. split; [unfold about_sep; auto|]. split.
  - intros d (a & A & E). apply nth_error_In in E. destruct A as [<-|[<-|[]]]; vm_compute in E; intuition discriminate.
  - split; vm_compute; reflexivity.
Qed.
