(** Printing an email address and reading it back. *)
From Verif Require Import Base IntStr IntStrProofs MacModel MacSpec NetModel NetSpec NetProofs IpModel IpSpec LocalProofs IpProofs
  Utf8 StrFacts Serde DomainModel DomainSpec DomainProofs HostModel HostSpec HostProofs EmailModel EmailSpec EmailProofs
  EmailParts EmailDomain EmailMain.
Local Open Scope N_scope.

(** Pieces of strings. *)
Lemma valid_nil : valid_str [].
Proof. exists []. split; [constructor|reflexivity]. Qed.
Lemma valid_app a b : valid_str a -> valid_str b -> valid_str (a ++ b).
Proof.
  intros (x & Hx & ->) (y & Hy & ->). exists (x ++ y). split; [apply Forall_app; auto|]. unfold utf8.
  symmetry. apply flat_map_app.
Qed.
Lemma valid_before : forall a x b, valid_str (a ++ x :: b) -> x < 128 -> valid_str a.
Proof.
  intros a x b (cs & Hs & E) Hx. revert a E. induction cs as [|c cs IH]; intros a E.
  - destruct a; discriminate.
  - apply Forall_inv_tail in Hs as Hs'. apply Forall_inv in Hs as Hc. specialize (IH Hs').
    change (utf8 (c :: cs)) with (utf8_char c ++ utf8 cs) in E.
    apply app_eq_app in E as [l [[E1 E2]|[E1 E2]]].
    + rewrite E1. apply valid_app; [|apply IH; symmetry; exact E2].
      exists [c]. split; [auto|]. cbn. rewrite app_nil_r. reflexivity.
    + destruct l as [|y l].
      * rewrite app_nil_r in E1. rewrite <- E1. exists [c]. split; [auto|]. cbn. rewrite app_nil_r. reflexivity.
      * injection E2 as <- E2.
        assert (Hin : In x (utf8_char c)) by (rewrite E1; apply in_or_app; right; left; reflexivity).
        apply utf8_char_bytes in Hin as [[Hc' _]|[_ Hb]]; [|lia].
        rewrite utf8_char_ascii in E1 by exact Hc'.
        destruct a as [|z a]; [apply valid_nil|destruct a; discriminate].
Qed.
Lemma valid_one x : x < 128 -> valid_str [x].
Proof. intros H. apply ascii_valid. constructor; [exact H|constructor]. Qed.
Lemma valid_split a x b : valid_str (a ++ x :: b) -> x < 128 -> valid_str a /\ valid_str b.
Proof. intros H Hx. split; [exact (valid_before _ _ _ H Hx)|exact (valid_after _ _ _ H Hx)]. Qed.
Lemma valid_ctext k r : valid_str (ctext k ++ r) -> valid_str (ctext k) /\ valid_str r.
Proof.
  destruct k as [t|]; cbn [ctext app].
  - rewrite <- app_assoc. cbn [app]. intros H.
    change (40 :: t ++ 41 :: r) with ((40 :: t) ++ 41 :: r) in H. apply valid_split in H as [H1 H2]; [|lia].
    split; [|exact H2]. change (40 :: t ++ [41]) with ((40 :: t) ++ [41]). apply valid_app; [exact H1|apply valid_one; lia].
  - intros H. split; [apply valid_nil|exact H].
Qed.
Lemma valid_unquote l : valid_str ([34] ++ l ++ [34]) -> valid_str l.
Proof.
  intros H. cbn [app] in H. change (34 :: l ++ [34]) with ([] ++ 34 :: (l ++ [34])) in H.
  apply valid_split in H as [_ H]; [|lia]. apply valid_split in H as [H _]; [exact H|lia].
Qed.

(** The dotted form is as short as can be. *)
Lemma numeral_bound : forall ds n, numeral 10 ds n -> n < 10 ^ N.of_nat (List.length ds).
Proof.
  intros ds n H. induction H as [c d [_ Hd]|ds n c d H IH [_ Hd]].
  - change (10 ^ N.of_nat (List.length [c])) with 10. exact Hd.
  - rewrite app_length. cbn [List.length]. rewrite Nat.add_1_r, Nat2N.inj_succ, N.pow_succ_r by lia. lia.
Qed.
Lemma dec_short : forall n, n <= 255 ->
  (List.length (dec_of_N n) <= 3)%nat /\ (n < 100 -> (List.length (dec_of_N n) <= 2)%nat) /\
  (n < 10 -> (List.length (dec_of_N n) <= 1)%nat).
Proof.
  set (P := fun n => ((List.length (dec_of_N n) <=? 3)%nat && ((100 <=? n) || (List.length (dec_of_N n) <=? 2)%nat)
    && ((10 <=? n) || (List.length (dec_of_N n) <=? 1)%nat))%bool).
  assert (F : forallb P (List.map N.of_nat (seq 0 256)) = true) by (vm_compute; reflexivity).
  intros n Hn. rewrite forallb_forall in F. specialize (F n). unfold P in F.
  assert (I : In n (List.map N.of_nat (seq 0 256))).
  { apply in_map_iff. exists (N.to_nat n). split; [apply N2Nat.id|]. apply in_seq. lia. }
  specialize (F I). rewrite !andb_true_iff, !orb_true_iff, !Nat.leb_le, !N.leb_le in F. lia.
Qed.
Lemma octet_len ds n : octet ds n -> (List.length (dec_of_N n) <= List.length ds)%nat.
Proof.
  intros (H & Hn & _). assert (NE : ds <> []) by (inversion H; [discriminate|]; intros X; destruct ds0; discriminate).
  apply numeral_bound in H. destruct (dec_short n Hn) as (A & B & C).
  destruct (List.length ds) as [|[|[|k]]] eqn:EL.
  - apply length_zero_iff_nil in EL. contradiction.
  - change (10 ^ N.of_nat 1) with 10 in H. auto.
  - change (10 ^ N.of_nat 2) with 100 in H. auto.
  - lia.
Qed.
Lemma ipv4_display_len t a : v4_text t a -> (List.length (ipv4_display a) <= List.length t)%nat.
Proof.
  intros (d1 & d2 & d3 & d4 & n1 & n2 & n3 & n4 & O1 & O2 & O3 & O4 & -> & ->).
  apply octet_len in O1, O2, O3, O4. unfold ipv4_display. repeat (rewrite app_length || cbn [List.length]). lia.
Qed.

(** Quotes that are not needed can be dropped. *)
Lemma nq_false_iff l nq : (nq = true <-> needs_quotes l) -> nq = false -> ~ needs_quotes l.
Proof. intros H E X. apply H in X. congruence. Qed.

Lemma plain_local na o l : quoted na o l -> ~ needs_quotes l -> (o + List.length l <= 64)%nat -> unquoted na o l.
Proof.
  intros (H1 & H2 & H3 & H4) HN HL.
  assert (NB : forall e, In e l -> ~ blank e) by (intros e I B; apply HN; right; left; eauto).
  split; [exact H1|]. split; [intros r ->; apply HN; left; eauto|]. split.
  - apply Forall_forall. intros e He. apply in_split in He as (u & v & E). destruct (H2 u e v E) as [H|[H|[_ H]]].
    + exact H.
    + exfalso. apply (NB e); [rewrite E; apply in_or_app; right; left; reflexivity|exact H].
    + exfalso. destruct H as (w & t & -> & _ & HB & HO). destruct t as [|x t]; [cbn in HO; destruct HO; lia|].
      apply (NB x); [rewrite E; apply in_or_app; left; apply in_or_app; right; left; reflexivity|].
      exact (Forall_inv HB).
  - split; [intros X; apply HN; right; right; exact X|].
    intros i e Hi _ _. assert (i < List.length l)%nat by (apply nth_error_Some; congruence). lia.
Qed.

Definition local_side (v : email_val) : list N :=
  ctext (ev_c1 v) ++ (if ev_need_quoted v then [34] ++ ev_local v ++ [34] else ev_local v) ++ ctext (ev_c2 v).
Definition domain_side (v : email_val) : list N :=
  ctext (ev_c3 v) ++ e_host_text (ev_domain v) ++ ctext (ev_c4 v).

Lemma print_sides c v : (e_comment c = true \/ (ev_need_quoted v = false /\ ev_c1 v = None /\ ev_c2 v = None /\
    ev_c3 v = None /\ ev_c4 v = None)) ->
  to_email_string c v = local_side v ++ [64] ++ domain_side v.
Proof.
  intros H. unfold to_email_string, local_side, domain_side. destruct (e_comment c); cbn [negb].
  - destruct (ev_need_quoted v), (ev_c1 v), (ev_c2 v), (ev_c3 v), (ev_c4 v); cbn [ctext e_comment_text]; rewrite <- ?app_assoc; cbn [app]; rewrite <- ?app_assoc; reflexivity.
  - destruct H as [H|(-> & -> & -> & -> & ->)]; [discriminate|]. cbn [ctext app]. rewrite !app_nil_r. reflexivity.
Qed.

Lemma comments_off idna prof c s v : email_accepts idna prof c s v -> e_comment c = false ->
  ev_c1 v = None /\ ev_c2 v = None /\ ev_c3 v = None /\ ev_c4 v = None.
Proof.
  intros (lt & q & dt & tail & canon & _ & _ & _ & K1 & K2 & K3 & K4 & _) E.
  split; [|split; [|split]].
  - destruct (ev_c1 v) as [t|]; [|reflexivity]. destruct (K1 t eq_refl). congruence.
  - destruct (ev_c2 v) as [t|]; [|reflexivity]. destruct (K2 t eq_refl). congruence.
  - destruct (ev_c3 v) as [t|]; [|reflexivity]. destruct (K3 t eq_refl). congruence.
  - destruct (ev_c4 v) as [t|]; [|reflexivity]. destruct K4. congruence.
Qed.

(** The canonical text of the host. *)
Lemma host_canon idna c dt h canon : idna_laws idna -> host_text idna c dt h canon ->
  (forall d u, h = HDomain d -> d <> u ++ [46]) ->
  host_text idna c (e_host_text h) h (List.length (e_host_text h)) /\ (List.length (e_host_text h) <= canon)%nat /\
  valid_str (e_host_text h).
Proof.
  intros HL HH HD. destruct h as [d|a|a]; cbn [host_text e_host_text] in *.
  - destruct HH as (E1 & E2 & E3 & E4 & E5 & E6 & E7 & ->). destruct (HL _ _ E6) as [Hc Hu].
    assert (Hd : forall u, d <> u ++ [46]) by (intros u; apply HD; reflexivity).
    destruct (Hu d (undotted_self d Hd)) as (N1 & _ & N3).
    split; [|split; [lia|apply ascii_valid, idna_char_ascii, Hc]].
    split; [exact E1|]. split; [exact N1|]. split; [apply (idna_char_not_in d 40 Hc); unfold idna_char; lia|].
    split; [|auto]. intros r ->. apply Forall_inv in Hc. unfold idna_char in Hc. lia.
  - destruct HH as (E1 & E2 & t & -> & Ht & ->). pose proof (v4_text_addr _ _ Ht) as Ha.
    split; [|split].
    + split; [exact E1|]. split; [exact E2|]. exists (ipv4_display a). split; [reflexivity|].
      split; [apply ipv4_display_text, Ha|reflexivity].
    + pose proof (ipv4_display_len _ _ Ht). repeat (rewrite app_length || cbn [List.length]). lia.
    + apply valid_app; [apply valid_one; lia|]. apply valid_app; [|apply valid_one; lia].
      apply ascii_valid, (v4_ascii _ _ (ipv4_display_text _ Ha)).
  - destruct HH as (E1 & E2 & t & -> & Ht & ->). pose proof (v6_text_addr _ _ Ht) as Ha.
    split; [|split].
    + split; [exact E1|]. split; [exact E2|]. exists (ipv6_display a). split; [reflexivity|].
      split; [apply ipv6_display_text, Ha|]. repeat (rewrite app_length || cbn [List.length bs]). cbn. lia.
    + repeat (rewrite app_length || cbn [List.length bs]). cbn. lia.
    + apply valid_app; [apply ascii_valid; repeat (constructor; [reflexivity|]); constructor|].
      apply valid_app; [|apply valid_one; lia]. apply ascii_valid, (v6_ascii _ _ (ipv6_display_text _ Ha)).
Qed.

Lemma canon_len dt h c idna canon : host_text idna c dt h canon -> (List.length (e_host_text h) <= canon)%nat.
Proof.
  intros HH. destruct h as [d|a|a]; cbn [host_text e_host_text] in *.
  - destruct HH as (_ & _ & _ & _ & _ & _ & _ & ->). lia.
  - destruct HH as (_ & _ & t & -> & Ht & ->). pose proof (ipv4_display_len _ _ Ht).
    repeat (rewrite app_length || cbn [List.length]). lia.
  - destruct HH as (_ & _ & t & -> & Ht & ->). repeat (rewrite app_length || cbn [List.length bs]). cbn. lia.
Qed.

Theorem email_roundtrip idna prof c s v : idna_laws idna -> valid_str s -> email_parse_str idna prof c s = Ok v ->
  e_comment c = true \/ ev_need_quoted v = false ->
  (forall d u, ev_domain v = HDomain d -> d <> u ++ [46]) ->
  (List.length (local_side v) <= 64)%nat ->
  (ev_need_quoted v = true -> (List.length (domain_side v) <= 255)%nat) ->
  valid_str (to_email_string c v) /\ email_parse_str idna prof c (to_email_string c v) = Ok v.
Proof.
  intros HI Hv H HC HD H64 H255. apply email_parse_spec in H; [|exact Hv]. pose proof H as HA.
  destruct H as (lt & q & dt & tail & canon & Es & HL & HLT & K1 & K2 & K3 & K4 & HS & HH & [Hn Hcan] & Hloc & Hf).
  assert (HC' : e_comment c = true \/ (ev_need_quoted v = false /\ ev_c1 v = None /\ ev_c2 v = None /\
    ev_c3 v = None /\ ev_c4 v = None)).
  { destruct (e_comment c) eqn:EC; [auto|]. right. destruct HC as [HC|HC]; [discriminate|].
    destruct (comments_off _ _ _ _ _ HA EC) as (-> & -> & -> & ->). auto. }
  rewrite (print_sides c v HC'). clear HC HC'.
  destruct (host_canon _ _ _ _ _ HI HH HD) as (CH & CL & CV).
  (* the length of the domain side *)
  assert (TL : exists junk, tail = ctext (ev_c4 v) ++ junk).
  { unfold tail_ok in K4. destruct (ev_c4 v); [destruct K4 as (_ & _ & K4); exact K4|subst; exists []; reflexivity]. }
  destruct TL as [junk TL].
  assert (D255 : (List.length (domain_side v) <= 255)%nat).
  { destruct (ev_need_quoted v) eqn:EQ; [auto|]. clear H255. rewrite andb_false_r, !Nat.add_0_r in Hcan. unfold domain_side.
    rewrite TL in Hn, Hcan. rewrite !app_length in *. lia. }
  (* the validity of the pieces *)
  assert (PV : valid_str (ctext (ev_c1 v)) /\ valid_str lt /\ valid_str (ctext (ev_c2 v)) /\ valid_str (ctext (ev_c3 v)) /\
               valid_str (ctext (ev_c4 v))).
  { rewrite Es in Hv. apply valid_ctext in Hv as [V1 Hv].
    assert (X : lt ++ ctext (ev_c2 v) ++ [64] ++ ctext (ev_c3 v) ++ dt ++ tail =
                (lt ++ ctext (ev_c2 v)) ++ 64 :: (ctext (ev_c3 v) ++ dt ++ tail)) by (rewrite <- app_assoc; reflexivity).
    rewrite X in Hv. apply valid_split in Hv as [Va Vb]; [|lia].
    apply valid_ctext in Vb as [V3 Vb].
    assert (V4 : valid_str (ctext (ev_c4 v))).
    { destruct (ev_c4 v) as [t4|]; [|apply valid_nil]. rewrite TL in Vb. cbn [ctext app] in Vb.
      apply valid_split in Vb as [_ Vb]; [|lia]. rewrite <- app_assoc in Vb. cbn [app] in Vb.
      apply valid_split in Vb as [Vb _]; [|lia]. cbn [ctext].
      apply valid_app; [apply valid_one; lia|]. apply valid_app; [exact Vb|apply valid_one; lia]. }
    assert (V2 : valid_str lt /\ valid_str (ctext (ev_c2 v))).
    { destruct (ev_c2 v) as [t2|].
      - cbn [ctext app] in Va. apply valid_split in Va as [Vl Vt]; [|lia]. split; [exact Vl|].
        apply valid_before in Vt; [|lia]. cbn [ctext].
        apply valid_app; [apply valid_one; lia|]. apply valid_app; [exact Vt|apply valid_one; lia].
      - cbn [ctext] in Va. rewrite app_nil_r in Va. split; [exact Va|apply valid_nil]. }
    tauto. }
  destruct PV as (V1 & Vl & V2 & V3 & V4).
  (* the new local part *)
  set (lt' := if ev_need_quoted v then [34] ++ ev_local v ++ [34] else ev_local v).
  assert (LT' : local_text (e_non_ascii c) (List.length (ctext (ev_c1 v))) lt' (ev_local v) (ev_need_quoted v) (ev_need_quoted v) /\
    valid_str lt').
  { unfold lt'. destruct HLT as [(-> & -> & HU & E)|(-> & -> & HQ & HN)].
    - rewrite E. split; [left; auto|exact Vl].
    - destruct (ev_need_quoted v) eqn:EQ.
      + split; [right; auto|exact Vl].
      + split; [|apply valid_unquote; exact Vl]. left. split; [reflexivity|]. split; [reflexivity|]. split; [|reflexivity].
        apply (plain_local _ _ _ HQ (nq_false_iff _ _ HN eq_refl)). unfold local_side in H64. rewrite EQ in H64.
        rewrite !app_length in H64. lia. }
  destruct LT' as [LT' Vl'].
  assert (VW : valid_str (local_side v ++ [64] ++ domain_side v)).
  { unfold local_side, domain_side. fold lt'. repeat (apply valid_app || apply valid_one); auto; lia. }
  split; [exact VW|]. apply email_parse_spec; [exact VW|].
  exists lt', (ev_need_quoted v), (e_host_text (ev_domain v)), (ctext (ev_c4 v)), (List.length (e_host_text (ev_domain v))).
  split; [unfold local_side, domain_side; fold lt'; rewrite <- !app_assoc; reflexivity|].
  split; [rewrite !app_length; cbn [List.length]; lia|].
  split; [exact LT'|]. split; [exact K1|]. split; [exact K2|]. split; [exact K3|]. split.
  { unfold tail_ok in *. destruct (ev_c4 v); [|reflexivity]. destruct K4 as (A & B & _). split; [exact A|]. split; [exact B|].
    exists []. rewrite app_nil_r. reflexivity. }
  split; [intros t Et; left; rewrite <- app_length, <- app_assoc; exact H64|].
  split; [exact CH|]. split.
  { cbn zeta. unfold domain_side in D255. split; [exact D255|]. intros X. exfalso. lia. }
  split; [exact Hloc|exact Hf].
Qed.

(** Within the limits of RFC 5321 for ASCII addresses. *)
Lemma bounded_positions (l : list N) (k : nat) (b : nat) : (forall i e, nth_error l i = Some e -> (b <= i)%nat -> (k + i <> 64)%nat) ->
  (k + b <= 64)%nat -> (k + List.length l <= 64)%nat.
Proof.
  intros H Hb. destruct (le_lt_dec (k + List.length l) 64) as [L|L]; [exact L|]. exfalso.
  destruct (nth_error l (64 - k)) as [e|] eqn:E.
  - apply (H _ _ E); lia.
  - apply nth_error_None in E. lia.
Qed.

Theorem local_part_bound na o lt l nq q : local_text na o lt l nq q -> na = false ->
  (o <= 63)%nat -> (q = true -> (o <= 62)%nat) -> (o + List.length lt <= 64)%nat.
Proof.
  intros H Hna Ho Hq. destruct H as [(-> & -> & (H1 & _ & H2 & _ & H3) & _)|(-> & -> & (H1 & H2 & _ & H3) & _)].
  - apply (bounded_positions l o 1); [|lia]. intros i e Hi Hb. apply (H3 i e Hi ltac:(lia)).
    rewrite Forall_forall in H2. specialize (H2 e (nth_error_In _ _ Hi)).
    destruct H2 as [X|[X|[X _]]]; [|lia|congruence]. apply atext_spec in X. destruct (kind na e); try congruence; lia.
  - specialize (Hq eq_refl). rewrite app_length, app_length. cbn [List.length].
    assert (X : (o + 2 + List.length l <= 64)%nat); [|lia]. apply (bounded_positions l (o + 2) 0).
    + intros i e Hi _. specialize (H3 i e Hi). assert (L : e < 128); [|specialize (H3 (or_introl L)); lia].
      apply nth_error_split in Hi as (u & w & E & _). destruct (H2 u e w E) as [[X|[X|[X _]]]|[X|[X _]]].
      * apply atext_spec in X. destruct (kind na e); try congruence; lia.
      * lia.
      * congruence.
      * unfold blank in X. lia.
      * apply (special_not_local na) in X. tauto.
    + assert (o <> 62)%nat; [|lia]. intros ->. destruct l as [|x l]; [contradiction|]. specialize (H3 O x eq_refl (or_intror eq_refl)). lia.
Qed.
