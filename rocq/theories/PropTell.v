(** Property C127: a text is an address of one kind only. *)
From Verif Require Import Base Utf8 IntStr IntStrProofs MacModel MacSpec NetModel NetSpec NetProofs IpModel IpSpec IpProofs
  DomainModel DomainSpec DomainProofs IdnaFrag HostModel HostSpec HostProofs EmailModel EmailSpec EmailMain StrFacts.
From Verif Require Import PropMac PropIp PropDomain PropHost PropEmail PropUnion PropRel.
From Verif Require HttpModel.
Local Open Scope N_scope.

(** ** Groups of hexadecimal digits *)

Definition hexc (c : N) : Prop := 48 <= c <= 57 \/ 65 <= c <= 70 \/ 97 <= c <= 102.

Lemma hex_hexc case c d : is_hex case c d -> hexc c.
Proof.
  intros (a & A & B). apply nth_error_In in B.
  assert (Forall hexc a) as V.
  { apply Forall_forall. intros y Y. destruct case; cbn [hex_alphabets In] in A; intuition subst; vm_compute in Y; unfold hexc; lia. }
  exact (proj1 (Forall_forall _ _) V c B).
Qed.
Lemma hexes_hexc case cs x : hex_denotes case cs x -> Forall hexc cs.
Proof. induction 1 as [|c d cs x H _ IH]; constructor; eauto using hex_hexc. Qed.

Lemma count_out c l : ~ In c l -> count_occ N.eq_dec l c = 0%nat.
Proof. apply count_occ_not_In. Qed.

(** The separator of an attribute. *)
Definition sep_char (sep : sep_option) : option N := match sep with SepMust c | SepAllow c => Some c | SepDisallow => None end.
Lemma sep_cases sep t : sep_form sep t -> t = [] \/ exists c, sep_char sep = Some c /\ t = [c].
Proof. destruct sep as [c|c|]; cbn; [intros ->|intros [->| ->]|intros ->]; eauto. Qed.

(** How often a character that is no digit is in the text. *)
Lemma grouped_count sep sizes v digits : grouped sep sizes v digits ->
  exists k, List.length v = (List.length digits + k)%nat /\ (k < List.length sizes)%nat /\
  forall c, ~ In c digits -> (sep_char sep = Some c -> count_occ N.eq_dec v c = k) /\ (sep_char sep <> Some c -> count_occ N.eq_dec v c = 0%nat).
Proof.
  induction 1 as [g|g t sizes v digits T G IH].
  - exists 0%nat. split; [lia|]. split; [cbn; lia|]. intros c N. rewrite (count_out _ _ N). split; reflexivity.
  - destruct IH as (k & L & K & IH). destruct (sep_cases _ _ T) as [->|(x & X & ->)].
    + exists k. rewrite !app_length. cbn [List.length app]. split; [lia|]. split; [lia|]. intros c N. rewrite in_app_iff in N.
      rewrite count_occ_app, (count_out c g) by tauto. apply IH. tauto.
    + exists (S k). rewrite !app_length. cbn [List.length app]. split; [lia|]. split; [lia|]. intros c N. rewrite in_app_iff in N.
      rewrite count_occ_app, (count_out c g) by tauto. destruct (IH c) as [I1 I2]; [tauto|]. cbn [count_occ].
      destruct (N.eq_dec x c) as [->|E]; split; intros S; try congruence; [now rewrite I1|now apply I2].
Qed.

Lemma grouped_first sep n sizes v digits : grouped sep (S n :: sizes) v digits -> exists c r, v = c :: r /\ In c digits.
Proof.
  inversion 1 as [g E|g s z w ds F R E]; subst.
  - destruct digits as [|c r]; [discriminate|]. exists c, r. split; [reflexivity|now left].
  - destruct g as [|c r]; [discriminate|]. eexists c, _. split; [reflexivity|now left].
Qed.

(** No separator follows another. *)
Lemma grouped_apart sep sizes v digits c : grouped sep sizes v digits -> Forall (fun n => (0 < n)%nat) sizes -> ~ In c digits ->
  (forall u w, v <> u ++ [c; c] ++ w) /\ forall w, v <> c :: w.
Proof.
  induction 1 as [g|g t sizes v digits T G IH]; intros P N.
  - split.
    + intros u w ->. apply N. apply in_app_iff. right. now left.
    + intros w ->. apply N. now left.
  - inversion P as [|? ? Pg Pr]; subst. rewrite in_app_iff in N. destruct IH as [IH1 IH2]; [exact Pr|tauto|].
    split.
    + intros u w E. destruct (sep_cases _ _ T) as [->|(x & X & ->)]; cbn [app] in E.
      * apply app_eq_app in E as (l & [[E1 E2]|[E1 E2]]).
        -- destruct l as [|a l]; [cbn in E2; exact (IH1 [] w (eq_sym E2))|]. cbn in E2. injection E2 as <- E2. apply N. left. rewrite E1. apply in_app_iff. right. now left.
        -- exact (IH1 l w E2).
      * apply app_eq_app in E as (l & [[E1 E2]|[E1 E2]]).
        -- destruct l as [|a l]; [|cbn in E2; injection E2 as <- E2; apply N; left; rewrite E1; apply in_app_iff; right; now left].
           cbn in E2. injection E2 as _ E2. exact (IH2 w (eq_sym E2)).
        -- destruct l as [|a l]; cbn in E2; injection E2 as E2 E3; [exact (IH2 w E3)|]. exact (IH1 l w E3).
    + intros w E. destruct g as [|a g]; [cbn in Pg; lia|]. cbn in E. injection E as -> _. apply N. left. now left.
Qed.

Lemma grouped_len sep sizes v digits : grouped sep sizes v digits -> List.length digits = fold_right Nat.add 0%nat sizes.
Proof. induction 1 as [g|g t sizes v digits T G IH]; cbn [fold_right]; [lia|]. rewrite app_length. lia. Qed.

Lemma grouped_two sep n sizes v digits : grouped sep (S (S n) :: sizes) v digits ->
  exists c e r, v = c :: e :: r /\ In c digits /\ In e digits.
Proof.
  inversion 1 as [g E|g s z w ds F R E]; subst.
  - destruct digits as [|c [|e r]]; try discriminate. exists c, e, r. cbn. tauto.
  - destruct g as [|c [|e r]]; try discriminate. eexists c, e, _. split; [reflexivity|]. cbn. tauto.
Qed.

(** The texts that are groups of digits, with what is needed of them. *)
Definition hex_text (sep : sep_option) (sizes : list nat) (s : list N) : Prop :=
  exists digits, grouped sep sizes s digits /\ Forall hexc digits.
Lemma mac_hex case sep s x : mac_parse_str case sep s = Ok x -> hex_text sep mac_sizes s.
Proof. intros H. apply C25_mac_accepts_only in H as (ds & G & D). exists ds. split; [exact G|exact (hexes_hexc _ _ _ D)]. Qed.
Lemma uuid_hex case sep s x : uuid_parse_str case sep s = Ok x -> hex_text sep uuid_sizes s.
Proof. intros H. apply C28_uuid_accepts_only in H as (ds & G & D). exists ds. split; [exact G|exact (hexes_hexc _ _ _ D)]. Qed.
Lemma no_hex c ds : ~ hexc c -> Forall hexc ds -> ~ In c ds.
Proof. intros N F I. exact (N (proj1 (Forall_forall _ _) F c I)). Qed.

(** A character other than the separator and the digits is not in such a text. *)
Lemma hex_text_in sep sizes s c : hex_text sep sizes s -> ~ hexc c -> In c s -> sep_char sep = Some c.
Proof.
  intros (ds & G & F) N I. destruct (grouped_count _ _ _ _ G) as (k & _ & _ & K).
  destruct (K c (no_hex _ _ N F)) as [_ K2]. apply (count_occ_In N.eq_dec) in I.
  destruct (sep_char sep) as [x|]; [|rewrite K2 in I by discriminate; lia].
  destruct (N.eq_dec x c) as [->|E]; [reflexivity|]. rewrite K2 in I by congruence. lia.
Qed.

(** ** Internet addresses *)
Lemma octet_no_dot ds n : octet ds n -> Forall (fun c => 48 <= c <= 57) ds.
Proof.
  intros (H & _). apply numeral_digits in H. eapply Forall_impl; [|exact H]. intros c [d Hd]. apply digit10_range in Hd. exact Hd.
Qed.
Lemma digits_out c ds : Forall (fun c => 48 <= c <= 57) ds -> ~ 48 <= c <= 57 -> count_occ N.eq_dec ds c = 0%nat.
Proof. intros F N. apply count_out. intros I. exact (N (proj1 (Forall_forall _ _) F c I)). Qed.

Lemma mac_not_v4 sep s a : hex_text sep mac_sizes s -> v4_text s a -> False.
Proof.
  intros (ds & G & F) (d1 & d2 & d3 & d4 & n1 & n2 & n3 & n4 & O1 & O2 & O3 & O4 & _ & E).
  pose proof (octet_length _ _ O1) as L1. pose proof (octet_length _ _ O2) as L2.
  pose proof (octet_length _ _ O3) as L3. pose proof (octet_length _ _ O4) as L4.
  apply octet_no_dot in O1, O2, O3, O4.
  assert (C : count_occ N.eq_dec s 46 = 3%nat).
  { rewrite E, !count_occ_app, (digits_out 46 d1), (digits_out 46 d2), (digits_out 46 d3), (digits_out 46 d4) by (assumption || lia). reflexivity. }
  assert (L : List.length s = (List.length d1 + List.length d2 + List.length d3 + List.length d4 + 3)%nat).
  { rewrite E, !app_length. cbn [List.length]. lia. }
  destruct (grouped_count _ _ _ _ G) as (k & K1 & _ & K). pose proof (grouped_len _ _ _ _ G) as GL. cbn in GL.
  assert (N46 : ~ hexc 46) by (unfold hexc; lia).
  destruct (K 46 (no_hex _ _ N46 F)) as [K2 K3].
  assert (S : sep_char sep = Some 46).
  { destruct (sep_char sep) as [x|]; [|rewrite K3 in C by discriminate; lia].
    destruct (N.eq_dec x 46) as [->|X]; [reflexivity|]. rewrite K3 in C by congruence. lia. }
  rewrite (K2 S) in C. assert (List.length d1 = 3%nat) as D1 by lia.
  destruct d1 as [|x [|y [|z [|]]]]; try discriminate D1. cbn [app] in E.
  inversion O1 as [|? ? _ O1']; subst. inversion O1' as [|? ? _ O1'']; subst. inversion O1'' as [|? ? Z _]; subst.
  inversion G as [|g t sizes v digits T G' E1 E2 E3]; subst. destruct g as [|x' [|y' [|]]]; try discriminate E1.
  destruct (sep_cases _ _ T) as [->|(c & X & ->)]; cbn [app] in E2; injection E2 as -> -> E2.
  - destruct (grouped_two _ _ _ _ _ G') as (c & e & r & -> & _ & I). injection E2 as -> -> _.
    apply N46. apply (proj1 (Forall_forall _ _) F). cbn. tauto.
  - rewrite S in X. assert (c = 46) as -> by congruence. assert (z = 46) by congruence. lia.
Qed.

Lemma uuid_not_v4 sep s a : hex_text sep uuid_sizes s -> v4_text s a -> False.
Proof.
  intros (ds & G & F) (d1 & d2 & d3 & d4 & n1 & n2 & n3 & n4 & O1 & O2 & O3 & O4 & _ & E).
  apply octet_length in O1, O2, O3, O4. destruct (grouped_count _ _ _ _ G) as (k & K1 & _ & K).
  pose proof (grouped_len _ _ _ _ G) as GL. cbn in GL. rewrite E, !app_length in K1. cbn [List.length] in K1. lia.
Qed.

Lemma v4_dot s a : v4_text s a -> In 46 s.
Proof.
  intros (d1 & d2 & d3 & d4 & n1 & n2 & n3 & n4 & _ & _ & _ & _ & _ & ->). apply in_app_iff. right. now left.
Qed.
Lemma hex_not_v4 sep s a p : hex_text sep mac_sizes s \/ hex_text sep uuid_sizes s -> v4_form s a p -> False.
Proof.
  assert (N46 : ~ hexc 46) by (unfold hexc; lia). assert (N58 : ~ hexc 58) by (unfold hexc; lia).
  intros H F. destruct p as [p|]; cbn [v4_form] in F.
  - destruct F as (t & q & -> & T & _). apply v4_dot in T.
    assert (I : In 46 (t ++ [58] ++ q)) by (apply in_app_iff; now left).
    assert (J : In 58 (t ++ [58] ++ q)) by (apply in_app_iff; right; now left).
    destruct H as [H|H]; pose proof (hex_text_in _ _ _ _ H N46 I); pose proof (hex_text_in _ _ _ _ H N58 J); congruence.
  - destruct H as [H|H]; [exact (mac_not_v4 _ _ _ H F)|exact (uuid_not_v4 _ _ _ H F)].
Qed.

Lemma groups_colons v4 s l : groups v4 s l -> (List.length l <= count_occ N.eq_dec s 58%N + 2)%nat.
Proof.
  induction 1 as [d n H|s n1 n2 n3 n4 _ _|d n s l H G IH]; cbn [List.length]; [lia|lia|].
  rewrite !count_occ_app. cbn [count_occ]. destruct (N.eq_dec 58 58); [lia|congruence].
Qed.

Lemma hex_not_v6_text sep sizes s a : hex_text sep sizes s -> (List.length sizes <= 6)%nat -> Forall (fun n => (0 < n)%nat) sizes ->
  v6_text s a -> False.
Proof.
  assert (N58 : ~ hexc 58) by (unfold hexc; lia).
  intros (ds & G & F) L P [[H Q]|(h & t & lh & lt & E & _)].
  - apply groups_colons in H. destruct (grouped_count _ _ _ _ G) as (k & _ & K & C).
    destruct (C 58 (no_hex _ _ N58 F)) as [C1 C2]. assert (count_occ N.eq_dec s 58%N <= k)%nat; [|lia].
    destruct (sep_char sep) as [x|]; [|rewrite C2 by discriminate; lia].
    destruct (N.eq_dec x 58) as [->|X]; [rewrite C1 by reflexivity; lia|rewrite C2 by congruence; lia].
  - destruct (grouped_apart _ _ _ _ 58 G P (no_hex _ _ N58 F)) as [A _]. exact (A h t E).
Qed.
Lemma hex_not_v6 sep s a p : hex_text sep mac_sizes s \/ hex_text sep uuid_sizes s -> v6_form s a p -> False.
Proof.
  intros H F.
  assert (B : forall r, s <> 91 :: r).
  { intros r E. assert (N91 : ~ hexc 91) by (unfold hexc; lia). destruct H as [(ds & G & X)|(ds & G & X)];
      destruct (grouped_first _ _ _ _ _ G) as (c & r' & E' & I); rewrite E in E'; injection E' as <- _; exact (no_hex _ _ N91 X I). }
  assert (T : ~ v6_text s a).
  { intros T. destruct H as [H|H]; (apply (hex_not_v6_text _ _ _ _ H) in T; [exact T|cbn; lia|repeat constructor; lia]). }
  destruct p as [p|]; cbn [v6_form] in F.
  - destruct F as (t & q & E & _). exact (B _ E).
  - destruct F as [F|(t & E & _)]; [exact (T F)|exact (B _ E)].
Qed.
Lemma mac_not_uuid sep sep' s : hex_text sep mac_sizes s -> hex_text sep' uuid_sizes s -> False.
Proof.
  intros (ds & G & _) (ds' & G' & _). destruct (grouped_count _ _ _ _ G) as (k & K1 & K2 & _).
  destruct (grouped_count _ _ _ _ G') as (k' & K1' & K2' & _). pose proof (grouped_len _ _ _ _ G) as GL.
  pose proof (grouped_len _ _ _ _ G') as GL'. cbn in GL, GL', K2. lia.
Qed.

(** C127: Internet addresses, MAC addresses and UUIDs, for all attributes. *)
Theorem C127_addresses : forall s port local port' local' case sep case' sep', valid_str s ->
  ~ (is_ok (ipv4_parse_str port local s) /\ is_ok (ipv6_parse_str port' local' s)) /\
  ~ (is_ok (ip_parse_str port local s) /\ is_ok (mac_parse_str case sep s)) /\
  ~ (is_ok (ip_parse_str port local s) /\ is_ok (uuid_parse_str case sep s)) /\
  ~ (is_ok (mac_parse_str case sep s) /\ is_ok (uuid_parse_str case' sep' s)).
Proof.
  intros s port local port' local' case sep case' sep' V. split; [|split; [|split]].
  - intros [A B]. exact (C34_never_both _ _ _ _ _ V A B).
  - intros [[[[a|a] p] A] [x B]]; apply C31_ip_accepts_exactly in A as [A _]; try exact V; apply mac_hex in B;
      [eapply hex_not_v4|eapply hex_not_v6]; eauto.
  - intros [[[[a|a] p] A] [x B]]; apply C31_ip_accepts_exactly in A as [A _]; try exact V; apply uuid_hex in B;
      [eapply hex_not_v4|eapply hex_not_v6]; eauto.
  - intros [[x A] [y B]]. apply mac_hex in A. apply uuid_hex in B. exact (mac_not_uuid _ _ _ A B).
Qed.
Print Assumptions C127_addresses.

(** ** Web addresses *)
Lemma lower_letter x c : 97 <= c <= 122 -> lower x =? c = true -> 65 <= x <= 90 \/ 97 <= x <= 122.
Proof. intros C H. unfold lower in H. destruct ((65 <=? x) && (x <=? 90)) eqn:E; lia. Qed.

(** A text that begins with letters and a colon, the second letter being a t. *)
Definition scheme_text (s : list N) : Prop := exists w r, s = w ++ 58 :: r /\ Forall (fun c => 65 <= c <= 90 \/ 97 <= c <= 122) w /\
  exists a b u, w = a :: b :: u /\ (b = 84 \/ b = 116).

Lemma starts_scheme w s : Forall (fun c => 97 <= c <= 122) w -> (exists a u, w = a :: 116 :: u) ->
  HttpModel.starts_with_lower (w ++ [58]) s = true -> scheme_text s.
Proof.
  intros F (a & u & ->) H.
  assert (K : forall w s, Forall (fun c => 97 <= c <= 122) w -> HttpModel.starts_with_lower (w ++ [58]) s = true ->
    exists w' r, s = w' ++ 58 :: r /\ Forall2 (fun x c => lower x = c) w' w /\ Forall (fun c => 65 <= c <= 90 \/ 97 <= c <= 122) w').
  { clear. induction w as [|c w IH]; intros s F H; cbn [app HttpModel.starts_with_lower] in H.
    - destruct s as [|x s]; [discriminate|]. apply andb_true_iff in H as [H _]. exists [], s. split; [|split; constructor].
      cbn [app]. f_equal. unfold lower in H. destruct ((65 <=? x) && (x <=? 90)) eqn:E; lia.
    - destruct s as [|x s]; [discriminate|]. apply andb_true_iff in H as [H1 H2]. inversion F as [|? ? Fc Fw]; subst.
      destruct (IH s Fw H2) as (w' & r & -> & A & B). exists (x :: w'), r. split; [reflexivity|]. split; constructor; try assumption.
      + lia.
      + exact (lower_letter _ _ Fc H1). }
  destruct (K _ _ F H) as (w' & r & -> & A & B). exists w', r. split; [reflexivity|]. split; [exact B|].
  inversion A as [|a' ? u' ? A1 A2]; subst. inversion A2 as [|b' ? u'' ? B1 B2]; subst. exists a', b', u''. split; [reflexivity|].
  unfold lower in B1. destruct ((65 <=? b') && (b' <=? 90)) eqn:E; lia.
Qed.

Lemma http_scheme url parse host local s v : HttpModel.http_parse_str url parse host local s = Ok v -> scheme_text s.
Proof.
  unfold HttpModel.http_parse_str, HttpModel.http_v_parse_str. cbn [HttpModel.starts_with_multiple].
  destruct (HttpModel.starts_with_lower (bs "http:") s) eqn:E1.
  { intros _. apply (starts_scheme (bs "http")) in E1; [exact E1| |now eexists; eexists].
    apply Forall_forall. intros y Y. vm_compute in Y. lia. }
  destruct (HttpModel.starts_with_lower (bs "https:") s) eqn:E2.
  { intros _. apply (starts_scheme (bs "https")) in E2; [exact E2| |now eexists; eexists].
    apply Forall_forall. intros y Y. vm_compute in Y. lia. }
  discriminate.
Qed.
Lemma http_ftp_scheme url parse host local s v : HttpModel.http_ftp_parse_str url parse host local s = Ok v -> scheme_text s.
Proof.
  unfold HttpModel.http_ftp_parse_str, HttpModel.http_ftp_v_parse_str. cbn [HttpModel.starts_with_multiple].
  destruct (HttpModel.starts_with_lower (bs "http:") s) eqn:E1.
  { intros _. apply (starts_scheme (bs "http")) in E1; [exact E1| |now eexists; eexists].
    apply Forall_forall. intros y Y. vm_compute in Y. lia. }
  destruct (HttpModel.starts_with_lower (bs "https:") s) eqn:E2.
  { intros _. apply (starts_scheme (bs "https")) in E2; [exact E2| |now eexists; eexists].
    apply Forall_forall. intros y Y. vm_compute in Y. lia. }
  destruct (HttpModel.starts_with_lower (bs "ftp:") s) eqn:E3.
  { intros _. apply (starts_scheme (bs "ftp")) in E3; [exact E3| |now eexists; eexists].
    apply Forall_forall. intros y Y. vm_compute in Y. lia. }
  discriminate.
Qed.

(** The characters of an Internet address with its port. *)
Definition ip_char (c : N) : Prop := 43 <= c <= 58 \/ 65 <= c <= 70 \/ 97 <= c <= 102 \/ c = 91 \/ c = 93.
Lemma port_chars q p : port_text q p -> Forall ip_char q.
Proof. intros H. apply port_text_chars in H as [_ H]. eapply Forall_impl; [|exact H]. intros c C. unfold ip_char. cbn beta in C. lia. Qed.
Lemma v4_form_chars s a p : v4_form s a p -> Forall ip_char s.
Proof.
  assert (K : forall t, v4_text t a -> Forall ip_char t).
  { intros t H. apply v4_chars in H. eapply Forall_impl; [|exact H]. intros c C. unfold v4_char in C. unfold ip_char. lia. }
  destruct p as [p|]; cbn [v4_form]; [|apply K]. intros (t & q & -> & T & Q). apply Forall_app. split; [exact (K _ T)|].
  constructor; [unfold ip_char; lia|]. eapply port_chars; eassumption.
Qed.
Lemma v6_form_chars s a p : v6_form s a p -> Forall ip_char s.
Proof.
  assert (K : forall t, v6_text t a -> Forall ip_char t).
  { intros t H. apply v6_chars in H. eapply Forall_impl; [|exact H]. intros c C. unfold v6_char in C. unfold ip_char. lia. }
  destruct p as [p|]; cbn [v6_form].
  - intros (t & q & -> & T & Q). constructor; [unfold ip_char; lia|]. apply Forall_app. split; [exact (K _ T)|].
    constructor; [unfold ip_char; lia|]. constructor; [unfold ip_char; lia|]. eapply port_chars; eassumption.
  - intros [T|(t & -> & T)]; [exact (K _ T)|]. constructor; [unfold ip_char; lia|]. apply Forall_app. split; [exact (K _ T)|].
    constructor; [unfold ip_char; lia|]. constructor.
Qed.
Lemma ip_chars port local s x : valid_str s -> ip_parse_str port local s = Ok x -> Forall ip_char s.
Proof.
  intros V H. destruct x as [[a|a] p]; apply C31_ip_accepts_exactly in H as [H _]; try exact V;
    [exact (v4_form_chars _ _ _ H)|exact (v6_form_chars _ _ _ H)].
Qed.

Lemma scheme_not_ip s : scheme_text s -> Forall ip_char s -> False.
Proof.
  intros (w & r & -> & _ & a & b & u & -> & B) F. cbn [app] in F. inversion F as [|? ? _ F']; subst. inversion F' as [|? ? C _]; subst.
  unfold ip_char in C. lia.
Qed.
Lemma scheme_not_hex sep n sizes s : scheme_text s -> hex_text sep (S (S n) :: sizes) s -> False.
Proof.
  intros (w & r & -> & _ & a & b & u & -> & B) (ds & G & F). destruct (grouped_two _ _ _ _ _ G) as (c & e & r' & E & _ & I).
  cbn [app] in E. injection E as _ -> _. pose proof (proj1 (Forall_forall _ _) F _ I) as X. unfold hexc in X. lia.
Qed.

(** ** E-mail addresses *)
Lemma local_char_not na c : c < 128 -> In c (bs "(),:;<>@[]") \/ c = 34 -> ~ local_char na c.
Proof.
  intros L S H. assert (K : c = 34 \/ c = 40 \/ c = 41 \/ c = 44 \/ c = 58 \/ c = 59 \/ c = 60 \/ c = 62 \/ c = 64 \/ c = 91 \/ c = 93).
  { destruct S as [S|S]; [vm_compute in S|]; lia. }
  clear S. destruct H as [[H|[H|[H|H]]]|[H|[_ H]]]; try lia. vm_compute in H. lia.
Qed.
Lemma scheme_not_email idna prof c s v : valid_str s -> email_parse_str idna prof c s = Ok v -> scheme_text s -> False.
Proof.
  intros V H (w & r & E & F & a & b & u & W & B). apply email_parse_spec in H; [|exact V].
  destruct H as (lt & q & dt & tail & canon & Es & _ & HL & K1 & _).
  assert (A : 65 <= a <= 90 \/ 97 <= a <= 122) by (rewrite W in F; inversion F; assumption).
  rewrite E in Es. destruct (ev_c1 v) as [t|]; cbn [ctext app] in Es; [rewrite W in Es; cbn [app] in Es; injection Es as Es _; lia|].
  destruct HL as [(_ & -> & (N & _ & C & _) & _)|(_ & -> & _ & _)];
    [|rewrite W in Es; cbn [app] in Es; injection Es as Es _; lia].
  assert (exists x y, ctext (ev_c2 v) ++ [64] ++ ctext (ev_c3 v) ++ dt ++ tail = x :: y /\ (x = 40 \/ x = 64)) as (x & y & X & XX).
  { destruct (ev_c2 v) as [t|]; cbn [ctext app]; eexists; eexists; (split; [reflexivity|tauto]). }
  assert (X' : w ++ 58 :: r = ev_local v ++ x :: y) by (rewrite Es, <- X; reflexivity).
  apply app_eq_app in X' as (l & [[E1 E2]|[E1 E2]]).
  - destruct l as [|z l]; cbn [app] in E2; injection E2 as E2 _; [lia|]. subst z. rewrite E1 in F. apply Forall_app in F as [_ F].
    inversion F; subst. lia.
  - destruct l as [|z l]; cbn [app] in E2; injection E2 as E2 _; [lia|]. subst z. rewrite E1 in C. apply Forall_app in C as [_ C].
    inversion C as [|? ? C58 _]; subst. revert C58. apply local_char_not; [lia|]. vm_compute. tauto.
Qed.

(** C127: web addresses, for all attributes and every behaviour of the url library. *)
Theorem C127_urls : forall url parse host l1 idna prof c port local case sep s, valid_str s ->
  is_ok (HttpModel.http_parse_str url parse host l1 s) \/ is_ok (HttpModel.http_ftp_parse_str url parse host l1 s) ->
  ~ is_ok (ip_parse_str port local s) /\ ~ is_ok (mac_parse_str case sep s) /\ ~ is_ok (uuid_parse_str case sep s) /\
  ~ is_ok (email_parse_str idna prof c s).
Proof.
  intros url parse host l1 idna prof c port local case sep s V H.
  assert (S : scheme_text s) by (destruct H as [[v H]|[v H]]; [eapply http_scheme|eapply http_ftp_scheme]; exact H).
  split; [intros [x X]; exact (scheme_not_ip _ S (ip_chars _ _ _ _ V X))|].
  split; [intros [x X]; exact (scheme_not_hex _ _ _ _ S (mac_hex _ _ _ _ X))|].
  split; [intros [x X]; exact (scheme_not_hex _ _ _ _ S (uuid_hex _ _ _ _ X))|].
  intros [x X]. exact (scheme_not_email _ _ _ _ _ V X S).
Qed.
Print Assumptions C127_urls.

Lemma email_at idna prof c s v : valid_str s -> email_parse_str idna prof c s = Ok v -> In 64 s.
Proof.
  intros V H. apply email_parse_spec in H; [|exact V]. destruct H as (lt & q & dt & tail & canon & -> & _).
  rewrite !in_app_iff. right. right. right. left. now left.
Qed.

(** A law of [to_ascii] with STD3 rules (UTS #46, section 4.1): of the ASCII characters a name has only letters, digits, hyphens and dots,
    so none of ':' '@' '['. *)
Definition idna_delims (idna : list N -> option (list N)) : Prop := forall x d, idna x = Some d -> ~ In 58 x /\ ~ In 64 x /\ ~ In 91 x.

Lemma split_at s name p : split_port s name p -> ~ In 64 name -> ~ In 64 s.
Proof.
  destruct p as [p|]; cbn [split_port]; [intros (q & -> & Q) N|intros [-> _] N; exact N].
  rewrite !in_app_iff. intros [I|[[I|[]]|I]]; [exact (N I)|discriminate|]. revert I. apply (port_text_not_in _ _ 64 Q). lia.
Qed.

(** C127: e-mail addresses. With MAC addresses and UUIDs the claim holds as long as their separator is not an at sign. *)
Theorem C127_email_partial : forall idna prof c port local case sep dc hc s, idna_delims idna -> valid_str s ->
  is_ok (email_parse_str idna prof c s) ->
  ~ is_ok (ip_parse_str port local s) /\
  ~ is_ok (domain_parse_str idna dc s) /\ ~ is_ok (host_parse_str idna hc s) /\
  (sep <> SepMust 64 -> sep <> SepAllow 64 -> ~ is_ok (mac_parse_str case sep s) /\ ~ is_ok (uuid_parse_str case sep s)).
Proof.
  intros idna prof c port local case sep dc hc s L V [v H]. apply email_at in H; [|exact V].
  assert (NI : Forall ip_char s -> False).
  { intros F. pose proof (proj1 (Forall_forall _ _) F _ H) as X. unfold ip_char in X. lia. }
  split; [intros [x X]; exact (NI (ip_chars _ _ _ _ V X))|]. split.
  { intros [w W]. apply C36_domain_accepts_exactly in W; [|exact V]. destruct W as (_ & name & P & _ & B).
    assert (N : ~ In 64 name); [|exact (split_at _ _ _ P N H)].
    destruct B as [(_ & B & _)|[(_ & a & B & _)|(_ & _ & _ & B & _)]]; [apply (L _ _ B)| |apply (L _ _ B)].
    destruct B as (t & T & B). apply v4_chars in B. intros I.
    assert (In 64 t) as J by (destruct T as [->|T]; [exact I|rewrite T in I; apply in_app_iff in I as [I|[I|[]]]; [exact I|discriminate]]).
    pose proof (proj1 (Forall_forall _ _) B _ J) as X. unfold v4_char in X. lia. }
  split.
  { intros [w W]. apply C39_host_accepts_exactly in W; [|exact V].
    destruct W as [(a & _ & F & _)|[(a & _ & F & _)|(name & d & _ & _ & _ & _ & P & _ & _ & _ & B & _)]].
    - exact (NI (v6_form_chars _ _ _ F)).
    - exact (NI (v4_form_chars _ _ _ F)).
    - exact (split_at _ _ _ P (proj1 (proj2 (L _ _ B))) H). }
  intros S1 S2. assert (N64 : ~ hexc 64) by (unfold hexc; lia).
  assert (S : sep_char sep <> Some 64) by (destruct sep; cbn; congruence).
  split; intros [x X]; [apply mac_hex in X|apply uuid_hex in X]; exact (S (hex_text_in _ _ _ _ X N64 H)).
Qed.
Print Assumptions C127_email_partial.

(** C127: domain with ipv4(Disallow) and Internet addresses. *)
Theorem C127_domain : forall idna c port local s, idna_delims idna -> valid_str s -> d_ipv4 c = Disallow ->
  is_ok (domain_parse_str idna c s) -> ~ is_ok (ip_parse_str port local s).
Proof.
  intros idna c port local s L V D [w W] [[[a|a] p] X]; apply C31_ip_accepts_exactly in X as [X _]; try exact V;
    apply C36_domain_accepts_exactly in W; try exact V; destruct W as (_ & name & P & _ & B).
  - assert (NP : ~ no_policy c) by (unfold no_policy; rewrite D; intuition discriminate).
    destruct B as [(B & _)|[(_ & b & _ & B & _)|(_ & N4 & _ & B & _)]]; [exact (NP B)|exact (B D)|].
    destruct (L _ _ B) as (N58 & _). destruct p as [p|]; cbn [v4_form] in X.
    + destruct X as (t & q & -> & T & Q). destruct (dv_port w) as [p'|]; cbn [split_port] in P.
      * destruct P as (q' & E & _). assert (T58 : ~ In 58 t).
        { apply v4_chars in T. intros I. pose proof (proj1 (Forall_forall _ _) T _ I) as C. unfold v4_char in C. lia. }
        assert (name = t) as ->.
        { apply app_eq_app in E as (l & [[E1 E2]|[E1 E2]]).
          - destruct l as [|z l]; [rewrite E1; now rewrite app_nil_r|]. cbn in E2. injection E2 as <- _. exfalso. apply T58. rewrite E1.
            apply in_app_iff. right. now left.
          - destruct l as [|z l]; [rewrite E1; now rewrite app_nil_r|]. cbn in E2. injection E2 as <- _. exfalso. apply N58. rewrite E1.
            apply in_app_iff. right. now left. }
        apply (N4 a). exists t. auto.
      * destruct P as [_ P]. apply P. apply in_app_iff. right. now left.
    + destruct (dv_port w) as [p'|]; cbn [split_port] in P.
      * destruct P as (q' & -> & _). apply v4_chars in X. assert (In 58 (name ++ [58] ++ q')) as I by (apply in_app_iff; right; now left).
        pose proof (proj1 (Forall_forall _ _) X _ I) as C. unfold v4_char in C. lia.
      * destruct P as [-> _]. apply (N4 a). exists name. auto.
  - assert (N : ~ In 58 name /\ ~ In 91 name).
    { destruct B as [(_ & B & _)|[(_ & b & _ & B & _)|(_ & _ & _ & B & _)]]; [|contradiction|]; destruct (L _ _ B) as (A1 & _ & A2); auto. }
    destruct N as [N58 N91].
    assert (B91 : forall r, s <> 91 :: r).
    { intros r E. destruct (dv_port w) as [p'|]; cbn [split_port] in P.
      - destruct P as (q' & E' & _). destruct name as [|z name]; [rewrite E in E'; discriminate E'|].
        rewrite E in E'. injection E' as <- _. apply N91. now left.
      - destruct P as [E' _]. apply N91. rewrite <- E', E. now left. }
    destruct p as [p|]; cbn [v6_form] in X.
    + destruct X as (t & q & E & _). exact (B91 _ E).
    + destruct X as [X|(t & E & _)]; [|exact (B91 _ E)]. exact (N58 (v6_no_split _ _ _ _ X P)).
Qed.
Print Assumptions C127_domain.

Lemma idna_ascii_delims : idna_delims idna_ascii.
Proof.
  intros x d H. pose proof (proj1 (idna_ascii_laws x d H)) as F.
  apply idna_ascii_frag in H as [H Ha]. unfold idna_frag in H. destruct (map_dots x) as [d'|] eqn:Em; [|discriminate H].
  destruct (ok_name (strip_last 46 d')); [|discriminate H]. injection H as <-. apply (map_ascii _ _ Ha) in Em.
  assert (I : forall c, In c x -> idna_char (lower c)).
  { intros c Hc. rewrite Em in F. exact (proj1 (Forall_forall _ _) F _ (in_map lower _ _ Hc)). }
  repeat split; intros J; apply I in J; vm_compute in J; intuition congruence.
Qed.
Print Assumptions idna_ascii_delims.

(** Finding. With an at sign for a separator, and as a separator may be left out, a MAC address is an e-mail address; the same of UUIDs. *)
Theorem C127_email_refuted : exists idna c s t v w, idna_delims idna /\ idna_laws idna /\ valid_str s /\ valid_str t /\
  is_ok (mac_parse_str AnyCase (SepAllow 64) s) /\ (forall prof, email_parse_str idna prof c s = Ok v) /\
  is_ok (uuid_parse_str AnyCase (SepAllow 64) t) /\ (forall prof, email_parse_str idna prof c t = Ok w).
Proof.
  exists idna_ascii, (ecfg false Disallow Disallow Allow false), (bs "01234567@89ab"), (bs "01234567@89abcdef0123456789abcdef").
  eexists. eexists. split; [exact idna_ascii_delims|]. split; [exact idna_ascii_laws|]. split; [ascii_str|]. split; [ascii_str|].
  split; [eexists; vm_compute; reflexivity|]. split; [intros []; vm_compute; reflexivity|].
  split; [eexists; vm_compute; reflexivity|]. intros []; vm_compute; reflexivity.
Qed.
Print Assumptions C127_email_refuted.

(** Finding. UUIDs and MAC addresses are domains: a UUID with hyphens when one label will do, a MAC address with dots also when two are asked
    for, one without separators when one label will do. *)
Theorem C127_domain_refuted : exists idna, idna_delims idna /\ idna_laws idna /\
  (exists s, valid_str s /\ is_ok (uuid_parse_str AnyCase (SepMust 45) s) /\
     is_ok (domain_parse_str idna (cfg Disallow Disallow Disallow Allow) s) /\ is_ok (host_parse_str idna (hcfg Disallow Disallow Allow) s)) /\
  (exists s, valid_str s /\ is_ok (mac_parse_str AnyCase (SepMust 46) s) /\
     is_ok (domain_parse_str idna (cfg Disallow Disallow Disallow Must) s) /\ is_ok (host_parse_str idna (hcfg Disallow Disallow Must) s)) /\
  (exists s, valid_str s /\ is_ok (mac_parse_str AnyCase SepDisallow s) /\
     is_ok (domain_parse_str idna (cfg Disallow Disallow Disallow Allow) s) /\ is_ok (host_parse_str idna (hcfg Disallow Disallow Allow) s)).
Proof.
  exists idna_ascii. split; [exact idna_ascii_delims|]. split; [exact idna_ascii_laws|]. split; [|split].
  - exists (bs "123e4567-e89b-12d3-a456-426614174000"). split; [ascii_str|]. repeat split; eexists; vm_compute; reflexivity.
  - exists (bs "08.00.27.b2.46.c3"). split; [ascii_str|]. repeat split; eexists; vm_compute; reflexivity.
  - exists (bs "080027b246c3"). split; [ascii_str|]. repeat split; eexists; vm_compute; reflexivity.
Qed.
Print Assumptions C127_domain_refuted.

(** Finding. A domain or host with a port may begin like a web address; the url library reads the port as the host. *)
Theorem C127_url_refuted : exists idna s, idna_delims idna /\ idna_laws idna /\ valid_str s /\
  is_ok (domain_parse_str idna (cfg Disallow Disallow Must Allow) s) /\ is_ok (host_parse_str idna (hcfg Disallow Must Allow) s) /\
  forall url parse host (u : url), parse s = Some u -> HttpModel.http_parse_str url parse host Allow s = Ok (u, false).
Proof.
  exists idna_ascii, (bs "http:8080"). split; [exact idna_ascii_delims|]. split; [exact idna_ascii_laws|]. split; [ascii_str|].
  split; [eexists; vm_compute; reflexivity|]. split; [eexists; vm_compute; reflexivity|].
  intros url parse host u P. unfold HttpModel.http_parse_str, HttpModel.http_v_parse_str.
  change (HttpModel.starts_with_multiple [bs "http:"; bs "https:"] (bs "http:8080")) with (Some 0%nat). cbn match. cbn [obind].
  rewrite P. reflexivity.
Qed.
Print Assumptions C127_url_refuted.

(** Non-triviality: texts of every kind, near to one another. *)
Example C127_example :
  valid_str (bs "1.2.3.4") /\ idna_delims idna_ascii /\
  is_ok (ipv4_parse_str Allow Allow (bs "123.123.123.123")) /\ is_ok (mac_parse_str AnyCase (SepAllow 46) (bs "1231.2312.31.23")) /\
  is_ok (ipv6_parse_str Allow Allow (bs "01:23:45:67:89:ab::")) /\ is_ok (mac_parse_str AnyCase (SepAllow 58) (bs "01:23:45:67:89:ab")) /\
  is_ok (uuid_parse_str AnyCase (SepAllow 58) (bs "123e4567:e89b:12d3:a456:426614174000")) /\
  is_ok (email_parse_str idna_ascii Debug (ecfg false Disallow Disallow Must false) (bs "http@example.com")) /\
  is_ok (HttpModel.http_parse_str unit (fun _ => Some tt) (fun _ => None) Allow (bs "http:@example.com")) /\
  is_ok (domain_parse_str idna_ascii (cfg Disallow Disallow Disallow Must) (bs "1.2.3.4.5")).
Proof.
  split; [ascii_str|]. split; [exact idna_ascii_delims|]. repeat (split; [eexists; vm_compute; reflexivity|]). eexists. vm_compute. reflexivity.
Qed.
Print Assumptions C127_example.
