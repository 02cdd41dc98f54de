(** Property C104: printed forms have a known greatest width. *)
From Verif Require Import Base IntStr IntStrProofs MacModel MacSpec MacProofs NetModel NetSpec NetProofs IpModel IpSpec IpProofs Utf8 StrFacts
  DomainModel DomainSpec DomainProofs IdnaFrag HostModel HostSpec EmailModel EmailSpec EmailMain.
From Verif Require Import PropIp PropDomain PropHost PropEmail PropMac PropMacPrint PropEmailLen.
Local Open Scope N_scope.

Lemma hex16_width x : x < 65536 -> (1 <= List.length (hex16 x) <= 4)%nat.
Proof.
  intros H. destruct (hex16_h16 x H) as [N L]. split; [|exact L].
  inversion N; subst; [cbn; lia|]. rewrite app_length. cbn. lia.
Qed.
Lemma tail_width l : Forall (fun x => x < 65536) l -> (List.length (fmt_tail l) <= 5 * List.length l)%nat.
Proof.
  induction 1 as [|x l X L IH]; [cbn; lia|]. cbn [fmt_tail List.length]. rewrite app_length.
  pose proof (hex16_width x X). lia.
Qed.
Lemma slice_width l : Forall (fun x => x < 65536) l -> (List.length (fmt_subslice l) <= 5 * List.length l - 1)%nat.
Proof.
  intros F. destruct F as [|x l X L]; [cbn; lia|]. cbn [fmt_subslice List.length]. rewrite app_length.
  pose proof (hex16_width x X). pose proof (tail_width l L). lia.
Qed.
Lemma v4_width a : v4_addr a -> (7 <= List.length (ipv4_display a) <= 15)%nat.
Proof.
  intros (L & F). destruct a as [|a [|b [|c [|d [|]]]]]; try discriminate L. cbn [ipv4_display].
  inversion F as [|? ? A F1]; subst. inversion F1 as [|? ? B F2]; subst. inversion F2 as [|? ? C F3]; subst. inversion F3 as [|? ? D F4]; subst.
  pose proof (octet_length _ _ (dec_octet _ A)). pose proof (octet_length _ _ (dec_octet _ B)).
  pose proof (octet_length _ _ (dec_octet _ C)). pose proof (octet_length _ _ (dec_octet _ D)).
  rewrite !app_length. cbn [List.length]. lia.
Qed.
Lemma v6_width a : v6_addr a -> (List.length (ipv6_display a) <= 39)%nat.
Proof.
  intros (L & F). unfold ipv6_display. destruct (to_ipv4_mapped a) as [b|] eqn:M.
  - assert (v4_addr b) as B.
    { unfold to_ipv4_mapped in M. do 8 (destruct a as [|? a]; [discriminate M|]). destruct a; [|discriminate M].
      destruct (_ && _)%bool in M; [|discriminate M]. injection M as <-.
      apply Forall_inv_tail, Forall_inv_tail, Forall_inv_tail, Forall_inv_tail, Forall_inv_tail, Forall_inv_tail in F.
      pose proof (Forall_inv F) as X. pose proof (Forall_inv (Forall_inv_tail F)) as Y. cbv beta in X, Y.
      assert (forall x, x mod 256 < 256) as W by (intros x; apply N.mod_lt; discriminate).
      split; [reflexivity|].
      constructor; [apply N.div_lt_upper_bound; [discriminate|lia]|]. constructor; [apply W|].
      constructor; [apply N.div_lt_upper_bound; [discriminate|lia]|]. constructor; [apply W|constructor]. }
    pose proof (v4_width b B). rewrite app_length. cbn [List.length bs]. cbn. lia.
  - set (z := longest_zeros a 0 (0%nat, 0%nat) (0%nat, 0%nat)).
    assert (span_ok a z) as Z by (apply (longest_zeros_ok a [] (0%nat, 0%nat) (0%nat, 0%nat)); left; reflexivity).
    destruct (Nat.ltb_spec 1 (snd z)) as [Z1|Z1].
    + destruct Z as [Z|(A & B & E & LA)]; [lia|]. rewrite !app_length.
      assert (forall n, Forall (fun x => x < 65536) (firstn n a)) as F1.
      { intros n. rewrite <- (firstn_skipn n a) in F. apply Forall_app in F. apply F. }
      assert (forall n, Forall (fun x => x < 65536) (skipn n a)) as F2.
      { intros n. rewrite <- (firstn_skipn n a) in F. apply Forall_app in F. apply F. }
      pose proof (slice_width _ (F1 (fst z))) as W1. pose proof (slice_width _ (F2 (fst z + snd z)%nat)) as W2.
      rewrite firstn_length, L in W1. rewrite skipn_length, L in W2. cbn [List.length].
      assert (List.length A + snd z <= 8)%nat.
      { rewrite <- L, E, !app_length, repeat_length. lia. }
      lia.
    + pose proof (slice_width _ F) as W. rewrite L in W. lia.
Qed.
Lemma dec_loop_width k : forall fuel n acc, n < 10 ^ N.of_nat k -> (1 <= k)%nat ->
  (List.length (dec_digits fuel n acc) <= k + List.length acc)%nat.
Proof.
  induction k as [|k IH]; intros fuel n acc H K; [lia|]. destruct fuel as [|fuel]; cbn [dec_digits]; [lia|].
  destruct (N.ltb_spec n 10) as [B|B]; [cbn [List.length]; lia|].
  destruct k as [|k]; [change (10 ^ N.of_nat 1) with 10 in H; lia|].
  etransitivity; [apply IH; [|lia]|cbn [List.length]; lia].
  apply N.div_lt_upper_bound; [discriminate|]. rewrite (Nat2N.inj_succ (S k)), N.pow_succ_r' in H. exact H.
Qed.
Lemma dec_width k n : n < 10 ^ N.of_nat k -> (1 <= k)%nat -> (1 <= List.length (dec_of_N n) <= k)%nat.
Proof.
  intros H K. split.
  - destruct (dec_of_N_digits n) as [_ X]. destruct (dec_of_N n); [congruence|cbn; lia].
  - pose proof (dec_loop_width k (S (N.size_nat n)) n [] H K) as X. cbn [List.length] in X. unfold dec_of_N. lia.
Qed.
Lemma port_width p : p <= 65535 -> (1 <= List.length (dec_of_N p) <= 5)%nat.
Proof. intros H. apply dec_width; [|lia]. change (10 ^ N.of_nat 5) with 100000. lia. Qed.

(** The widest forms: ["255.255.255.255:65535"] and ["[ffff:ffff:ffff:ffff:ffff:ffff:ffff:ffff]:65535"]. *)
Lemma v4_auth_width a p : v4_addr a -> (forall q, p = Some q -> q <= 65535) ->
  (List.length (ipv4_authority (a, p)) <= match p with Some _ => 21 | None => 15 end)%nat.
Proof.
  intros A P. pose proof (v4_width a A). unfold ipv4_authority. cbn [fst snd]. destruct p as [q|]; [|lia].
  pose proof (port_width q (P q eq_refl)). rewrite !app_length. cbn [List.length]. lia.
Qed.
Lemma v6_auth_width a p : v6_addr a -> (forall q, p = Some q -> q <= 65535) ->
  (List.length (ipv6_authority (a, p)) <= match p with Some _ => 47 | None => 41 end)%nat.
Proof.
  intros A P. pose proof (v6_width a A). unfold ipv6_authority. cbn [fst snd].
  destruct p as [q|]; [|rewrite !app_length; cbn [List.length]; lia].
  pose proof (port_width q (P q eq_refl)). rewrite !app_length. cbn [List.length]. lia.
Qed.
Lemma v4_form_ok s a p : v4_form s a p -> v4_addr a /\ (forall q, p = Some q -> q <= 65535).
Proof.
  destruct p as [q|]; cbn [v4_form].
  - intros (t & r & _ & T & _ & Q). split; [exact (v4_text_addr _ _ T)|]. now intros q' [= <-].
  - intros T. split; [exact (v4_text_addr _ _ T)|discriminate].
Qed.
Lemma v6_form_ok s a p : v6_form s a p -> v6_addr a /\ (forall q, p = Some q -> q <= 65535).
Proof.
  destruct p as [q|]; cbn [v6_form].
  - intros (t & r & _ & T & _ & Q). split; [exact (v6_text_addr _ _ T)|]. now intros q' [= <-].
  - intros [T|(t & _ & T)]; (split; [exact (v6_text_addr _ _ T)|discriminate]).
Qed.

(** C104, addresses. *)
Theorem C104_ip : forall port local s, valid_str s ->
  (forall v, ipv4_parse_str port local s = Ok v -> (List.length (ipv4_authority v) <= 21)%nat) /\
  (forall v, ipv6_parse_str port local s = Ok v -> (List.length (ipv6_authority v) <= 47)%nat) /\
  (forall v, ip_parse_str port local s = Ok v -> (List.length (ip_authority v) <= 47)%nat) /\
  (port = Disallow ->
   (forall v, ipv4_parse_str port local s = Ok v -> (List.length (ipv4_authority v) <= 15)%nat) /\
   (forall v, ipv6_parse_str port local s = Ok v -> (List.length (ipv6_authority v) <= 41)%nat) /\
   (forall v, ip_parse_str port local s = Ok v -> (List.length (ip_authority v) <= 41)%nat)).
Proof.
  intros port local s S.
  assert (forall v, ipv4_parse_str port local s = Ok v ->
    (List.length (ipv4_authority v) <= 21 /\ (port = Disallow -> List.length (ipv4_authority v) <= 15))%nat) as K4.
  { intros [a p] H. apply C31_ipv4_accepts_exactly in H as (H & P & _); [|exact S]. destruct (v4_form_ok _ _ _ H) as [A B].
    pose proof (v4_auth_width a p A B). split; [destruct p; lia|]. intros ->. cbn in P. subst p. lia. }
  assert (forall v, ipv6_parse_str port local s = Ok v ->
    (List.length (ipv6_authority v) <= 47 /\ (port = Disallow -> List.length (ipv6_authority v) <= 41))%nat) as K6.
  { intros [a p] H. apply C31_ipv6_accepts_exactly in H as (H & P & _); [|exact S]. destruct (v6_form_ok _ _ _ H) as [A B].
    pose proof (v6_auth_width a p A B). split; [destruct p; lia|]. intros ->. cbn in P. subst p. lia. }
  assert (forall v, ip_parse_str port local s = Ok v ->
    (List.length (ip_authority v) <= 47 /\ (port = Disallow -> List.length (ip_authority v) <= 41))%nat) as K.
  { intros [[a|a] p] H; apply C31_ip_accepts_exactly in H; try exact S; unfold ip_authority; cbn [fst snd].
    - apply (C31_ipv4_accepts_exactly _ _ _ _ _ S) in H. destruct (K4 _ H) as [X Y]. split; [lia|]. intros D. specialize (Y D). lia.
    - apply (C31_ipv6_accepts_exactly _ _ _ _ _ S) in H. exact (K6 _ H). }
  split; [intros v H; apply (K4 v H)|]. split; [intros v H; apply (K6 v H)|]. split; [intros v H; apply (K v H)|].
  intros D. split; [intros v H; now apply (K4 v H)|]. split; [intros v H; now apply (K6 v H)|]. intros v H. now apply (K v H).
Qed.
Print Assumptions C104_ip.

(** The texts themselves: bounded without a port. *)
Lemma groups_width v4 s l : groups v4 s l -> (List.length s + 1 <= 5 * List.length l + (if v4 then 6 else 0))%nat.
Proof.
  induction 1 as [d n [_ H]|s n1 n2 n3 n4 -> H|d n s l [_ H] G IH].
  - cbn [List.length]. lia.
  - pose proof (v4_text_length _ _ H). cbn [List.length]. lia.
  - rewrite !app_length. cbn [List.length]. lia.
Qed.
Lemma opt_groups_width v4 s l : opt_groups v4 s l -> (List.length s <= 5 * List.length l + (if v4 then 5 else 0))%nat.
Proof. intros [[-> ->]|G]; [cbn; lia|]. pose proof (groups_width _ _ _ G). destruct v4; lia. Qed.
Lemma v6_text_width s a : v6_text s a -> (List.length s <= 45)%nat.
Proof.
  intros [(G & L)|(h & t & lh & lt & -> & H & T & L & _)].
  - apply groups_width in G. cbv iota in G. rewrite L in G. lia.
  - apply opt_groups_width in H, T. rewrite !app_length. cbn [List.length]. lia.
Qed.
Theorem C104_ip_written : forall local s, valid_str s ->
  (is_ok (ipv4_parse_str Disallow local s) -> (List.length s <= 15)%nat) /\
  (is_ok (ipv6_parse_str Disallow local s) -> (List.length s <= 47)%nat) /\
  (is_ok (ip_parse_str Disallow local s) -> (List.length s <= 47)%nat).
Proof.
  intros local s S.
  assert (forall a, v4_form s a None -> (List.length s <= 15)%nat) as K4 by (intros a H; exact (v4_text_length _ _ H)).
  assert (forall a, v6_form s a None -> (List.length s <= 47)%nat) as K6.
  { intros a [H|(t & -> & H)]; apply v6_text_width in H; [lia|]. rewrite !app_length. cbn [List.length]. lia. }
  split; [|split].
  - intros ([a p] & H). apply C31_ipv4_accepts_exactly in H as (H & P & _); [|exact S]. cbn in P. subst p. eauto.
  - intros ([a p] & H). apply C31_ipv6_accepts_exactly in H as (H & P & _); [|exact S]. cbn in P. subst p. eauto.
  - intros ([[a|a] p] & H); apply C31_ip_accepts_exactly in H as (H & P & _); try exact S; cbn in P; subst p.
    + specialize (K4 _ H). lia.
    + eauto.
Qed.
Print Assumptions C104_ip_written.

(** With a port there is no bound on the text: any number of zeros may precede it. *)
Lemma zeros_port n : port_text (repeat 48 n ++ bs "80") 80.
Proof.
  split; [|lia]. apply di_plain. induction n as [|n IH].
  - change (denotes_digits ([56] ++ [48]) (10 * (Z.of_N 56 - 48) + (Z.of_N 48 - 48))). apply dd_snoc; [apply dd_one|]; unfold is_digit; lia.
  - apply denotes_digits_iff in IH as (_ & F & V). apply denotes_digits_iff. split; [discriminate|]. split.
    + constructor; [unfold is_digit; lia|exact F].
    + cbn [repeat app dval]. exact V.
Qed.
Lemma zeros_text n : v4_form (bs "8.8.8.8" ++ [58] ++ repeat 48 n ++ bs "80") [8; 8; 8; 8] (Some 80).
Proof.
  exists (bs "8.8.8.8"), (repeat 48 n ++ bs "80"). split; [reflexivity|]. split; [|apply zeros_port].
  change (v4_text (ipv4_display [8; 8; 8; 8]) [8; 8; 8; 8]). apply ipv4_display_text. split; [reflexivity|]. repeat (constructor; [lia|]). constructor.
Qed.
Lemma zeros_valid n : valid_str (bs "8.8.8.8" ++ [58] ++ repeat 48 n ++ bs "80").
Proof.
  apply ascii_valid. apply Forall_app. split; [repeat (constructor; [reflexivity|]); constructor|]. constructor; [lia|].
  apply Forall_app. split; [apply Forall_forall; intros x X; apply repeat_spec in X; lia|]. repeat (constructor; [reflexivity|]). constructor.
Qed.
Theorem C104_ip_written_refuted : forall n, exists s, valid_str s /\ (n < List.length s)%nat /\
  ip_parse_str Must Disallow s = Ok (V4 [8; 8; 8; 8], Some 80) /\ ipv4_parse_str Must Disallow s = Ok ([8; 8; 8; 8], Some 80) /\
  ip_authority (V4 [8; 8; 8; 8], Some 80) = bs "8.8.8.8:80".
Proof.
  intros n. exists (bs "8.8.8.8" ++ [58] ++ repeat 48 n ++ bs "80"). split; [apply zeros_valid|].
  split; [rewrite !app_length, repeat_length; change (List.length (bs "8.8.8.8")) with 7%nat; lia|].
  assert (~ v4_local [8; 8; 8; 8]) as L.
  { intros X. apply PropIp.C32_ipv4_local_blocks in X; [vm_compute in X; discriminate X|]. split; [reflexivity|].
    repeat (constructor; [lia|]). constructor. }
  split; [|split; [|reflexivity]].
  - apply C31_ip_accepts_exactly; [apply zeros_valid|]. split; [apply zeros_text|]. split; [discriminate|exact L].
  - apply C31_ipv4_accepts_exactly; [apply zeros_valid|]. split; [apply zeros_text|]. split; [discriminate|exact L].
Qed.
Print Assumptions C104_ip_written_refuted.

(** C104, identifiers. *)
Lemma joined_width s sizes v d : joined s sizes v d ->
  List.length d = list_sum sizes /\ List.length v = (list_sum sizes + (List.length sizes - 1) * List.length s)%nat.
Proof.
  induction 1 as [g|g sizes v d J [IH1 IH2]].
  - cbn. lia.
  - rewrite !app_length. cbn [list_sum fold_right List.length]. change (fold_right Nat.add 0%nat sizes) with (list_sum sizes).
    assert (sizes <> []) as N by (inversion J; discriminate). destruct sizes as [|k sizes]; [congruence|].
    rewrite IH1, IH2. cbn [List.length]. split; nia.
Qed.
Lemma sep_width sep s : sep_printed sep s -> (List.length s <= 3)%nat /\ (sep = SepDisallow -> s = []).
Proof.
  intros H. destruct sep; cbn in H.
  - apply octet_length in H. split; [lia|discriminate].
  - apply octet_length in H. split; [lia|discriminate].
  - subst s. split; [cbn; lia|reflexivity].
Qed.
Theorem C104_hex_partial : forall case sep v x,
  (mac_parse_str case SepDisallow v = Ok x -> List.length (to_mac_address_string case SepDisallow x) = 12%nat) /\
  (uuid_parse_str case SepDisallow v = Ok x -> List.length (to_uuid_string case SepDisallow x) = 32%nat) /\
  ((forall c, sep_allow sep = Some c -> c < 256) ->
   (mac_parse_str case sep v = Ok x -> (12 <= List.length (to_mac_address_string case sep x) <= 27)%nat) /\
   (uuid_parse_str case sep v = Ok x -> (32 <= List.length (to_uuid_string case sep x) <= 44)%nat)).
Proof.
  intros case sep v x.
  assert (forall sep, (forall c, sep_allow sep = Some c -> c < 256) -> mac_parse_str case sep v = Ok x ->
    exists s, sep_printed sep s /\ List.length (to_mac_address_string case sep x) = (12 + 5 * List.length s)%nat) as KM.
  { intros sp B H. destruct (C27_mac_prints case sp x (C25_mac_48_bits _ _ _ _ H) B) as (s & d & S & J & _).
    exists s. split; [exact S|]. destruct (joined_width _ _ _ _ J) as [_ E]. exact E. }
  assert (forall sep, (forall c, sep_allow sep = Some c -> c < 256) -> uuid_parse_str case sep v = Ok x ->
    exists s, sep_printed sep s /\ List.length (to_uuid_string case sep x) = (32 + 4 * List.length s)%nat) as KU.
  { intros sp B H. destruct (C30_uuid_prints case sp x (C28_uuid_128_bits _ _ _ _ H) B) as (s & d & S & J & _).
    exists s. split; [exact S|]. destruct (joined_width _ _ _ _ J) as [_ E]. exact E. }
  split; [|split].
  - intros H. destruct (KM SepDisallow) as (s & S & E); [discriminate|exact H|]. cbn in S. subst s. exact E.
  - intros H. destruct (KU SepDisallow) as (s & S & E); [discriminate|exact H|]. cbn in S. subst s. exact E.
  - intros B. split; intros H.
    + destruct (KM sep B H) as (s & S & E). destruct (sep_width _ _ S) as [W _]. lia.
    + destruct (KU sep B H) as (s & S & E). destruct (sep_width _ _ S) as [W _]. lia.
Qed.
Print Assumptions C104_hex_partial.
(** The usual widths 17 and 36 are exceeded, for a reason shown in C27: the separator is printed as a number. *)
Theorem C104_hex_refuted : exists x y,
  mac_parse_str UpperCase (SepMust 58) (bs "08:00:27:B4:6A:2B") = Ok x /\
  List.length (to_mac_address_string UpperCase (SepMust 58) x) = 22%nat /\
  uuid_parse_str LowerCase (SepMust 45) (bs "6a3adc45-02fb-4e8f-9804-76ad0bf8f8e0") = Ok y /\
  List.length (to_uuid_string LowerCase (SepMust 45) y) = 40%nat.
Proof.
  exists 8796759157291%N, 141203788368774900775780918638994323680%N.
  split; [vm_compute; reflexivity|]. split; [vm_compute; reflexivity|]. split; vm_compute; reflexivity.
Qed.
Print Assumptions C104_hex_refuted.
(** The texts have their usual widths. *)
Lemma grouped_width sep sizes v d : grouped sep sizes v d ->
  (list_sum sizes <= List.length v <= list_sum sizes + (List.length sizes - 1))%nat /\
  (forall c, sep = SepMust c -> List.length v = (list_sum sizes + (List.length sizes - 1))%nat) /\
  (sep = SepDisallow -> List.length v = list_sum sizes).
Proof.
  induction 1 as [g|g s sizes v d S G (IH1 & IH2 & IH3)].
  - cbn. repeat split; intros; lia.
  - rewrite !app_length. cbn [list_sum fold_right List.length]. change (fold_right Nat.add 0%nat sizes) with (list_sum sizes).
    assert (sizes <> []) as N by (inversion G; discriminate).
    assert (1 <= List.length sizes)%nat as N1 by (destruct sizes; [congruence|cbn; lia]).
    assert (List.length s <= 1)%nat as W by (destruct sep; cbn in S; [subst|destruct S; subst|subst]; cbn; lia).
    split; [lia|]. split.
    + intros c ->. specialize (IH2 c eq_refl). cbn in S. subst s. cbn [List.length]. lia.
    + intros ->. specialize (IH3 eq_refl). cbn in S. subst s. cbn [List.length]. lia.
Qed.
Theorem C104_hex_written : forall case sep v,
  (is_ok (mac_parse_str case sep v) -> (12 <= List.length v <= 17)%nat /\
     (forall c, sep = SepMust c -> List.length v = 17%nat) /\ (sep = SepDisallow -> List.length v = 12%nat)) /\
  (is_ok (uuid_parse_str case sep v) -> (32 <= List.length v <= 36)%nat /\
     (forall c, sep = SepMust c -> List.length v = 36%nat) /\ (sep = SepDisallow -> List.length v = 32%nat)).
Proof.
  intros case sep v. split; intros (x & H).
  - apply C25_mac_accepts_only in H as (d & G & _). apply grouped_width in G. exact G.
  - apply C28_uuid_accepts_only in H as (d & G & _). apply grouped_width in G. exact G.
Qed.
Print Assumptions C104_hex_written.

(** The library verifies DNS lengths: 253 octets, 254 with a final dot. *)
Definition dns_length (idna : list N -> option (list N)) : Prop := forall s d, idna s = Some d ->
  (List.length d <= 254)%nat /\ ((forall u, d <> u ++ [46]) -> (List.length d <= 253)%nat).

(** C104, hosts. *)
Theorem C104_host : forall idna c s v, dns_length idna -> valid_str s -> host_parse_str idna c s = Ok v ->
  match hv_host v with
  | HIPv4 _ => (List.length (host_authority v) <= 21)%nat
  | HIPv6 _ => (List.length (host_authority v) <= 47)%nat
  | HDomain d => (List.length d <= 254)%nat /\ (List.length (host_authority v) <= 260)%nat
  end.
Proof.
  intros idna c s v D S H. apply C39_host_accepts_exactly in H; [|exact S].
  destruct v as [h port f]. destruct H as [(a & E & H)|[(a & E & H)|(name & d & E & H)]]; cbn [hv_host hv_port hv_is_local] in E, H; subst h;
    cbn [hv_host]; unfold host_authority; cbn [hv_host hv_port].
  - destruct H as (F & _). destruct (v6_form_ok _ _ _ F) as [A B]. pose proof (v6_auth_width a port A B). destruct port; lia.
  - destruct H as (F & _). destruct (v4_form_ok _ _ _ F) as [A B]. pose proof (v4_auth_width a port A B). destruct port; lia.
  - assert (idna name = Some d) as I by tauto. assert (split_port s name port) as P by tauto.
    destruct (D _ _ I) as [X _]. split; [exact X|]. destruct port as [q|]; [|lia].
    destruct P as (t & _ & _ & Q). pose proof (port_width q Q). rewrite !app_length. cbn [List.length]. lia.
Qed.
Print Assumptions C104_host.

(** C104, domains: if the port is not stored with the name, as it is for IPv4 addresses (C37). *)
Theorem C104_domain_partial : forall idna c s v, dns_length idna -> valid_str s ->
  domain_parse_str idna c s = Ok v -> ~ In 58 (dv_domain v) ->
  (List.length (dv_domain v) <= 254)%nat /\
  exists w, (forall E, @domain_authority E v = Ok w) /\ (List.length w <= 259)%nat.
Proof.
  intros idna c s v D S H N. apply C36_domain_accepts_exactly in H; [|exact S].
  destruct H as (_ & name & Sp & _ & H).
  assert ((List.length (dv_domain v) <= 254)%nat /\ ((forall u, dv_domain v <> u ++ [46]) -> (List.length (dv_domain v) <= 253)%nat)) as [W1 W2].
  { destruct H as [(_ & H & _)|[(_ & a & A & _ & _ & _ & E & _)|(_ & _ & _ & H & _)]]; [exact (D _ _ H)| |exact (D _ _ H)].
    assert (List.length (dv_domain v) <= 16)%nat; [|lia]. rewrite E in *.
    destruct (dv_port v) as [q|].
    - destruct Sp as (t & -> & _). exfalso. apply N. rewrite in_app_iff. right. now left.
    - destruct Sp as (-> & _). destruct A as (t & X & T). apply v4_text_length in T. destruct X as [->| ->]; [lia|].
      rewrite app_length. cbn [List.length]. lia. }
  split; [exact W1|]. eexists. split; [intros E; apply domain_authority_ok|].
  assert (List.length (strip_last 46 (dv_domain v)) <= 253)%nat as W.
  { destruct (proj2 (undotted_strip (dv_domain v) _) eq_refl) as [E|[E F]].
    - apply (f_equal (@List.length _)) in E. rewrite app_length in E. cbn [List.length] in E. lia.
    - rewrite <- E. exact (W2 F). }
  destruct (dv_port v) as [q|]; [|lia]. destruct Sp as (t & _ & _ & Q). pose proof (port_width q Q).
  rewrite !app_length. cbn [List.length]. lia.
Qed.
Print Assumptions C104_domain_partial.
(** With the port stored there is no bound. *)
Theorem C104_domain_refuted : forall idna n, exists s v, valid_str s /\ domain_parse_str idna (cfg Allow Allow Must Must) s = Ok v /\
  (n < List.length (dv_domain v))%nat.
Proof.
  intros idna n. exists (bs "8.8.8.8" ++ [58] ++ repeat 48 n ++ bs "80").
  exists {| dv_domain := bs "8.8.8.8" ++ [58] ++ repeat 48 n ++ bs "80"; dv_port := Some 80; dv_is_ipv4 := Some true; dv_is_local := Some false |}.
  split; [apply zeros_valid|]. split.
  - apply C36_domain_accepts_exactly; [apply zeros_valid|]. split; [discriminate|]. exists (bs "8.8.8.8").
    destruct (zeros_text n) as (t & q & E & T & Q).
    assert (v4_text (bs "8.8.8.8") [8; 8; 8; 8]) as T8.
    { change (v4_text (ipv4_display [8; 8; 8; 8]) [8; 8; 8; 8]). apply ipv4_display_text. split; [reflexivity|].
      repeat (constructor; [lia|]). constructor. }
    assert (~ v4_local [8; 8; 8; 8]) as L.
    { intros X. apply PropIp.C32_ipv4_local_blocks in X; [vm_compute in X; discriminate X|]. exact (v4_text_addr _ _ T8). }
    cbn [dv_port dv_domain dv_is_ipv4 dv_is_local].
    split; [exists (repeat 48 n ++ bs "80"); split; [reflexivity|apply zeros_port]|].
    split; [discriminate|]. right. left. split; [intros (X & _ & Y); cbn in Y; discriminate Y|].
    exists [8; 8; 8; 8]. split; [exists (bs "8.8.8.8"); auto|]. cbn. repeat split; try discriminate; auto; intros; contradiction.
  - cbn [dv_domain]. rewrite !app_length, repeat_length. change (List.length (bs "8.8.8.8")) with 7%nat. lia.
Qed.
Print Assumptions C104_domain_refuted.

(** C104, email addresses: 576 octets at most; 319 without comments and non-ASCII local parts. *)
Theorem C104_email : forall idna prof c s v, valid_str s -> email_parse_str idna prof c s = Ok v ->
  (List.length (to_email_string c v) <= 576)%nat /\
  (dns_length idna -> e_comment c = false -> e_non_ascii c = false -> (List.length (to_email_string c v) <= 319)%nat).
Proof.
  intros idna prof c s v S H. split.
  - pose proof H as H0. apply C44_email_accepts_exactly in H; [|exact S].
    destruct H as (lt & q & dt & tail & k & E & Z & L & _ & _ & _ & T & _ & HT & (B1 & B2) & _).
    assert (1 <= List.length dt)%nat as ND.
    { destruct (ev_domain v) as [d|a|a]; cbn [host_text] in HT.
      - destruct HT as (_ & X & _). destruct dt; [congruence|cbn; lia].
      - destruct HT as (_ & _ & t & -> & _). rewrite !app_length. cbn [List.length]. lia.
      - destruct HT as (_ & _ & t & -> & _). rewrite !app_length. cbn [List.length]. lia. }
    assert (List.length (ev_local v) + (if ev_need_quoted v then 2 else 0) <= List.length lt)%nat as LL.
    { destruct L as [(_ & -> & _ & ->)|(_ & -> & _)]; [lia|]. rewrite !app_length. cbn [List.length]. destruct (ev_need_quoted v); lia. }
    assert (exists l, to_email_string c v = l ++ [64] ++ EmailRound.domain_side v /\
      (List.length l <= List.length (ctext (ev_c1 v)) + List.length lt + List.length (ctext (ev_c2 v)))%nat) as (l & El & Wl).
    { apply email_parse_spec in H0; [|exact S]. destruct (e_comment c) eqn:C.
      - exists (EmailRound.local_side v). split; [apply EmailRound.print_sides; auto|]. unfold EmailRound.local_side.
        rewrite !app_length. destruct (ev_need_quoted v); rewrite ?app_length; cbn [List.length]; lia.
      - exists (ev_local v). destruct (EmailRound.comments_off _ _ _ _ _ H0 C) as (_ & _ & E3 & E4). split; [|lia].
        unfold to_email_string, EmailRound.domain_side. rewrite C, E3, E4. cbn [negb ctext app]. now rewrite app_nil_r. }
    destruct (C94_email_printed_bound idna prof c s v S H0) as (l' & r & El' & Er & Wr).
    assert (List.length r = List.length (EmailRound.domain_side v)) as Wd by (now rewrite Er).
    rewrite El, !app_length. cbn [List.length]. rewrite E, !app_length in Z. cbn [List.length] in Z. lia.
  - intros D C NA. unfold to_email_string. rewrite C. cbn [negb].
    assert (List.length (ev_local v) <= 64)%nat as WL.
    { apply (C43_email_local_bound_partial _ _ _ _ _ S H NA). intros t Ht.
      destruct (C47_email_policies _ _ _ _ _ S H) as (_ & _ & _ & NC & _). destruct (NC C) as (X & _). congruence. }
    apply C44_email_accepts_exactly in H; [|exact S].
    destruct H as (lt & q & dt & tail & k & E & Z & L & _ & _ & _ & T & _ & HT & (B1 & B2) & _).
    assert (List.length (e_host_text (ev_domain v)) <= 254)%nat as WH.
    { destruct (ev_domain v) as [d|a|a]; cbn [host_text e_host_text] in *.
      - destruct HT as (_ & _ & _ & _ & _ & X & _). apply (D _ _ X).
      - destruct HT as (_ & _ & t & _ & X & _). pose proof (v4_width a (v4_text_addr _ _ X)). rewrite !app_length. cbn [List.length]. lia.
      - destruct HT as (_ & _ & t & _ & X & _). pose proof (v6_width a (v6_text_addr _ _ X)). rewrite !app_length. cbn [List.length bs]. cbn. lia. }
    rewrite !app_length. cbn [List.length]. lia.
Qed.
Print Assumptions C104_email.
(** The limit of 320 octets for the text does not hold for what is printed. *)
Theorem C104_email_refuted : exists idna c s v, idna_laws idna /\ dns_length idna /\ valid_str s /\ List.length s = 320%nat /\
  email_parse_str idna Debug c s = Ok v /\ List.length (to_email_string c v) = 322%nat /\
  email_parse_str idna Debug c (to_email_string c v) = Err EInvalid.
Proof.
  exists (fun _ => None), (ecfg false Allow Allow Allow true),
    (List.repeat 97 63 ++ [195; 169] ++ List.repeat 97 235 ++ bs "@[IPv6:::ffff:100:1]"). eexists.
  split; [discriminate|]. split; [discriminate|]. split.
  - exists (List.repeat 97 63 ++ [233] ++ List.repeat 97 235 ++ bs "@[IPv6:::ffff:100:1]").
    split; [|vm_compute; reflexivity]. repeat (apply Forall_cons; [reflexivity|]). constructor.
  - split; [vm_compute; reflexivity|]. split; [vm_compute; reflexivity|]. split; vm_compute; reflexivity.
Qed.
Print Assumptions C104_email_refuted.

(** The library function of the example, made to verify lengths. *)
Definition idna_short (s : list N) : option (list N) :=
  match idna_ascii s with Some d => if (List.length d <=? 253)%nat then Some d else None | None => None end.
Lemma idna_short_length : dns_length idna_short.
Proof.
  intros s d. unfold idna_short. destruct (idna_ascii s) as [e|]; [|discriminate].
  destruct (Nat.leb_spec (List.length e) 253); [|discriminate]. intros [= <-]. lia.
Qed.
Example C104_example : exists v w,
  dns_length idna_short /\ valid_str (bs "[FFFF:ffff:ffff:ffff:ffff:ffff:ffff:ffff]:65535") /\
  ipv6_parse_str Must Allow (bs "[FFFF:ffff:ffff:ffff:ffff:ffff:ffff:ffff]:65535") = Ok v /\
  List.length (ipv6_authority v) = 47%nat /\
  is_ok (ipv6_parse_str Disallow Allow (bs "[1111:2222:3333:4444:5555:6666:100.100.100.100]")) /\
  List.length (bs "[1111:2222:3333:4444:5555:6666:100.100.100.100]") = 47%nat /\
  List.length (ipv4_authority ([255; 255; 255; 255], Some 65535)) = 21%nat /\
  is_ok (host_parse_str idna_short (hcfg Allow Allow Allow) (bs "magiclen.org:80")) /\
  is_ok (domain_parse_str idna_short (cfg Allow Allow Allow Must) (bs "magiclen.org.:80")) /\
  email_parse_str idna_short Debug (ecfg false Allow Allow Allow false) (repeat 97 64 ++ bs "@b.org") = Ok w /\
  List.length (to_email_string (ecfg false Allow Allow Allow false) w) = 70%nat /\
  mac_parse_str LowerCase SepDisallow (bs "080027b46a2b") = Ok 8796759157291.
Proof.
  eexists. eexists. split; [exact idna_short_length|]. split; [ascii_str|]. split; [vm_compute; reflexivity|].
  split; [vm_compute; reflexivity|]. split; [eexists; vm_compute; reflexivity|]. split; [reflexivity|]. split; [vm_compute; reflexivity|].
  split; [eexists; vm_compute; reflexivity|]. split; [eexists; vm_compute; reflexivity|]. split; [vm_compute; reflexivity|].
  split; vm_compute; reflexivity.
Qed.
