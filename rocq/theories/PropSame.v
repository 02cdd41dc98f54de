(** Property C120: two spellings of one thing give one value. *)
From Verif Require Import EntryFacts Base RangeModel IntModel IntStr IntStrProofs NetModel NetSpec NetProofs IpModel IpSpec LocalProofs IpProofs Utf8 StrFacts Serde
  DomainModel DomainSpec DomainProofs IdnaFrag HostModel HostSpec HostProofs EmailModel EmailSpec EmailProofs.
From Verif Require Import PropIp PropDomain PropHost PropEmail PropMailbox PropRead PropRel.
From Verif Require PropInject IntSpec PropInt NumberModel NumberSpec FloatModel FloatSpec FloatUnique FloatNear PropFloat
  MacModel MacSpec PropMac BaseModel BaseSpec BaseProofs CodecSpec PropBase PropUnion.
From Coq Require Floats.SpecFloat.
Local Open Scope N_scope.

(** ** Numbers *)

Lemma denotes_digits_nonneg ds v : denotes_digits ds v -> (0 <= v)%Z.
Proof. induction 1 as [c H|ds v c _ IH H]; unfold is_digit in H; lia. Qed.
Lemma denotes_int_fun sg s z y : denotes_int sg s z -> denotes_int sg s y -> z = y.
Proof.
  intros A B. pose (hi := (Z.abs z + Z.abs y + 1)%Z). pose (lo := if sg then (- hi)%Z else 0%Z).
  assert (L : (lo <? 0)%Z = sg) by (subst lo hi; destruct sg; [apply Z.ltb_lt; lia|reflexivity]).
  assert (N : forall x, denotes_int sg s x -> sg = false -> (0 <= x)%Z).
  { intros x X ->. inversion X; subst; try discriminate; eapply denotes_digits_nonneg; eassumption. }
  assert (K : forall x, denotes_int sg s x -> (Z.abs x < hi)%Z -> int_from_str lo hi s = Ok x).
  { intros x X H. apply int_from_str_spec; [subst lo hi; destruct sg; lia|]. rewrite L. split; [exact X|].
    specialize (N x X). subst lo. destruct sg; [lia|]. specialize (N eq_refl). lia. }
  pose proof (K z A ltac:(subst hi; lia)). pose proof (K y B ltac:(subst hi; lia)). congruence.
Qed.
(** C120: two texts of one integer. *)
Theorem C120_integers : forall sg pw t r s s' z v v', ~ IntSpec.degenerate sg pw t r ->
  denotes_int sg s z -> denotes_int sg s' z ->
  int_parse_str sg pw t r s = Ok v -> int_parse_str sg pw t r s' = Ok v' -> v = v'.
Proof.
  intros sg pw t r s s' z v v' D A A' P P'.
  assert (Q : forall s v, denotes_int sg s z -> int_parse_str sg pw t r s = Ok v -> v = z).
  { intros x y X Y. destruct (PropInt.C03_integer_strings sg pw t r x D) as [E _]. apply E in Y as Y2.
    destruct Y2 as (_ & F & L). assert (Z : int_parse_str sg pw t r x = Ok z); [|congruence]. apply E.
    split; [exact X|]. pose proof (denotes_int_fun _ _ _ _ X (proj1 (proj1 (E y) Y))) as <-. auto. }
  now rewrite (Q _ _ A P), (Q _ _ A' P').
Qed.

Section Floats.
Import NumberModel NumberSpec FloatModel FloatSpec FloatUnique PropFloat.
Local Open Scope Z_scope.

Lemma scaled_distance x q x' q' z : 0 < q -> 0 < q' -> x * q' = x' * q -> q' * distance x q z = q * distance x' q' z.
Proof.
  intros Q Q' E. unfold distance. rewrite <- (Z.abs_eq q') at 1 by lia. rewrite <- (Z.abs_eq q) at 2 by lia.
  rewrite <- !Z.abs_mul. f_equal. rewrite !Z.mul_sub_distr_l. f_equal; [|ring].
  transitivity (x * q' * 2 ^ 1074); [ring|]. rewrite E. ring.
Qed.
Lemma scaled_le a b c d k k' : 0 < k -> 0 < k' -> k' * a = k * c -> k' * b = k * d -> a <= b -> c <= d.
Proof. intros. apply (Z.mul_le_mono_pos_l _ _ k); [lia|]. rewrite <- H1, <- H2. apply Z.mul_le_mono_nonneg_l; lia. Qed.

Lemma rounds_scaled t sg p q p' q' f : 0 < q -> 0 < q' -> p * q' = p' * q -> rounds_nearest t sg p q f -> rounds_nearest t sg p' q' f.
Proof.
  intros Q Q' E (V & S & O & N). split; [exact V|]. split; [exact S|].
  assert (OV : overflows t p q <-> overflows t p' q').
  { unfold overflows. set (A := (2 ^ (fprec t + 1) - 1) * 2 ^ (femax t - fprec t)). split; intros H.
    - apply (scaled_le (A * q) (2 * p) _ _ q q' Q Q'); [ring|lia|exact H].
    - apply (scaled_le (A * q') (2 * p') _ _ q' q Q' Q); [ring|lia|]. exact H. }
  split; [intros H; apply O, OV, H|]. intros H. destruct N as (z & X & M); [intros K; apply H, OV, K|].
  exists z. split; [exact X|]. intros g y G Y. cbv zeta in *. destruct (M g y G Y) as [M1 M2].
  set (x := if sg then - p else p) in *. set (x' := if sg then - p' else p').
  assert (Ex : x * q' = x' * q) by (subst x x'; destruct sg; lia).
  pose proof (scaled_distance x q x' q' z Q Q' Ex) as D1. pose proof (scaled_distance x q x' q' y Q Q' Ex) as D2.
  split; [exact (scaled_le _ _ _ _ _ _ Q Q' D1 D2 M1)|]. intros NE DE. apply M2; [exact NE|].
  apply (Z.mul_cancel_l _ _ q'); [lia|]. rewrite D1, D2, DE. reflexivity.
Qed.

Lemma run_sign ds v : digit_run ds v -> 0 <= v.
Proof. induction 1; lia. Qed.
Lemma fraction_sign r m k p q : decimal_text r m k -> is_fraction m k p q -> 0 <= p /\ 0 < q.
Proof.
  intros D (Q & F). assert (M : 0 <= m) by (destruct D; eapply run_sign; eassumption). split; [|exact Q].
  destruct F as [(K & ->)|(K & E)].
  - apply Z.mul_nonneg_nonneg; [|lia]. apply Z.mul_nonneg_nonneg; [lia|]. apply Z.pow_nonneg. lia.
  - assert (0 < 10 ^ (- k)) by (apply Z.pow_pos_nonneg; lia). assert (0 <= m * q) by (apply Z.mul_nonneg_nonneg; lia).
    destruct (Z.le_gt_cases 0 p); [assumption|]. exfalso. assert (p * 10 ^ (- k) < 0) by (apply Z.mul_neg_pos; lia). lia.
Qed.
Lemma rounds_zero t sg q f : 0 < q -> rounds_nearest t sg 0 q f -> xval f = Some (Fin 0).
Proof.
  intros Q (V & S & _ & N). destruct N as (z & X & M).
  - unfold overflows. assert (0 < (2 ^ (fprec t + 1) - 1) * 2 ^ (femax t - fprec t)) by (destruct t; vm_compute; reflexivity).
    intros H0. assert (0 < (2 ^ (fprec t + 1) - 1) * 2 ^ (femax t - fprec t) * q) by (apply Z.mul_pos_pos; lia). lia.
  - destruct (M (SpecFloat.S754_zero false) 0) as [L _]; [reflexivity|reflexivity|]. cbv zeta in L. unfold distance in L.
    assert (z * q = 0) by (destruct sg; lia). apply Z.mul_eq_0 in H as [-> |H]; [exact X|lia].
Qed.

(** C120: two decimal texts of one number. *)
Theorem C120_numbers : forall t rg nan g sg r m k p q g' sg' r' m' k' p' q' f f', good_range t rg -> ~ x_degenerate rg ->
  readable (g ++ r) -> readable (g' ++ r') ->
  sign_text g sg -> decimal_text r m k -> is_fraction m k p q ->
  sign_text g' sg' -> decimal_text r' m' k' -> is_fraction m' k' p' q' ->
  (if sg : bool then - p else p) * q' = (if sg' : bool then - p' else p') * q ->
  num_parse_str (float_of_text t) rg nan (g ++ r) = Ok f ->
  num_parse_str (float_of_text t) rg nan (g' ++ r') = Ok f' -> xval f = xval f' /\ (sg = sg' -> f = f').
Proof.
  intros t rg nan g sg r m k p q g' sg' r' m' k' p' q' f f' GR ND R R' S D F S' D' F' E P P'.
  destruct (C77_number_text_exact t rg nan _ GR ND R) as [X _]. destruct (C77_number_text_exact t rg nan _ GR ND R') as [X' _].
  apply X in P as [W _]. apply X' in P' as [W' _].
  destruct (fraction_sign _ _ _ _ _ D F) as [P0 Q0]. destruct (fraction_sign _ _ _ _ _ D' F') as [P1 Q1].
  assert (T : forall g r sg m k p q f, sign_text g sg -> decimal_text r m k -> is_fraction m k p q -> writes t (g ++ r) f ->
    rounds_nearest t sg p q f).
  { clear. intros g r sg m k p q f S D F W.
    destruct (fraction_sign _ _ _ _ _ D F) as [P Q]. pose proof (FloatNear.round_ratio_spec t sg p q P Q) as Y.
    rewrite (C77_one_float t (g ++ r) f (FloatModel.round_ratio t sg p q) W); [exact Y|]. exists g, sg, r. split; [reflexivity|]. split; [exact S|].
    left. exists m, k, p, q. auto. }
  pose proof (T _ _ _ _ _ _ _ _ S D F W) as N. pose proof (T _ _ _ _ _ _ _ _ S' D' F' W') as N'.
  assert (SAME : sg = sg' -> f = f').
  { intros <-. apply (rounds_nearest_unique t sg p' q' f f' Q1); [|exact N']. apply (rounds_scaled t sg p q); auto. destruct sg; lia. }
  split; [|exact SAME]. destruct (Bool.bool_dec sg sg') as [H|H]; [now rewrite (SAME H)|].
  assert (0 <= p * q') by (apply Z.mul_nonneg_nonneg; lia). assert (0 <= p' * q) by (apply Z.mul_nonneg_nonneg; lia).
  assert (A : p * q' = 0 /\ p' * q = 0) by (destruct sg, sg'; try congruence; lia). destruct A as [A A'].
  apply Z.mul_eq_0 in A as [-> |A]; [|lia]. apply Z.mul_eq_0 in A' as [-> |A']; [|lia].
  rewrite (rounds_zero _ _ _ _ Q0 N), (rounds_zero _ _ _ _ Q1 N'). reflexivity.
Qed.
End Floats.

(** ** Identifiers and encoded data *)

(** C120: two texts of one MAC address or UUID, whatever the separators and the case of the digits. *)
Theorem C120_identifiers : forall case sep s s' digits digits' x v v', MacSpec.sep_not_digit case sep ->
  MacSpec.hex_denotes case digits x -> MacSpec.hex_denotes case digits' x ->
  (MacSpec.grouped sep MacSpec.mac_sizes s digits -> MacSpec.grouped sep MacSpec.mac_sizes s' digits' ->
   MacModel.mac_parse_str case sep s = Ok v -> MacModel.mac_parse_str case sep s' = Ok v' -> v = v') /\
  (MacSpec.grouped sep MacSpec.uuid_sizes s digits -> MacSpec.grouped sep MacSpec.uuid_sizes s' digits' ->
   MacModel.uuid_parse_str case sep s = Ok v -> MacModel.uuid_parse_str case sep s' = Ok v' -> v = v').
Proof.
  intros case sep s s' digits digits' x v v' N H H'. split; intros G G' P P'.
  - assert (A : MacModel.mac_parse_str case sep s = Ok x) by (apply PropMac.C25_mac_accepts_exactly; eauto).
    assert (B : MacModel.mac_parse_str case sep s' = Ok x) by (apply PropMac.C25_mac_accepts_exactly; eauto). congruence.
  - assert (A : MacModel.uuid_parse_str case sep s = Ok x) by (apply PropMac.C28_uuid_accepts_exactly; eauto).
    assert (B : MacModel.uuid_parse_str case sep s' = Ok x) by (apply PropMac.C28_uuid_accepts_exactly; eauto). congruence.
Qed.

(** The text [v] encodes the data [d], with or without padding. *)
Definition encodes (f : BaseModel.flavour) (v d : list N) : Prop := v = CodecSpec.encode f d \/ v = CodecSpec.encode_pad f d.

(** C120, the base validators, which keep the text: the part that holds. Missing: padding(Allow). *)
Theorem C120_encoded_partial : forall f padding s s' d v v', padding <> Allow -> encodes f s d -> encodes f s' d ->
  BaseModel.base_parse_str f padding s = Ok v -> BaseModel.base_parse_str f padding s' = Ok v' -> v = v'.
Proof.
  intros f padding s s' d v v' NA E E' P P'.
  assert (K : forall s v, BaseModel.base_parse_str f padding s = Ok v -> v = s).
  { intros x y H. now apply BaseProofs.base_parse_ok in H as [-> _]. }
  rewrite (K _ _ P), (K _ _ P'). clear K.
  assert (Q : is_ok (BaseModel.base_parse_str f padding (CodecSpec.encode f d)) ->
              is_ok (BaseModel.base_parse_str f padding (CodecSpec.encode_pad f d)) -> CodecSpec.encode f d = CodecSpec.encode_pad f d).
  { intros A B. unfold CodecSpec.encode_pad in *. destruct padding; [|congruence|].
    - apply (proj1 (PropBase.C20_padding_policy f _)) in A. destruct A as [k A].
      unfold CodecSpec.pad_len. rewrite A, Nat.mod_mul, Nat.sub_0_r, Nat.mod_same by (destruct f; discriminate).
      cbn [repeat]. now rewrite app_nil_r.
    - apply (proj2 (PropBase.C20_padding_policy f _)) in B. destruct (CodecSpec.pad_len f _) as [|n]; cbn [repeat] in *.
      + now rewrite app_nil_r.
      + exfalso. apply B, in_elt. }
  assert (OK : is_ok (BaseModel.base_parse_str f padding s)) by (exists v; exact P).
  assert (OK' : is_ok (BaseModel.base_parse_str f padding s')) by (exists v'; exact P').
  destruct E as [-> | ->], E' as [-> | ->]; auto using eq_sym.
Qed.

(** C120 fails with padding(Allow): the two texts of one byte stay two values. *)
Theorem C120_encoded_refuted : forall f, exists s s' d v v', encodes f s d /\ encodes f s' d /\
  BaseModel.base_parse_str f Allow s = Ok v /\ BaseModel.base_parse_str f Allow s' = Ok v' /\ v <> v'.
Proof.
  intros f. exists (CodecSpec.encode f [97]), (CodecSpec.encode_pad f [97]), [97], (CodecSpec.encode f [97]), (CodecSpec.encode_pad f [97]).
  split; [now left|]. split; [now right|]. destruct f; (split; [vm_compute; reflexivity|split; [vm_compute; reflexivity|discriminate]]).
Qed.

(** ** Hosts *)
Lemma port_end q p : port_text q p -> ~ In 58 q.
Proof. intros H. apply (PropInject.port_no_colon q p H). Qed.

(** The text [s] writes the address [x] with the port [p]. *)
Definition address_text (s : list N) (x : ip_addr) (p : option N) : Prop :=
  match x with V4 a => v4_form s a p | V6 a => v6_form s a p end.

Lemma address_parse s x p : valid_str s -> address_text s x p <-> ip_parse_str Allow Allow s = Ok (x, p).
Proof.
  intros V. rewrite C31_ip_accepts_exactly by exact V. destruct x; cbn; tauto.
Qed.

(** C120: two texts of one IP address and port. *)
Theorem C120_addresses : forall port local s s' x p v v', valid_str s -> valid_str s' -> address_text s x p -> address_text s' x p ->
  ip_parse_str port local s = Ok v -> ip_parse_str port local s' = Ok v' -> v = v'.
Proof.
  intros port local s s' x p v v' V V' A A' P P'.
  assert (Q : forall s v, valid_str s -> address_text s x p -> ip_parse_str port local s = Ok v -> v = (x, p)).
  { clear. intros s [y q] V A P. apply C31_ip_accepts_exactly in P; [|exact V].
    assert (B : address_text s y q) by (destruct y; apply P). apply address_parse in A, B; auto. congruence. }
  now rewrite (Q _ _ V A P), (Q _ _ V' A' P').
Qed.

(** The text [s] writes the host [h] with the port [p]. *)
Definition host_written (idna : list N -> option (list N)) (s : list N) (h : host) (p : option N) : Prop :=
  match h with
  | HIPv4 a => v4_form s a p
  | HIPv6 a => v6_form s a p
  | HDomain d => exists name, split_port s name p /\ name <> [] /\ idna name = Some d /\ (forall a, ~ v4_text name a) /\
      (forall u, name <> u ++ [46])
  end.
Definition all_hosts : host_cfg := {| h_local := Allow; h_port := Allow; h_two := Allow |}.

Lemma groups_colons b s l : groups b s l -> (List.length l <= count_occ N.eq_dec s 58%N + 2)%nat.
Proof.
  induction 1 as [d n _|s n1 n2 n3 n4 _ _|d n s l _ _ IH]; cbn [List.length]; [lia|lia|].
  rewrite !count_occ_app. cbn [count_occ]. destruct (N.eq_dec 58 58); [lia|congruence].
Qed.
Lemma v6_colons s a : v6_text s a -> (2 <= count_occ N.eq_dec s 58%N)%nat.
Proof.
  intros [[G L]|(h & t & lh & lt & -> & _)].
  - apply groups_colons in G. lia.
  - rewrite !count_occ_app. cbn [count_occ]. destruct (N.eq_dec 58 58); [lia|congruence].
Qed.

Lemma host_written_parse idna s h p : idna_std3 idna -> valid_str s -> host_written idna s h p ->
  host_parse_str idna all_hosts s = Ok {| hv_host := h; hv_port := p; hv_is_local := None |}.
Proof.
  intros L V H. apply C39_host_accepts_exactly; [exact V|]. destruct h as [d|a|a]; cbn [host_written] in H.
  - right. right. destruct H as (name & SP & N0 & I & N4 & NF). destruct (L _ _ I) as (_ & N58 & N91).
    exists name, d. cbn [hv_host hv_port hv_is_local]. split; [reflexivity|].
    assert (S1 : exists r, s = name ++ r /\ (count_occ N.eq_dec s 58%N <= 1)%nat).
    { apply (count_occ_not_In N.eq_dec) in N58. destruct p as [p|]; cbn in SP.
      - destruct SP as (q & -> & Q). apply port_end in Q. apply (count_occ_not_In N.eq_dec) in Q. exists ([58] ++ q).
        split; [reflexivity|]. rewrite count_occ_app, N58. cbn [app count_occ]. destruct (N.eq_dec 58 58); lia.
      - destruct SP as [-> _]. exists []. rewrite app_nil_r, N58. auto. }
    destruct S1 as (r & -> & CO). split; [destruct name; [congruence|discriminate]|].
    split; [intros r' E; destruct name as [|y name]; [congruence|]; cbn [app] in E; injection E as -> _; apply N91; now left|].
    split; [intros a T; apply v6_colons in T; lia|].
    split; [exact SP|]. cbn. auto 10.
  - right. left. exists a. cbn. repeat split; auto. discriminate.
  - left. exists a. cbn. repeat split; auto. discriminate.
Qed.
Lemma host_relax idna c s v : valid_str s -> host_parse_str idna c s = Ok v ->
  host_parse_str idna all_hosts s = Ok {| hv_host := hv_host v; hv_port := hv_port v; hv_is_local := None |} /\
  exists P, (forall w s', valid_str s' -> host_parse_str idna c s' = Ok w -> hv_host w = hv_host v -> field (host_field c) P (hv_is_local w)).
Proof.
  intros V H. apply C39_host_accepts_exactly in H; [|exact V]. split.
  - apply C39_host_accepts_exactly; [exact V|]. destruct H as [H|[H|H]].
    + left. destruct H as (a & E & F & _). exists a. cbn. repeat split; auto. discriminate.
    + right. left. destruct H as (a & E & F & _). exists a. cbn. repeat split; auto. discriminate.
    + right. right. destruct H as (name & d & E & S0 & S1 & S6 & SP & _ & NF & N4 & I & _). exists name, d. cbn. repeat split; auto.
  - exists (match hv_host v with HDomain d => localhost d | HIPv4 a => v4_local a | HIPv6 a => v6_local a end).
    intros w s' V' K E. apply C39_host_accepts_exactly in K; [|exact V']. rewrite <- E.
    destruct K as [(a & -> & K)|[(a & -> & K)|(name & d & -> & K)]]; apply K.
Qed.

(** C120: two texts of one host and port. *)
Theorem C120_hosts : forall idna c s s' h p v v', idna_std3 idna -> valid_str s -> valid_str s' ->
  host_written idna s h p -> host_written idna s' h p ->
  host_parse_str idna c s = Ok v -> host_parse_str idna c s' = Ok v' -> v = v'.
Proof.
  intros idna c s s' h p v v' L V V' H H' P P'.
  destruct (host_relax _ _ _ _ V P) as [A (F & FA)]. destruct (host_relax _ _ _ _ V' P') as [A' _].
  apply (host_written_parse _ _ _ _ L V) in H. apply (host_written_parse _ _ _ _ L V') in H'.
  rewrite H in A. rewrite H' in A'. injection A as A1 A2. injection A' as A1' A2'.
  pose proof (FA v s V P eq_refl) as F1. pose proof (FA v' s' V' P' ltac:(congruence)) as F2.
  pose proof (field_fun _ _ _ _ F1 F2). destruct v, v'; cbn in *. congruence.
Qed.

(** C120, domains: the part that holds. Missing: IPv4 addresses, which keep the text of the port. *)
Theorem C120_domains_partial : forall idna c s s' name name' d p v v', valid_str s -> valid_str s' ->
  split_port s name p -> split_port s' name' p -> idna name = Some d -> idna name' = Some d ->
  (forall a, ~ v4_dotted name a) -> (forall a, ~ v4_dotted name' a) ->
  domain_parse_str idna c s = Ok v -> domain_parse_str idna c s' = Ok v' -> v = v'.
Proof.
  intros idna c s s' name name' d p v v' V V' S S' I I' N N' P P'.
  assert (K : forall s name v, valid_str s -> split_port s name p -> idna name = Some d -> (forall a, ~ v4_dotted name a) ->
    domain_parse_str idna c s = Ok v -> dv_domain v = d /\ dv_port v = p /\
    ((no_policy c /\ dv_is_ipv4 v = None /\ dv_is_local v = None) \/
     (~ no_policy c /\ field (ipv4_field c) False (dv_is_ipv4 v) /\ field (local_field c) (localhost d) (dv_is_local v)))).
  { clear. intros s name v V S I N P. apply C36_domain_accepts_exactly in P; [|exact V].
    destruct P as (_ & name2 & S2 & _ & P). destruct (PropUnion.split_unique _ _ _ _ _ V S S2) as [<- E].
    destruct P as [(NP & J & F1 & F2)|[(_ & a & A & _)|(NP & _ & _ & J & _ & _ & F1 & F2)]].
    - split; [congruence|]. split; [congruence|]. left. auto.
    - now apply N in A.
    - assert (D : d = dv_domain v) by congruence. split; [congruence|]. split; [congruence|]. right. rewrite D. auto. }
  destruct (K _ _ _ V S I N P) as (A & B & C). destruct (K _ _ _ V' S' I' N' P') as (A' & B' & C').
  assert (dv_is_ipv4 v = dv_is_ipv4 v' /\ dv_is_local v = dv_is_local v').
  { destruct C as [(X & Y & Z)|(X & Y & Z)], C' as [(X' & Y' & Z')|(X' & Y' & Z')]; try contradiction; [split; congruence|].
    split; eapply field_fun; eassumption. }
  destruct v, v'; cbn in *. intuition congruence.
Qed.

(** C120 fails for domains that are addresses: port 80 written in two ways is two values. *)
Theorem C120_domains_refuted : exists idna c s s' a q q' v v', idna_laws idna /\ valid_str s /\ valid_str s' /\
  v4_text (bs "127.0.0.1") a /\ s = bs "127.0.0.1:" ++ q /\ s' = bs "127.0.0.1:" ++ q' /\ port_text q 80 /\ port_text q' 80 /\
  domain_parse_str idna c s = Ok v /\ domain_parse_str idna c s' = Ok v' /\ dv_port v = dv_port v' /\ dv_domain v <> dv_domain v'.
Proof.
  exists idna_ascii, (cfg Allow Allow Allow Must), (bs "127.0.0.1:80"), (bs "127.0.0.1:080"), [127; 0; 0; 1], (bs "80"), (bs "080").
  do 2 eexists. split; [exact idna_ascii_laws|]. split; [apply ascii_valid; repeat constructor; lia|].
  split; [apply ascii_valid; repeat constructor; lia|]. split; [apply ipv4_from_str_spec; vm_compute; reflexivity|].
  split; [reflexivity|]. split; [reflexivity|]. split; [apply parse_u16_spec; vm_compute; reflexivity|].
  split; [apply parse_u16_spec; vm_compute; reflexivity|]. split; [vm_compute; reflexivity|]. split; [vm_compute; reflexivity|].
  split; [reflexivity|discriminate].
Qed.

(** ** Mailboxes *)

(** The contents of a quoted string without the backslashes of its quoted pairs (RFC 5321, section 4.1.2). *)
Inductive stands_for : list N -> list N -> Prop :=
| sf_nil : stands_for [] []
| sf_pair x q m : stands_for q m -> stands_for (92 :: x :: q) (x :: m)
| sf_char x q m : x <> 92 -> stands_for q m -> stands_for (x :: q) (x :: m).

(** The local part that is written as [l]. *)
Definition local_means (l m : list N) : Prop := (l = m /\ forall r, l <> 34 :: r) \/ exists q, l = [34] ++ q ++ [34] /\ stands_for q m.

Lemma stands_fun q m : stands_for q m -> forall m', stands_for q m' -> m = m'.
Proof.
  induction 1 as [|x q m S IH|x q m N S IH]; intros m' S'; inversion S'; subst; try congruence.
  - f_equal. auto.
  - f_equal. auto.
Qed.
Lemma stands_plain q m : stands_for q m -> ~ In 92 q -> q = m.
Proof.
  induction 1 as [|x q m S IH|x q m N S IH]; intros H; [reflexivity|exfalso; apply H; now left|].
  f_equal. apply IH. intros X. apply H. now right.
Qed.
Lemma plain_stands q : ~ In 92 q -> stands_for q q.
Proof.
  induction q as [|x q IH]; intros H; [constructor|]. apply sf_char; [intros ->; apply H; now left|]. apply IH. intros X. apply H. now right.
Qed.

(** C120, mailboxes: the part that holds. Missing: quoted pairs, whose backslashes are kept. *)
Theorem C120_mailboxes_partial : forall idna prof prof' c na s l d s' l' d' m h v v', idna_std3 idna -> valid_str s -> valid_str s' ->
  mailbox na s l d -> mailbox na s' l' d' -> local_means l m -> local_means l' m -> ~ In 92 l -> ~ In 92 l' ->
  names_host idna d h -> names_host idna d' h ->
  email_parse_str idna prof c s = Ok v -> email_parse_str idna prof' c s' = Ok v' -> v = v'.
Proof.
  intros idna prof prof' c na s l d s' l' d' m h v v' L V V' M M' LM LM' B B' D D' P P'.
  assert (K : forall prof s l d v, valid_str s -> mailbox na s l d -> local_means l m -> ~ In 92 l -> names_host idna d h ->
    email_parse_str idna prof c s = Ok v -> ev_local v = m /\ ev_domain v = h /\ ev_c1 v = None /\ ev_c2 v = None /\
    ev_c3 v = None /\ ev_c4 v = None /\ (ev_need_quoted v = true <-> needs_quotes m) /\
    field (email_field c) (literal_local h) (ev_is_local v)).
  { clear - L. intros prof s l d v V M LM B D P.
    destruct (C119_comments_partial idna prof c na s l d v V) as (RL & RD & R1 & R2 & R3 & R4); [|exact M|exact P|].
    { intros u w ->. apply B. apply in_elt. }
    assert (EL : ev_local v = m).
    { apply C44_email_accepts_exactly in P as Q; [|exact V].
      destruct LM as [[-> N]|(q & -> & S)].
      - destruct RL as [<-|RL]; [reflexivity|]. exfalso. exact (N _ RL).
      - apply stands_plain in S; [|intros X; apply B; cbn; right; apply in_or_app; now left]. subst q.
        destruct RL as [RL|RL]; [exfalso|cbn [app] in RL; injection RL as RL; apply app_inj_tail in RL as [-> _]; reflexivity].
        destruct Q as (lt & q & dt & tail & canon & ES & _ & HL & _). rewrite R1 in *. cbn [ctext app List.length] in *.
        destruct M as (M1 & _). destruct HL as [(_ & -> & U & _)|(_ & -> & U & _)].
        + destruct U as (_ & _ & U & _). rewrite <- RL in U. inversion U as [|? ? X]; subst.
          apply PropInject.local_char_plain in X. destruct X as [X _]. congruence.
        + destruct U as (_ & U & _). destruct (U [] 34 (m ++ [34])) as [X|[X|[_ X]]]; [rewrite <- RL; reflexivity|..].
          * apply PropInject.local_char_plain in X. destruct X as [X _]. congruence.
          * unfold blank in X. lia.
          * apply escaped_est in X. discriminate X. }
    assert (ED : ev_domain v = h).
    { apply C44_email_accepts_exactly in P as Q; [|exact V].
      destruct Q as (lt & q & dt & tail & canon & ES & _ & HL & _ & _ & _ & T & _ & HT & _). rewrite R1, R2, R3 in *. rewrite R4 in T.
      cbn [ctext app tail_ok] in *. subst tail. rewrite app_nil_r in ES.
      destruct h as [x|a|a], (ev_domain v) as [y|b|b]; cbn [names_host] in D, RD.
      - congruence.
      - exfalso. destruct RD as (t & -> & _). apply (L _ _ D). now left.
      - exfalso. destruct RD as (t & -> & _). apply (L _ _ D). now left.
      - exfalso. destruct D as (t & -> & _). apply (L _ _ RD). now left.
      - destruct D as (t & -> & T1), RD as (t' & E & T2). apply app_inv_head in E. apply app_inj_tail in E as [<- _].
        apply ipv4_from_str_spec in T1, T2. congruence.
      - exfalso. destruct D as (t & -> & T1), RD as (t' & E & T2). destruct t as [|y t]; [discriminate E|]. injection E as -> _.
        apply (v4_not_in _ _ 73 T1); [unfold v4_char; lia|now left].
      - exfalso. destruct D as (t & -> & _). apply (L _ _ RD). now left.
      - exfalso. destruct D as (t & -> & T1), RD as (t' & E & T2). destruct t' as [|y t']; [discriminate E|]. injection E as <- _.
        apply (v4_not_in _ _ 73 T2); [unfold v4_char; lia|now left].
      - destruct D as (t & -> & T1), RD as (t' & E & T2). apply app_inv_head in E. apply app_inj_tail in E as [<- _].
        apply ipv6_from_str_spec in T1, T2. congruence. }
    split; [exact EL|]. split; [exact ED|]. do 4 (split; [assumption|]). split.
    - apply C44_email_accepts_exactly in P as Q; [|exact V]. destruct Q as (lt & q & dt & tail & canon & _ & _ & HL & _).
      rewrite <- EL. apply (PropInject.local_needs _ _ _ _ _ _ HL).
    - rewrite <- ED. apply (C47_email_policies _ _ _ _ _ V P). }
  destruct (K _ _ _ _ _ V M LM B D P) as (A1 & A2 & A3 & A4 & A5 & A6 & A7 & A8).
  destruct (K _ _ _ _ _ V' M' LM' B' D' P') as (B1 & B2 & B3 & B4 & B5 & B6 & B7 & B8).
  pose proof (field_fun _ _ _ _ A8 B8) as E8.
  assert (E7 : ev_need_quoted v = ev_need_quoted v').
  { destruct (ev_need_quoted v), (ev_need_quoted v'); try reflexivity; exfalso.
    - assert (false = true); [|discriminate]. now apply B7, A7.
    - assert (false = true); [|discriminate]. now apply A7, B7. }
  destruct v, v'; cbn in *. congruence.
Qed.

(** C120 fails for mailboxes: a quoted pair is not undone, so that one mailbox has two values. *)
Theorem C120_mailboxes_refuted : exists idna c s l d s' l' m v v', idna_laws idna /\ idna_std3 idna /\ valid_str s /\ valid_str s' /\
  mailbox false s l d /\ mailbox false s' l' d /\ local_means l m /\ local_means l' m /\
  email_parse_str idna Debug c s = Ok v /\ email_parse_str idna Debug c s' = Ok v' /\
  ev_local v <> ev_local v' /\ to_email_string c v <> to_email_string c v'.
Proof.
  exists idna_ascii, (ecfg false Disallow Disallow Must false), (bs "me@example.com"), (bs "me"), (bs "example.com"),
    ([34; 92] ++ bs "me" ++ [34] ++ bs "@example.com"), ([34; 92] ++ bs "me" ++ [34]), (bs "me").
  assert (SD : smtp_domain (bs "example.com")).
  { left. apply (sd_dot (bs "example") (bs "com")); [|apply sd_one]; (apply letters_label; [discriminate|reflexivity]). }
  do 2 eexists. split; [exact idna_ascii_laws|]. split; [exact idna_ascii_std3|].
  split; [apply ascii_valid; repeat constructor; lia|]. split; [apply ascii_valid; repeat constructor; lia|].
  split.
  { split; [reflexivity|]. split; [|exact SD]. left. apply da_run; [discriminate|]. apply Forall_forall.
    intros x X. left. vm_compute in X. unfold is_atext. destruct X as [<-|[<-|[]]]; lia. }
  split.
  { split; [reflexivity|]. split; [|exact SD]. right. exists ([92] ++ bs "me"). split; [reflexivity|].
    apply (qc_pair _ 109 (bs "e")); [lia|]. apply (qc_text _ 101 []); [unfold qtext; lia|constructor]. }
  split; [left; split; [reflexivity|discriminate]|].
  split; [right; exists ([92] ++ bs "me"); split; [reflexivity|]; apply (sf_pair 109 (bs "e") (bs "e")), plain_stands; vm_compute; lia|].
  split; [vm_compute; reflexivity|]. split; [vm_compute; reflexivity|]. split; vm_compute; discriminate.
Qed.

(** C120, the other direction for mailboxes: two mailboxes never share a value. *)
Theorem C120_mailboxes_apart : forall idna prof prof' c na s l d s' l' d' m m' v v', idna_no_quote idna -> valid_str s -> valid_str s' ->
  e_comment c = false -> mailbox na s l d -> mailbox na s' l' d' -> local_means l m -> local_means l' m' ->
  email_parse_str idna prof c s = Ok v -> email_parse_str idna prof' c s' = Ok v' ->
  ev_local v = ev_local v' -> m = m'.
Proof.
  intros idna prof prof' c na s l d s' l' d' m m' v v' L V V' C M M' LM LM' P P' E.
  assert (K : forall prof s l d m v, valid_str s -> mailbox na s l d -> local_means l m ->
    email_parse_str idna prof c s = Ok v -> stands_for (ev_local v) m).
  { clear - L C. intros prof s l d m v V M LM P. destruct (C119_no_comments _ _ _ _ _ _ _ _ L V C M P) as (RL & _).
    destruct M as (_ & SL & _). destruct LM as [[-> N]|(q & -> & S)].
    - destruct RL as [RL|RL]; [|exfalso; exact (N _ RL)]. rewrite <- RL. apply plain_stands.
      destruct SL as [SL|(q & SL & _)]; [|exfalso; exact (N _ SL)]. apply (dot_atom_no _ _ 92 SL). cbn. tauto.
    - destruct RL as [RL|RL]; [exfalso|cbn [app] in RL; injection RL as RL; apply app_inj_tail in RL as [<- _]; exact S].
      pose proof (C47_email_policies _ _ _ _ _ V P) as (_ & _ & _ & NC & _). destruct (NC C) as (R1 & _).
      apply C44_email_accepts_exactly in P; [|exact V]. destruct P as (lt & q0 & dt & tail & canon & ES & _ & HL & _).
      destruct HL as [(_ & _ & U & _)|(_ & _ & U & _)].
      + destruct U as (_ & _ & U & _). rewrite <- RL in U. inversion U as [|? ? X]; subst.
        apply PropInject.local_char_plain in X. destruct X as [X _]. congruence.
      + destruct U as (_ & U & _). destruct (U [] 34 (q ++ [34])) as [X|[X|[_ X]]]; [rewrite <- RL; reflexivity|..].
        * apply PropInject.local_char_plain in X. destruct X as [X _]. congruence.
        * unfold blank in X. lia.
        * apply escaped_est in X. discriminate X. }
  pose proof (K _ _ _ _ _ _ V M LM P) as S. pose proof (K _ _ _ _ _ _ V' M' LM' P') as S'. rewrite <- E in S'.
  exact (stands_fun _ _ S _ S').
Qed.

Section Printed.
Import NumberModel NumberSpec FloatModel FloatSpec.
(** The hypotheses are met: 0.50 and +5e-1, +7 and 007, one address and one host in two spellings, and the two texts of a mailbox. *)
Example C120_example : exists f v w,
  num_parse_str (float_of_text F64) Unlimited Disallow (bs "0.50") = Ok f /\
  num_parse_str (float_of_text F64) Unlimited Disallow (bs "+5e-1") = Ok f /\
  is_fraction 50 (-2) 1 2 /\ is_fraction 5 (-1) 1 2 /\ good_range F64 Unlimited /\ ~ x_degenerate Unlimited /\ readable (bs "0.50") /\
  int_parse_str true W64 I32 RangeModel.Unlimited (bs "+7") = int_parse_str true W64 I32 RangeModel.Unlimited (bs "007") /\
  ip_parse_str Allow Allow (bs "[0:0::1]:+080") = ip_parse_str Allow Allow (bs "[::1]:80") /\
  host_parse_str idna_ascii (hcfg Allow Allow Must) (bs "Example.com:080") = Ok v /\
  host_parse_str idna_ascii (hcfg Allow Allow Must) (bs "EXAMPLE.com:80") = Ok v /\
  host_written idna_ascii (bs "Example.com:080") (HDomain (bs "example.com")) (Some 80) /\
  email_parse_str idna_ascii Debug (ecfg false Disallow Disallow Must false) (bs "me@example.com") = Ok w /\
  email_parse_str idna_ascii Debug (ecfg false Disallow Disallow Must false) ([34] ++ bs "me" ++ [34] ++ bs "@Example.com") = Ok w /\
  local_means (bs "me") (bs "me") /\ local_means ([34] ++ bs "me" ++ [34]) (bs "me") /\
  names_host idna_ascii (bs "Example.com") (HDomain (bs "example.com")).
Proof.
  do 3 eexists. split; [vm_compute; reflexivity|]. split; [vm_compute; reflexivity|].
  split; [split; [lia|]; right; split; [lia|reflexivity]|]. split; [split; [lia|]; right; split; [lia|reflexivity]|].
  split; [exact I|]. split; [intros [i H]; discriminate H|]. split; [left; vm_compute; discriminate|].
  split; [vm_compute; reflexivity|]. split; [vm_compute; reflexivity|]. split; [vm_compute; reflexivity|]. split; [vm_compute; reflexivity|].
  split.
  { exists (bs "Example.com"). split; [exists (bs "080"); split; [reflexivity|apply parse_u16_spec; vm_compute; reflexivity]|].
    split; [discriminate|]. split; [vm_compute; reflexivity|]. split.
    - intros a H. apply ipv4_from_str_spec in H. vm_compute in H. discriminate H.
    - intros u H. apply (f_equal (@rev N)) in H. rewrite rev_app_distr in H. discriminate H. }
  split; [vm_compute; reflexivity|]. split; [vm_compute; reflexivity|].
  split; [left; split; [reflexivity|discriminate]|]. split; [right; exists (bs "me"); split; [reflexivity|]; apply plain_stands; vm_compute; lia|].
  vm_compute. reflexivity.
Qed.
End Printed.

Print Assumptions C120_integers.
Print Assumptions C120_numbers.
Print Assumptions C120_identifiers.
Print Assumptions C120_encoded_partial.
Print Assumptions C120_encoded_refuted.
Print Assumptions C120_addresses.
Print Assumptions C120_hosts.
Print Assumptions C120_domains_partial.
Print Assumptions C120_domains_refuted.
Print Assumptions C120_mailboxes_partial.
Print Assumptions C120_mailboxes_refuted.
Print Assumptions C120_mailboxes_apart.
