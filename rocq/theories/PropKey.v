(** Property C131: hosts and protocols can be compared, sorted and used as keys. *)
From Verif Require Import Base NetModel NetSpec NetProofs IpModel IpSpec IpProofs Utf8 StrFacts DomainModel DomainSpec DomainProofs IdnaFrag
  HostModel HostSpec EmailModel EmailSpec DisplayModel KeyModel.
From Verif Require Import MetaProofs PropIp PropDomain PropHost PropEmail PropDisplay PropCase PropUnion PropIndep.
From Verif Require HttpModel.
Local Open Scope N_scope.

(** The order of a dictionary: a beginning of the other, or smaller where they first differ. *)
Definition before (a b : list N) : Prop :=
  (exists r, r <> [] /\ b = a ++ r) \/ (exists u x y r r', x < y /\ a = u ++ x :: r /\ b = u ++ y :: r').

Lemma before_cons x a b : before a b -> before (x :: a) (x :: b).
Proof.
  intros [(r & R & ->)|(u & y & z & r & r' & L & -> & ->)]; [left; exists r; now split|].
  right. exists (x :: u), y, z, r, r'. now split.
Qed.
Lemma seq_cases a : forall b, match seq_cmp a b with Eq => a = b | Lt => before a b | Gt => before b a end.
Proof.
  induction a as [|x a IH]; intros [|y b]; cbn [seq_cmp].
  - reflexivity.
  - left. exists (y :: b). split; [discriminate|reflexivity].
  - left. exists (x :: a). split; [discriminate|reflexivity].
  - destruct (N.compare_spec x y) as [->|L|L].
    + specialize (IH b). destruct (seq_cmp a b); [congruence|now apply before_cons|now apply before_cons].
    + right. exists [], x, y, a, b. repeat split; exact L.
    + right. exists [], y, x, b, a. repeat split; exact L.
Qed.
Lemma seq_refl a : seq_cmp a a = Eq.
Proof. induction a as [|x a IH]; [reflexivity|]. cbn. now rewrite N.compare_refl. Qed.
Lemma seq_opp a : forall b, seq_cmp b a = CompOpp (seq_cmp a b).
Proof.
  induction a as [|x a IH]; intros [|y b]; cbn [seq_cmp]; try reflexivity.
  rewrite (N.compare_antisym x y). destruct (x ?= y); cbn [CompOpp]; auto.
Qed.
Lemma seq_eq a b : seq_cmp a b = Eq <-> a = b.
Proof. split; [|intros ->; apply seq_refl]. intros H. pose proof (seq_cases a b) as C. now rewrite H in C. Qed.
Lemma seq_lt_trans a : forall b c, seq_cmp a b = Lt -> seq_cmp b c = Lt -> seq_cmp a c = Lt.
Proof.
  induction a as [|x a IH]; intros [|y b] [|z c]; cbn [seq_cmp]; try discriminate; try reflexivity; intros H K.
  destruct (N.compare_spec x y) as [->|L|L]; [|clear H|discriminate].
  - destruct (N.compare_spec y z); try discriminate; [|reflexivity]. exact (IH _ _ H K).
  - destruct (N.compare_spec y z) as [->|M|M]; try discriminate.
    + apply N.compare_lt_iff in L. now rewrite L.
    + assert (x < z) as X by lia. apply N.compare_lt_iff in X. now rewrite X.
Qed.
Lemma before_lt a : forall b, before a b -> seq_cmp a b = Lt.
Proof.
  intros b [(r & R & ->)|(u & x & y & r & r' & L & -> & ->)].
  - induction a as [|x a IH]; cbn; [destruct r; [contradiction|reflexivity]|]. now rewrite N.compare_refl.
  - induction u as [|z u IH]; cbn; [apply N.compare_lt_iff in L; now rewrite L|]. now rewrite N.compare_refl.
Qed.

(** C131: comparison is a linear order that agrees with equality. *)
Theorem C131_order : forall h k,
  (host_eqb h k = true <-> h = k) /\ (host_cmp h k = Eq <-> h = k) /\ host_cmp k h = CompOpp (host_cmp h k) /\
  forall m, host_cmp h k = Lt -> host_cmp k m = Lt -> host_cmp h m = Lt.
Proof.
  intros h k. split; [|split; [|split]].
  - destruct h, k; cbn [host_eqb]; try (split; discriminate); rewrite str_eqb_eq; split; congruence.
  - destruct h, k; cbn [host_cmp]; try (split; discriminate); rewrite seq_eq; split; congruence.
  - destruct h, k; cbn [host_cmp]; try reflexivity; apply seq_opp.
  - intros m. destruct h, k, m; cbn [host_cmp]; try discriminate; try reflexivity; apply seq_lt_trans.
Qed.
Print Assumptions C131_order.

Theorem C131_protocols : forall p q,
  (protocol_eqb p q = true <-> p = q) /\ (protocol_cmp p q = Eq <-> p = q) /\ protocol_cmp q p = CompOpp (protocol_cmp p q) /\
  (forall r, protocol_cmp p q = Lt -> protocol_cmp q r = Lt -> protocol_cmp p r = Lt) /\
  protocol_cmp HttpModel.HTTP HttpModel.HTTPS = Lt /\ protocol_cmp HttpModel.HTTPS HttpModel.FTP = Lt.
Proof.
  intros p q. split; [|split; [|split; [|split; [|split; reflexivity]]]].
  - destruct p, q; vm_compute; split; (reflexivity || discriminate).
  - destruct p, q; vm_compute; split; (reflexivity || discriminate).
  - destruct p, q; reflexivity.
  - intros r. destruct p, q, r; vm_compute; (reflexivity || discriminate || (intros; assumption)).
Qed.
Print Assumptions C131_protocols.

(** The number that an address is, its parts being digits in base [b]. *)
Definition number (b : N) (a : list N) : N := fold_left (fun n x => n * b + x) a 0.

Lemma number_lt b a : forall a' n m, 0 < b -> List.length a = List.length a' -> Forall (fun x => x < b) a -> Forall (fun x => x < b) a' -> n < m ->
  fold_left (fun n x => n * b + x) a n < fold_left (fun n x => n * b + x) a' m.
Proof.
  induction a as [|x a IH]; intros [|y a'] n m B L F F' H; try discriminate L; [exact H|]. cbn [fold_left].
  apply IH; [exact B|now injection L|exact (Forall_inv_tail F)|exact (Forall_inv_tail F')|].
  pose proof (Forall_inv F) as X. cbn in X. assert (n * b + b <= m * b) by nia. lia.
Qed.
Lemma seq_number b a : forall a' n, 0 < b -> List.length a = List.length a' -> Forall (fun x => x < b) a -> Forall (fun x => x < b) a' ->
  seq_cmp a a' = (fold_left (fun n x => n * b + x) a n ?= fold_left (fun n x => n * b + x) a' n).
Proof.
  induction a as [|x a IH]; intros [|y a'] n B L F F'; try discriminate L; cbn [seq_cmp fold_left]; [now rewrite N.compare_refl|].
  injection L as L. pose proof (Forall_inv_tail F) as T. pose proof (Forall_inv_tail F') as T'.
  destruct (N.compare_spec x y) as [->|H|H].
  - now apply IH.
  - symmetry. apply N.compare_lt_iff. apply number_lt; auto. lia.
  - symmetry. apply N.compare_gt_iff. apply number_lt; auto. lia.
Qed.

(** C131: the order: names first, by their bytes; then IPv4 and IPv6 addresses, by their numbers. *)
Theorem C131_kinds :
  (forall d e, host_cmp (HDomain d) (HDomain e) = Lt <-> before d e) /\
  (forall a b, v4_addr a -> v4_addr b -> host_cmp (HIPv4 a) (HIPv4 b) = (number 256 a ?= number 256 b)) /\
  (forall a b, v6_addr a -> v6_addr b -> host_cmp (HIPv6 a) (HIPv6 b) = (number 65536 a ?= number 65536 b)) /\
  (forall d a, host_cmp (HDomain d) (HIPv4 a) = Lt) /\ (forall a b, host_cmp (HIPv4 a) (HIPv6 b) = Lt).
Proof.
  split; [|split; [|split; [|split; reflexivity]]].
  - intros d e. cbn [host_cmp]. split; [|apply before_lt]. intros H. pose proof (seq_cases d e) as C. now rewrite H in C.
  - intros a b [A A'] [B B']. apply seq_number; try assumption; [lia|congruence].
  - intros a b [A A'] [B B']. apply seq_number; try assumption; [lia|congruence].
Qed.
Print Assumptions C131_kinds.

(** What hosts that a validator returned are like. *)
Lemma returned_shape idna h : idna_laws idna -> returned idna h ->
  match h with HDomain d => Forall (fun c => c < 255) d | HIPv4 a => v4_addr a | HIPv6 a => v6_addr a end.
Proof.
  intros L. assert (forall n d, idna n = Some d -> Forall (fun c => c < 255) d) as K.
  { intros n d H. destruct (L _ _ H) as [F _]. eapply Forall_impl; [|exact F]. unfold idna_char. intros c C. lia. }
  intros [(c & s & v & Hs & H & <-)|(prof & c & s & v & Hs & H & <-)].
  - apply C39_host_accepts_exactly in H; [|exact Hs]. destruct H as [H|[H|H]].
    + destruct H as (a & -> & F & _). exact (proj1 (v6_form_addr _ _ _ F)).
    + destruct H as (a & -> & F & _). exact (proj1 (v4_form_addr _ _ _ F)).
    + destruct H as (n & d & E & _ & _ & _ & _ & _ & _ & _ & I & _). rewrite E. exact (K n d I).
  - apply C44_email_accepts_exactly in H; [|exact Hs]. destruct H as (lt & q & dt & tail & canon & _ & _ & _ & _ & _ & _ & _ & _ & HT & _).
    destruct (ev_domain v) as [d|a|a]; cbn [host_text] in HT.
    + destruct HT as (_ & _ & _ & _ & _ & I & _). exact (K dt d I).
    + destruct HT as (_ & _ & t & _ & T & _). exact (v4_text_addr _ _ T).
    + destruct HT as (_ & _ & t & _ & T & _). exact (v6_text_addr _ _ T).
Qed.

Lemma ended_apart d : forall e r, Forall (fun c => c < 255) d -> Forall (fun c => c < 255) e -> e ++ [255] = (d ++ [255]) ++ r -> d = e.
Proof.
  induction d as [|x d IH]; intros [|y e] r D E H; cbn [app] in H.
  - reflexivity.
  - injection H as -> _. pose proof (Forall_inv E) as X. cbn in X. lia.
  - injection H as <- _. pose proof (Forall_inv D) as X. cbn in X. lia.
  - injection H as -> H. f_equal. exact (IH e r (Forall_inv_tail D) (Forall_inv_tail E) H).
Qed.
Lemma same_length (a b r : list N) : b = a ++ r -> List.length a = List.length b -> a = b.
Proof. intros -> L. rewrite app_length in L. destruct r; [now rewrite app_nil_r|cbn in L; lia]. Qed.
Lemma pairs_inj a : forall b, flat_map (fun x => [x / 256; x mod 256]) a = flat_map (fun x => [x / 256; x mod 256]) b -> a = b.
Proof.
  induction a as [|x a IH]; intros [|y b] H; cbn [flat_map app] in H; try discriminate H; [reflexivity|].
  injection H as H1 H2 H. f_equal; [|now apply IH]. rewrite (N.div_mod x 256), (N.div_mod y 256) by discriminate. congruence.
Qed.
Lemma pairs_length a : List.length (flat_map (fun x => [x / 256; x mod 256]) a) = (2 * List.length a)%nat.
Proof. induction a as [|x a IH]; [reflexivity|]. cbn [flat_map app List.length]. lia. Qed.

(** C131: different hosts feed different bytes to the hasher, and the bytes of one are not the beginning of those of another, so
    what is hashed after the host does not make up for the difference. *)
Theorem C131_hash : forall idna h k r r', idna_laws idna -> returned idna h -> returned idna k ->
  host_hash h ++ r = host_hash k ++ r' -> h = k /\ r = r'.
Proof.
  intros idna h k r r' L H K E. apply returned_shape in H; [|exact L]. apply returned_shape in K; [|exact L].
  assert (h = k) as ->.
  { unfold host_hash in E. destruct h as [d|a|a], k as [e|b|b]; cbn [host_discr app] in E; try discriminate E; injection E as E.
    - f_equal. apply app_eq_app in E as (l & [[E _]|[E _]]).
      + symmetry. exact (ended_apart e d l K H E).
      + exact (ended_apart d e l H K E).
    - f_equal. destruct H as [H _], K as [K _]. apply app_eq_app in E as (l & [[E _]|[E _]]).
      + symmetry. apply (same_length _ _ l E). congruence.
      + apply (same_length _ _ l E). congruence.
    - f_equal. apply pairs_inj. destruct H as [H _], K as [K _]. apply app_eq_app in E as (l & [[E _]|[E _]]).
      + symmetry. apply (same_length _ _ l E). rewrite !pairs_length. congruence.
      + apply (same_length _ _ l E). rewrite !pairs_length. congruence. }
  split; [reflexivity|]. exact (app_inv_head _ _ _ E).
Qed.
Print Assumptions C131_hash.

(** C131: a host that comes in again in other letters finds its entry, under any attribute. *)
Theorem C131_spelling : forall idna c c' s t v w, (forall s t, same_text s t -> idna s = idna t) -> same_text s t ->
  valid_str s -> valid_str t -> host_parse_str idna c s = Ok v -> host_parse_str idna c' t = Ok w ->
  host_cmp (hv_host v) (hv_host w) = Eq /\ host_eqb (hv_host v) (hv_host w) = true /\ host_hash (hv_host v) = host_hash (hv_host w).
Proof.
  intros idna c c' s t v w I T S S' H K.
  destruct (C100_names idna I s t T) as [_ N]. destruct (N c') as [N' _]. rewrite <- N' in K. clear N N'.
  assert (hv_host v = hv_host w) as ->.
  { assert (forall c u, host_parse_str idna c s = Ok u -> yields host_shown (host_parse_str idna (hcfg Allow Allow Allow) s) (host_shown u)) as Y.
    { intros [l p two] u E. assert (yields host_shown (host_parse_str idna (hcfg l p two) s) (host_shown u)) as X by (exists u; split; [exact E|reflexivity]).
      apply C103_host in X; [|exact S]. destruct X as (_ & X & _). apply C103_host in X; [|exact S]. apply X. }
    apply Y in H, K. destruct H as (u & H & E), K as (u' & K & E'). rewrite H in K. injection K as <-. rewrite E in E'.
    unfold host_shown in E'. congruence. }
  destruct (C131_order (hv_host w) (hv_host w)) as (A & B & _). split; [now apply B|]. split; [now apply A|reflexivity].
Qed.
Print Assumptions C131_spelling.

(** Finding. The order is not that of the printed hosts. *)
Theorem C131_display_order_refuted : exists h k, returned idna_ascii h /\ returned idna_ascii k /\ host_cmp h k = Lt /\
  before (host_display k) (host_display h).
Proof.
  exists (HIPv4 [9; 0; 0; 1]), (HIPv4 [10; 0; 0; 1]).
  split; [left; exists (hcfg Allow Allow Allow), (bs "9.0.0.1"); eexists; split; [ascii_str|]; split; vm_compute; reflexivity|].
  split; [left; exists (hcfg Allow Allow Allow), (bs "10.0.0.1"); eexists; split; [ascii_str|]; split; vm_compute; reflexivity|].
  split; [reflexivity|]. right. exists [], 49, 57. do 2 eexists. split; [lia|]. split; vm_compute; reflexivity.
Qed.
Print Assumptions C131_display_order_refuted.

(** Finding. Two addresses at one machine may have hosts that are printed alike and are different keys. *)
Theorem C131_display_key_refuted : exists s t v w, let c := ecfg false Allow Allow Allow false in valid_str s /\ valid_str t /\
  (forall prof, email_parse_str idna_ascii prof c s = Ok v /\ email_parse_str idna_ascii prof c t = Ok w) /\
  host_display (ev_domain v) = host_display (ev_domain w) /\ host_eqb (ev_domain v) (ev_domain w) = false.
Proof.
  exists (bs "a@1.2.3.4"), (bs "a@[1.2.3.4]").
  eexists {| ev_domain := HDomain (bs "1.2.3.4") |}, {| ev_domain := HIPv4 [1; 2; 3; 4] |}. cbn zeta.
  split; [ascii_str|]. split; [ascii_str|].
  split; [intros []; split; vm_compute; reflexivity|]. split; vm_compute; reflexivity.
Qed.
Print Assumptions C131_display_key_refuted.

Example C131_example :
  (exists v w u x, host_parse_str idna_ascii (hcfg Allow Allow Allow) (bs "B.example.org:80") = Ok v /\
    host_parse_str idna_ascii (hcfg Disallow Allow Must) (bs "b.EXAMPLE.org:80") = Ok w /\
    host_parse_str idna_ascii (hcfg Allow Allow Allow) (bs "9.0.0.1") = Ok u /\
    host_parse_str idna_ascii (hcfg Allow Allow Allow) (bs "::1") = Ok x /\
    host_cmp (hv_host v) (hv_host w) = Eq /\ host_hash (hv_host v) = host_hash (hv_host w) /\
    host_cmp (hv_host v) (hv_host u) = Lt /\ host_cmp (hv_host x) (hv_host u) = Gt /\
    host_hash (hv_host u) = [1; 0; 0; 0; 0; 0; 0; 0; 9; 0; 0; 1] /\ host_eqb (hv_host u) (hv_host x) = false) /\
  same_text (bs "B.example.org:80") (bs "b.EXAMPLE.org:80") /\
  (returned idna_ascii (HDomain (bs "b.org")) /\ returned idna_ascii (HIPv4 [9; 0; 0; 1]) /\ idna_laws idna_ascii) /\
  (before (bs "a.org") (bs "b.org") /\ before (bs "a") (bs "a.org") /\ host_cmp (HDomain (bs "Z")) (HDomain (bs "a")) = Lt) /\
  (v4_addr [9; 0; 0; 1] /\ number 256 [9; 0; 0; 1] = 150994945 /\ host_cmp (HIPv4 [9; 0; 0; 255]) (HIPv4 [9; 0; 1; 0]) = Lt) /\
  (v6_addr [0; 0; 0; 0; 0; 0; 0; 1] /\ number 65536 [0; 0; 0; 0; 0; 65535; 258; 772] = 281470698652420).
Proof.
  split; [do 4 eexists; repeat apply conj; vm_compute; reflexivity|].
  split; [apply st_of_lower; reflexivity|].
  split; [split; [|split; [|exact idna_ascii_laws]]; left; exists (hcfg Allow Allow Allow);
          [exists (bs "B.org")|exists (bs "9.0.0.1")]; eexists; (split; [ascii_str|]); split; vm_compute; reflexivity|].
  split; [split; [right; exists [], 97, 98; do 2 eexists; split; [lia|]; split; vm_compute; reflexivity|]; split; [|reflexivity];
          left; exists (bs ".org"); split; [discriminate|reflexivity]|].
  split; [split; [split; [reflexivity|repeat constructor]|]; split; reflexivity|].
  split; [split; [reflexivity|repeat constructor]|]. reflexivity.
Qed.
