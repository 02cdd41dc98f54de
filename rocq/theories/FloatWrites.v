(** Reading a float from a text gives the float the text writes. *)
From Verif Require Import Base RangeModel NumberModel NumberSpec NumberProofs NumberCast NumberRound
  FloatModel FloatSpec FloatRound FloatNear FloatUnique FloatText.
From Coq Require Import Floats.SpecFloat.
Local Open Scope Z_scope.

(** Rounding depends only on the number, not on how it is written as a fraction. *)
Lemma rounds_ratio t sg p q p' q' f : 0 < q -> 0 < q' -> p * q' = p' * q ->
  rounds_nearest t sg p q f -> rounds_nearest t sg p' q' f.
Proof.
  intros Hq Hq' He (V & S & O & N).
  assert (OE : overflows t p' q' <-> overflows t p q).
  { unfold overflows. set (a := (2 ^ (fprec t + 1) - 1) * 2 ^ (femax t - fprec t)). clearbody a.
    split; intros H; [assert (a * q * q' <= 2 * p * q') by nia|assert (a * q' * q <= 2 * p' * q) by nia]; nia. }
  split; [exact V|]. split; [exact S|]. split; [rewrite OE; exact O|]. rewrite OE. intros NO.
  destruct (N NO) as (z & X & M). exists z. split; [exact X|]. intros g y Hg Hy x'. specialize (M g y Hg Hy). cbv zeta in M.
  set (x := if sg then - p else p) in *.
  assert (Hx : x * q' = x' * q) by (unfold x, x'; destruct sg; lia).
  assert (D : forall w, distance x' q' w * q = distance x q w * q').
  { intros w. unfold distance. rewrite <- (Z.abs_eq q) at 1 by lia. rewrite <- (Z.abs_eq q') at 2 by lia. rewrite <- !Z.abs_mul. f_equal.
    replace ((x' * 2 ^ 1074 - w * q') * q) with ((x' * q) * 2 ^ 1074 - w * q' * q) by ring. rewrite <- Hx. ring. }
  pose proof (D z) as Dz. pose proof (D y) as Dy. destruct M as [M1 M2]. split; [nia|]. intros Hn E. apply M2; [exact Hn|]. nia.
Qed.

Lemma big_overflows t p q : 0 < q -> 10 ^ 400 * q <= p -> overflows t p q.
Proof.
  intros Hq H. unfold overflows.
  assert ((2 ^ (fprec t + 1) - 1) * 2 ^ (femax t - fprec t) <= 2 * 10 ^ 400) by (destruct t; vm_compute; discriminate).
  nia.
Qed.

Lemma big_inf t sg p q : 0 < q -> 10 ^ 400 * q <= p -> rounds_nearest t sg p q (S754_infinity sg).
Proof.
  intros Hq H. pose proof (big_overflows t p q Hq H) as O. split; [reflexivity|]. split; [reflexivity|]. split; [reflexivity|]. contradiction.
Qed.

Lemma tiny_zero t sg p q : 0 <= p -> p * 10 ^ 400 < q -> rounds_nearest t sg p q (S754_zero sg).
Proof.
  intros Hp H. assert (Hq : 0 < q) by (assert (0 < 10 ^ 400) by reflexivity; nia).
  assert (Ht : 2 * (p * 2 ^ 1074) < q).
  { assert (2 * 2 ^ 1074 <= 10 ^ 400) by (vm_compute; discriminate). nia. }
  split; [reflexivity|]. split; [reflexivity|]. split.
  - unfold overflows. intros O. exfalso.
    assert (1 <= (2 ^ (fprec t + 1) - 1) * 2 ^ (femax t - fprec t)) by (destruct t; vm_compute; discriminate).
    assert (1 <= 2 ^ 1074) by (vm_compute; discriminate). nia.
  - intros _. exists 0. split; [reflexivity|]. intros g y _ _ x. unfold distance. rewrite Z.mul_0_l, Z.sub_0_r.
    assert (Hx : Z.abs (x * 2 ^ 1074) = p * 2 ^ 1074).
    { unfold x. rewrite Z.abs_mul. rewrite (Z.abs_eq (2 ^ 1074)) by (vm_compute; discriminate). destruct sg; rewrite ?Z.abs_opp, Z.abs_eq by lia; reflexivity. }
    split; [|intros _ _; exact I]. destruct (Z.eq_dec y 0) as [->|Hy]; [rewrite Z.mul_0_l, Z.sub_0_r; lia|].
    assert (q <= Z.abs (y * q)) by (rewrite Z.abs_mul, (Z.abs_eq q) by lia; nia). lia.
Qed.

Lemma is_fraction_eq m k p q p' q' : is_fraction m k p q -> is_fraction m k p' q' -> p * q' = p' * q.
Proof.
  intros [Hq [[K ->]|[K E]]] [Hq' [[K' ->]|[K' E']]]; try lia; try ring.
  assert (0 < 10 ^ (- k)) by (apply Z.pow_pos_nonneg; lia).
  apply (Z.mul_reg_r _ _ (10 ^ (- k))); [lia|].
  replace (p * q' * 10 ^ (- k)) with (p * 10 ^ (- k) * q') by ring. replace (p' * q * 10 ^ (- k)) with (p' * 10 ^ (- k) * q) by ring.
  rewrite E, E'. ring.
Qed.

Lemma is_fraction_ex m k : 0 <= m -> exists p q, is_fraction m k p q /\ 0 <= p /\ 0 < q.
Proof.
  intros Hm. destruct (Z_le_gt_dec 0 k) as [C|C].
  - exists (m * 10 ^ k), 1. split; [split; [lia|left; split; [auto|lia]]|].
    split; [apply Z.mul_nonneg_nonneg; [auto|apply Z.pow_nonneg; lia]|lia].
  - exists m, (10 ^ (- k)). assert (0 < 10 ^ (- k)) by (apply Z.pow_pos_nonneg; lia). split; [split; [auto|right; split; [lia|auto]]|lia].
Qed.

Lemma round_decimal_spec t sg m k p q : 0 <= m -> is_fraction m k p q -> rounds_nearest t sg p q (round_decimal t sg m k).
Proof.
  intros Hm HF. destruct HF as [Hq HF']. assert (HF : is_fraction m k p q) by (split; auto). unfold round_decimal. destruct (Z.leb_spec 0 k) as [C|C].
  - assert (P : 0 <= m * 10 ^ k) by (apply Z.mul_nonneg_nonneg; [auto|apply Z.pow_nonneg; lia]).
    apply (rounds_ratio t sg (m * 10 ^ k) 1); [lia|lia| |apply round_ratio_spec; lia].
    apply (is_fraction_eq m k); [|exact HF]. split; [lia|left; split; lia].
  - assert (P : 0 < 10 ^ (- k)) by (apply Z.pow_pos_nonneg; lia).
    apply (rounds_ratio t sg m (10 ^ (- k))); [lia|lia| |apply round_ratio_spec; lia].
    apply (is_fraction_eq m k); [|exact HF]. split; [lia|right; split; lia].
Qed.

(** Dropping the last digits of a huge exponent does not change the float. *)
Lemma saturated t (sg sx : bool) m L nf p q v sat : 0 <= m < 10 ^ L -> 0 <= nf -> 0 <= L ->
  0 <= sat <= v -> sat = v \/ (65536 <= sat /\ nf <= 65000 /\ L <= 65000) ->
  is_fraction m ((if sx then - v else v) - nf) p q ->
  rounds_nearest t sg p q (round_decimal t sg m ((if sx then - sat else sat) - nf)).
Proof.
  intros Hm Hn HL Hs [->|(Hbig & Hn2 & HL2)] HF; [apply round_decimal_spec; [lia|exact HF]|].
  destruct (Z.eq_dec m 0) as [->|Hm0].
  { assert (p = 0).
    { destruct HF as [Hq [[K ->]|[K E]]]; [lia|]. assert (0 < 10 ^ (- ((if sx then - v else v) - nf))) by (apply Z.pow_pos_nonneg; lia). nia. }
    subst p. destruct HF as [Hq _]. unfold round_decimal. rewrite Z.mul_0_l.
    set (k := (if sx then - sat else sat) - nf). destruct (Z.leb_spec 0 k).
    - apply (rounds_ratio t sg 0 1); [lia|lia|lia|apply round_ratio_spec; lia].
    - assert (0 < 10 ^ (- k)) by (apply Z.pow_pos_nonneg; lia).
      apply (rounds_ratio t sg 0 (10 ^ (- k))); [lia|lia|lia|apply round_ratio_spec; lia]. }
  assert (Same : forall w, 65536 <= w -> forall p' q', is_fraction m ((if sx then - w else w) - nf) p' q' ->
    rounds_nearest t sg p' q' (if sx then S754_zero sg else S754_infinity sg)).
  { intros w Hw p' q' HF'. destruct sx.
    - destruct HF' as [Hq [[K _]|[K E]]]; [lia|].
      assert (C : 10 ^ L * 10 ^ 400 <= 10 ^ (- (- w - nf))).
      { rewrite <- Z.pow_add_r by lia. apply Z.pow_le_mono_r; lia. }
      assert (P4 : 0 < 10 ^ 400) by reflexivity.
      assert (Hp : 0 <= p'). { assert (0 < 10 ^ (- (- w - nf))) by (apply Z.pow_pos_nonneg; lia). nia. }
      apply tiny_zero; [exact Hp|]. 
      assert (PL : 0 < 10 ^ L) by (apply Z.pow_pos_nonneg; lia).
      assert (p' * 10 ^ 400 * 10 ^ L <= m * q') by nia. nia.
    - destruct HF' as [Hq [[K ->]|[K _]]]; [|lia].
      assert (C : 10 ^ 400 <= 10 ^ (w - nf) /\ 0 < 10 ^ (w - nf)) by (split; [apply Z.pow_le_mono_r; lia|apply Z.pow_pos_nonneg; lia]).
      apply big_inf; [exact Hq|]. apply Z.mul_le_mono_nonneg_r; [lia|]. revert C. generalize (10 ^ 400) as a, (10 ^ (w - nf)) as b. intros a b C. nia. }
  pose proof (Same v ltac:(lia) p q HF) as R1.
  destruct (is_fraction_ex m ((if sx then - sat else sat) - nf) ltac:(lia)) as (p' & q' & HF' & Hp' & Hq').
  pose proof (Same sat ltac:(lia) p' q' HF') as R2.
  pose proof (round_decimal_spec t sg m _ p' q' ltac:(lia) HF') as R3.
  rewrite <- (rounds_nearest_unique t sg p' q' _ _ Hq' R2 R3). exact R1.
Qed.

Lemma eq_ignore_case_iff a b : eq_ignore_case a b = true <-> List.map lower a = List.map lower b.
Proof.
  revert b. induction a as [|x a IH]; intros [|y b]; simpl; try (split; [discriminate|discriminate]); [tauto|].
  rewrite andb_true_iff, N.eqb_eq, IH. split; [intros [-> ->]; reflexivity|intros H; injection H; auto].
Qed.

Lemma word_first w s : case_text w s -> match w with [] => False | c :: _ => (97 <= c <= 122)%N end ->
  read_decimal s = None /\ no_sign_first s.
Proof.
  unfold case_text. intros <- H. destruct s as [|c s]; [contradiction|]. simpl in H.
  assert (Hc : (65 <= c <= 122)%N) by (unfold lower in H; destruct ((65 <=? c) && (c <=? 90))%N%bool eqn:E; lia).
  split; [|simpl; lia]. unfold read_decimal. simpl.
  replace (fdigit c) with false by (unfold fdigit; lia).
  replace (c =? 46)%N with false by lia. reflexivity.
Qed.

(** The exponent [v] stands at the end of the text. *)
Definition ends_with (r : list N) (sx : bool) (v : Z) : Prop :=
  v = 0 \/ exists u c g ds, r = u ++ c :: g ++ ds /\ (c = 101 \/ c = 69)%N /\ sign_text g sx /\ digit_run ds v.

Lemma ends_app u r sx v : ends_with r sx v -> ends_with (u ++ r) sx v.
Proof. intros [->|(w & c & g & ds & -> & H)]; [left; reflexivity|]. right. exists (u ++ w), c, g, ds. rewrite app_assoc. auto. Qed.

Lemma ends_small s r g sx v sat (a b : nat) : s = g ++ r -> ends_with r sx v -> readable s -> 0 <= sat <= v ->
  sat = v \/ 65536 <= sat -> (a <= List.length r)%nat -> (b <= List.length r)%nat ->
  sat = v \/ (65536 <= sat /\ Z.of_nat a <= 65000 /\ Z.of_nat b <= 65000).
Proof.
  intros -> He [HL|HS] Hs [->|Hb] Ha Hbb; try (left; reflexivity); [right; rewrite app_length in HL; lia|].
  exfalso. destruct (ends_app g r sx v He) as [->|(u & c & g' & ds & E & Hc & Hg & Hd)]; [lia|].
  pose proof (HS u c g' sx ds v E Hc Hg Hd). lia.
Qed.

Lemma decimal_scanned r m k : decimal_text r m k -> exists ints fr fracs x e sx v,
  scanned r ints fr fracs x e /\ m = digits_number (ints ++ fracs) /\ k = (if sx : bool then - v else v) - Z.of_nat (List.length fracs) /\
  exists sat, e = (if sx then - sat else sat) /\ 0 <= sat <= v /\ (sat = v \/ 65536 <= sat) /\ ends_with r sx v.
Proof.
  assert (EX : forall x e, exponent_text x e -> exists e' (sx : bool) v sat, read_exponent x = Some e' /\ e = (if sx then - v else v) /\
    e' = (if sx then - sat else sat) /\ 0 <= sat <= v /\ (sat = v \/ 65536 <= sat) /\ ends_with x sx v).
  { intros x e H. destruct H as [|c g sg ds v Hc Hg Hne Hr].
    - exists 0, false, 0, 0. split; [reflexivity|]. split; [reflexivity|]. split; [reflexivity|]. split; [lia|]. split; [lia|left; reflexivity].
    - pose proof Hr as Hrun. apply digit_run_iff in Hr. destruct Hr as [Hr ->]. destruct (sat_spec ds Hr) as [S1 S2].
      exists (if sg then - sat_number ds else sat_number ds), sg, (digits_number ds), (sat_number ds).
      split; [apply read_exponent_spec; right; exists c, g, sg, ds; auto 10|].
      split; [reflexivity|]. split; [reflexivity|]. split; [exact S1|]. split; [exact S2|]. right. exists [], c, g, ds. auto. }
  intros H. destruct H as [ints x m e Hne Hr Hx|ints fracs x m e Hne Hr Hx]; destruct (EX x e Hx) as (e' & sx & v & sat & R & -> & E' & S1 & S2 & S3);
    apply digit_run_iff in Hr; destruct Hr as [Hr ->].
  - exists ints, [], [], x, e', sx, v. rewrite app_nil_r. split; [|split; [reflexivity|split; [simpl; lia|exists sat; auto using ends_app]]].
    split; [reflexivity|]. rewrite app_nil_r. split; [exact Hr|]. split; [exact Hne|]. split; [left; auto|exact R].
  - exists ints, (46%N :: fracs), fracs, x, e', sx, v. split; [|split; [reflexivity|split; [reflexivity|exists sat; auto 10 using ends_app]]].
    split; [reflexivity|]. auto.
Qed.

Lemma scanned_decimal r ints fr fracs x e : scanned r ints fr fracs x e -> exists (sx : bool) v sat,
  decimal_text r (digits_number (ints ++ fracs)) ((if sx then - v else v) - Z.of_nat (List.length fracs)) /\
  e = (if sx then - sat else sat) /\ 0 <= sat <= v /\ (sat = v \/ 65536 <= sat) /\ ends_with r sx v.
Proof.
  intros (-> & Hd & Hne & Hfr & Hx).
  assert (EX : exists (sx : bool) v sat, exponent_text x (if sx then - v else v) /\ e = (if sx then - sat else sat) /\ 0 <= sat <= v /\
    (sat = v \/ 65536 <= sat) /\ ends_with x sx v).
  { apply read_exponent_spec in Hx. destruct Hx as [[-> ->]|(c & g & sg & ds & -> & Hc & Hg & Hds & Had & ->)].
    - exists false, 0, 0. split; [constructor|]. split; [reflexivity|]. split; [lia|]. split; [lia|left; reflexivity].
    - destruct (sat_spec ds Had) as [S1 S2]. exists sg, (digits_number ds), (sat_number ds).
      split; [constructor; auto; apply digit_run_iff; auto|]. split; [reflexivity|]. split; [exact S1|]. split; [exact S2|].
      right. exists [], c, g, ds. split; [reflexivity|]. split; [exact Hc|]. split; [exact Hg|]. apply digit_run_iff; auto. }
  destruct EX as (sx & v & sat & Ht & S0 & S1 & S2 & S3). exists sx, v, sat. split; [|auto 10 using ends_app].
  destruct Hfr as [[-> ->]| ->].
  - rewrite app_nil_r in *. simpl ([] ++ x). simpl (Z.of_nat _). rewrite Z.sub_0_r. apply dec_int; [exact Hne|apply digit_run_iff; auto|exact Ht].
  - change (ints ++ (46%N :: fracs) ++ x) with (ints ++ [46%N] ++ fracs ++ x). apply dec_point; [exact Hne|apply digit_run_iff; auto|exact Ht].
Qed.

Lemma scanned_lengths r ints fr fracs x e : scanned r ints fr fracs x e ->
  (List.length (ints ++ fracs) <= List.length r)%nat /\ (List.length fracs <= List.length r)%nat.
Proof.
  intros (-> & _ & _ & Hfr & _). rewrite !app_length. destruct Hfr as [[-> ->]| ->]; simpl; lia.
Qed.

(** A text is read as the float it writes, and other texts are refused. *)
Lemma float_of_text_spec t s f : readable s -> float_of_text t s = Some f <-> writes t s f.
Proof.
  intros HL. split.
  - unfold float_of_text. pose proof (take_sign_spec s) as T. destruct (take_sign s) as [sg r]. destruct T as (g & -> & Hg & _).
    destruct (read_decimal r) as [[m k]|] eqn:E.
    + intros H. injection H as <-. apply read_decimal_spec in E. destruct E as (ints & fr & fracs & x & e & Hs & -> & ->).
      destruct (scanned_lengths _ _ _ _ _ _ Hs) as [L1 L2]. destruct (scanned_decimal _ _ _ _ _ _ Hs) as (sx & v & sat & Hd & -> & Hsat & Hc & He).
      pose proof (ends_small _ r g sx v sat _ _ eq_refl He HL Hsat Hc L2 L1) as Hc'.
      exists g, sg, r. split; [reflexivity|]. split; [exact Hg|]. left.
      destruct Hs as (_ & Had & _). pose proof (digits_bound _ Had) as B.
      destruct (is_fraction_ex (digits_number (ints ++ fracs)) ((if sx then - v else v) - Z.of_nat (List.length fracs)) ltac:(lia)) as (p & q & HF & Hp & Hq).
      exists (digits_number (ints ++ fracs)), ((if sx then - v else v) - Z.of_nat (List.length fracs)), p, q.
      split; [exact Hd|]. split; [exact HF|].
      apply (saturated t sg sx _ (Z.of_nat (List.length (ints ++ fracs))) _ p q v sat); auto; lia.
    + intros H. exists g, sg, r. split; [reflexivity|]. split; [exact Hg|]. right. unfold case_text.
      destruct (eq_ignore_case r (bs "inf")) eqn:E1; [|destruct (eq_ignore_case r (bs "infinity")) eqn:E2; [|destruct (eq_ignore_case r (bs "nan")) eqn:E3]];
        simpl in H; try discriminate; injection H as <-; try apply eq_ignore_case_iff in E1; try apply eq_ignore_case_iff in E2; try apply eq_ignore_case_iff in E3.
      * left. split; [left; exact E1|reflexivity].
      * left. split; [right; exact E2|reflexivity].
      * right. split; [exact E3|reflexivity].
  - intros (g & sg & r & -> & Hg & H). unfold float_of_text.
    destruct H as [(m & k & p & q & Hd & HF & HR)|[[Hw ->]|[Hw ->]]].
    + assert (NS : no_sign_first r).
      { apply decimal_first in Hd. destruct r as [|c r]; [contradiction|]. simpl. lia. }
      rewrite (take_sign_app g sg) by auto.
      destruct (decimal_scanned r m k Hd) as (ints & fr & fracs & x & e & sx & v & Hs & -> & -> & sat & -> & Hsat & Hc & He).
      destruct (scanned_lengths _ _ _ _ _ _ Hs) as [L1 L2].
      pose proof (ends_small _ r g sx v sat _ _ eq_refl He HL Hsat Hc L2 L1) as Hc'.
      assert (RD : read_decimal r = Some (digits_number (ints ++ fracs), (if sx then - sat else sat) - Z.of_nat (List.length fracs))).
      { apply read_decimal_spec. exists ints, fr, fracs, x, (if sx then - sat else sat). auto. }
      rewrite RD. f_equal. destruct Hs as (_ & Had & _). pose proof (digits_bound _ Had) as B. destruct HF as [Hq HF'].
      apply (rounds_nearest_unique t sg p q); [exact Hq| |exact HR].
      apply (saturated t sg sx _ (Z.of_nat (List.length (ints ++ fracs))) _ p q v sat); auto; try lia. split; auto.
    + assert (W : read_decimal r = None /\ no_sign_first r) by (destruct Hw as [Hw|Hw]; apply (word_first _ _ Hw); simpl; lia).
      destruct W as [W1 W2]. rewrite (take_sign_app g sg), W1 by auto.
      destruct Hw as [Hw|Hw]; change (case_text (List.map lower (bs "inf")) r) in Hw || change (case_text (List.map lower (bs "infinity")) r) in Hw;
        apply eq_ignore_case_iff in Hw; rewrite Hw; rewrite ?orb_true_r; reflexivity.
    + destruct (word_first _ _ Hw ltac:(simpl; lia)) as [W1 W2]. rewrite (take_sign_app g sg), W1 by auto.
      destruct (eq_ignore_case r (bs "inf")) eqn:E1; [apply eq_ignore_case_iff in E1; unfold case_text in Hw; rewrite Hw in E1; discriminate|].
      destruct (eq_ignore_case r (bs "infinity")) eqn:E2; [apply eq_ignore_case_iff in E2; unfold case_text in Hw; rewrite Hw in E2; discriminate|].
      change (case_text (List.map lower (bs "nan")) r) in Hw. apply eq_ignore_case_iff in Hw. rewrite Hw. reflexivity.
Qed.
