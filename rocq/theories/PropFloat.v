(** C77: number texts.  A text is accepted exactly when it follows the grammar of numbers and the
    float nearest to the number it writes is allowed. *)
From Verif Require Import Base RangeModel NumberModel NumberSpec NumberProofs NumberCast NumberRound
  FloatModel FloatSpec FloatRound FloatNear FloatUnique FloatText FloatWrites IntStr IntStrProofs PropNumber.
From Coq Require Import Floats.SpecFloat.
Local Open Scope Z_scope.

(** A number, infinity or NaN as text, whatever the float type. *)
Definition number_text (s : list N) : Prop :=
  exists g sg r, s = g ++ r /\ sign_text g sg /\
    ((exists m k, decimal_text r m k) \/ case_text (bs "inf") r \/ case_text (bs "infinity") r \/ case_text (bs "nan") r).

Lemma decimal_nonneg r m k : decimal_text r m k -> 0 <= m.
Proof.
  intros H. destruct H as [ints x m e _ Hr _|ints fracs x m e _ Hr _]; apply digit_run_iff in Hr; destruct Hr as [Hr ->];
    apply digits_bound in Hr; lia.
Qed.

(** C77: every text of the grammar writes a float of each type, and no other text does. *)
Theorem C77_grammar : forall t s, (exists f, writes t s f) <-> number_text s.
Proof.
  intros t s. split.
  - intros (f & g & sg & r & -> & Hg & H). exists g, sg, r. split; [reflexivity|]. split; [exact Hg|].
    destruct H as [(m & k & _ & _ & Hd & _)|[[H _]|[H _]]]; [left; exists m, k; exact Hd| |]; tauto.
  - intros (g & sg & r & -> & Hg & H). destruct H as [(m & k & Hd)|H].
    + pose proof (decimal_nonneg r m k Hd) as Hm. destruct (is_fraction_ex m k Hm) as (p & q & HF & _ & _).
      exists (round_decimal t sg m k), g, sg, r. split; [reflexivity|]. split; [exact Hg|]. left. exists m, k, p, q.
      split; [exact Hd|]. split; [exact HF|]. apply round_decimal_spec; auto.
    + assert (W : exists f, ((case_text (bs "inf") r \/ case_text (bs "infinity") r) /\ f = S754_infinity sg) \/ (case_text (bs "nan") r /\ f = S754_nan)).
      { destruct H as [H|[H|H]]; [exists (S754_infinity sg)|exists (S754_infinity sg)|exists S754_nan]; tauto. }
      destruct W as (f & W). exists f, g, sg, r. split; [reflexivity|]. split; [exact Hg|]. right. exact W.
Qed.
Print Assumptions C77_grammar.

Lemma writes_float t s f : writes t s f -> is_float_of t f.
Proof.
  intros (g & sg & r & _ & _ & H). destruct H as [(m & k & p & q & _ & _ & H & _)|[[_ ->]|[_ ->]]]; [exact H|reflexivity|reflexivity].
Qed.

(** C77: a text is accepted exactly when the float it writes is allowed, with that float, and the
    parse error is reported exactly for texts that write none. *)
Theorem C77_number_text_exact : forall t r nan s, good_range t r -> ~ x_degenerate r -> readable s ->
  (forall f, num_parse_str (float_of_text t) r nan s = Ok f <->
     writes t s f /\ match xval f with Some x => nan <> Must /\ x_allowed r x | None => nan <> Disallow end) /\
  (num_parse_str (float_of_text t) r nan s = Err NParseFloat <-> ~ number_text s) /\
  num_parse_str (float_of_text t) r nan s <> Panic.
Proof.
  intros t r nan s Hr Hd HL. destruct (number_strings_lemma (float_of_text t) t r nan s) as (E & _ & _). rewrite E.
  pose proof (fun f => float_of_text_spec t s f HL) as S.
  destruct (float_of_text t s) as [f0|].
  - assert (W : writes t s f0) by (apply S; reflexivity). pose proof (writes_float t s f0 W) as V0.
    destruct (number_exact_lemma t r nan f0 Hr Hd V0) as [N1 N2].
    split; [|split; [|exact N2]].
    + intros f. rewrite N1. split; intros [A B]; [subst f; auto|]. apply S in A. injection A as <-. auto.
    + split.
      * intros H. exfalso. destruct (xval f0) as [x|] eqn:Ex.
        -- destruct (number_error_lemma t r nan f0 x _ Hr Hd V0 Ex H) as [[C _]|[[C _]|[[C _]|[C _]]]]; discriminate.
        -- apply xval_nan in Ex. subst f0. pose proof (num_range_nan t r Hr) as RN. unfold own_parse_f, num_parse_f32, num_parse_f64, v_parse_f in H.
           destruct t; rewrite RN in H; simpl in H; destruct nan; simpl in H; discriminate.
      * intros H. exfalso. apply H. apply (C77_grammar t). exists f0. exact W.
  - split; [|split; [|discriminate]].
    + intros f. split; [discriminate|]. intros [A _]. apply S in A. discriminate.
    + split; [|reflexivity]. intros _ H. apply (C77_grammar t) in H. destruct H as [f H]. apply S in H. discriminate.
Qed.
Print Assumptions C77_number_text_exact.

Lemma run_span ds v x : digit_run ds v -> no_digit_first x -> span_digits (ds ++ x) = (ds, x).
Proof. intros H. apply digit_run_iff in H. apply span_app, H. Qed.

Lemma exponent_head x e : exponent_text x e -> match x with [] => True | c :: _ => (c = 101 \/ c = 69)%N end.
Proof. intros H. destruct H; auto. Qed.

Lemma exponent_one x e e' : exponent_text x e -> exponent_text x e' -> e = e'.
Proof.
  intros H H'. destruct H as [|c g sg ds v Hc Hg Hne Hd]; inversion H' as [|c' g' sg' ds' v' Hc' Hg' Hne' Hd']; subst; [reflexivity|].
  assert (F : forall ds v, ds <> [] -> digit_run ds v -> no_sign_first ds).
  { intros l w Hl Hw. apply digit_run_iff in Hw. destruct Hw as [Hw _]. destruct l; [congruence|]. inversion Hw; subst. apply digit_no_sign. auto. }
  pose proof (take_sign_app g sg ds Hg (F _ _ Hne Hd)) as T. pose proof (take_sign_app g' sg' ds' Hg' (F _ _ Hne' Hd')) as T'.
  match goal with E : _ ++ _ = _ ++ _ |- _ => rewrite E in T' end. rewrite T in T'. injection T' as <- <-.
  apply digit_run_iff in Hd, Hd'. destruct Hd as [_ ->], Hd' as [_ ->]. reflexivity.
Qed.

Lemma run_one ds v v' : digit_run ds v -> digit_run ds v' -> v = v'.
Proof. intros H H'. apply digit_run_iff in H, H'. destruct H as [_ ->], H' as [_ ->]. reflexivity. Qed.

Lemma decimal_one r m k m' k' : decimal_text r m k -> decimal_text r m' k' -> m = m' /\ k = k'.
Proof.
  assert (NX : forall x e, exponent_text x e -> no_digit_first x).
  { intros x e H. apply exponent_head in H. destruct x; [exact I|]. simpl. destruct H as [-> | ->]; reflexivity. }
  assert (SP : forall a b m, digit_run (a ++ b) m -> all_digits a /\ all_digits b).
  { intros a b w H. apply digit_run_iff in H. destruct H as [H _]. apply Forall_app in H. exact H. }
  intros H H'. destruct H as [ints x m e Hne Hr Hx|ints fracs x m e Hne Hr Hx];
    inversion H' as [ints' x' m0 e' Hne' Hr' Hx' E|ints' fracs' x' m0 e' Hne' Hr' Hx' E]; subst.
  - pose proof (run_span _ _ _ Hr (NX _ _ Hx)) as S. pose proof (run_span _ _ _ Hr' (NX _ _ Hx')) as S'.
    rewrite E in S'. rewrite S in S'. injection S' as <- <-. split; [eapply run_one; eauto|eapply exponent_one; eauto].
  - exfalso. pose proof (run_span _ _ _ Hr (NX _ _ Hx)) as S. destruct (SP _ _ _ Hr') as [A _].
    pose proof (span_app ints' (46%N :: fracs' ++ x') A eq_refl) as S'.
    cbn [app] in E, S'. rewrite E in S'. rewrite S in S'. injection S' as _ E2. apply exponent_head in Hx. rewrite E2 in Hx. destruct Hx; discriminate.
  - exfalso. pose proof (run_span _ _ _ Hr' (NX _ _ Hx')) as S. destruct (SP _ _ _ Hr) as [A _].
    pose proof (span_app ints (46%N :: fracs ++ x) A eq_refl) as S'.
    cbn [app] in E, S'. rewrite E in S. rewrite S in S'. injection S' as _ E2. apply exponent_head in Hx'. rewrite E2 in Hx'. destruct Hx'; discriminate.
  - destruct (SP _ _ _ Hr) as [A B]. destruct (SP _ _ _ Hr') as [A' B'].
    pose proof (span_app ints ([46%N] ++ fracs ++ x) A eq_refl) as S. pose proof (span_app ints' ([46%N] ++ fracs' ++ x') A' eq_refl) as S'.
    cbn [app] in E, S, S'. rewrite E in S'. rewrite S in S'. injection S' as <- E2.
    pose proof (span_app fracs x B (NX _ _ Hx)) as S2. pose proof (span_app fracs' x' B' (NX _ _ Hx')) as S2'.
    rewrite <- E2 in S2'. rewrite S2 in S2'. injection S2' as <- <-.
    split; [eapply run_one; eauto|]. f_equal. eapply exponent_one; eauto.
Qed.

Lemma sign_one g sg r g' sg' r' : sign_text g sg -> sign_text g' sg' -> no_sign_first r -> no_sign_first r' ->
  g ++ r = g' ++ r' -> sg = sg' /\ r = r'.
Proof.
  intros H H' N N' E. pose proof (take_sign_app g sg r H N) as T. pose proof (take_sign_app g' sg' r' H' N') as T'.
  rewrite E in T. rewrite T in T'. injection T' as <- <-. auto.
Qed.

(** C77: a text writes at most one float. *)
Theorem C77_one_float : forall t s f f', writes t s f -> writes t s f' -> f = f'.
Proof.
  intros t s f f' (g & sg & r & -> & Hg & H) (g' & sg' & r' & E & Hg' & H').
  assert (W : forall w r, case_text w r -> match w with [] => False | c :: _ => (97 <= c <= 122)%N end ->
                          no_sign_first r /\ forall m k, ~ decimal_text r m k).
  { intros w l Hw Hl. destruct (word_first w l Hw Hl) as [_ N]. split; [exact N|]. intros m k Hd. apply decimal_first in Hd.
    unfold case_text in Hw. destruct l as [|c l]; [contradiction|]. subst w. simpl in Hl.
    unfold lower in Hl. destruct ((65 <=? c) && (c <=? 90))%N%bool eqn:X; lia. }
  assert (D : forall r m k, decimal_text r m k -> no_sign_first r).
  { intros l m k Hd. apply decimal_first in Hd. destruct l; [contradiction|]. simpl. lia. }
  assert (W3 : forall r, case_text (bs "inf") r \/ case_text (bs "infinity") r \/ case_text (bs "nan") r -> no_sign_first r /\ forall m k, ~ decimal_text r m k).
  { intros l [X|[X|X]]; apply (W _ _ X); simpl; lia. }
  assert (N : no_sign_first r).
  { destruct H as [(m & k & p & q & Hd & _)|[[Hw _]|[Hw _]]]; [eapply D; eauto|apply W3; tauto|apply W3; tauto]. }
  assert (N' : no_sign_first r').
  { destruct H' as [(m & k & p & q & Hd & _)|[[Hw _]|[Hw _]]]; [eapply D; eauto|apply W3; tauto|apply W3; tauto]. }
  destruct (sign_one _ _ _ _ _ _ Hg Hg' N N' E) as [<- <-].
  destruct H as [(m & k & p & q & Hd & HF & HR)|[[Hw ->]|[Hw ->]]]; destruct H' as [(m' & k' & p' & q' & Hd' & HF' & HR')|[[Hw' ->]|[Hw' ->]]].
  - destruct (decimal_one _ _ _ _ _ Hd Hd') as [<- <-]. pose proof (is_fraction_eq _ _ _ _ _ _ HF HF') as EQ.
    destruct HF as [Hq _], HF' as [Hq' _]. apply (rounds_nearest_unique t sg p q); [exact Hq|exact HR|].
    apply (rounds_ratio t sg p' q'); auto.
  - exfalso. destruct (W3 r ltac:(tauto)) as [_ X]. apply (X _ _ Hd).
  - exfalso. destruct (W3 r ltac:(tauto)) as [_ X]. apply (X _ _ Hd).
  - exfalso. destruct (W3 r ltac:(tauto)) as [_ X]. apply (X _ _ Hd').
  - reflexivity.
  - exfalso. unfold case_text in *. destruct Hw as [Hw|Hw]; rewrite Hw in Hw'; discriminate.
  - exfalso. destruct (W3 r ltac:(tauto)) as [_ X]. apply (X _ _ Hd').
  - exfalso. unfold case_text in *. destruct Hw' as [Hw'|Hw']; rewrite Hw in Hw'; discriminate.
  - reflexivity.
Qed.
Print Assumptions C77_one_float.

(** The number x/q is not below (not above) the bound. *)
Definition not_below (y : xnum) (x q : Z) : Prop :=
  match y with NegInf => True | Fin b => b * q <= x * 2 ^ 1074 | PosInf => False end.
Definition not_above (y : xnum) (x q : Z) : Prop :=
  match y with NegInf => False | Fin b => x * 2 ^ 1074 <= b * q | PosInf => True end.

Lemma float_max t b y : is_float_of t b -> xval b = Some (Fin y) ->
  Z.abs y <= (2 ^ fprec t - 1) * 2 ^ (femax t - fprec t) * 2 ^ 1074.
Proof.
  intros V X. destruct (float_mag b y X) as [(s & -> & ->)|(s & m & e & -> & Hy)].
  - apply Z.mul_nonneg_nonneg; [|vm_compute; discriminate]. destruct t; vm_compute; discriminate.
  - destruct (bounded_facts t m e V) as (G1 & G2 & _ & G4). destruct (digits2_bounds m) as [_ D].
    assert (Hm : Zpos m < 2 ^ fprec t) by (eapply Z.lt_le_trans; [exact D|]; apply Z.pow_le_mono_r; lia).
    assert (E : 0 < 2 ^ (e + 1074) <= 2 ^ (femax t - fprec t) * 2 ^ 1074).
    { rewrite <- Z.pow_add_r by (destruct t; simpl; lia). split; [apply Z.pow_pos_nonneg; [lia|destruct t; lia]|]. apply Z.pow_le_mono_r; lia. }
    assert (A : Z.abs y = Zpos m * 2 ^ (e + 1074)) by (destruct s; lia). rewrite A, <- Z.mul_assoc.
    apply Z.mul_le_mono_nonneg; lia.
Qed.

(** Rounding keeps every comparison with a float. *)
Lemma nearest_mono t (sg : bool) p q f b y : 0 <= p -> 0 < q -> rounds_nearest t sg p q f -> is_float_of t b -> xval b = Some y ->
  exists x', xval f = Some x' /\ (not_below y (if sg then - p else p) q -> xle y x') /\ (not_above y (if sg then - p else p) q -> xle x' y).
Proof.
  intros Hp Hq (V & S & O & N) Vb Xb.
  assert (P74 : 0 < 2 ^ 1074) by reflexivity.
  set (K := 2 ^ (femax t - fprec t)) in *.
  assert (HK : 0 < K /\ 2 ^ (fprec t + 1) = 2 * 2 ^ fprec t) by (unfold K; destruct t; split; reflexivity). destruct HK as [HK HP].
  destruct (Z_le_gt_dec ((2 ^ (fprec t + 1) - 1) * K * q) (2 * p)) as [C|C].
  - rewrite (O C). exists (if sg then NegInf else PosInf). split; [reflexivity|].
    destruct y as [|y|].
    + destruct sg; simpl; tauto.
    + pose proof (float_max t b y Vb Xb) as M. fold K in M. rewrite HP in C.
      assert (L : 2 ^ fprec t * K * 2 ^ 1074 * q - K * 2 ^ 1074 * q < p * 2 ^ 1074).
      { assert (0 < K * q) by nia. nia. }
      assert (L2 : Z.abs y * q < p * 2 ^ 1074).
      { assert (Z.abs y * q <= (2 ^ fprec t - 1) * K * 2 ^ 1074 * q) by (apply Z.mul_le_mono_nonneg_r; lia). lia. }
      assert (L3 : - (p * 2 ^ 1074) < y * q < p * 2 ^ 1074) by (destruct (Z.abs_spec y) as [[? Ea]|[? Ea]]; rewrite Ea in L2; nia).
      destruct sg; simpl; split; try tauto; intros H; lia.
    + destruct sg; simpl; tauto.
  - assert (NC : ~ overflows t p q) by (unfold overflows; fold K; lia).
    destruct (N NC) as (z & X & M). exists (Fin z). split; [exact X|]. destruct y as [|y|]; simpl; try tauto.
    destruct (M b y Vb Xb) as [D _]. cbv zeta in D. unfold distance in D. set (A := (if sg then - p else p) * 2 ^ 1074) in *.
    split; intros H; destruct (Z_le_gt_dec y z); destruct (Z_le_gt_dec z y); try lia; exfalso;
      [assert (z * q < y * q) by nia|assert (y * q < z * q) by nia]; lia.
Qed.

(** C77: a text that writes a number between the (inclusive) bounds is accepted.  The converse
    is false, see below. *)
Theorem C77_in_range_accepted_partial : forall t min max nan g sg r m k p q, good_range t (Inside min max true) ->
  nan <> Must -> readable (g ++ r) ->
  sign_text g sg -> decimal_text r m k -> is_fraction m k p q ->
  (forall b y, min = Some b -> xval b = Some y -> not_below y (if sg then - p else p) q) ->
  (forall b y, max = Some b -> xval b = Some y -> not_above y (if sg then - p else p) q) ->
  exists f, num_parse_str (float_of_text t) (Inside min max true) nan (g ++ r) = Ok f.
Proof.
  intros t min max nan g sg r m k p q Hr Hn HL Hg Hd HF Hmin Hmax.
  pose proof (decimal_nonneg r m k Hd) as Hm.
  assert (Hp : 0 <= p).
  { destruct HF as [Hq [[K ->]|[K E]]]; [apply Z.mul_nonneg_nonneg; [apply Z.mul_nonneg_nonneg; [lia|apply Z.pow_nonneg; lia]|lia]|].
    assert (0 < 10 ^ (- k)) by (apply Z.pow_pos_nonneg; lia). nia. }
  assert (Hq : 0 < q) by apply HF.
  pose proof (round_decimal_spec t sg m k p q Hm HF) as R. set (f := round_decimal t sg m k) in *.
  assert (D : ~ x_degenerate (Inside min max true)) by (intros [i Hi]; discriminate).
  destruct (C77_number_text_exact t (Inside min max true) nan (g ++ r) Hr D HL) as (A & _ & _).
  exists f. apply A. split; [exists g, sg, r; split; [reflexivity|]; split; [exact Hg|]; left; exists m, k, p, q; auto|].
  destruct Hr as [Gmin Gmax].
  destruct (nearest_mono t sg p q f (S754_zero false) (Fin 0) Hp Hq R eq_refl eq_refl) as (x & Hx & _). rewrite Hx. split; [exact Hn|].
  split; intros b y Hb Hy.
  - destruct (Gmin b Hb) as [Vb _]. destruct (nearest_mono t sg p q f b y Hp Hq R Vb Hy) as (x' & Hx' & M1 & _).
    assert (x' = x) by congruence. subst x'. apply M1. apply (Hmin b y); auto.
  - destruct (Gmax b Hb) as [Vb _]. destruct (nearest_mono t sg p q f b y Hp Hq R Vb Hy) as (x' & Hx' & _ & M2).
    assert (x' = x) by congruence. subst x'. apply M2. apply (Hmax b y); auto.
Qed.
Print Assumptions C77_in_range_accepted_partial.

Definition one_and_a_bit : list N := bs "1.00000000000000000001".
Definition almost_one : list N := bs "0.99999999999999999999".

(** C77: a text that writes a number above the (inclusive) maximum can be accepted: it is rounded
    before it is compared. *)
Theorem C77_above_max_accepted_refuted : exists t b r m k p q f, good_range t (Inside None (Some b) true) /\
  decimal_text r m k /\ is_fraction m k p q /\ (forall y, xval b = Some y -> ~ not_above y p q) /\
  num_parse_str (float_of_text t) (Inside None (Some b) true) Disallow r = Ok f.
Proof.
  exists F64, f64_one, one_and_a_bit, 100000000000000000001, (-20), 100000000000000000001, (10 ^ 20), f64_one.
  split; [split; intros f H; [discriminate|injection H as <-; split; [reflexivity|discriminate]]|].
  split.
  { change one_and_a_bit with (bs "1" ++ [46%N] ++ bs "00000000000000000001" ++ []).
    change (-20) with (0 - Z.of_nat (List.length (bs "00000000000000000001"))). apply dec_point; [discriminate| |constructor].
    apply digit_run_iff. split; [|reflexivity]. repeat constructor. }
  split; [split; [lia|right; split; [lia|reflexivity]]|].
  split; [intros y Hy; injection Hy as <-; vm_compute; intros C; apply C; reflexivity|].
  vm_compute. reflexivity.
Qed.
Print Assumptions C77_above_max_accepted_refuted.

(** C77: a text that writes a number below an exclusive maximum can be refused. *)
Theorem C77_below_exclusive_max_refused_refuted : exists t b r m k p q, good_range t (Inside None (Some b) false) /\
  decimal_text r m k /\ is_fraction m k p q /\ (forall y, xval b = Some y -> not_above y (p + 1) q) /\
  num_parse_str (float_of_text t) (Inside None (Some b) false) Disallow r = Err NTooLarge.
Proof.
  exists F64, f64_one, almost_one, 99999999999999999999, (-20), 99999999999999999999, (10 ^ 20).
  split; [split; intros f H; [discriminate|injection H as <-; split; [reflexivity|discriminate]]|].
  split.
  { change almost_one with (bs "0" ++ [46%N] ++ bs "99999999999999999999" ++ []).
    change (-20) with (0 - Z.of_nat (List.length (bs "99999999999999999999"))). apply dec_point; [discriminate| |constructor].
    apply digit_run_iff. split; [|reflexivity]. repeat constructor. }
  split; [split; [lia|right; split; [lia|reflexivity]]|].
  split; [intros y Hy; injection Hy as <-; vm_compute; discriminate|].
  vm_compute. reflexivity.
Qed.
Print Assumptions C77_below_exclusive_max_refused_refuted.

(** A number that a float has exactly is rounded to it. *)
Lemma nearest_exact t (sg : bool) p q f b z : 0 < q -> rounds_nearest t sg p q f -> is_float_of t b -> xval b = Some (Fin z) ->
  (if sg then - p else p) * 2 ^ 1074 = z * q -> 0 <= p -> xval f = Some (Fin z).
Proof.
  intros Hq R Vb Xb E Hp. destruct (nearest_mono t sg p q f b (Fin z) Hp Hq R Vb Xb) as (x & Hx & M1 & M2).
  simpl in M1, M2. specialize (M1 ltac:(lia)). specialize (M2 ltac:(lia)). rewrite Hx. f_equal.
  destruct x as [|x|]; simpl in *; try contradiction. f_equal. lia.
Qed.

Lemma digits_value ds v : denotes_digits ds v -> ds <> [] /\ digit_run ds v.
Proof.
  induction 1 as [c Hc|ds v c H [Hne IH] Hc]; unfold is_digit in Hc.
  - split; [discriminate|]. change [c] with ([] ++ [c]). replace (Z.of_N c - 48) with (10 * 0 + Z.of_N (c - 48)) by lia.
    constructor; [constructor|exact Hc].
  - split; [destruct ds; discriminate|]. replace (Z.of_N c - 48) with (Z.of_N (c - 48)) by lia. constructor; auto.
Qed.

(** The integers that every float type of precision [fprec t] has. *)
Lemma small_int_float t v : 0 <= v <= 2 ^ fprec t -> exists b, is_float_of t b /\ xval b = Some (Fin (v * 2 ^ 1074)).
Proof.
  intros Hv. assert (Hpr : 1 < fprec t /\ emn t < - fprec t /\ 1 <= femax t - fprec t) by (destruct t; simpl; lia). destruct Hpr as (Hpr & Hem & Hex).
  destruct (Z.eq_dec v 0) as [->|V0]; [exists (S754_zero false); split; reflexivity|].
  assert (Pp : 2 ^ fprec t = 2 * 2 ^ (fprec t - 1)) by (rewrite <- Z.pow_succ_r by lia; f_equal; lia).
  assert (Pp0 : 2 <= 2 ^ (fprec t - 1)) by (change 2 with (2 ^ 1) at 1; apply Z.pow_le_mono_r; lia).
  destruct (Z.eq_dec v (2 ^ fprec t)) as [V1|V1].
  - assert (ID : Zpos (Z.to_pos (2 ^ (fprec t - 1))) = 2 ^ (fprec t - 1)) by (apply Z2Pos.id; lia).
    exists (S754_finite false (Z.to_pos (2 ^ (fprec t - 1))) 1). split.
    + assert (D : Zpos (digits2_pos (Z.to_pos (2 ^ (fprec t - 1)))) = fprec t) by (apply digits_unique; [lia|rewrite ID; lia]).
      apply bounded_intro; [lia|lia|left; exact D].
    + unfold xval. rewrite ID, V1, Pp. do 2 f_equal. change (2 ^ (1 + 1074)) with (2 * 2 ^ 1074). ring.
  - destruct v as [|m|m]; [lia| |lia]. destruct (digits2_bounds m) as [B1 B2]. set (d := Zpos (digits2_pos m)) in *.
    assert (Hd : d <= fprec t) by (assert (d - 1 < fprec t); [|lia]; apply (Z.pow_lt_mono_r_iff 2); lia).
    assert (PW : 0 < 2 ^ (fprec t - d)) by (apply Z.pow_pos_nonneg; lia).
    assert (ID : Zpos (Z.to_pos (Zpos m * 2 ^ (fprec t - d))) = Zpos m * 2 ^ (fprec t - d)) by (apply Z2Pos.id; lia).
    exists (S754_finite false (Z.to_pos (Zpos m * 2 ^ (fprec t - d))) (d - fprec t)). split.
    + assert (D : Zpos (digits2_pos (Z.to_pos (Zpos m * 2 ^ (fprec t - d)))) = fprec t).
      { apply digits_unique; [lia|]. rewrite ID.
        assert (E1 : 2 ^ (fprec t - 1) = 2 ^ (d - 1) * 2 ^ (fprec t - d)) by (rewrite <- Z.pow_add_r by lia; f_equal; lia).
        assert (E2 : 2 ^ fprec t = 2 ^ d * 2 ^ (fprec t - d)) by (rewrite <- Z.pow_add_r by lia; f_equal; lia). nia. }
      apply bounded_intro; [lia|lia|left; exact D].
    + unfold xval. rewrite ID. do 2 f_equal. rewrite Z.mul_1_l, <- Z.mul_assoc, <- Z.pow_add_r by (destruct t; simpl in *; lia). do 2 f_equal. lia.
Qed.

(** C77: the text of an integer of at most 2^24 (f32) or 2^53 (f64) in absolute value writes exactly that
    integer. *)
Theorem C77_integers_exact : forall t s v f, denotes_int true s v -> Z.abs v <= (match t with F32 => 2 ^ 24 | F64 => 2 ^ 53 end) ->
  writes t s f -> xval f = Some (Fin (v * 2 ^ 1074)).
Proof.
  intros t s v f Hs Hv HW.
  assert (Hv' : Z.abs v <= 2 ^ fprec t) by (destruct t; exact Hv).
  assert (G : exists g sg ds w, s = g ++ ds /\ sign_text g sg /\ denotes_digits ds w /\ v = if sg : bool then - w else w).
  { destruct Hs as [ds w H|ds w H|ds w _ H].
    - exists [], false, ds, w. split; [reflexivity|]. split; [constructor|]. auto.
    - exists (bs "+"), false, ds, w. split; [reflexivity|]. split; [constructor|]. auto.
    - exists (bs "-"), true, ds, w. split; [reflexivity|]. split; [constructor|]. auto. }
  destruct G as (g & sg & ds & w & -> & Hg & Hd & ->). destruct (digits_value ds w Hd) as [Hne Hr].
  assert (Hw : 0 <= w) by (apply digit_run_iff in Hr; destruct Hr as [Hr ->]; apply digits_bound in Hr; lia).
  assert (HF : is_fraction w 0 w 1) by (split; [lia|left; split; [lia|rewrite Z.pow_0_r; lia]]).
  assert (W' : writes t (g ++ ds) (round_decimal t sg w 0)).
  { exists g, sg, ds. split; [reflexivity|]. split; [exact Hg|]. left. exists w, 0, w, 1.
    split; [rewrite <- (app_nil_r ds); apply dec_int; [exact Hne|exact Hr|constructor]|]. split; [exact HF|]. apply round_decimal_spec; auto. }
  rewrite (C77_one_float t _ _ _ HW W').
  destruct (small_int_float t w) as (b & Vb & Xb); [destruct sg; lia|].
  pose proof (round_decimal_spec t sg w 0 w 1 Hw HF) as R.
  destruct sg.
  - assert (B' : exists b', is_float_of t b' /\ xval b' = Some (Fin (- (w * 2 ^ 1074)))).
    { destruct (float_mag b _ Xb) as [(s & -> & E)|(s & m & e & -> & E)].
      - exists (S754_zero false). split; [reflexivity|]. simpl. rewrite E. reflexivity.
      - exists (S754_finite (negb s) m e). split; [exact Vb|]. rewrite E. unfold xval. do 2 f_equal. destruct s; simpl negb; lia. }
    destruct B' as (b' & Vb' & Xb'). rewrite (nearest_exact t true w 1 _ b' _ ltac:(lia) R Vb' Xb'); [do 2 f_equal; lia|lia|exact Hw].
  - exact (nearest_exact t false w 1 _ b _ ltac:(lia) R Vb Xb ltac:(lia) Hw).
Qed.
Print Assumptions C77_integers_exact.

(** A text that an f32 has exactly gives the same f32 whether it is read directly or, as for
    a JSON number, through f64. *)
Theorem C77_f32_two_ways_partial : forall r nan g sg rest m k p q b z f d h, good_range F32 r -> ~ x_degenerate r ->
  readable (g ++ rest) -> sign_text g sg -> decimal_text rest m k -> is_fraction m k p q ->
  is_float_of F32 b -> xval b = Some (Fin z) -> (if sg : bool then - p else p) * 2 ^ 1074 = z * q ->
  num_parse_str (float_of_text F32) r nan (g ++ rest) = Ok f ->
  float_of_text F64 (g ++ rest) = Some d -> num_parse_f64 F32 r nan d = Ok h -> xval f = xval h.
Proof.
  intros r nan g sg rest m k p q b z f d h Hr Hd HL Hg Hdec HF Vb Xb E Hf HD Hh.
  pose proof (decimal_nonneg rest m k Hdec) as Hm. assert (Hq : 0 < q) by apply HF.
  assert (Hp : 0 <= p).
  { destruct HF as [_ [[K ->]|[K E']]]; [apply Z.mul_nonneg_nonneg; [apply Z.mul_nonneg_nonneg; [lia|apply Z.pow_nonneg; lia]|lia]|].
    assert (0 < 10 ^ (- k)) by (apply Z.pow_pos_nonneg; lia). nia. }
  assert (W : forall t, writes t (g ++ rest) (round_decimal t sg m k)).
  { intros t. exists g, sg, rest. split; [reflexivity|]. split; [exact Hg|]. left. exists m, k, p, q.
    split; [exact Hdec|]. split; [exact HF|]. apply round_decimal_spec; auto. }
  apply (C77_number_text_exact F32 r nan (g ++ rest) Hr Hd HL) in Hf. destruct Hf as [Wf _].
  apply (float_of_text_spec F64 _ _ HL) in HD.
  rewrite (C77_one_float F32 _ _ _ Wf (W F32)). pose proof (C77_one_float F64 _ _ _ HD (W F64)) as Ed. subst d.
  rewrite (nearest_exact F32 sg p q _ b z Hq (round_decimal_spec F32 sg m k p q Hm HF) Vb Xb E Hp).
  destruct (f32_is_f64 b (Fin z) Vb Xb) as (b' & Vb' & Xb').
  pose proof (nearest_exact F64 sg p q _ b' z Hq (round_decimal_spec F64 sg m k p q Hm HF) Vb' Xb' E Hp) as X64.
  destruct (number_narrow_exact r nan _ b (Fin z) Hr Hd (writes_float _ _ _ (W F64)) X64 Vb Xb) as [_ K].
  symmetry. apply K. exact Hh.
Qed.
Print Assumptions C77_f32_two_ways_partial.

Definition double_rounded : list N := bs "1.00000005960464477539062500000000001".

(** C77: in general it does not: rounding to f64 first can lose what decides the rounding to f32. *)
Theorem C77_f32_two_ways_refuted : exists s f d h,
  num_parse_str (float_of_text F32) Unlimited Disallow s = Ok f /\
  float_of_text F64 s = Some d /\ num_parse_f64 F32 Unlimited Disallow d = Ok h /\ xval f <> xval h.
Proof.
  exists double_rounded, (S754_finite false 8388609 (-23)), (S754_finite false 4503599895805952 (-52)), (S754_finite false 8388608 (-23)).
  split; [vm_compute; reflexivity|]. split; [vm_compute; reflexivity|]. split; [vm_compute; reflexivity|]. vm_compute. discriminate.
Qed.
Print Assumptions C77_f32_two_ways_refuted.

(** Every text without an exponent is readable, however long. *)
Lemma no_exponent_readable s : ~ In 101%N s -> ~ In 69%N s -> readable s.
Proof.
  intros H1 H2. right. intros u c g sg ds v -> Hc _ _. exfalso.
  destruct Hc as [-> | ->]; [apply H1|apply H2]; apply in_or_app; right; left; reflexivity.
Qed.

(** A one behind zeros and with an exponent. *)
Definition long_one (n : nat) : list N := bs "0" ++ [46%N] ++ (List.repeat 48%N n ++ [49%N]) ++ bs "e1000001".

Lemma zeros_run n : digit_run (List.repeat 48%N n) 0.
Proof.
  induction n as [|n IH]; [constructor|]. replace (S n) with (n + 1)%nat by lia. rewrite repeat_app. exact (run_snoc _ 48%N 0 IH ltac:(lia)).
Qed.

Lemma long_one_run n : digit_run (bs "0" ++ List.repeat 48%N n ++ [49%N]) 1.
Proof.
  rewrite app_assoc. refine (run_snoc _ 49%N 0 _ ltac:(lia)). exact (zeros_run (S n)).
Qed.

Lemma long_one_length n : Z.of_nat n = 1000000 -> Z.of_nat (List.length (List.repeat 48%N n ++ [49%N])) = 1000001.
Proof. rewrite app_length, repeat_length. simpl (List.length _). lia. Qed.

Lemma long_one_writes n : Z.of_nat n = 1000000 -> writes F64 (long_one n) f64_one.
Proof.
  intros Hn. exists [], false, (long_one n). split; [reflexivity|]. split; [constructor|]. left. exists 1, 0, 1, 1.
  assert (HF : is_fraction 1 0 1 1) by (split; [lia|left; split; [lia|reflexivity]]).
  split; [|split; [exact HF|change f64_one with (round_decimal F64 false 1 0); apply round_decimal_spec; [lia|exact HF]]].
  assert (X : exponent_text (bs "e1000001") 1000001).
  { apply (exp_some 101%N [] false (bs "1000001") 1000001); [left; reflexivity|constructor|discriminate|].
    apply digit_run_iff. split; [repeat constructor|reflexivity]. }
  pose proof (dec_point (bs "0") (List.repeat 48%N n ++ [49%N]) _ 1 1000001 ltac:(discriminate) (long_one_run n) X) as D.
  rewrite (long_one_length n Hn) in D. exact D.
Qed.

Lemma tiny_decimal k : k <= -401 -> round_decimal F64 false 1 k = S754_zero false.
Proof.
  intros Hk. destruct (is_fraction_ex 1 k ltac:(lia)) as (p & q & HF & Hp & Hq).
  apply (rounds_nearest_unique F64 false p q); [exact Hq|apply round_decimal_spec; [lia|exact HF]|].
  apply tiny_zero; [exact Hp|]. destruct HF as [_ [[K _]|[_ E]]]; [lia|].
  assert (C : 10 ^ 401 <= 10 ^ (- k)) by (apply Z.pow_le_mono_r; lia).
  assert (C1 : 10 ^ 401 = 10 * 10 ^ 400) by (vm_compute; reflexivity). assert (C2 : 0 < 10 ^ 400) by reflexivity.
  revert C C1 C2 E. generalize (10 ^ (- k)), (10 ^ 401), (10 ^ 400). intros a b d. nia.
Qed.

Lemma long_one_read n : Z.of_nat n = 1000000 -> float_of_text F64 (long_one n) = Some (S754_zero false).
Proof.
  intros Hn.
  assert (RD : read_decimal (long_one n) = Some (1, 100000 - 1000001)).
  { apply read_decimal_spec. exists (bs "0"), (46%N :: List.repeat 48%N n ++ [49%N]), (List.repeat 48%N n ++ [49%N]), (bs "e1000001"), 100000.
    pose proof (long_one_run n) as LR. apply digit_run_iff in LR. destruct LR as [LA LN].
    split; [|split; [exact LN|rewrite (long_one_length n Hn); reflexivity]].
    split; [reflexivity|]. split; [exact LA|]. split; [discriminate|]. split; [right; reflexivity|vm_compute; reflexivity]. }
  unfold float_of_text. change (take_sign (long_one n)) with (false, long_one n). cbv beta iota. rewrite RD. cbv beta iota.
  rewrite tiny_decimal by lia. reflexivity.
Qed.

(** C77: without a limit on the exponent it is false. The text writes 1, and is refused as too small by a range that
    starts at 1, since core reads it as 0. *)
Theorem C77_long_exponent_refuted : exists s, writes F64 s f64_one /\ good_range F64 (Inside (Some f64_one) None true) /\
  x_allowed (Inside (Some f64_one) None true) (Fin (2 ^ 1074)) /\ xval f64_one = Some (Fin (2 ^ 1074)) /\
  num_parse_str (float_of_text F64) (Inside (Some f64_one) None true) Disallow s = Err NTooSmall.
Proof.
  assert (exists n, Z.of_nat n = 1000000) as [n Hn] by (exists (Z.to_nat 1000000); apply Z2Nat.id; lia).
  exists (long_one n). split; [apply long_one_writes, Hn|].
  split; [split; intros b Hb; [injection Hb as <-; split; [reflexivity|discriminate]|discriminate]|].
  split; [split; intros b y Hb Hy; [injection Hb as <-; vm_compute in Hy; injection Hy as <-; vm_compute; discriminate|discriminate]|].
  split; [vm_compute; reflexivity|].
  destruct (number_strings_lemma (float_of_text F64) F64 (Inside (Some f64_one) None true) Disallow (long_one n)) as (E & _ & _).
  rewrite E, (long_one_read n Hn). vm_compute. reflexivity.
Qed.
Print Assumptions C77_long_exponent_refuted.

Example C77_example :
  num_parse_str (float_of_text F64) (Inside (Some f64_one) (Some f64_two) false) Disallow (bs "+01.5e0") = Ok (S754_finite false 6755399441055744 (-52)) /\
  num_parse_str (float_of_text F64) (Inside (Some f64_one) (Some f64_two) false) Disallow (bs "20.E-1") = Err NTooLarge /\
  num_parse_str (float_of_text F64) (Inside (Some f64_one) None false) Disallow (bs "Infinity") = Ok (S754_infinity false) /\
  num_parse_str (float_of_text F64) (Inside (Some f64_one) None false) Disallow (bs "-NaN") = Err NaNDisallow /\
  num_parse_str (float_of_text F32) Unlimited Disallow (bs "-.5") = Ok (S754_finite true 8388608 (-24)) /\
  num_parse_str (float_of_text F32) Unlimited Disallow (bs "1e39") = Ok (S754_infinity false) /\
  num_parse_str (float_of_text F32) Unlimited Disallow (bs ".") = Err NParseFloat /\
  num_parse_str (float_of_text F32) Unlimited Disallow (bs "1e") = Err NParseFloat /\
  num_parse_str (float_of_text F32) Unlimited Disallow (bs " 1") = Err NParseFloat /\
  (exists g sg r m k p q, bs "-1.25" = g ++ r /\ sign_text g sg /\ decimal_text r m k /\ is_fraction m k p q /\
     sg = true /\ p = 125 /\ q = 100 /\ not_above (Fin 0) (- p) q) /\
  writes F32 (bs "16777216") (S754_finite false 8388608 1) /\ denotes_int true (bs "16777216") 16777216.
Proof.
  split; [vm_compute; reflexivity|]. split; [vm_compute; reflexivity|]. split; [vm_compute; reflexivity|]. split; [vm_compute; reflexivity|].
  split; [vm_compute; reflexivity|]. split; [vm_compute; reflexivity|]. split; [vm_compute; reflexivity|]. split; [vm_compute; reflexivity|].
  split; [vm_compute; reflexivity|]. split; [|split].
  - exists (bs "-"), true, (bs "1.25"), 125, (-2), 125, 100. split; [reflexivity|]. split; [constructor|]. split.
    + change (bs "1.25") with (bs "1" ++ [46%N] ++ bs "25" ++ []). change (-2) with (0 - Z.of_nat (List.length (bs "25"))).
      apply dec_point; [discriminate| |constructor]. apply digit_run_iff. split; [repeat constructor|reflexivity].
    + split; [split; [lia|right; split; [lia|reflexivity]]|]. split; [reflexivity|]. split; [reflexivity|]. split; [reflexivity|]. vm_compute. discriminate.
  - apply float_of_text_spec; [left; vm_compute; discriminate|]. vm_compute. reflexivity.
  - change 16777216 with (Z.of_N 16777216). change (bs "16777216") with (dec_of_Z (Z.of_N 16777216)). apply dec_of_Z_denotes.
Qed.
