(** Property C129: reading numbers keeps their order, and an inside range has no holes. *)
From Coq Require Import SpecFloat.
From Verif Require Import Base IntStr IntStrProofs IntModel IntSpec IntProofs RangeModel NumberModel NumberSpec NumberProofs NumberCast
  FloatModel FloatSpec FloatText FloatNear FloatUnique FloatWrites PropInt PropNumber PropFloat PropSame.
Local Open Scope Z_scope.

(** ** Rounding *)

Lemma overflows_up t p q p' q' : 0 < q -> 0 < q' -> p * q' <= p' * q -> overflows t p q -> overflows t p' q'.
Proof.
  unfold overflows. set (K := (2 ^ (fprec t + 1) - 1) * 2 ^ (femax t - fprec t)). intros Q Q' L O.
  assert (K * q * q' <= 2 * p * q') by (apply Z.mul_le_mono_nonneg_r; lia).
  apply Z.mul_le_mono_pos_r with q; [exact Q|]. lia.
Qed.

Lemma overflows_pos t p q : 0 < q -> overflows t p q -> 0 < p.
Proof.
  unfold overflows. assert (0 < (2 ^ (fprec t + 1) - 1) * 2 ^ (femax t - fprec t)) by (destruct t; reflexivity).
  set (K := (2 ^ (fprec t + 1) - 1) * 2 ^ (femax t - fprec t)) in *. intros Q O. assert (0 < K * q) by (apply Z.mul_pos_pos; lia). lia.
Qed.

(** Rounding to the nearest keeps the order of two numbers. *)
Lemma nearest_order t (sg sg' : bool) p q p' q' f f' : 0 <= p -> 0 < q -> 0 <= p' -> 0 < q' ->
  rounds_nearest t sg p q f -> rounds_nearest t sg' p' q' f' ->
  (if sg then - p else p) * q' <= (if sg' then - p' else p') * q ->
  exists x x', xval f = Some x /\ xval f' = Some x' /\ xle x x'.
Proof.
  intros Hp Hq Hp' Hq' R R' L. pose proof R as (V & S & O & N). pose proof R' as (V' & S' & O' & N').
  assert (D : forall p q, overflows t p q \/ ~ overflows t p q).
  { intros a b. unfold overflows. destruct (Z_le_gt_dec ((2 ^ (fprec t + 1) - 1) * 2 ^ (femax t - fprec t) * b) (2 * a)); [left|right]; lia. }
  destruct (D p q) as [C|C]; destruct (D p' q') as [C'|C'].
  - rewrite (O C), (O' C'). exists (if sg then NegInf else PosInf), (if sg' then NegInf else PosInf). split; [reflexivity|]. split; [reflexivity|].
    pose proof (overflows_pos t p q Hq C). pose proof (overflows_pos t p' q' Hq' C').
    destruct sg, sg'; simpl; auto. assert (0 < p * q') by (apply Z.mul_pos_pos; lia). assert (0 < p' * q) by (apply Z.mul_pos_pos; lia). lia.
  - rewrite (O C). destruct (N' C') as (z' & X' & _). exists (if sg then NegInf else PosInf), (Fin z'). split; [reflexivity|]. split; [exact X'|].
    destruct sg; [exact I|]. exfalso. pose proof (overflows_pos t p q Hq C). assert (0 < p * q') by (apply Z.mul_pos_pos; lia).
    destruct sg'; [assert (0 <= p' * q) by (apply Z.mul_nonneg_nonneg; lia); lia|]. apply C'. exact (overflows_up t p q p' q' Hq Hq' L C).
  - rewrite (O' C'). destruct (N C) as (z & X & _). exists (Fin z), (if sg' then NegInf else PosInf). split; [exact X|]. split; [reflexivity|].
    destruct sg'; [|exact I]. exfalso. pose proof (overflows_pos t p' q' Hq' C'). assert (0 < p' * q) by (apply Z.mul_pos_pos; lia).
    destruct sg; [|assert (0 <= p * q') by (apply Z.mul_nonneg_nonneg; lia); lia]. apply C. apply (overflows_up t p' q' p q Hq' Hq); [lia|exact C'].
  - destruct (N C) as (z & X & M). destruct (N' C') as (z' & X' & M'). exists (Fin z), (Fin z'). split; [exact X|]. split; [exact X'|]. simpl.
    destruct (Z_le_gt_dec z z') as [|G]; [lia|]. exfalso.
    destruct (M f' z' V' X') as [M1 _]. destruct (M' f z V X) as [M1' _].
    destruct (M (S754_zero false) 0 eq_refl eq_refl) as [M0 _]. destruct (M' (S754_zero false) 0 eq_refl eq_refl) as [M0' _]. cbv zeta in *.
    set (n := if sg then - p else p) in *. set (n' := if sg' then - p' else p') in *. unfold distance in *.
    assert (T : 0 < 2 ^ 1074) by reflexivity. set (T0 := 2 ^ 1074) in *. clearbody T0.
    assert (z' * q < z * q) by (apply Z.mul_lt_mono_pos_r; lia). assert (z' * q' < z * q') by (apply Z.mul_lt_mono_pos_r; lia).
    assert (B1 : (z + z') * q <= 2 * (n * T0)) by lia. assert (B2 : 2 * (n' * T0) <= (z + z') * q') by lia.
    assert (L2 : n * T0 * q' <= n' * T0 * q) by (replace (n * T0 * q') with (n * q' * T0) by ring; replace (n' * T0 * q) with (n' * q * T0) by ring; apply Z.mul_le_mono_nonneg_r; lia).
    assert (B3 : (z + z') * q * q' <= 2 * (n * T0) * q') by (apply Z.mul_le_mono_nonneg_r; lia).
    assert (B4 : 2 * (n' * T0) * q <= (z + z') * q' * q) by (apply Z.mul_le_mono_nonneg_r; lia).
    assert (E : n * q' = n' * q) by (apply Z.mul_reg_r with T0; lia).
    assert (Z0 : n = 0 -> n' = 0 -> False).
    { intros E1 E2. rewrite E1 in M0. rewrite E2 in M0'. assert (z * q = 0) by lia. assert (z' * q' = 0) by lia.
      assert (z = 0) by nia. assert (z' = 0) by nia. lia. }
    destruct (Bool.bool_dec sg sg') as [Es|Es].
    + subst sg'. assert (E' : p * q' = p' * q) by (destruct sg; subst n n'; lia).
      pose proof (rounds_scaled t sg p q p' q' f Hq Hq' E' R) as R2. pose proof (rounds_nearest_unique t sg p' q' f f' Hq' R2 R'). subst f'.
      assert (Ez : Some (Fin z) = Some (Fin z')) by congruence. injection Ez as Ez. lia.
    + assert (0 <= p * q') by (apply Z.mul_nonneg_nonneg; lia). assert (0 <= p' * q) by (apply Z.mul_nonneg_nonneg; lia).
      apply Z0; destruct sg, sg'; try congruence; subst n n'; nia.
Qed.

(** ** Conversion from one type of float to the other *)

Lemma iter_pos_iter (A : Type) (f : A -> A) n : forall x, SpecFloat.iter_pos f n x = Pos.iter f x n.
Proof.
  induction n as [n IH|n IH|]; intros x; cbn [SpecFloat.iter_pos Pos.iter]; [|rewrite !IH; reflexivity|reflexivity].
  rewrite !IH, !Pos.iter_swap. reflexivity.
Qed.

Lemma scale_one t s m e : binary_round (fprec t) (femax t) s (xO m) (e - 1) = binary_round (fprec t) (femax t) s m e.
Proof.
  unfold binary_round. change (Zpos (digits2_pos (xO m))) with (Zpos (Pos.succ (digits2_pos m))). rewrite Pos2Z.inj_succ.
  replace (Z.succ (Zpos (digits2_pos m)) + (e - 1)) with (Zpos (digits2_pos m) + e) by lia.
  set (E := fexp (fprec t) (femax t) (Zpos (digits2_pos m) + e)) in *. unfold shl_align.
  destruct (Z_lt_le_dec E e) as [C|C].
  - assert (exists d, E - e = Zneg d) as [d Ed] by (destruct (E - e) eqn:Q; [lia|lia|eexists; reflexivity]). rewrite Ed.
    destruct (Pos.eq_dec d 1) as [->|Nd].
    + replace (E - (e - 1)) with 0 by lia. cbv [shift_pos Pos.iter]. replace E with (e - 1) by lia. reflexivity.
    + assert (E - (e - 1) = Zneg (Pos.pred d)) as -> by lia. f_equal. f_equal. unfold shift_pos.
      rewrite <- (Pos.succ_pred d Nd) at 2. rewrite Pos.iter_succ, Pos.iter_swap. reflexivity.
  - destruct (E - e) eqn:Q; [| |lia].
    + assert (E - (e - 1) = Zpos 1) as -> by lia. unfold binary_round_aux, shr_fexp.
      change (Zdigits2 (Zpos (xO m))) with (Zpos (Pos.succ (digits2_pos m))). rewrite Pos2Z.inj_succ. cbn [Zdigits2].
      replace (Z.succ (Zpos (digits2_pos m)) + (e - 1)) with (Zpos (digits2_pos m) + e) by lia. fold E. 
      assert (E - (e - 1) = Zpos 1) as -> by lia. rewrite Q. cbn [shr shr_record_of_loc SpecFloat.iter_pos shr_1]. replace (e - 1 + 1) with e by lia. reflexivity.
    + assert (E - (e - 1) = Zpos (Pos.succ p)) as -> by lia. unfold binary_round_aux, shr_fexp.
      change (Zdigits2 (Zpos (xO m))) with (Zpos (Pos.succ (digits2_pos m))). rewrite Pos2Z.inj_succ. cbn [Zdigits2].
      replace (Z.succ (Zpos (digits2_pos m)) + (e - 1)) with (Zpos (digits2_pos m) + e) by lia. fold E.
      assert (E - (e - 1) = Zpos (Pos.succ p)) as -> by lia. rewrite Q. cbn [shr shr_record_of_loc].
      replace (e - 1 + Zpos (Pos.succ p)) with (e + Zpos p) by lia.
      rewrite !iter_pos_iter, Pos.iter_succ, <- Pos.iter_swap. reflexivity.
Qed.

Lemma scale_many t s m e k : binary_round (fprec t) (femax t) s (Pos.iter xO m k) (e - Zpos k) = binary_round (fprec t) (femax t) s m e.
Proof.
  revert m e. induction k as [|k IH] using Pos.peano_ind; intros m e; [exact (scale_one t s m e)|].
  rewrite Pos.iter_succ. replace (e - Zpos (Pos.succ k)) with (e - Zpos k - 1) by lia. rewrite scale_one. apply IH.
Qed.

(** The conversion of a finite float is the rounding of its value. *)
Lemma cast_nearest t t' s m e : is_float_of t' (S754_finite s m e) ->
  rounds_nearest t s (Zpos m * 2 ^ (e + 1074)) (2 ^ 1074) (fcast t (S754_finite s m e)).
Proof.
  intros V. assert (He : -1074 <= e).
  { unfold is_float_of in V. cbn [valid_binary] in V. apply bounded_facts in V. destruct V as (V & _). destruct t'; simpl in V; lia. }
  assert (P : 0 < 2 ^ (e + 1074)) by (apply Z.pow_pos_nonneg; lia).
  assert (Hn : fcast t (S754_finite s m e) = binary_round (fprec t) (femax t) s m e) by (destruct s; reflexivity).
  assert (O : to_odd (Zpos m * 2 ^ (e + 1074)) (2 ^ 1074) = Zpos m * 2 ^ (e + 1076)).
  { unfold to_odd. change (2 ^ 1075) with (2 * 2 ^ 1074). rewrite Z.mul_assoc, Z.div_mul, Z.mod_mul by discriminate.
    replace (e + 1076) with (Z.succ (Z.succ (e + 1074))) by lia. rewrite !Z.pow_succ_r by lia. rewrite Z.eqb_refl. ring. }
  assert (Q : exists k, e + 1076 = Zpos k) by (destruct (e + 1076) eqn:Q; [lia|eexists; reflexivity|lia]). destruct Q as [k Q].
  rewrite Hn, <- (scale_many t s m e k).
  assert (K : Zpos (Pos.iter xO m k) = Zpos m * 2 ^ (e + 1076)).
  { rewrite Q. change (Pos.iter xO m k) with (shift_pos k m). rewrite shift_pos_correct. change (2 ^ Zpos k) with (Z.pow_pos 2 k). ring. }
  assert (R : round_ratio t s (Zpos m * 2 ^ (e + 1074)) (2 ^ 1074) = binary_round (fprec t) (femax t) s (Pos.iter xO m k) (e - Zpos k)).
  { unfold round_ratio. rewrite O, <- K. f_equal. lia. }
  rewrite <- R. apply round_ratio_spec; [apply Z.mul_nonneg_nonneg; lia|reflexivity].
Qed.


(** Conversion keeps the order of numbers. *)
Lemma cast_order t t1 t2 f g x y : is_float_of t1 f -> is_float_of t2 g -> xval f = Some x -> xval g = Some y -> xle x y ->
  exists x' y', xval (fcast t f) = Some x' /\ xval (fcast t g) = Some y' /\ xle x' y'.
Proof.
  intros Vf Vg Xf Xg L.
  assert (K : forall t0 f0 z, is_float_of t0 f0 -> xval f0 = Some (Fin z) ->
    exists (sg : bool) p, 0 <= p /\ rounds_nearest t sg p (2 ^ 1074) (fcast t f0) /\ (if sg then - p else p) = z).
  { intros t0 f0 z V X. destruct f0 as [s|s| |s m e]; cbn [xval] in X; try discriminate; try (destruct s; discriminate).
    - injection X as <-. exists s, 0. split; [lia|]. split; [|destruct s; reflexivity].
      change (fcast t (S754_zero s)) with (round_ratio t s 0 (2 ^ 1074)). apply round_ratio_spec; [lia|reflexivity].
    - injection X as <-. exists s, (Zpos m * 2 ^ (e + 1074)). split; [apply Z.mul_nonneg_nonneg; [lia|apply Z.pow_nonneg; lia]|].
      split; [exact (cast_nearest t t0 s m e V)|]. destruct s; ring. }
  assert (F : forall t0 f0 z, is_float_of t0 f0 -> xval f0 = Some (Fin z) -> exists w, xval (fcast t f0) = Some w).
  { intros t0 f0 z V X. destruct (xval (fcast t f0)) eqn:Q; [eexists; reflexivity|]. apply (fcast_nan_iff t t0 f0 V) in Q. congruence. }
  assert (I : forall f0 x0, xval f0 = Some x0 -> x0 = NegInf \/ x0 = PosInf -> xval (fcast t f0) = Some x0).
  { intros f0 x0 X C. destruct f0 as [s|s| |s m e]; cbn [xval] in X; try discriminate; injection X as <-; try (destruct C; discriminate).
    destruct s; reflexivity. }
  destruct x as [|zx|].
  - rewrite (I f NegInf Xf (or_introl eq_refl)). destruct y as [|zy|].
    + rewrite (I g NegInf Xg (or_introl eq_refl)). exists NegInf, NegInf. auto.
    + destruct (F t2 g zy Vg Xg) as [w ->]. exists NegInf, w. simpl. auto.
    + rewrite (I g PosInf Xg (or_intror eq_refl)). exists NegInf, PosInf. simpl. auto.
  - destruct y as [|zy|]; [contradiction L| |].
    + destruct (K t1 f zx Vf Xf) as (sg & p & P & R & E). destruct (K t2 g zy Vg Xg) as (sg' & p' & P' & R' & E').
      apply (nearest_order t sg sg' p (2 ^ 1074) p' (2 ^ 1074)); auto; try reflexivity. rewrite E, E'.
      apply Z.mul_le_mono_nonneg_r; [|exact L]. apply Z.lt_le_incl. reflexivity.
    + rewrite (I g PosInf Xg (or_intror eq_refl)). destruct (F t1 f zx Vf Xf) as [w ->]. exists w, PosInf. split; [reflexivity|]. split; [reflexivity|]. destruct w; exact Logic.I.
  - destruct y as [|zy|]; try contradiction L. rewrite (I f PosInf Xf (or_intror eq_refl)), (I g PosInf Xg (or_intror eq_refl)).
    exists PosInf, PosInf. simpl. auto.
Qed.

(** ** Texts *)

(** The amount a text writes: a fraction, or an infinite amount. *)
Inductive amount := Low | Ratio (p q : Z) | High.

(** [s] writes the amount [a]: an optional sign, then a decimal number or the word for infinity. *)
Definition amounts (s : list N) (a : amount) : Prop :=
  exists g sg r, s = g ++ r /\ sign_text g sg /\
    ((exists m k p q, decimal_text r m k /\ is_fraction m k p q /\ a = Ratio (if sg then - p else p) q) \/
     ((case_text (bs "inf") r \/ case_text (bs "infinity") r) /\ a = if sg then Low else High)).

(** [a] is no more than [b]. *)
Definition no_more (a b : amount) : Prop :=
  match a, b with
  | Low, _ | _, High => True
  | Ratio p q, Ratio p' q' => p * q' <= p' * q
  | _, _ => False
  end.

(** Every text that writes a number other than NaN writes an amount, and the float is the one nearest to it. *)
Lemma amounts_float t s a f : amounts s a -> writes t s f ->
  (a = Low /\ f = S754_infinity true) \/ (a = High /\ f = S754_infinity false) \/
  exists (sg : bool) p q, 0 <= p /\ 0 < q /\ a = Ratio (if sg then - p else p) q /\ rounds_nearest t sg p q f.
Proof.
  intros (g & sg & r & -> & S & [(m & k & p & q & D & F & ->)|(C & ->)]) W.
  - right. right. destruct (fraction_sign _ _ _ _ _ D F) as [P Q]. exists sg, p, q. split; [exact P|]. split; [exact Q|]. split; [reflexivity|].
    rewrite (C77_one_float t _ f (round_ratio t sg p q) W); [apply round_ratio_spec; assumption|].
    exists g, sg, r. split; [reflexivity|]. split; [exact S|]. left. exists m, k, p, q. split; [exact D|]. split; [exact F|]. apply round_ratio_spec; assumption.
  - assert (f = S754_infinity sg) as ->.
    { apply (C77_one_float t _ _ _ W). exists g, sg, r. auto 6. }
    destruct sg; auto.
Qed.

Lemma amounts_order t s s' a a' f f' : amounts s a -> amounts s' a' -> no_more a a' -> writes t s f -> writes t s' f' ->
  exists x x', xval f = Some x /\ xval f' = Some x' /\ xle x x'.
Proof.
  intros A A' L W W'.
  assert (V : forall s a f, amounts s a -> writes t s f -> exists x, xval f = Some x).
  { clear. intros s a f A W. destruct (amounts_float t s a f A W) as [(_ & ->)|[(_ & ->)|(sg & p & q & P & Q & _ & R)]]; try (eexists; reflexivity).
    destruct (nearest_mono t sg p q f (S754_zero false) (Fin 0) P Q R eq_refl eq_refl) as (x & X & _). exists x. exact X. }
  destruct (V _ _ _ A W) as [x X]. destruct (V _ _ _ A' W') as [x' X'].
  destruct (amounts_float t s a f A W) as [(-> & ->)|[(-> & ->)|(sg & p & q & P & Q & -> & R)]];
  destruct (amounts_float t s' a' f' A' W') as [(-> & ->)|[(-> & ->)|(sg' & p' & q' & P' & Q' & -> & R')]]; cbn [no_more] in L; try exact (False_ind _ L).
  - exists NegInf, NegInf. simpl. auto.
  - exists NegInf, PosInf. simpl. auto.
  - exists NegInf, x'. simpl. auto.
  - exists PosInf, PosInf. simpl. auto.
  - exists x, PosInf. split; [exact X|]. split; [reflexivity|]. destruct x; exact I.
  - exact (nearest_order t sg sg' p q p' q' f f' P Q P' Q' R R' L).
Qed.

(** A text with an amount is a number text. *)
Lemma amounts_writes t s a : amounts s a -> exists f, writes t s f /\ xval f <> None.
Proof.
  intros A. pose proof A as (g & sg & r & E & S & C).
  assert (exists f, writes t s f) as [f W].
  { apply C77_grammar. exists g, sg, r. split; [exact E|]. split; [exact S|].
    destruct C as [(m & k & p & q & D & _)|([C|C] & _)]; [left; eauto|auto|auto]. }
  exists f. split; [exact W|]. destruct (amounts_float t s a f A W) as [(_ & ->)|[(_ & ->)|(sg' & p & q & P & Q & _ & R)]]; try discriminate.
  destruct (nearest_mono t sg' p q f (S754_zero false) (Fin 0) P Q R eq_refl eq_refl) as (x & X & _). rewrite X. discriminate.
Qed.

(** An inside range, or none. *)
Definition no_gap {A : Type} (r : range_option A) : Prop := match r with Outside _ _ _ => False | _ => True end.

Lemma between_allowed r x y z : no_gap r -> x_allowed r x -> x_allowed r z -> xle x y -> xle y z -> x_allowed r y.
Proof.
  destruct r as [a b i|a b i|]; cbn [no_gap x_allowed]; intros G A C L M; [|contradiction G|exact I].
  destruct A as [A _], C as [_ C]. split; intros m v E V; [exact (xle_trans v x y (A m v E V) L)|].
  specialize (C m v E V). destruct i; [exact (xle_trans y z v M C)|].
  destruct y as [|y|], z as [|z|], v as [|v|]; cbn [xle xlt] in *; try tauto; lia.
Qed.

(** C129: of two texts the one that writes the smaller amount is read as no larger a float, whatever the two validators
    of the type allow. *)
Theorem C129_order : forall t r r' nan nan' s s' a a' f f', good_range t r -> ~ x_degenerate r -> good_range t r' -> ~ x_degenerate r' ->
  readable s -> readable s' -> amounts s a -> amounts s' a' -> no_more a a' ->
  num_parse_str (float_of_text t) r nan s = Ok f -> num_parse_str (float_of_text t) r' nan' s' = Ok f' ->
  exists x x', xval f = Some x /\ xval f' = Some x' /\ xle x x'.
Proof.
  intros t r r' nan nan' s s' a a' f f' G D G' D' Rs Rs' A A' L P P'.
  apply (C77_number_text_exact t r nan s G D Rs) in P. apply (C77_number_text_exact t r' nan' s' G' D' Rs') in P'.
  exact (amounts_order t s s' a a' f f' A A' L (proj1 P) (proj1 P')).
Qed.

(** C129: a validator with an inside range, or none, that accepts two texts accepts every text that writes an amount
    between theirs. *)
Theorem C129_no_holes : forall t r nan s1 s2 s3 a1 a2 a3, good_range t r -> no_gap r ->
  readable s1 -> readable s2 -> readable s3 -> amounts s1 a1 -> amounts s2 a2 -> amounts s3 a3 -> no_more a1 a2 -> no_more a2 a3 ->
  is_ok (num_parse_str (float_of_text t) r nan s1) -> is_ok (num_parse_str (float_of_text t) r nan s3) ->
  is_ok (num_parse_str (float_of_text t) r nan s2).
Proof.
  intros t r nan s1 s2 s3 a1 a2 a3 G NG R1 R2 R3 A1 A2 A3 L M [f1 P1] [f3 P3].
  assert (D : ~ x_degenerate r) by (intros [i ->]; exact NG).
  apply (C77_number_text_exact t r nan s1 G D R1) in P1. apply (C77_number_text_exact t r nan s3 G D R3) in P3.
  destruct P1 as [W1 P1], P3 as [W3 P3]. destruct (amounts_writes t s2 a2 A2) as (f2 & W2 & _).
  destruct (amounts_order t s1 s2 a1 a2 f1 f2 A1 A2 L W1 W2) as (x1 & x2 & X1 & X2 & L').
  destruct (amounts_order t s2 s3 a2 a3 f2 f3 A2 A3 M W2 W3) as (x2' & x3 & X2' & X3 & M').
  assert (x2' = x2) by congruence. subst x2'. rewrite X1 in P1. rewrite X3 in P3.
  exists f2. apply (C77_number_text_exact t r nan s2 G D R2). split; [exact W2|]. rewrite X2. split; [apply P1|].
  exact (between_allowed r x1 x2 x3 NG (proj2 P1) (proj2 P3) L' M').
Qed.

(** ** Integers *)

Theorem C129_integers : forall sg pw t r s1 s2 s3 v1 v2 v3, no_gap r ->
  int_parse_str sg pw t r s1 = Ok v1 -> int_parse_str sg pw t r s3 = Ok v3 ->
  denotes_int sg s2 v2 -> v1 <= v2 <= v3 -> int_parse_str sg pw t r s2 = Ok v2.
Proof.
  intros sg pw t r s1 s2 s3 v1 v2 v3 NG P1 P3 D2 L.
  assert (D : ~ degenerate sg pw t r) by (intros [[i ->]|(_ & mn & mx & i & -> & _)]; exact NG).
  apply (C03_integer_strings sg pw t r s1 D) in P1. apply (C03_integer_strings sg pw t r s3 D) in P3. apply (C03_integer_strings sg pw t r s2 D).
  destruct P1 as (_ & F1 & A1), P3 as (_ & F3 & A3). split; [exact D2|]. split.
  - clear - F1 F3 L. unfold fits in *. destruct sg, t; try destruct pw; lia.
  - destruct r as [a b i|a b i|]; cbn [no_gap allowed] in *; [|contradiction NG|exact I].
    destruct A1 as [A1 _], A3 as [_ A3]. split; intros m E; [specialize (A1 m E); lia|]. specialize (A3 m E). destruct i; lia.
Qed.

(** ** Floats *)

(** The entry point of a validator of type [t] for floats of type [t1]. *)
Definition parse_as (t1 t : fty) := match t1 with F32 => num_parse_f32 t | F64 => num_parse_f64 t end.

Lemma parse_as_own t1 t r nan f : is_float_of t1 f -> exists g, is_float_of t g /\ parse_as t1 t r nan f = own_parse_f t r nan g /\
  forall x, xval f = Some x -> xval g = xval (fcast t f).
Proof.
  intros V.
  assert (S : t1 = t -> exists g, is_float_of t g /\ own_parse_f t r nan f = own_parse_f t r nan g /\ forall x, xval f = Some x -> xval g = xval (fcast t f)).
  { intros ->. exists f. split; [exact V|]. split; [reflexivity|]. intros x X. rewrite X. symmetry. exact (fcast_exact t t f f x V V X X). }
  destruct t1, t; try exact (S eq_refl).
  - exists (fcast F64 f). split; [apply fcast_valid|]. split; [apply num_cross_f32|reflexivity].
  - exists (fcast F32 f). split; [apply fcast_valid|]. split; [apply num_cross_f64|reflexivity].
Qed.

(** C129: of two floats, given through the entry point of either type, the smaller one comes out as no larger a float. *)
Theorem C129_floats_order : forall t r r' nan nan' t1 t2 f g x y f' g', good_range t r -> ~ x_degenerate r ->
  good_range t r' -> ~ x_degenerate r' ->
  is_float_of t1 f -> is_float_of t2 g -> xval f = Some x -> xval g = Some y -> xle x y ->
  parse_as t1 t r nan f = Ok f' -> parse_as t2 t r' nan' g = Ok g' ->
  exists x' y', xval f' = Some x' /\ xval g' = Some y' /\ xle x' y'.
Proof.
  intros t r r' nan nan' t1 t2 f g x y f' g' G D G' D' Vf Vg X Y L P Q.
  destruct (parse_as_own t1 t r nan f Vf) as (f1 & V1 & E1 & H1). destruct (parse_as_own t2 t r' nan' g Vg) as (g1 & W1 & F1 & K1).
  rewrite E1 in P. rewrite F1 in Q. apply (number_exact_lemma t r nan f1 G D V1) in P. apply (number_exact_lemma t r' nan' g1 G' D' W1) in Q.
  destruct P as [-> _], Q as [-> _]. rewrite (H1 x X), (K1 y Y). exact (cast_order t t1 t2 f g x y Vf Vg X Y L).
Qed.

(** C129: and an inside range has no holes for floats either. *)
Theorem C129_floats_no_holes : forall t r nan t1 f1 f2 f3 x1 x2 x3, good_range t r -> no_gap r ->
  is_float_of t1 f1 -> is_float_of t1 f2 -> is_float_of t1 f3 -> xval f1 = Some x1 -> xval f2 = Some x2 -> xval f3 = Some x3 ->
  xle x1 x2 -> xle x2 x3 -> is_ok (parse_as t1 t r nan f1) -> is_ok (parse_as t1 t r nan f3) -> is_ok (parse_as t1 t r nan f2).
Proof.
  intros t r nan t1 f1 f2 f3 x1 x2 x3 G NG V1 V2 V3 X1 X2 X3 L M [g1 P1] [g3 P3].
  assert (D : ~ x_degenerate r) by (intros [i ->]; exact NG).
  destruct (parse_as_own t1 t r nan f1 V1) as (h1 & W1 & E1 & H1). destruct (parse_as_own t1 t r nan f2 V2) as (h2 & W2 & E2 & H2).
  destruct (parse_as_own t1 t r nan f3 V3) as (h3 & W3 & E3 & H3).
  destruct (cast_order t t1 t1 f1 f2 x1 x2 V1 V2 X1 X2 L) as (y1 & y2 & Y1 & Y2 & L').
  destruct (cast_order t t1 t1 f2 f3 x2 x3 V2 V3 X2 X3 M) as (y2' & y3 & Y2' & Y3 & M'). assert (y2' = y2) by congruence. subst y2'.
  rewrite E1 in P1. rewrite E3 in P3. apply (number_exact_lemma t r nan h1 G D W1) in P1. apply (number_exact_lemma t r nan h3 G D W3) in P3.
  rewrite (H1 x1 X1), Y1 in P1. rewrite (H3 x3 X3), Y3 in P3. destruct P1 as (_ & N1 & A1), P3 as (_ & _ & A3).
  exists h2. rewrite E2. apply (number_exact_lemma t r nan h2 G D W2). split; [reflexivity|]. rewrite (H2 x2 X2), Y2. split; [exact N1|].
  exact (between_allowed r y1 y2 y3 NG A1 A3 L' M').
Qed.

(** ** Where order is lost *)

(** Of two different amounts both may be read as the same float, within the type and by the conversion between the types. *)
Theorem C129_strict_refuted : (exists s s' a a' f, readable s /\ readable s' /\ amounts s a /\ amounts s' a' /\ no_more a a' /\ ~ no_more a' a /\
    num_parse_str (float_of_text F64) Unlimited Disallow s = Ok f /\ num_parse_str (float_of_text F64) Unlimited Disallow s' = Ok f) /\
  (exists f g x y h, is_float_of F64 f /\ is_float_of F64 g /\ xval f = Some x /\ xval g = Some y /\ xlt x y /\
    parse_as F64 F32 Unlimited Disallow f = Ok h /\ parse_as F64 F32 Unlimited Disallow g = Ok h).
Proof.
  split.
  - exists (bs "1"), one_and_a_bit, (Ratio 1 1), (Ratio 100000000000000000001 (10 ^ 20)), f64_one.
    split; [apply no_exponent_readable; vm_compute; intuition discriminate|].
    split; [apply no_exponent_readable; vm_compute; intuition discriminate|].
    split.
    { exists [], false, (bs "1"). split; [reflexivity|]. split; [constructor|]. left. exists 1, 0, 1, 1.
      assert (D : digit_run (bs "1") 1) by (apply digit_run_iff; split; [repeat constructor|reflexivity]).
      split; [exact (dec_int (bs "1") [] 1 0 ltac:(discriminate) D exp_none)|].
      split; [split; [lia|left; split; [lia|reflexivity]]|reflexivity]. }
    split.
    { exists [], false, one_and_a_bit. split; [reflexivity|]. split; [constructor|]. left. exists 100000000000000000001, (-20), 100000000000000000001, (10 ^ 20).
      split.
      { change one_and_a_bit with (bs "1" ++ [46%N] ++ bs "00000000000000000001" ++ []).
        change (-20) with (0 - Z.of_nat (List.length (bs "00000000000000000001"))). apply dec_point; [discriminate| |constructor].
        apply digit_run_iff. split; [|reflexivity]. repeat constructor. }
      split; [split; [lia|right; split; [lia|reflexivity]]|reflexivity]. }
    split; [vm_compute; discriminate|]. split; [vm_compute; intros C; apply C; reflexivity|]. split; vm_compute; reflexivity.
  - exists (S754_finite false 4503599627370496 (-52)), (S754_finite false 4503599627370497 (-52)).
    eexists. eexists. exists (S754_finite false 8388608 (-23)). split; [reflexivity|]. split; [reflexivity|].
    split; [reflexivity|]. split; [reflexivity|]. split; [vm_compute; reflexivity|]. split; vm_compute; reflexivity.
Qed.

(** A text too long to be readable: it writes 1 and is read as 0, below the text [0.5]. *)
Theorem C129_long_exponent_refuted : exists s s' a a' f f' x x', amounts s a /\ amounts s' a' /\ no_more a a' /\
  num_parse_str (float_of_text F64) Unlimited Disallow s = Ok f /\ num_parse_str (float_of_text F64) Unlimited Disallow s' = Ok f' /\
  xval f = Some x /\ xval f' = Some x' /\ xlt x' x.
Proof.
  assert (exists n, Z.of_nat n = 1000000) as [n Hn] by (exists (Z.to_nat 1000000); apply Z2Nat.id; lia).
  exists (bs "0.5"), (long_one n), (Ratio 5 10), (Ratio 1 1), (S754_finite false 4503599627370496 (-53)), (S754_zero false). eexists. exists (Fin 0).
  split.
  { exists [], false, (bs "0.5"). split; [reflexivity|]. split; [constructor|]. left. exists 5, (-1), 5, 10. split.
    { change (bs "0.5") with (bs "0" ++ [46%N] ++ bs "5" ++ []). change (-1) with (0 - Z.of_nat (List.length (bs "5"))). apply dec_point; [discriminate| |constructor].
      apply digit_run_iff. split; [|reflexivity]. repeat constructor. }
    split; [split; [lia|right; split; [lia|reflexivity]]|reflexivity]. }
  split.
  { exists [], false, (long_one n). split; [reflexivity|]. split; [constructor|]. left. exists 1, 0, 1, 1.
    split; [|split; [split; [lia|left; split; [lia|reflexivity]]|reflexivity]].
    assert (X : exponent_text (bs "e1000001") 1000001).
    { apply (exp_some 101%N [] false (bs "1000001") 1000001); [left; reflexivity|constructor|discriminate|].
      apply digit_run_iff. split; [repeat constructor|reflexivity]. }
    pose proof (dec_point (bs "0") (List.repeat 48%N n ++ [49%N]) _ 1 1000001 ltac:(discriminate) (long_one_run n) X) as D.
    rewrite (long_one_length n Hn) in D. exact D. }
  split; [cbn [no_more]; lia|]. split; [vm_compute; reflexivity|]. split.
  { destruct (number_strings_lemma (float_of_text F64) F64 Unlimited Disallow (long_one n)) as (E & _ & _).
    rewrite E, (long_one_read n Hn). vm_compute. reflexivity. }
  split; [reflexivity|]. split; [reflexivity|]. vm_compute. reflexivity.
Qed.

(** The range left out by an outside range is a hole, as it is meant to be. *)
Theorem C129_outside_refuted : exists s1 s2 s3 v1 v2 v3, v1 <= v2 <= v3 /\ denotes_int true s2 v2 /\
  int_parse_str true W64 I8 (Outside (Some 0) (Some 9) true) s1 = Ok v1 /\
  int_parse_str true W64 I8 (Outside (Some 0) (Some 9) true) s3 = Ok v3 /\
  int_parse_str true W64 I8 (Outside (Some 0) (Some 9) true) s2 = Err Forbidden.
Proof.
  exists (bs "-1"), (bs "5"), (bs "10"), (-1), 5, 10. split; [lia|]. split; [|vm_compute; auto].
  assert (D : ~ degenerate true W64 I8 Unlimited) by (intros [[i H]|(H & _)]; discriminate).
  apply (C03_integer_strings true W64 I8 Unlimited (bs "5") D). vm_compute. reflexivity.
Qed.

Example C129_example :
  num_parse_str (float_of_text F32) (Inside (Some (S754_zero false)) None true) Disallow (bs "0.1") = Ok (S754_finite false 13421773 (-27)) /\
  num_parse_str (float_of_text F32) (Inside (Some (S754_zero false)) None true) Disallow (bs "1e-1") = Ok (S754_finite false 13421773 (-27)) /\
  num_parse_str (float_of_text F32) (Inside (Some (S754_zero false)) None true) Disallow (bs "+Inf") = Ok (S754_infinity false) /\
  amounts (bs "+Inf") High /\ readable (bs "+Inf") /\
  parse_as F64 F32 (Inside (Some (S754_zero false)) None true) Disallow (S754_finite false 7205759403792794 (-56)) = Ok (S754_finite false 13421773 (-27)) /\
  int_parse_str true W64 I8 (Inside (Some (-5)) None true) (bs "-5") = Ok (-5) /\
  int_parse_str true W64 I8 (Inside (Some (-5)) None true) (bs "+007") = Ok 7.
Proof.
  do 3 (split; [vm_compute; reflexivity|]). split.
  { exists (bs "+"), false, (bs "Inf"). split; [reflexivity|]. split; [constructor|]. right. split; [left; reflexivity|reflexivity]. }
  split; [left; vm_compute; discriminate|]. repeat split; vm_compute; reflexivity.
Qed.

Print Assumptions C129_order.
Print Assumptions C129_no_holes.
Print Assumptions C129_integers.
Print Assumptions C129_floats_order.
Print Assumptions C129_floats_no_holes.
Print Assumptions C129_strict_refuted.
Print Assumptions C129_long_exponent_refuted.
Print Assumptions C129_outside_refuted.
