(** The specification of rounding determines the float. *)
From Verif Require Import Base RangeModel NumberModel NumberSpec NumberProofs NumberCast NumberRound FloatModel FloatSpec.
From Coq Require Import Floats.SpecFloat.
Local Open Scope Z_scope.

Lemma bounded_intro t m e : emn t <= e <= femax t - fprec t -> Zpos (digits2_pos m) <= fprec t ->
  (Zpos (digits2_pos m) = fprec t \/ e = emn t) -> bounded (fprec t) (femax t) m e = true.
Proof.
  intros H1 H2 H3. unfold bounded. apply andb_true_intro. split.
  - unfold canonical_mantissa. rewrite fexp_val. apply Zeq_is_eq_bool. lia.
  - apply Z.leb_le. lia.
Qed.

Lemma double_step a b u v : 0 <= u -> u * 2 <= v -> 0 <= b -> a <= 2 * b -> a * u <= b * v.
Proof. intros. apply Z.le_trans with (2 * b * u); [apply Z.mul_le_mono_nonneg_r; lia|]. replace (2 * b * u) with (b * (u * 2)) by ring. apply Z.mul_le_mono_nonneg_l; lia. Qed.

(** The float before a positive one with an even significand has an odd one. *)
Lemma pred_float t m e : bounded (fprec t) (femax t) m e = true -> Z.even (Zpos m) = true ->
  exists m' e', bounded (fprec t) (femax t) m' e' = true /\ Z.even (Zpos m') = false /\
    Zpos m' * 2 ^ (e' + 1074) < Zpos m * 2 ^ (e + 1074) /\
    forall mb eb, bounded (fprec t) (femax t) mb eb = true -> Zpos mb * 2 ^ (eb + 1074) < Zpos m * 2 ^ (e + 1074) ->
      Zpos mb * 2 ^ (eb + 1074) <= Zpos m' * 2 ^ (e' + 1074).
Proof.
  intros Hb Hev. assert (He : -1074 <= emn t /\ 1 < fprec t) by (destruct t; simpl; lia). destruct He as (He & Hpr).
  assert (Pp : 2 ^ fprec t = 2 * 2 ^ (fprec t - 1)) by (rewrite <- Z.pow_succ_r by lia; f_equal; lia).
  assert (Pp0 : 2 <= 2 ^ (fprec t - 1)) by (change 2 with (2 ^ 1) at 1; apply Z.pow_le_mono_r; lia).
  destruct (bounded_facts t m e Hb) as (F1 & F2 & F3 & F4). fold (emn t) in F1, F3.
  assert (BP : forall mb eb, bounded (fprec t) (femax t) mb eb = true -> emn t <= eb /\ Zpos mb < 2 ^ fprec t).
  { intros mb eb H. destruct (bounded_facts t mb eb H) as (G1 & G2 & _). split; [exact G1|].
    destruct (digits2_bounds mb) as [_ D]. eapply Z.lt_le_trans; [exact D|]. apply Z.pow_le_mono_r; lia. }
  destruct (digits2_bounds m) as [D1 D2].
  assert (M2 : 2 <= Zpos m) by (destruct m; simpl in Hev; try discriminate; lia).
  assert (GR : forall mb eb d, d <= eb -> -1074 <= d -> Zpos mb * 2 ^ (eb + 1074) = Zpos mb * 2 ^ (eb - d) * 2 ^ (d + 1074)).
  { intros mb eb d H Hd. rewrite <- Z.mul_assoc, <- Z.pow_add_r by lia. do 2 f_equal. lia. }
  assert (PO : forall d, -1074 <= d -> 0 < 2 ^ (d + 1074)) by (intros; apply Z.pow_pos_nonneg; lia).
  assert (PS : forall d, -1074 <= d -> 2 ^ (d + 1 + 1074) = 2 * 2 ^ (d + 1074)).
  { intros d H. rewrite <- Z.pow_succ_r by lia. f_equal. lia. }
  assert (OD : Z.even (Zpos m - 1) = false) by (rewrite Z.even_sub, Hev; reflexivity).
  destruct (Z.eq_dec (Zpos m) (2 ^ (fprec t - 1))) as [C|C]; [destruct (Z_lt_le_dec (emn t) e) as [C2|C2]|].
  - (* the power of two: the previous float has a smaller exponent *)
    exists (Z.to_pos (2 ^ fprec t - 1)), (e - 1).
    assert (ID : Zpos (Z.to_pos (2 ^ fprec t - 1)) = 2 ^ fprec t - 1) by (apply Z2Pos.id; lia).
    assert (E1 : 2 ^ (e + 1074) = 2 * 2 ^ (e - 1 + 1074)) by (rewrite <- PS by lia; f_equal; lia).
    pose proof (PO (e - 1) ltac:(lia)) as P1.
    assert (EQ : Zpos m * 2 ^ (e + 1074) = 2 ^ fprec t * 2 ^ (e - 1 + 1074)) by (rewrite C, E1, Pp; ring).
    split.
    { assert (Zpos (digits2_pos (Z.to_pos (2 ^ fprec t - 1))) = fprec t) by (apply digits_unique; [lia|rewrite ID; lia]).
      apply bounded_intro; [lia|lia|left; auto]. }
    split; [rewrite ID, Pp, Z.even_sub, Z.even_mul; reflexivity|].
    rewrite EQ, ID. split; [nia|]. intros mb eb Hmb Hlt. destruct (BP mb eb Hmb) as [Q1 Q2].
    destruct (Z_le_gt_dec (e - 1) eb).
    + rewrite (GR mb eb (e - 1)) in Hlt |- * by lia. apply Z.mul_lt_mono_pos_r in Hlt; [|exact P1]. apply Z.mul_le_mono_nonneg_r; lia.
    + pose proof (PO eb ltac:(lia)). assert (2 ^ (eb + 1074) * 2 <= 2 ^ (e - 1 + 1074)).
      { replace (2 ^ (eb + 1074) * 2) with (2 ^ (eb + 1 + 1074)) by (rewrite PS by lia; ring). apply Z.pow_le_mono_r; lia. }
      apply double_step; lia.
  - (* the power of two at the smallest exponent *)
    assert (e = emn t) by lia. subst e. exists (Z.to_pos (Zpos m - 1)), (emn t).
    assert (ID : Zpos (Z.to_pos (Zpos m - 1)) = Zpos m - 1) by (apply Z2Pos.id; lia).
    pose proof (PO (emn t) ltac:(lia)) as P1.
    split.
    { apply bounded_intro; [lia| |right; reflexivity].
      destruct (digits2_bounds (Z.to_pos (Zpos m - 1))) as [K _]. rewrite ID in K.
      assert (Zpos (digits2_pos (Z.to_pos (Zpos m - 1))) - 1 < fprec t); [|lia]. apply (Z.pow_lt_mono_r_iff 2); lia. }
    split; [rewrite ID; exact OD|]. rewrite ID. split; [nia|].
    intros mb eb Hmb Hlt. destruct (BP mb eb Hmb) as [Q1 Q2]. rewrite (GR mb eb (emn t)) in Hlt |- * by lia. apply Z.mul_lt_mono_pos_r in Hlt; [|exact P1]. apply Z.mul_le_mono_nonneg_r; lia.
  - exists (Z.to_pos (Zpos m - 1)), e.
    assert (ID : Zpos (Z.to_pos (Zpos m - 1)) = Zpos m - 1) by (apply Z2Pos.id; lia).
    pose proof (PO e ltac:(lia)) as P1.
    assert (UPm : Zpos m < 2 ^ fprec t) by (eapply Z.lt_le_trans; [exact D2|]; apply Z.pow_le_mono_r; lia).
    assert (LO : e <> emn t -> 2 ^ (fprec t - 1) <= Zpos m - 1).
    { intros. destruct F3 as [F3|F3]; [|lia]. rewrite F3 in D1. lia. }
    split.
    { assert (Zpos (digits2_pos (Z.to_pos (Zpos m - 1))) <= fprec t).
      { destruct (digits2_bounds (Z.to_pos (Zpos m - 1))) as [K _]. rewrite ID in K.
        assert (Zpos (digits2_pos (Z.to_pos (Zpos m - 1))) - 1 < fprec t); [|lia]. apply (Z.pow_lt_mono_r_iff 2); lia. }
      apply bounded_intro; [lia|lia|]. destruct (Z.eq_dec e (emn t)); [right; auto|left].
      apply digits_unique; [lia|]. rewrite ID. specialize (LO ltac:(auto)). lia. }
    split; [rewrite ID; exact OD|]. rewrite ID. split; [nia|].
    intros mb eb Hmb Hlt. destruct (BP mb eb Hmb) as [Q1 Q2].
    destruct (Z_le_gt_dec e eb).
    + rewrite (GR mb eb e) in Hlt |- * by lia. apply Z.mul_lt_mono_pos_r in Hlt; [|exact P1]. apply Z.mul_le_mono_nonneg_r; lia.
    + specialize (LO ltac:(lia)). pose proof (PO eb ltac:(lia)). assert (2 ^ (eb + 1074) * 2 <= 2 ^ (e + 1074)).
      { replace (2 ^ (eb + 1074) * 2) with (2 ^ (eb + 1 + 1074)) by (rewrite PS by lia; ring). apply Z.pow_le_mono_r; lia. }
      apply double_step; lia.
Qed.

Lemma float_mag f z : xval f = Some (Fin z) ->
  (exists s, f = S754_zero s /\ z = 0) \/
  (exists (s : bool) m e, f = S754_finite s m e /\ z = if s then - (Zpos m * 2 ^ (e + 1074)) else Zpos m * 2 ^ (e + 1074)).
Proof.
  destruct f as [s|s| |s m e]; simpl; intros H; try discriminate.
  - left. exists s. split; congruence.
  - destruct s; discriminate.
  - right. exists s, m, e. split; [reflexivity|]. injection H as <-. destruct s; lia.
Qed.

(** Two floats that are as near to a number as each other, with no float nearer: one of them has
    an odd significand. *)
Lemma no_even_tie t f1 f2 z1 z2 : is_float_of t f1 -> is_float_of t f2 ->
  xval f1 = Some (Fin z1) -> xval f2 = Some (Fin z2) -> z1 <> z2 -> even_float f1 -> even_float f2 -> Z.abs z1 <= Z.abs z2 ->
  exists g y, is_float_of t g /\ xval g = Some (Fin y) /\ (z1 < y < z2 \/ z2 < y < z1).
Proof.
  intros V1 V2 H1 H2 Hne E1 E2 Ha.
  assert (PO : forall m e, bounded (fprec t) (femax t) m e = true -> 0 < Zpos m * 2 ^ (e + 1074)).
  { intros m e H. destruct (bounded_facts t m e H) as (G1 & _). apply Z.mul_pos_pos; [lia|]. apply Z.pow_pos_nonneg; [lia|]. destruct t; lia. }
  destruct (float_mag f2 z2 H2) as [(s & -> & ->)|(s & m & e & -> & Hz)]; [lia|].
  assert (B2 : bounded (fprec t) (femax t) m e = true) by exact V2.
  destruct (pred_float t m e B2 E2) as (m' & e' & B' & O' & Lt & Adj).
  pose proof (PO m e B2). pose proof (PO m' e' B').
  set (g := S754_finite s m' e').
  assert (Vg : is_float_of t g) by exact B'.
  assert (Xg : xval g = Some (Fin (if s then - (Zpos m' * 2 ^ (e' + 1074)) else Zpos m' * 2 ^ (e' + 1074)))).
  { unfold g, xval. do 2 f_equal. destruct s; lia. }
  destruct (float_mag f1 z1 H1) as [(s1 & -> & ->)|(s1 & m1 & e1 & -> & Hz1)].
  - exists g. eexists. split; [exact Vg|]. split; [exact Xg|]. destruct s; lia.
  - assert (B1 : bounded (fprec t) (femax t) m1 e1 = true) by exact V1. pose proof (PO m1 e1 B1).
    destruct (Bool.bool_dec s1 s) as [->|Hs].
    + assert (Q : Zpos m1 * 2 ^ (e1 + 1074) < Zpos m * 2 ^ (e + 1074)) by (destruct s; lia).
      specialize (Adj m1 e1 B1 Q).
      destruct (Z.eq_dec (Zpos m1 * 2 ^ (e1 + 1074)) (Zpos m' * 2 ^ (e' + 1074))) as [Eq|Eq].
      * exfalso. destruct (canon_unique t m1 e1 m' e' B1 B' Eq) as [-> ->]. simpl in E1. simpl in O'. congruence.
      * exists g. eexists. split; [exact Vg|]. split; [exact Xg|]. destruct s; lia.
    + exists (S754_zero false), 0. split; [reflexivity|]. split; [reflexivity|]. destruct s, s1; try congruence; lia.
Qed.

Lemma rounds_nearest_unique t sg p q f f' : 0 < q -> rounds_nearest t sg p q f -> rounds_nearest t sg p q f' -> f = f'.
Proof.
  intros Hq (V & S & O & N) (V' & S' & O' & N').
  destruct (Z_le_gt_dec ((2 ^ (fprec t + 1) - 1) * 2 ^ (femax t - fprec t) * q) (2 * p)) as [C|C].
  - rewrite (O C), (O' C). reflexivity.
  - assert (NC : ~ overflows t p q) by (unfold overflows; lia).
    destruct (N NC) as (z & X & M). destruct (N' NC) as (z' & X' & M'). cbv zeta in M, M'.
    set (x := if sg then - p else p) in *.
    destruct (M f' z' V' X') as [L E]. destruct (M' f z V X) as [L' E'].
    destruct (Z.eq_dec z z') as [<-|Hne].
    + destruct (float_mag f z X) as [(s & -> & ->)|(s & m & e & -> & Hz)].
      * destruct (float_mag f' 0 X') as [(s' & -> & _)|(s' & m' & e' & -> & Hz')].
        -- simpl in S, S'. congruence.
        -- exfalso. destruct (bounded_facts t m' e' V') as (G1 & _).
           assert (0 < 2 ^ (e' + 1074)) by (apply Z.pow_pos_nonneg; [lia|destruct t; lia]). destruct s'; nia.
      * symmetry. apply (xval_inj t); auto. rewrite X, X'. reflexivity.
    + exfalso. assert (D : distance x q z = distance x q z') by lia.
      specialize (E ltac:(auto) D). specialize (E' ltac:(auto) (eq_sym D)).
      assert (T : exists g y, is_float_of t g /\ xval g = Some (Fin y) /\ (z < y < z' \/ z' < y < z)).
      { destruct (Z_le_gt_dec (Z.abs z) (Z.abs z')).
        - apply (no_even_tie t f f'); auto.
        - destruct (no_even_tie t f' f z' z) as (g' & y' & A & B & K); auto; [lia|]. exists g', y'. split; [auto|]. split; [auto|]. lia. }
      destruct T as (g1 & y1 & Vg & Xg & Hy). destruct (M g1 y1 Vg Xg) as [Lg _]. 
      unfold distance in *. set (A := x * 2 ^ 1074) in *. 
      assert (z * q <> z' * q) by nia.
      destruct Hy; [assert (z * q < y1 * q < z' * q) by nia|assert (z' * q < y1 * q < z * q) by nia]; lia.
Qed.
