(** The conversion of a fraction satisfies the specification of rounding, and that
    specification determines the float. *)
From Verif Require Import Base RangeModel NumberModel NumberSpec NumberProofs NumberCast NumberRound FloatModel FloatSpec FloatRound.
From Coq Require Import Floats.SpecFloat.
Local Open Scope Z_scope.

Lemma round_ratio_pos t sg p q : 0 < p -> 0 < q ->
  exists E z, let u := 2 ^ (E + 1074) in let X := p * 2 ^ 1074 in
    emn t <= E /\ 0 <= z <= 2 ^ fprec t /\
    (2 * z - 1) * u * q <= 2 * X <= (2 * z + 1) * u * q /\
    (2 * X = (2 * z - 1) * u * q \/ 2 * X = (2 * z + 1) * u * q -> Z.even z = true) /\
    (emn t < E -> 2 ^ (fprec t - 1) * u * q <= X) /\ X < 2 ^ fprec t * u * q /\
    is_float_of t (round_ratio t sg p q) /\
    round_ratio t sg p q =
      (if z =? 0 then S754_zero sg
       else if z =? 2 ^ fprec t
            then (if E + 1 <=? femax t - fprec t then S754_finite sg (Z.to_pos (2 ^ (fprec t - 1))) (E + 1) else S754_infinity sg)
            else (if E <=? femax t - fprec t then S754_finite sg (Z.to_pos z) E else S754_infinity sg)).
Proof.
  intros Hp Hq. pose proof (to_odd_le p q) as L. pose proof (to_odd_ge p q) as G.
  assert (P75 : p * 2 ^ 1075 = 2 * (p * 2 ^ 1074)) by (change (2 ^ 1075) with (2 * 2 ^ 1074); ring).
  rewrite P75 in L, G.
  assert (Hpos : 0 < to_odd p q).
  { destruct (Z_le_gt_dec (to_odd p q) (2 * 0)) as [C|]; [|lia]. apply G in C; [|lia|lia].
    assert (0 < 2 ^ 1074) by reflexivity. nia. }
  unfold round_ratio. destruct (to_odd p q) as [|m|m]; [lia| |lia].
  destruct (binary_round_near t sg m) as (z & Hz & [N1 N2] & Hf).
  set (E := Z.max (Z.pos (digits2_pos m) - 1076 - fprec t) (emn t)) in *.
  assert (HE : -1074 <= emn t /\ 1 < fprec t) by (destruct t; simpl; lia). destruct HE as [HE Hpr].
  exists E, z. cbv zeta. set (u := 2 ^ (E + 1074)). set (X := p * 2 ^ 1074) in *.
  assert (HEe : emn t <= E) by lia.
  assert (Hu : 2 ^ (E + 1075) = 2 * u) by (unfold u; rewrite <- Z.pow_succ_r by lia; f_equal; lia).
  assert (Pu : 0 < u) by (apply Z.pow_pos_nonneg; lia).
  rewrite Hu in N1, N2.
  assert (LL : forall j, j * q <= 2 * X <-> 2 * j <= Z.pos m) by (intros j; apply L; lia).
  assert (GG : forall j, 2 * X <= j * q <-> Z.pos m <= 2 * j) by (intros j; apply G; lia).
  clear L G.
  destruct (digits2_bounds m) as [B1 B2].
  split; [exact HEe|]. split; [exact Hz|].
  split; [split; [apply LL|apply GG]; nia|].
  split.
  { intros T. apply N2. destruct T as [T|T].
    - left. assert (2 * ((2 * z - 1) * u) <= Z.pos m) by (apply LL; lia).
      assert (Z.pos m <= 2 * ((2 * z - 1) * u)) by (apply GG; lia). lia.
    - right. assert (2 * ((2 * z + 1) * u) <= Z.pos m) by (apply LL; lia).
      assert (Z.pos m <= 2 * ((2 * z + 1) * u)) by (apply GG; lia). lia. }
  split.
  { intros HEl. assert (D : Z.pos (digits2_pos m) = E + 1076 + fprec t) by lia.
    assert (C : 2 ^ (Z.pos (digits2_pos m) - 1) = 2 * (2 * 2 ^ (fprec t - 1) * u)).
    { replace (Z.pos (digits2_pos m) - 1) with (1 + (1 + (fprec t - 1) + (E + 1074))) by lia.
      unfold u. rewrite !Z.pow_add_r by lia. change (2 ^ 1) with 2. ring. }
    assert (2 * (2 * 2 ^ (fprec t - 1) * u) <= Z.pos m) as Y by lia. apply LL in Y. lia. }
  split.
  { assert (C : 2 ^ Z.pos (digits2_pos m) <= 2 * (2 * 2 ^ fprec t * u)).
    { replace (2 * (2 * 2 ^ fprec t * u)) with (2 ^ (1 + (1 + fprec t + (E + 1074)))).
      - apply Z.pow_le_mono_r; lia.
      - unfold u. rewrite !Z.pow_add_r by lia. change (2 ^ 1) with 2. ring. }
    destruct (Z_lt_le_dec X (2 ^ fprec t * u * q)) as [|Y]; [auto|].
    assert (Y' : 2 * 2 ^ fprec t * u * q <= 2 * X) by lia. apply LL in Y'. lia. }
  split; [|exact Hf].
  assert (Hn : fcast t (S754_finite sg m (-1076)) = binary_round (fprec t) (femax t) sg m (-1076))
    by (unfold fcast; destruct sg; reflexivity).
  rewrite <- Hn. apply fcast_valid.
Qed.

(** Where a float lies relative to the grid of step [u]: on it, or below a point of it that is
    below X/q. *)
Lemma float_grid t g y E X q (sg : bool) : is_float_of t g -> xval g = Some (Fin y) -> emn t <= E -> 0 < q -> 0 <= X ->
  (emn t < E -> 2 ^ (fprec t - 1) * 2 ^ (E + 1074) * q <= X) ->
  (exists k, (if sg then - y else y) = k * 2 ^ (E + 1074)) \/
  (exists k, k * 2 ^ (E + 1074) * q <= X /\ (if sg then - y else y) < k * 2 ^ (E + 1074)).
Proof.
  intros Hg Hy HE Hq HX HL. set (u := 2 ^ (E + 1074)) in *.
  assert (He : -1074 <= emn t /\ 1 < fprec t) by (destruct t; simpl; lia). destruct He as [He Hpr].
  assert (Pu : 0 < u) by (apply Z.pow_pos_nonneg; lia).
  assert (M : forall mag, (mag = 0 \/ exists mb eb, bounded (fprec t) (femax t) mb eb = true /\ mag = Zpos mb * 2 ^ (eb + 1074)) ->
    (exists k, mag = k * u) \/ (exists k, k * u * q <= X /\ mag < k * u)).
  { intros mag [->|(mb & eb & Hb & ->)]; [left; exists 0; reflexivity|].
    destruct (bounded_facts t mb eb Hb) as (F1 & F2 & F3 & F4).
    assert (F1' : emn t <= eb) by exact F1.
    destruct (Z_le_gt_dec E eb) as [C|C].
    - left. exists (Zpos mb * 2 ^ (eb - E)). unfold u. rewrite <- Z.mul_assoc, <- Z.pow_add_r by lia. f_equal. f_equal. lia.
    - right. exists (2 ^ (fprec t - 1)). split; [apply HL; lia|].
      destruct (digits2_bounds mb) as [_ D].
      assert (Zpos mb < 2 ^ fprec t) by (eapply Z.lt_le_trans; [exact D|]; apply Z.pow_le_mono_r; lia).
      assert (Pe : 0 < 2 ^ (eb + 1074)) by (apply Z.pow_pos_nonneg; lia).
      apply Z.lt_le_trans with (2 ^ fprec t * 2 ^ (eb + 1074)); [nia|].
      unfold u. rewrite <- !Z.pow_add_r by lia. apply Z.pow_le_mono_r; lia. }
  assert (V : exists mag (s : bool), 0 <= mag /\ y = (if s then - mag else mag) /\ (mag = 0 \/ exists mb eb, bounded (fprec t) (femax t) mb eb = true /\ mag = Zpos mb * 2 ^ (eb + 1074))).
  { destruct g as [s|s| |s mb eb]; simpl in Hy; try discriminate.
    - injection Hy as <-. exists 0, false. split; [lia|]. split; [reflexivity|]. left; reflexivity.
    - destruct s; discriminate.
    - injection Hy as <-. exists (Zpos mb * 2 ^ (eb + 1074)), s. split; [apply Z.mul_nonneg_nonneg; [lia|apply Z.pow_nonneg; lia]|].
      split; [destruct s; lia|]. right. exists mb, eb. split; [exact Hg|reflexivity]. }
  destruct V as (mag & s & Hm & -> & Hd).
  assert (Neg : (exists k, - mag = k * u) \/ (exists k, k * u * q <= X /\ - mag < k * u)).
  { destruct (Z.eq_dec mag 0) as [->|]; [left; exists 0; reflexivity|]. right. exists 0. split; lia. }
  destruct s, sg; try exact Neg; try (exact (M _ Hd)).
  rewrite Z.opp_involutive. exact (M _ Hd).
Qed.

(** A point of the grid nearest to X/q is as near as any other, and nearer than what lies below
    the grid. *)
Lemma grid_near z u q X y : 0 < u -> 0 < q -> 
  (2 * z - 1) * u * q <= 2 * X <= (2 * z + 1) * u * q ->
  (2 * X = (2 * z - 1) * u * q \/ 2 * X = (2 * z + 1) * u * q -> Z.even z = true) ->
  (exists k, y = k * u) \/ (exists k, k * u * q <= X /\ y < k * u) ->
  Z.abs (X - z * u * q) <= Z.abs (X - y * q) /\
  (y <> z * u -> Z.abs (X - z * u * q) = Z.abs (X - y * q) -> Z.even z = true).
Proof.
  intros Hu Hq HX HT HY. assert (Hw : 0 < u * q) by nia.
  assert (K : forall k, Z.abs (X - z * u * q) <= Z.abs (X - k * u * q) /\
              (k <> z -> Z.abs (X - z * u * q) = Z.abs (X - k * u * q) -> Z.even z = true)).
  { intros k. rewrite <- !Z.mul_assoc in *. set (w := u * q) in *. clearbody w.
    assert (A1 : (2 * z - 1) * w = 2 * (z * w) - w) by ring.
    assert (A2 : (2 * z + 1) * w = 2 * (z * w) + w) by ring. rewrite A1, A2 in *.
    destruct (Z.lt_trichotomy k z) as [C|[->|C]].
    - assert (k * w <= z * w - w) by nia. split; [lia|]. intros _ Q. apply HT. lia.
    - split; [lia|]. congruence.
    - assert (z * w + w <= k * w) by nia. split; [lia|]. intros _ Q. apply HT. lia. }
  destruct HY as [[k ->]|(k & K1 & K2)].
  - destruct (K k) as [Q1 Q2]. split; [lia|]. intros Hn. apply Q2. intros ->. apply Hn. reflexivity.
  - destruct (K k) as [Q1 _]. assert (y * q < k * u * q) by nia. split; [lia|]. lia.
Qed.

Lemma round_ratio_spec t sg p q : 0 <= p -> 0 < q -> rounds_nearest t sg p q (round_ratio t sg p q).
Proof.
  intros Hp Hq. assert (He : -1074 <= emn t /\ 1 < fprec t /\ 0 <= femax t - fprec t /\ emn t < femax t - fprec t) by (destruct t; simpl; lia).
  destruct He as (He & Hpr & Hmx & Hme).
  assert (PU0 : 0 < 2 ^ (femax t - fprec t)) by (apply Z.pow_pos_nonneg; lia).
  assert (Pp0 : 2 <= 2 ^ (fprec t - 1)) by (change 2 with (2 ^ 1) at 1; apply Z.pow_le_mono_r; lia).
  assert (Pp : 2 ^ fprec t = 2 * 2 ^ (fprec t - 1)) by (rewrite <- Z.pow_succ_r by lia; f_equal; lia).
  assert (Pp1 : 2 ^ (fprec t + 1) = 2 * 2 ^ fprec t) by (rewrite <- Z.pow_succ_r by lia; f_equal; lia).
  destruct (Z.eq_dec p 0) as [->|Hp0].
  { assert (T : to_odd 0 q = 0).
    { unfold to_odd. rewrite Z.mul_0_l, Z.div_0_l, Z.mod_0_l by lia. reflexivity. }
    unfold round_ratio. rewrite T. split; [reflexivity|]. split; [reflexivity|]. split.
    - unfold overflows. rewrite Pp1. intros O. assert (0 < (2 * 2 ^ fprec t - 1) * 2 ^ (femax t - fprec t)) by nia. nia.
    - intros _. exists 0. split; [reflexivity|]. intros g y _ _. replace (if sg then - 0 else 0) with 0 by (destruct sg; reflexivity).
      cbv zeta. unfold distance. rewrite !Z.mul_0_l. split; [|intros _ _; exact I]. simpl (Z.abs (0 - 0)). lia. }
  destruct (round_ratio_pos t sg p q ltac:(lia) Hq) as (E & z & HE & Hz & HN & HT & HL & HU & HV & HF).
  set (u := 2 ^ (E + 1074)) in *. set (X := p * 2 ^ 1074) in *.
  assert (Pu : 0 < u) by (apply Z.pow_pos_nonneg; lia).
  assert (HX : 0 < X) by (apply Z.mul_pos_pos; [lia|reflexivity]).
  assert (OV : overflows t p q <-> (2 * 2 ^ fprec t - 1) * 2 ^ (femax t - fprec t + 1074) * q <= 2 * X).
  { unfold overflows. rewrite Pp1. rewrite Z.pow_add_r by lia. unfold X. assert (P74 : 0 < 2 ^ 1074) by reflexivity.
    set (a := 2 * 2 ^ fprec t - 1). set (b := 2 ^ (femax t - fprec t)).
    replace (a * (b * 2 ^ 1074) * q) with (a * b * q * 2 ^ 1074) by ring. replace (2 * (p * 2 ^ 1074)) with (2 * p * 2 ^ 1074) by ring.
    split; intros; nia. }
  set (U := 2 ^ (femax t - fprec t + 1074)) in *.
  assert (UE : E <= femax t - fprec t -> u <= U) by (intros; apply Z.pow_le_mono_r; lia).
  assert (UG : femax t - fprec t < E -> 2 * U <= u).
  { intros. unfold U, u. rewrite <- Z.pow_succ_r by lia. apply Z.pow_le_mono_r; lia. }
  assert (UL : E < femax t - fprec t -> 2 * u <= U).
  { intros. unfold U, u. rewrite <- Z.pow_succ_r by lia. apply Z.pow_le_mono_r; lia. }
  assert (INF : overflows t p q <-> z <> 0 /\ (femax t - fprec t < E \/ (z = 2 ^ fprec t /\ femax t - fprec t < E + 1))).
  { rewrite OV. assert (PUq : 0 < U * q) by (apply Z.mul_pos_pos; [apply Z.pow_pos_nonneg; lia|lia]).
    assert (Puq : 0 < u * q) by nia.
    rewrite <- !Z.mul_assoc in *. 
    destruct (Z.lt_trichotomy E (femax t - fprec t)) as [C|[C|C]].
    - specialize (UL C). assert (2 * (u * q) <= U * q) by nia. split; [intros O; exfalso|intros (_ & [|[_ ?]]); lia].
      set (w := u * q) in *. set (W := U * q) in *. nia.
    - assert (EU : U = u) by (unfold U, u; rewrite C; reflexivity). rewrite EU in *. set (w := u * q) in *.
      split.
      + intros O. assert (2 * 2 ^ fprec t - 1 <= 2 * z + 1) by nia. assert (ZC : z = 2 ^ fprec t \/ z = 2 ^ fprec t - 1) by lia.
        destruct ZC as [ZC|ZC]; [split; [lia|right; lia]|exfalso].
        assert (Z.even z = true) as Ev by (apply HT; right; nia).
        rewrite ZC, Pp, Z.even_sub, Z.even_mul in Ev. discriminate.
      + intros (_ & [|[-> _]]); [lia|]. lia.
    - specialize (UG C). specialize (HL ltac:(lia)). set (w := u * q) in *. set (W := U * q) in *.
      assert (2 * W <= w) by (unfold w, W; nia). split; [intros _|intros _; nia].
      split; [|left; lia]. intros ->. nia. }
  split; [exact HV|]. split.
  { rewrite HF. destruct (z =? 0); [reflexivity|]. destruct (z =? 2 ^ fprec t); [destruct (E + 1 <=? _); reflexivity|destruct (E <=? _); reflexivity]. }
  split.
  { intros O. apply INF in O. destruct O as [O1 O2]. rewrite HF. destruct (Z.eqb_spec z 0); [contradiction|].
    destruct (Z.eqb_spec z (2 ^ fprec t)).
    - destruct (Z.leb_spec (E + 1) (femax t - fprec t)); [lia|reflexivity].
    - destruct (Z.leb_spec E (femax t - fprec t)); [lia|reflexivity]. }
  intros NO.
  assert (FIN : xval (round_ratio t sg p q) = Some (Fin ((if sg then - z else z) * u)) /\ (Z.even z = true -> even_float (round_ratio t sg p q))).
  { rewrite HF. destruct (Z.eqb_spec z 0) as [->|Z0].
    { split; [destruct sg; reflexivity|intros _; exact I]. }
    destruct (Z.eqb_spec z (2 ^ fprec t)) as [Zm|Zm].
    - destruct (Z.leb_spec (E + 1) (femax t - fprec t)) as [C|C].
      + split.
        * simpl. rewrite Z2Pos.id by lia. do 2 f_equal. rewrite Zm, Pp. unfold u.
          replace (E + 1 + 1074) with (1 + (E + 1074)) by lia. rewrite (Z.pow_add_r 2 1) by lia. change (2 ^ 1) with 2. destruct sg; ring.
        * intros _. change (Z.even (Z.pos (Z.to_pos (2 ^ (fprec t - 1)))) = true). rewrite Z2Pos.id by lia.
          replace (fprec t - 1) with (Z.succ (fprec t - 2)) by lia. rewrite Z.pow_succ_r by lia. rewrite Z.even_mul. reflexivity.
      + exfalso. apply NO. apply INF. split; [lia|]. right. lia.
    - destruct (Z.leb_spec E (femax t - fprec t)) as [C|C].
      + split.
        * unfold xval. rewrite Z2Pos.id by lia. fold u. do 2 f_equal. destruct sg; lia.
        * change (Z.even z = true -> Z.even (Z.pos (Z.to_pos z)) = true). rewrite Z2Pos.id by lia. auto.
      + exfalso. apply NO. apply INF. split; [lia|]. left. lia. }
  destruct FIN as [FIN FE]. eexists. split; [exact FIN|].
  intros g y Hg Hy x.
  pose proof (float_grid t g y E X q sg Hg Hy HE Hq ltac:(lia) HL) as GR. fold u in GR.
  destruct (grid_near z u q X (if sg then - y else y) Pu Hq HN HT GR) as [G1 G2].
  assert (D1 : distance x q ((if sg then - z else z) * u) = Z.abs (X - z * u * q)).
  { unfold distance, x, X. destruct sg; [|reflexivity]. rewrite <- Z.abs_opp. f_equal. ring. }
  assert (D2 : distance x q y = Z.abs (X - (if sg then - y else y) * q)).
  { unfold distance, x, X. destruct sg; [|reflexivity]. rewrite <- Z.abs_opp. f_equal. ring. }
  rewrite D1, D2. split; [exact G1|]. intros Hn He'. apply FE. apply G2; [|exact He'].
  intros C. apply Hn. destruct sg; lia.
Qed.
