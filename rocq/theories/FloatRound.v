(** The conversion of a fraction gives the nearest float, ties to even. *)
From Verif Require Import Base RangeModel NumberModel NumberSpec NumberProofs NumberCast NumberRound FloatModel FloatSpec.
From Coq Require Import Floats.SpecFloat.
Local Open Scope Z_scope.

(** The state of the shifting loop: the bits kept and where the bits dropped lie. *)
Definition shr_loc (M k : Z) (r : shr_record) : Prop :=
  shr_m r = M / 2 ^ k /\
  match shr_r r, shr_s r with
  | false, false => M mod 2 ^ k = 0
  | true, false => 2 * (M mod 2 ^ k) = 2 ^ k
  | false, true => 0 < 2 * (M mod 2 ^ k) < 2 ^ k
  | true, true => 2 ^ k < 2 * (M mod 2 ^ k)
  end.

Lemma mod_step : forall M k, 0 <= k ->
  M / 2 ^ (k + 1) = (M / 2 ^ k) / 2 /\ M mod 2 ^ (k + 1) = M mod 2 ^ k + 2 ^ k * ((M / 2 ^ k) mod 2) /\
  2 ^ (k + 1) = 2 * 2 ^ k.
Proof.
  intros M k Hk. assert (0 < 2 ^ k) by (apply Z.pow_pos_nonneg; lia).
  rewrite Z.pow_add_r by lia. change (2 ^ 1) with 2. split; [rewrite Z.div_div by lia; reflexivity|].
  split; [rewrite Z.rem_mul_r by lia; reflexivity|lia].
Qed.

Lemma shr_1_loc : forall M k r, 0 <= M -> 0 <= k -> shr_loc M k r -> shr_loc M (k + 1) (shr_1 r).
Proof.
  intros M k [m rr ss] HM Hk [H1 H2]. simpl in H1, H2.
  destruct (mod_step M k Hk) as (D1 & D2 & D3). unfold shr_loc. rewrite D1, D2, D3, <- H1. clear D1 D2 D3.
  assert (P : 0 < 2 ^ k) by (apply Z.pow_pos_nonneg; lia).
  assert (0 <= m) by (rewrite H1; apply Z.div_pos; [lia|apply Z.pow_pos_nonneg; lia]).
  pose proof (Z.mod_pos_bound M (2 ^ k) P) as B. clear H1. revert H2 B. generalize (M mod 2 ^ k) as d. intros d H2 B.
  destruct m as [|[p|p|]|p]; [| | | |lia]; simpl.
  - split; [reflexivity|]. change (0 mod 2) with 0. destruct rr, ss; simpl in *; lia.
  - rewrite Pos2Z.inj_xI. split; [apply Z.div_unique with 1; lia|].
    replace ((2 * Z.pos p + 1) mod 2) with 1 by (apply Z.mod_unique with (Z.pos p); lia).
    destruct rr, ss; simpl in *; lia.
  - rewrite (Pos2Z.inj_xO p). split; [apply Z.div_unique with 0; lia|].
    replace ((2 * Z.pos p) mod 2) with 0 by (apply Z.mod_unique with (Z.pos p); lia).
    destruct rr, ss; simpl in *; lia.
  - split; [reflexivity|]. change (1 mod 2) with 1. destruct rr, ss; simpl in *; lia.
Qed.

Lemma shr_iter_loc : forall p M k r, 0 <= M -> 0 <= k -> shr_loc M k r ->
  shr_loc M (k + Zpos p) (iter_pos shr_1 p r).
Proof.
  induction p as [p IH|p IH|]; intros M k r HM Hk Hr; simpl.
  - replace (k + Z.pos p~1) with (k + 1 + Z.pos p + Z.pos p) by lia.
    apply IH; [lia|lia|]. apply IH; [lia|lia|]. apply shr_1_loc; auto.
  - replace (k + Z.pos p~0) with (k + Z.pos p + Z.pos p) by lia.
    apply IH; [lia|lia|]. apply IH; auto.
  - apply shr_1_loc; auto.
Qed.

(** [z] is the integer nearest to M / 2^(n+1), the even one of two that are as near. *)
Definition near (M n z : Z) : Prop :=
  (2 * z - 1) * 2 ^ n <= M <= (2 * z + 1) * 2 ^ n /\
  (M = (2 * z - 1) * 2 ^ n \/ M = (2 * z + 1) * 2 ^ n -> Z.even z = true).

Lemma near_of_loc : forall M n r, 0 <= M -> 0 <= n -> shr_loc M (n + 1) r ->
  near M n (round_nearest_even (shr_m r) (loc_of_shr_record r)).
Proof.
  intros M n [m rr ss] HM Hn [H1 H2]. simpl in H1, H2.
  assert (P : 0 < 2 ^ n) by (apply Z.pow_pos_nonneg; lia).
  assert (D : 2 ^ (n + 1) = 2 * 2 ^ n) by (rewrite Z.pow_add_r by lia; change (2 ^ 1) with 2; lia).
  rewrite D in *. pose proof (Z.div_mod M (2 * 2 ^ n) ltac:(lia)) as E. pose proof (Z.mod_pos_bound M (2 * 2 ^ n) ltac:(lia)) as B.
  rewrite <- H1 in E. clear H1 D. revert H2 E B. generalize (M mod (2 * 2 ^ n)) as d. intros d H2 E B.
  assert (Ev : Z.even m = false -> Z.even (m + 1) = true)
    by (intros X; rewrite Z.even_add, X; reflexivity).
  assert (C : (2 * m - 1) * 2 ^ n = 2 * 2 ^ n * m - 2 ^ n) by ring.
  assert (C' : (2 * m + 1) * 2 ^ n = 2 * 2 ^ n * m + 2 ^ n) by ring.
  assert (C'' : (2 * (m + 1) - 1) * 2 ^ n = 2 * 2 ^ n * m + 2 ^ n) by ring.
  assert (C3 : (2 * (m + 1) + 1) * 2 ^ n = 2 * 2 ^ n * m + 3 * 2 ^ n) by ring.
  unfold near. destruct rr, ss; simpl in *.
  - rewrite C'', C3. split; [lia|]. lia.
  - destruct (Z.even m) eqn:Em.
    + rewrite C, C'. split; [lia|]. auto.
    + rewrite C'', C3. split; [lia|]. auto.
  - rewrite C, C'. split; lia.
  - rewrite C, C'. split; lia.
Qed.

(** Rounding a number cut below the last place of every float. *)
Lemma binary_round_near : forall t s m,
  let E := Z.max (Zpos (digits2_pos m) - 1076 - fprec t) (emn t) in
  exists z, 0 <= z <= 2 ^ fprec t /\ near (Zpos m) (E + 1075) z /\
    binary_round (fprec t) (femax t) s m (-1076) =
      (if z =? 0 then S754_zero s
       else if z =? 2 ^ fprec t
            then (if E + 1 <=? femax t - fprec t then S754_finite s (Z.to_pos (2 ^ (fprec t - 1))) (E + 1) else S754_infinity s)
            else (if E <=? femax t - fprec t then S754_finite s (Z.to_pos z) E else S754_infinity s)).
Proof.
  intros t s m E.
  assert (Hp : 1 < fprec t) by (destruct t; reflexivity).
  assert (HE : -1074 <= E) by (subst E; destruct t; simpl emn; lia).
  assert (Hpw : 2 ^ fprec t = 2 * 2 ^ (fprec t - 1))
    by (rewrite <- Z.pow_succ_r by lia; f_equal; lia).
  assert (HpP : 0 < 2 ^ (fprec t - 1)) by (apply Z.pow_pos_nonneg; lia).
  unfold binary_round. rewrite fexp_val. change (Z.pos (digits2_pos m) + -1076) with (Z.pos (digits2_pos m) - 1076). fold E.
  pose proof (shl_align_spec m (-1076) E) as Hs. destruct (shl_align m (-1076) E) as [m1 e1]. destruct Hs as (He1 & Hm1 & Hd1).
  rewrite Z.min_l in He1 by lia. subst e1. rewrite Z.sub_diag in Hm1. change (2 ^ 0) with 1 in Hm1.
  assert (m1 = m) by lia. subst m1. clear Hm1 Hd1.
  unfold binary_round_aux.
  unfold shr_fexp at 1. rewrite fexp_val, Zdigits2_of_pos. change (Z.pos (digits2_pos m) + -1076) with (Z.pos (digits2_pos m) - 1076). fold E.
  assert (Hfirst : exists r, shr (shr_record_of_loc (Z.pos m) loc_Exact) (-1076) (E - -1076) = (r, E) /\ shr_loc (Z.pos m) (E + 1075 + 1) r).
  { unfold shr. destruct (E - -1076) as [|p|p] eqn:En; [lia| |lia].
    eexists. split; [f_equal; lia|]. replace (E + 1075 + 1) with (0 + Z.pos p) by lia. apply (shr_iter_loc p (Z.pos m) 0); [lia|lia|].
    split; simpl; [change (2 ^ 0) with 1; rewrite Z.div_1_r; reflexivity|].
    change (2 ^ 0) with 1. rewrite Z.mod_1_r. reflexivity. }
  destruct Hfirst as (r & -> & Hr).
  apply near_of_loc in Hr; [|lia|lia].
  set (z := round_nearest_even (shr_m r) (loc_of_shr_record r)) in *. clearbody z. clear r.
  destruct (digits2_bounds m) as [B1 B2].
  set (d1 := Z.pos (digits2_pos m)) in *.
  assert (PW : 0 < 2 ^ (E + 1075)) by (apply Z.pow_pos_nonneg; lia).
  destruct Hr as [[R1 R2] R3].
  assert (Hz0 : 0 <= z) by (destruct (Z_le_gt_dec 0 z); [auto|]; exfalso; assert (2 * z + 1 <= -1) by lia; nia).
  assert (UP : 2 ^ d1 <= 2 * 2 ^ fprec t * 2 ^ (E + 1075)).
  { replace (2 * 2 ^ fprec t * 2 ^ (E + 1075)) with (2 ^ (fprec t + 1 + (E + 1075))).
    - apply Z.pow_le_mono_r; lia.
    - rewrite !Z.pow_add_r by lia. change (2 ^ 1) with 2. ring. }
  assert (Hz1 : z <= 2 ^ fprec t).
  { destruct (Z_le_gt_dec z (2 ^ fprec t)); [auto|]. exfalso.
    assert (2 * 2 ^ fprec t + 1 <= 2 * z - 1) by lia. nia. }
  assert (Hz2 : E > emn t -> 2 ^ (fprec t - 1) <= z).
  { intros HE'. assert (d1 = E + 1076 + fprec t) by lia.
    assert (X : 2 ^ (d1 - 1) = 2 ^ fprec t * 2 ^ (E + 1075)) by (rewrite <- Z.pow_add_r by lia; f_equal; lia).
    destruct (Z_le_gt_dec (2 ^ (fprec t - 1)) z); [auto|]. exfalso.
    assert (2 * z + 1 <= 2 ^ fprec t - 1) by lia. nia. }
  exists z. split; [lia|]. split; [split; [lia|exact R3]|].
  unfold shr_fexp. rewrite fexp_val.
  destruct z as [|zp|zp]; [| |lia].
  - simpl. assert (E = emn t).
    { destruct (Z_le_gt_dec E (emn t)); [|specialize (Hz2 ltac:(lia)); lia]. lia. }
    replace (Z.max (0 + E - fprec t) (emn t) - E) with 0 by lia. reflexivity.
  - rewrite Zdigits2_of_pos. change (Z.pos zp =? 0) with false. cbv iota.
    destruct (Z.eqb_spec (Z.pos zp) (2 ^ fprec t)) as [Hz|Hz].
    * assert (Hdz : Z.pos (digits2_pos zp) = fprec t + 1).
      { apply digits_unique; [lia|]. rewrite Hz. replace (fprec t + 1 - 1) with (fprec t) by lia.
        split; [lia|]. apply Z.pow_lt_mono_r; lia. }
      rewrite Hdz. replace (Z.max (fprec t + 1 + E - fprec t) (emn t) - E) with 1 by lia.
      change (shr (shr_record_of_loc (Z.pos zp) loc_Exact) E 1) with (shr_1 (shr_record_of_loc (Z.pos zp) loc_Exact), E + 1).
      assert (Hsh : shr_1 (shr_record_of_loc (Z.pos zp) loc_Exact) = Build_shr_record (2 ^ (fprec t - 1)) false false).
      { clear -Hz. destruct t; cbv in Hz; injection Hz as ->; reflexivity. }
      rewrite Hsh. simpl shr_m.
      destruct (2 ^ (fprec t - 1)) as [|q|q] eqn:Eq; [lia| |lia]. simpl. reflexivity.
    * assert (Hdz : Z.pos (digits2_pos zp) <= fprec t).
      { destruct (digits2_bounds zp) as [C1 _].
        assert (Z.pos (digits2_pos zp) - 1 < fprec t); [|lia].
        apply (Z.pow_lt_mono_r_iff 2); lia. }
      assert (Hk : Z.max (Z.pos (digits2_pos zp) + E - fprec t) (emn t) - E = 0).
      { destruct (Z_le_gt_dec E (emn t)); [lia|].
        specialize (Hz2 ltac:(lia)). destruct (digits2_bounds zp) as [_ C2].
        assert (fprec t - 1 < Z.pos (digits2_pos zp)) by (apply (Z.pow_lt_mono_r_iff 2); lia). lia. }
      rewrite Hk. reflexivity.
Qed.

(** The cut number compares with every multiple of 2^-1075 as p/q does. *)
Lemma to_odd_le p q j : 0 <= p -> 0 < q -> (j * q <= p * 2 ^ 1075 <-> 2 * j <= to_odd p q).
Proof.
  intros Hp Hq. unfold to_odd. generalize (p * 2 ^ 1075). intros a.
  pose proof (Z.div_mod a q ltac:(lia)). pose proof (Z.mod_pos_bound a q Hq).
  destruct (Z.eqb_spec (a mod q) 0).
  - split; intros X.
    + assert (j <= a / q) by (apply Z.div_le_lower_bound; lia). lia.
    + assert (j <= a / q) by lia. nia.
  - split; intros X.
    + assert (j <= a / q) by (apply Z.div_le_lower_bound; lia). lia.
    + assert (j <= a / q) by lia. nia.
Qed.

Lemma to_odd_ge p q j : 0 <= p -> 0 < q -> (p * 2 ^ 1075 <= j * q <-> to_odd p q <= 2 * j).
Proof.
  intros Hp Hq. unfold to_odd. generalize (p * 2 ^ 1075). intros a.
  pose proof (Z.div_mod a q ltac:(lia)). pose proof (Z.mod_pos_bound a q Hq).
  destruct (Z.eqb_spec (a mod q) 0).
  - split; intros X.
    + assert (a / q <= j) by (apply Z.div_le_upper_bound; lia). lia.
    + assert (a / q <= j) by lia. nia.
  - split; intros X.
    + assert (a / q < j); [|lia]. apply Z.div_lt_upper_bound; [lia|]. 
      assert (a <> j * q); [|lia]. intros ->. rewrite Z.mod_mul in * by lia. lia.
    + assert (a / q < j) by lia. nia.
Qed.
