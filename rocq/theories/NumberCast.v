(** Casting between the two float types: rounding keeps every comparison with a float of the
    target type, and yields a float of the target type. *)
From Verif Require Import Base RangeModel NumberModel NumberSpec NumberProofs.
From Coq Require Import Floats.SpecFloat.
Local Open Scope Z_scope.

Definition shr_inv (M k : Z) (r : shr_record) : Prop :=
  shr_m r = M / 2 ^ k /\ ((shr_r r || shr_s r)%bool = false <-> M mod 2 ^ k = 0).

Lemma half_step : forall M k, 0 <= M -> 0 <= k ->
  M / 2 ^ (k + 1) = (M / 2 ^ k) / 2 /\
  (M mod 2 ^ (k + 1) = 0 <-> M mod 2 ^ k = 0 /\ (M / 2 ^ k) mod 2 = 0).
Proof.
  intros M k HM Hk. assert (0 < 2 ^ k) by (apply Z.pow_pos_nonneg; lia).
  rewrite Z.pow_add_r by lia. change (2 ^ 1) with 2. split.
  - rewrite Z.div_div by lia. reflexivity.
  - rewrite Z.rem_mul_r by lia.
    pose proof (Z.mod_pos_bound M (2 ^ k)). pose proof (Z.mod_pos_bound (M / 2 ^ k) 2). nia.
Qed.

Lemma shr_1_inv : forall M k r, 0 <= M -> 0 <= k -> shr_inv M k r -> shr_inv M (k + 1) (shr_1 r).
Proof.
  intros M k [m rr ss] HM Hk [H1 H2]. simpl in H1, H2.
  destruct (half_step M k HM Hk) as [D1 D2]. unfold shr_inv. rewrite D1, D2, <- H1, <- H2. clear D1 D2.
  assert (0 <= m) by (rewrite H1; apply Z.div_pos; [lia|apply Z.pow_pos_nonneg; lia]).
  clear H1 H2. destruct m as [|[p|p|]|p]; [| | | |lia]; simpl.
  - split; [reflexivity|]. change (0 mod 2) with 0. destruct rr, ss; simpl; tauto.
  - rewrite Pos2Z.inj_xI. split.
    + apply Z.div_unique with 1; lia.
    + replace ((2 * Z.pos p + 1) mod 2) with 1 by (apply Z.mod_unique with (Z.pos p); lia).
      split; [discriminate | lia].
  - rewrite (Pos2Z.inj_xO p). split.
    + apply Z.div_unique with 0; lia.
    + replace ((2 * Z.pos p) mod 2) with 0 by (apply Z.mod_unique with (Z.pos p); lia).
      tauto.
  - split; [reflexivity|]. change (1 mod 2) with 1. split; [discriminate|lia].
Qed.

Lemma shr_iter_inv : forall p M k r, 0 <= M -> 0 <= k -> shr_inv M k r ->
  shr_inv M (k + Zpos p) (iter_pos shr_1 p r).
Proof.
  induction p as [p IH|p IH|]; intros M k r HM Hk Hr; simpl.
  - replace (k + Z.pos p~1) with (k + 1 + Z.pos p + Z.pos p) by lia.
    apply IH; [lia|lia|]. apply IH; [lia|lia|]. apply shr_1_inv; auto.
  - replace (k + Z.pos p~0) with (k + Z.pos p + Z.pos p) by lia.
    apply IH; [lia|lia|]. apply IH; auto.
  - apply shr_1_inv; auto.
Qed.

(** [z] is one of the two integers around [M / 2^n], and [M / 2^n] itself when that is one. *)
Definition rounds_to (M n z : Z) : Prop := forall k, (k * 2 ^ n <= M -> k <= z) /\ (M <= k * 2 ^ n -> z <= k).

Lemma rounds_of_inv : forall M n r, 0 <= M -> 0 <= n -> shr_inv M n r ->
  rounds_to M n (round_nearest_even (shr_m r) (loc_of_shr_record r)).
Proof.
  intros M n r HM Hn [H1 H2]. assert (P : 0 < 2 ^ n) by (apply Z.pow_pos_nonneg; lia).
  assert (Hz : let z := round_nearest_even (shr_m r) (loc_of_shr_record r) in
               z = M / 2 ^ n \/ (z = M / 2 ^ n + 1 /\ M mod 2 ^ n <> 0)).
  { rewrite <- H1. destruct r as [m [] []]; simpl in *; auto; try (destruct (Z.even m); auto);
      right; (split; [reflexivity|]); intros Hc; apply H2 in Hc; discriminate. }
  simpl in Hz. set (z := round_nearest_even _ _) in *. clearbody z.
  pose proof (Z.div_mod M (2 ^ n)). pose proof (Z.mod_pos_bound M (2 ^ n)).
  intros k. split; intros Hk.
  - assert (k <= M / 2 ^ n) by (apply Z.div_le_lower_bound; lia). lia.
  - destruct Hz as [->|[-> Hne]]; nia.
Qed.

Lemma rounds_exact : forall M, rounds_to M 0 M.
Proof. intros M k. change (2 ^ 0) with 1. lia. Qed.

Lemma Zdigits2_of_pos : forall p, Zdigits2 (Zpos p) = Zpos (digits2_pos p).
Proof. reflexivity. Qed.

Lemma digits_unique : forall p d, 0 < d -> 2 ^ (d - 1) <= Zpos p < 2 ^ d -> Zpos (digits2_pos p) = d.
Proof.
  intros p d Hd [H1 H2]. destruct (digits2_bounds p) as [B1 B2].
  assert (d - 1 < Z.pos (digits2_pos p)) by (apply (Z.pow_lt_mono_r_iff 2); lia).
  assert (Z.pos (digits2_pos p) - 1 < d) by (apply (Z.pow_lt_mono_r_iff 2); lia).
  lia.
Qed.

Lemma shl_align_spec : forall m e ez, let '(m', e') := shl_align m e ez in
  e' = Z.min e ez /\ Zpos m' = Zpos m * 2 ^ (e - e') /\ Zpos (digits2_pos m') + e' = Zpos (digits2_pos m) + e.
Proof.
  intros m e ez. unfold shl_align. destruct (ez - e) as [|p|p] eqn:E.
  - split; [lia|]. split; [|lia]. replace (e - e) with 0 by lia. change (2 ^ 0) with 1. lia.
  - split; [lia|]. split; [|lia]. replace (e - e) with 0 by lia. change (2 ^ 0) with 1. lia.
  - assert (Hs : Z.pos (shift_pos p m) = Z.pos m * 2 ^ Z.pos p).
    { rewrite shift_pos_correct. rewrite Zpower_pos_nat, Zpower_nat_Z, positive_nat_Z. lia. }
    replace (e - ez) with (Z.pos p) by lia.
    split; [lia|]. split; [exact Hs|].
    destruct (digits2_bounds m) as [B1 B2].
    assert (Z.pos (digits2_pos (shift_pos p m)) = Z.pos (digits2_pos m) + Z.pos p); [|lia].
    apply digits_unique; [lia|]. rewrite Hs.
    replace (Z.pos (digits2_pos m) + Z.pos p - 1) with (Z.pos (digits2_pos m) - 1 + Z.pos p) by lia.
    rewrite !Z.pow_add_r by lia. assert (0 < 2 ^ Z.pos p) by (apply Z.pow_pos_nonneg; lia). nia.
Qed.

Definition emn (t : fty) : Z := match t with F32 => -149 | F64 => -1074 end.

Lemma fexp_val : forall t x, fexp (fprec t) (femax t) x = Z.max (x - fprec t) (emn t).
Proof. intros [] x; reflexivity. Qed.

(** The rounding of a positive number: an integer [z] times 2^E, with the float made from it. *)
Lemma binary_round_spec : forall t s m e,
  let E := Z.max (Zpos (digits2_pos m) + e - fprec t) (emn t) in
  exists z, 0 <= z <= 2 ^ fprec t /\
    (e <= E -> rounds_to (Zpos m) (E - e) z) /\ (E < e -> z = Zpos m * 2 ^ (e - E)) /\
    (E > emn t -> 2 ^ (fprec t - 1) <= z) /\
    binary_round (fprec t) (femax t) s m e =
      (if z =? 0 then S754_zero s
       else if z =? 2 ^ fprec t
            then (if E + 1 <=? femax t - fprec t then S754_finite s (Z.to_pos (2 ^ (fprec t - 1))) (E + 1) else S754_infinity s)
            else (if E <=? femax t - fprec t then S754_finite s (Z.to_pos z) E else S754_infinity s)).
Proof.
  intros t s m e E.
  assert (Hp : 1 < fprec t) by (destruct t; reflexivity).
  assert (Hpw : 2 ^ fprec t = 2 * 2 ^ (fprec t - 1))
    by (rewrite <- Z.pow_succ_r by lia; f_equal; lia).
  assert (HpP : 0 < 2 ^ (fprec t - 1)) by (apply Z.pow_pos_nonneg; lia).
  unfold binary_round. rewrite fexp_val. fold E.
  pose proof (shl_align_spec m e E) as Hs. destruct (shl_align m e E) as [m1 e1]. destruct Hs as (He1 & Hm1 & Hd1).
  unfold binary_round_aux.
  unfold shr_fexp at 1. rewrite fexp_val, Zdigits2_of_pos, Hd1. fold E.
  (* the first shift *)
  assert (Hfirst : exists r, shr (shr_record_of_loc (Z.pos m1) loc_Exact) e1 (E - e1) = (r, E) /\ shr_inv (Z.pos m1) (E - e1) r).
  { unfold shr. destruct (E - e1) as [|p|p] eqn:En.
    - exists (shr_record_of_loc (Z.pos m1) loc_Exact). split; [f_equal; lia|].
      split; simpl; [change (2 ^ 0) with 1; rewrite Z.div_1_r; reflexivity|].
      change (2 ^ 0) with 1. rewrite Z.mod_1_r. tauto.
    - eexists. split; [f_equal; lia|]. apply (shr_iter_inv p (Z.pos m1) 0); [lia|lia|].
      split; simpl; [change (2 ^ 0) with 1; rewrite Z.div_1_r; reflexivity|].
      change (2 ^ 0) with 1. rewrite Z.mod_1_r. tauto.
    - lia. }
  destruct Hfirst as (r & -> & Hr).
  apply rounds_of_inv in Hr; [|lia|lia].
  set (z := round_nearest_even (shr_m r) (loc_of_shr_record r)) in *. clearbody z. clear r.
  destruct (digits2_bounds m1) as [B1 B2].
  set (d1 := Z.pos (digits2_pos m1)) in *.
  assert (Hd1E : d1 - (E - e1) <= fprec t) by lia.
  assert (Hz0 : 0 <= z) by (apply (Hr 0); lia).
  assert (Hz1 : z <= 2 ^ fprec t).
  { apply (Hr (2 ^ fprec t)). rewrite <- Z.pow_add_r by lia. apply Z.lt_le_incl.
    eapply Z.lt_le_trans; [exact B2|]. apply Z.pow_le_mono_r; lia. }
  assert (Hz2 : E > emn t -> 2 ^ (fprec t - 1) <= z).
  { intros HE. apply (Hr (2 ^ (fprec t - 1))). rewrite <- Z.pow_add_r by lia.
    eapply Z.le_trans; [|exact B1]. apply Z.pow_le_mono_r; lia. }
  exists z. split; [lia|]. split; [|split; [|split; [exact Hz2|]]].
  - intros Hle.
    assert (Hmm : Z.pos m1 = Z.pos m).
    { rewrite Hm1. replace (e - e1) with 0 by lia. change (2 ^ 0) with 1. lia. }
    rewrite <- Hmm. replace (E - e) with (E - e1) by lia. exact Hr.
  - intros Hlt. assert (He1' : e1 = E) by lia. replace (e - E) with (e - e1) by lia. rewrite <- Hm1.
    replace (E - e1) with 0 in Hr by lia. specialize (Hr (Z.pos m1)). change (2 ^ 0) with 1 in Hr. lia.
  - (* the second shift *)
    unfold shr_fexp. rewrite fexp_val.
    destruct z as [|zp|zp]; [| |lia].
    + simpl. assert (E = emn t). { destruct (Z.max_spec (Z.pos (digits2_pos m) + e - fprec t) (emn t)) as [[_ H]|[_ H]]; fold E in H; lia. }
      replace (Z.max (0 + E - fprec t) (emn t) - E) with 0 by lia. reflexivity.
    + rewrite Zdigits2_of_pos. change (Z.pos zp =? 0) with false. cbv iota.
      destruct (Z.eqb_spec (Z.pos zp) (2 ^ fprec t)) as [Hz|Hz].
      * assert (Hdz : Z.pos (digits2_pos zp) = fprec t + 1).
        { apply digits_unique; [lia|]. rewrite Hz. replace (fprec t + 1 - 1) with (fprec t) by lia.
          split; [lia|]. apply Z.pow_lt_mono_r; lia. }
        rewrite Hdz. replace (Z.max (fprec t + 1 + E - fprec t) (emn t) - E) with 1 by lia.
        change (shr (shr_record_of_loc (Z.pos zp) loc_Exact) E 1) with (shr_1 (shr_record_of_loc (Z.pos zp) loc_Exact), E + 1).
        assert (Hsh : shr_1 (shr_record_of_loc (Z.pos zp) loc_Exact) = Build_shr_record (2 ^ (fprec t - 1)) false false).
        { clear -Hz. destruct t; cbv in Hz; injection Hz as ->; reflexivity. }
        rewrite Hsh. simpl shr_m.
        destruct (2 ^ (fprec t - 1)) as [|q|q] eqn:Eq; [lia| |lia]. simpl. reflexivity.
      * assert (Hdz : Z.pos (digits2_pos zp) <= fprec t).
        { destruct (digits2_bounds zp) as [C1 _].
          assert (Z.pos (digits2_pos zp) - 1 < fprec t); [|lia].
          apply (Z.pow_lt_mono_r_iff 2); lia. }
        assert (Hk : Z.max (Z.pos (digits2_pos zp) + E - fprec t) (emn t) - E = 0).
        { destruct (Z_le_gt_dec E (emn t)); [lia|].
          specialize (Hz2 ltac:(lia)). destruct (digits2_bounds zp) as [_ C2].
          assert (fprec t - 1 < Z.pos (digits2_pos zp)) by (apply (Z.pow_lt_mono_r_iff 2); lia). lia. }
        rewrite Hk. reflexivity.
Qed.

Lemma fcast_valid : forall t f, is_float_of t (fcast t f).
Proof.
  intros t f. destruct f as [s|s| |s m e]; try reflexivity. unfold fcast.
  assert (Hn : binary_normalize (fprec t) (femax t) (cond_Zopp s (Z.pos m)) e s = binary_round (fprec t) (femax t) s m e)
    by (destruct s; reflexivity).
  rewrite Hn. destruct (binary_round_spec t s m e) as (z & Hz & _ & _ & Hz2 & ->).
  set (E := Z.max (Z.pos (digits2_pos m) + e - fprec t) (emn t)) in *.
  assert (Hp : 1 < fprec t) by (destruct t; reflexivity).
  assert (Hpw : 2 ^ fprec t = 2 * 2 ^ (fprec t - 1))
    by (rewrite <- Z.pow_succ_r by lia; f_equal; lia).
  assert (HpP : 0 < 2 ^ (fprec t - 1)) by (apply Z.pow_pos_nonneg; lia).
  destruct (Z.eqb_spec z 0); [reflexivity|].
  destruct (Z.eqb_spec z (2 ^ fprec t)).
  - destruct (Z.leb_spec (E + 1) (femax t - fprec t)) as [Hle|]; [|reflexivity].
    unfold is_float_of, valid_binary, bounded. apply andb_true_intro. split.
    + unfold canonical_mantissa. rewrite fexp_val. apply Zeq_is_eq_bool.
      replace (Z.pos (digits2_pos (Z.to_pos (2 ^ (fprec t - 1))))) with (fprec t); [lia|].
      symmetry. apply digits_unique; [lia|]. rewrite Z2Pos.id by lia. lia.
    + apply Z.leb_le. lia.
  - destruct (Z.leb_spec E (femax t - fprec t)) as [Hle|]; [|reflexivity].
    unfold is_float_of, valid_binary, bounded. apply andb_true_intro. split.
    + unfold canonical_mantissa. rewrite fexp_val. apply Zeq_is_eq_bool.
      destruct (digits2_bounds (Z.to_pos z)) as [C1 C2]. rewrite Z2Pos.id in C1, C2 by lia.
      set (d := Z.pos (digits2_pos (Z.to_pos z))) in *.
      assert (d - 1 < fprec t) by (apply (Z.pow_lt_mono_r_iff 2); lia).
      destruct (Z_le_gt_dec E (emn t)); [lia|].
      specialize (Hz2 ltac:(lia)).
      assert (fprec t - 1 < d) by (apply (Z.pow_lt_mono_r_iff 2); lia). lia.
    + apply Z.leb_le. lia.
Qed.

(** Magnitudes: the rounded one stays on the same side of every float of the target type. *)
Lemma round_mag : forall t m e mb eb z,
  let E := Z.max (Zpos (digits2_pos m) + e - fprec t) (emn t) in
  -1074 <= e -> bounded (fprec t) (femax t) mb eb = true ->
  (e <= E -> rounds_to (Zpos m) (E - e) z) -> (E < e -> z = Zpos m * 2 ^ (e - E)) ->
  (E > emn t -> 2 ^ (fprec t - 1) <= z) ->
  let X := Zpos m * 2 ^ (e + 1074) in
  let B := Zpos mb * 2 ^ (eb + 1074) in
  let R := z * 2 ^ (E + 1074) in
  (X <= B -> R <= B) /\ (B <= X -> B <= R).
Proof.
  intros t m e mb eb z E He Hb H1 H2 H3 X B R.
  assert (Hp : 1 < fprec t) by (destruct t; reflexivity).
  assert (Hemn : -1074 <= emn t) by (destruct t; simpl; lia).
  destruct (Z_lt_le_dec E e) as [Hlt|Hle].
  - assert (R = X); [|lia]. unfold R, X. rewrite H2 by lia. rewrite <- Z.mul_assoc, <- Z.pow_add_r by lia.
    f_equal. f_equal. lia.
  - specialize (H1 Hle).
    apply bounded_facts in Hb. fold (emn t) in Hb. simpl in Hb. destruct Hb as (Hb1 & Hb2 & Hb3 & Hb4).
    assert (P : 0 < 2 ^ (e + 1074)) by (apply Z.pow_pos_nonneg; lia).
    assert (PE : 2 ^ (E + 1074) = 2 ^ (E - e) * 2 ^ (e + 1074)) by (rewrite <- Z.pow_add_r by lia; f_equal; lia).
    destruct (Z_lt_le_dec eb E) as [HbE|HbE].
    + assert (HE : E > emn t) by lia. specialize (H3 HE).
      assert (HEd : E = Z.pos (digits2_pos m) + e - fprec t) by lia.
      destruct (digits2_bounds m) as [M1 _]. destruct (digits2_bounds mb) as [_ B2].
      assert (HX : 2 ^ (fprec t - 1) * 2 ^ (E + 1074) <= X).
      { unfold X. rewrite <- Z.pow_add_r by lia.
        replace (fprec t - 1 + (E + 1074)) with (Z.pos (digits2_pos m) - 1 + (e + 1074)) by lia.
        rewrite Z.pow_add_r by lia. apply Z.mul_le_mono_nonneg_r; lia. }
      assert (HB : B < 2 ^ (fprec t - 1) * 2 ^ (E + 1074)).
      { unfold B. assert (0 < 2 ^ (eb + 1074)) by (apply Z.pow_pos_nonneg; lia).
        apply Z.lt_le_trans with (2 ^ Z.pos (digits2_pos mb) * 2 ^ (eb + 1074)); [apply Z.mul_lt_mono_pos_r; lia|].
        rewrite <- !Z.pow_add_r by lia. apply Z.pow_le_mono_r; lia. }
      assert (0 < 2 ^ (E + 1074)) by (apply Z.pow_pos_nonneg; lia).
      split; [lia|]. intros _. unfold R.
      apply Z.le_trans with (2 ^ (fprec t - 1) * 2 ^ (E + 1074)); [lia|]. apply Z.mul_le_mono_nonneg_r; lia.
    + set (k := Zpos mb * 2 ^ (eb - E)).
      assert (HB : B = k * 2 ^ (E - e) * 2 ^ (e + 1074)).
      { unfold B, k. rewrite <- !Z.mul_assoc, <- !Z.pow_add_r by lia. f_equal. f_equal. lia. }
      assert (HR : R = z * 2 ^ (E - e) * 2 ^ (e + 1074)) by (unfold R; rewrite PE; lia).
      assert (P2 : 0 < 2 ^ (E - e)) by (apply Z.pow_pos_nonneg; lia).
      destruct (H1 k) as [K1 K2]. rewrite HB, HR. unfold X. split; intros HH.
      * apply Z.mul_le_mono_nonneg_r; [lia|]. apply Z.mul_le_mono_nonneg_r; [lia|]. apply K2. nia.
      * apply Z.mul_le_mono_nonneg_r; [lia|]. apply Z.mul_le_mono_nonneg_r; [lia|]. apply K1. nia.
Qed.

(** The cast of a finite float: a zero, a finite float with the rounded magnitude, or an
    infinity beyond all floats of the type. *)
Lemma fcast_cases : forall t s m e, -1074 <= e ->
  let f := S754_finite s m e in
  let X := Zpos m * 2 ^ (e + 1074) in
  exists R : option Z,
    xval (fcast t f) = Some (match R with
                             | Some r => Fin ((if s then -1 else 1) * r)
                             | None => if s then NegInf else PosInf
                             end) /\
    (match R with Some r => 0 <= r | None => True end) /\
    forall mb eb, bounded (fprec t) (femax t) mb eb = true ->
      let B := Zpos mb * 2 ^ (eb + 1074) in
      (X <= B -> exists r, R = Some r /\ r <= B) /\
      (B <= X -> match R with Some r => B <= r | None => True end).
Proof.
  intros t s m e He f X.
  assert (Hn : fcast t f = binary_round (fprec t) (femax t) s m e) by (destruct s; reflexivity).
  rewrite Hn. destruct (binary_round_spec t s m e) as (z & Hz & Hr1 & Hr2 & Hz2 & ->).
  pose proof (fun mb eb Hb => round_mag t m e mb eb z He Hb Hr1 Hr2 Hz2) as Hmag. cbv zeta in Hmag.
  set (E := Z.max (Z.pos (digits2_pos m) + e - fprec t) (emn t)) in *. fold X in Hmag.
  assert (Hp : 1 < fprec t) by (destruct t; reflexivity).
  assert (Hpw : 2 ^ fprec t = 2 * 2 ^ (fprec t - 1))
    by (rewrite <- Z.pow_succ_r by lia; f_equal; lia).
  assert (HpP : 0 < 2 ^ (fprec t - 1)) by (apply Z.pow_pos_nonneg; lia).
  assert (HE : 0 <= E + 1074) by (unfold E; destruct t; simpl; lia).
  assert (HEP : 0 < 2 ^ (E + 1074)) by (apply Z.pow_pos_nonneg; lia).
  (* a float of the type is below 2^emax *)
  assert (Hmax : forall mb eb, bounded (fprec t) (femax t) mb eb = true ->
            Zpos mb * 2 ^ (eb + 1074) < 2 ^ (femax t + 1074)).
  { intros mb eb Hb. apply bounded_facts in Hb. fold (emn t) in Hb. simpl in Hb. destruct Hb as (Hb1 & Hb2 & Hb3 & Hb4).
    assert (-1074 <= emn t) by (destruct t; simpl; lia).
    destruct (digits2_bounds mb) as [_ B2].
    assert (0 < 2 ^ (eb + 1074)) by (apply Z.pow_pos_nonneg; lia).
    apply Z.lt_le_trans with (2 ^ Z.pos (digits2_pos mb) * 2 ^ (eb + 1074)); [apply Z.mul_lt_mono_pos_r; lia|].
    rewrite <- !Z.pow_add_r by lia. apply Z.pow_le_mono_r; lia. }
  destruct (Z.eqb_spec z 0) as [Hz0|Hz0].
  - exists (Some 0). subst z. simpl xval. split; [destruct s; reflexivity|]. split; [lia|].
    intros mb eb Hb B. destruct (Hmag mb eb Hb) as [M1 M2]. fold B in M1, M2.
    split; [|lia]. intros HX. exists 0. split; [reflexivity|lia].
  - destruct (Z.eqb_spec z (2 ^ fprec t)) as [Hz3|Hz3].
    + destruct (Z.leb_spec (E + 1) (femax t - fprec t)) as [Hle|Hgt].
      * exists (Some (z * 2 ^ (E + 1074))).
        split; [|split; [nia|]].
        { simpl xval. f_equal. f_equal. rewrite Z2Pos.id by lia.
          replace (E + 1 + 1074) with (1 + (E + 1074)) by lia. rewrite (Z.pow_add_r 2 1) by lia.
          change (2 ^ 1) with 2. rewrite Hz3, Hpw. destruct s; lia. }
        intros mb eb Hb B. destruct (Hmag mb eb Hb) as [M1 M2]. fold B in M1, M2.
        split; [|exact M2]. intros HX. eexists. split; [reflexivity|]. auto.
      * exists None. split; [reflexivity|]. split; [exact I|].
        intros mb eb Hb B. destruct (Hmag mb eb Hb) as [M1 M2]. fold B in M1, M2.
        split; [|auto]. intros HX. exfalso. specialize (M1 HX). specialize (Hmax mb eb Hb). fold B in Hmax.
        rewrite Hz3 in M1. rewrite <- Z.pow_add_r in M1 by lia.
        assert (2 ^ (femax t + 1074) <= 2 ^ (fprec t + (E + 1074))) by (apply Z.pow_le_mono_r; lia). lia.
    + destruct (Z.leb_spec E (femax t - fprec t)) as [Hle|Hgt].
      * exists (Some (z * 2 ^ (E + 1074))).
        split; [|split; [nia|]].
        { simpl xval. f_equal. f_equal. rewrite Z2Pos.id by lia. destruct s; lia. }
        intros mb eb Hb B. destruct (Hmag mb eb Hb) as [M1 M2]. fold B in M1, M2.
        split; [|exact M2]. intros HX. eexists. split; [reflexivity|]. auto.
      * exists None. split; [reflexivity|]. split; [exact I|].
        intros mb eb Hb B. destruct (Hmag mb eb Hb) as [M1 M2]. fold B in M1, M2.
        split; [|auto]. intros HX. exfalso. specialize (M1 HX). specialize (Hmax mb eb Hb). fold B in Hmax.
        assert (HEe : E > emn t) by (destruct t; simpl in *; lia).
        specialize (Hz2 HEe).
        assert (2 ^ (femax t + 1074) <= 2 ^ (fprec t - 1) * 2 ^ (E + 1074)).
        { rewrite <- Z.pow_add_r by lia. apply Z.pow_le_mono_r; lia. }
        assert (2 ^ (fprec t - 1) * 2 ^ (E + 1074) <= z * 2 ^ (E + 1074)) by (apply Z.mul_le_mono_nonneg_r; lia).
        lia.
Qed.

(** The cast never moves a number across a float of the target type. *)
Lemma fcast_mono : forall t t' f b x y, is_float_of t' f -> is_float_of t b ->
  xval f = Some x -> xval b = Some y ->
  exists x', xval (fcast t f) = Some x' /\ (xle x y -> xle x' y) /\ (xle y x -> xle y x').
Proof.
  intros t t' f b x y Hf Hb Hx Hy.
  destruct f as [s|s| |s m e]; try discriminate; try (exists x; split; [exact Hx|]; split; auto; fail).
  assert (He : -1074 <= e).
  { unfold is_float_of, valid_binary in Hf. apply bounded_facts in Hf. destruct t'; simpl in Hf; lia. }
  destruct (fcast_cases t s m e He) as (R & HR & HR0 & Hc).
  simpl in Hx. injection Hx as <-.
  exists (match R with Some r => Fin ((if s then -1 else 1) * r) | None => if s then NegInf else PosInf end).
  split; [exact HR|]. clear HR.
  assert (Hpos : 0 < Z.pos m * 2 ^ (e + 1074)).
  { assert (0 < 2 ^ (e + 1074)) by (apply Z.pow_pos_nonneg; lia). nia. }
  set (X := Z.pos m * 2 ^ (e + 1074)) in *.
  assert (HX : (if s then -1 else 1) * Z.pos m * 2 ^ (e + 1074) = (if s then -1 else 1) * X) by (unfold X; lia).
  rewrite HX. clear HX.
  destruct b as [sb|sb| |sb mb eb]; try discriminate; simpl in Hy; injection Hy as <-.
  - destruct R as [r|], s; simpl; split; auto; lia.
  - destruct R as [r|], s, sb; simpl; split; auto.
  - unfold is_float_of, valid_binary in Hb. destruct (Hc mb eb Hb) as [C1 C2].
    assert (HB : (if sb then -1 else 1) * Z.pos mb * 2 ^ (eb + 1074) = (if sb then -1 else 1) * (Z.pos mb * 2 ^ (eb + 1074))) by lia.
    rewrite HB. clear HB.
    assert (Heb : -1074 <= eb) by (apply bounded_facts in Hb; destruct t; simpl in Hb; lia).
    assert (HBp : 0 < Z.pos mb * 2 ^ (eb + 1074)).
    { assert (0 < 2 ^ (eb + 1074)) by (apply Z.pow_pos_nonneg; lia). nia. }
    set (B := Z.pos mb * 2 ^ (eb + 1074)) in *. clearbody X B.
    destruct s, sb.
    + split; intros H.
      * assert (HBX : B <= X) by (simpl in H; lia). specialize (C2 HBX). destruct R as [r|]; simpl in *; auto; lia.
      * assert (HBX : X <= B) by (simpl in H; lia). destruct (C1 HBX) as (r & -> & Hr). simpl. lia.
    + split; intros H; destruct R as [r|]; simpl in *; auto; lia.
    + split; intros H; destruct R as [r|]; simpl in *; auto; lia.
    + split; intros H.
      * assert (HBX : X <= B) by (simpl in H; lia). destruct (C1 HBX) as (r & -> & Hr). simpl. lia.
      * assert (HBX : B <= X) by (simpl in H; lia). specialize (C2 HBX). destruct R as [r|]; simpl in *; auto; lia.
Qed.

Lemma xle_antisym : forall x y, xle x y -> xle y x -> x = y.
Proof. intros [|a|] [|b|]; simpl; try tauto. intros. f_equal. lia. Qed.
Lemma xle_trans : forall x y z, xle x y -> xle y z -> xle x z.
Proof. intros [|a|] [|b|] [|c|]; simpl; try tauto. lia. Qed.

(** A number the target type has is not changed. *)
Lemma fcast_exact : forall t t' f b x, is_float_of t' f -> is_float_of t b ->
  xval f = Some x -> xval b = Some x -> xval (fcast t f) = Some x.
Proof.
  intros t t' f b x Hf Hb Hx Hy. destruct (fcast_mono t t' f b x x Hf Hb Hx Hy) as (x' & H & H1 & H2).
  rewrite H. f_equal. apply xle_antisym; [apply H1 | apply H2]; apply xle_refl.
Qed.

(** Every f32 is an f64 with the same value. *)
Lemma f32_is_f64 : forall f x, is_float_of F32 f -> xval f = Some x ->
  exists g, is_float_of F64 g /\ xval g = Some x.
Proof.
  intros f x Hf Hx. destruct f as [s|s| |s m e]; try discriminate.
  - exists (S754_zero s). split; [reflexivity|exact Hx].
  - exists (S754_infinity s). split; [reflexivity|exact Hx].
  - unfold is_float_of, valid_binary in Hf. apply bounded_facts in Hf. simpl in Hf. destruct Hf as (F1 & F2 & F3 & F4).
    set (d := Z.pos (digits2_pos m)) in *. set (k := 53 - d).
    assert (Hk : 0 < k) by lia.
    exists (S754_finite s (m * 2 ^ Z.to_pos k)%positive (e - k)). split.
    + unfold is_float_of, valid_binary, bounded. apply andb_true_intro. split.
      * unfold canonical_mantissa. rewrite fexp_val. apply Zeq_is_eq_bool. simpl.
        replace (Z.pos (digits2_pos (m * 2 ^ Z.to_pos k))) with 53; [lia|].
        symmetry. apply digits_unique; [lia|]. rewrite Pos2Z.inj_mul, Pos2Z.inj_pow, Z2Pos.id by lia.
        destruct (digits2_bounds m) as [B1 B2]. fold d in B1, B2.
        replace (53 - 1) with (d - 1 + k) by lia. rewrite Z.pow_add_r by lia.
        assert (H53 : 2 ^ 53 = 2 ^ d * 2 ^ k) by (rewrite <- Z.pow_add_r by lia; f_equal; lia).
        rewrite H53.
        assert (0 < 2 ^ k) by (apply Z.pow_pos_nonneg; lia). nia.
      * apply Z.leb_le. simpl. lia.
    + rewrite <- Hx. simpl. f_equal. f_equal. rewrite Pos2Z.inj_mul, Pos2Z.inj_pow, Z2Pos.id by lia.
      assert (Hpp : 2 ^ (e + 1074) = 2 ^ k * 2 ^ (e - k + 1074)) by (rewrite <- Z.pow_add_r by lia; f_equal; lia).
      rewrite Hpp. destruct s; lia.
Qed.

Lemma fcast_nan_iff : forall t t' f, is_float_of t' f -> (xval (fcast t f) = None <-> xval f = None).
Proof.
  intros t t' f Hf. destruct (xval f) as [x|] eqn:Ex.
  - destruct (fcast_mono t t' f (S754_zero false) x (Fin 0) Hf eq_refl Ex eq_refl) as (x' & H & _). rewrite H. split; discriminate.
  - apply xval_nan in Ex. subst f. simpl. tauto.
Qed.

Lemma num_cross_f32 : forall r nan f, num_parse_f32 F64 r nan f = own_parse_f F64 r nan (fcast F64 f).
Proof. reflexivity. Qed.
Lemma num_cross_f64 : forall r nan f, num_parse_f64 F32 r nan f = own_parse_f F32 r nan (fcast F32 f).
Proof. reflexivity. Qed.

(** C05, an f32 given to an f64 validator. *)
Lemma number_widen_lemma : forall r nan f, good_range F64 r -> ~ x_degenerate r -> is_float_of F32 f ->
  (is_ok (num_parse_f32 F64 r nan f) <->
     match xval f with Some x => nan <> Must /\ x_allowed r x | None => nan <> Disallow end) /\
  (forall g, num_parse_f32 F64 r nan f = Ok g -> is_float_of F64 g /\ xval g = xval f) /\
  num_parse_f32 F64 r nan f <> Panic.
Proof.
  intros r nan f Hr Hd Hf. rewrite num_cross_f32.
  destruct (number_exact_lemma F64 r nan (fcast F64 f) Hr Hd (fcast_valid F64 f)) as [H HP].
  assert (Hx : xval (fcast F64 f) = xval f).
  { destruct (xval f) as [x|] eqn:Ex.
    - destruct (f32_is_f64 f x Hf Ex) as (g & Hg & Hgx). exact (fcast_exact F64 F32 f g x Hf Hg Ex Hgx).
    - apply xval_nan in Ex. subst f. reflexivity. }
  rewrite Hx in H. split; [|split; [|exact HP]].
  - destruct (own_parse_f F64 r nan (fcast F64 f)) as [g|e|] eqn:E; simpl.
    + split; [|intros _; exists g; reflexivity]. intros _. apply (proj1 (H g) eq_refl).
    + split; [intros [a Hc]; discriminate|]. intros Hc. assert (Err e = Ok (fcast F64 f)) by (apply H; auto). discriminate.
    + congruence.
  - intros g Hg. apply H in Hg. destruct Hg as [-> _]. split; [apply fcast_valid|exact Hx].
Qed.

(** C06, what does hold. *)
Lemma number_narrow_stored : forall r nan f g, good_range F32 r -> ~ x_degenerate r ->
  num_parse_f64 F32 r nan f = Ok g ->
  is_float_of F32 g /\ (forall x, xval g = Some x -> nan <> Must /\ x_allowed r x) /\ (xval g = None -> nan <> Disallow).
Proof.
  intros r nan f g Hr Hd H. rewrite num_cross_f64 in H.
  destruct (number_exact_lemma F32 r nan (fcast F32 f) Hr Hd (fcast_valid F32 f)) as [HH _].
  apply HH in H. destruct H as [-> H]. split; [apply fcast_valid|].
  destruct (xval (fcast F32 f)) as [x|] eqn:E; (split; [intros y Hy; try discriminate; injection Hy as <-; exact H | intros Hc; try discriminate; exact H]).
Qed.

Lemma number_narrow_complete : forall min max nan f x, good_range F32 (Inside min max true) -> is_float_of F64 f ->
  xval f = Some x -> nan <> Must -> x_allowed (Inside min max true) x ->
  exists g, num_parse_f64 F32 (Inside min max true) nan f = Ok g.
Proof.
  intros min max nan f x Hr Hf Hx Hn Ha. exists (fcast F32 f). rewrite num_cross_f64.
  assert (Hd : ~ x_degenerate (Inside min max true)) by (intros [i Hi]; discriminate).
  apply (number_exact_lemma F32 _ nan (fcast F32 f) Hr Hd (fcast_valid F32 f)). split; [reflexivity|].
  destruct (xval (fcast F32 f)) as [x'|] eqn:E.
  - split; [exact Hn|]. destruct Hr as [Ha1 Hb1]. destruct Ha as [A1 A2]. split.
    + intros m y Hm Hy. destruct (Ha1 m Hm) as [Fm _].
      destruct (fcast_mono F32 F64 f m x y Hf Fm Hx Hy) as (x2 & H1 & _ & H3).
      rewrite E in H1. injection H1 as <-. apply H3. eauto.
    + intros m y Hm Hy. destruct (Hb1 m Hm) as [Fm _].
      destruct (fcast_mono F32 F64 f m x y Hf Fm Hx Hy) as (x2 & H1 & H3 & _).
      rewrite E in H1. injection H1 as <-. apply H3. specialize (A2 m y Hm Hy). exact A2.
  - apply (fcast_nan_iff F32 F64 f Hf) in E. congruence.
Qed.

Lemma number_narrow_exact : forall r nan f b x, good_range F32 r -> ~ x_degenerate r -> is_float_of F64 f ->
  xval f = Some x -> is_float_of F32 b -> xval b = Some x ->
  (is_ok (num_parse_f64 F32 r nan f) <-> nan <> Must /\ x_allowed r x) /\
  (forall g, num_parse_f64 F32 r nan f = Ok g -> xval g = Some x).
Proof.
  intros r nan f b x Hr Hd Hf Hx Hb Hbx. rewrite num_cross_f64.
  pose proof (fcast_exact F32 F64 f b x Hf Hb Hx Hbx) as E.
  destruct (number_exact_lemma F32 r nan (fcast F32 f) Hr Hd (fcast_valid F32 f)) as [H HP]. rewrite E in H.
  split.
  - destruct (own_parse_f F32 r nan (fcast F32 f)) as [g|e|] eqn:Eo; simpl.
    + split; [|intros _; exists g; reflexivity]. intros _. apply (proj1 (H g) eq_refl).
    + split; [intros [a Hc]; discriminate|]. intros Hc. assert (Err e = Ok (fcast F32 f)) by (apply H; auto). discriminate.
    + congruence.
  - intros g Hg. apply H in Hg. destruct Hg as [-> _]. exact E.
Qed.
