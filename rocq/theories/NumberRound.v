(** Widening a single to a double and narrowing it again gives it back. *)
From Coq Require Import ZArith Lia SpecFloat.
From Verif Require Import Base RangeModel NumberModel NumberSpec NumberProofs NumberCast.
Local Open Scope Z_scope.

(** A finite non-zero float is determined by its value. *)
Lemma canon_unique_le : forall t m e m' e', bounded (fprec t) (femax t) m e = true -> bounded (fprec t) (femax t) m' e' = true ->
  e <= e' -> Zpos m * 2 ^ (e + 1074) = Zpos m' * 2 ^ (e' + 1074) -> m = m' /\ e = e'.
Proof.
  intros t m e m' e' H H' Hle Heq. apply bounded_facts in H, H'. simpl in H, H'.
  assert (Hemn : -1074 <= match t with F32 => -149 | F64 => -1074 end) by (destruct t; lia).
  assert (Hm : Zpos m = Zpos m' * 2 ^ (e' - e)).
  { assert (P : 0 < 2 ^ (e + 1074)) by (apply Z.pow_pos_nonneg; lia).
    replace (e' + 1074) with ((e' - e) + (e + 1074)) in Heq by lia. rewrite (Z.pow_add_r 2 (e' - e) (e + 1074)) in Heq by lia.
    rewrite Z.mul_assoc in Heq. apply Z.mul_cancel_r in Heq; lia. }
  assert (Hd : Zpos (digits2_pos m) = Zpos (digits2_pos m') + (e' - e)).
  { destruct (digits2_bounds m') as [B1 B2]. apply digits_unique; [lia|].
    replace (Z.pos (digits2_pos m') + (e' - e) - 1) with ((Z.pos (digits2_pos m') - 1) + (e' - e)) by lia.
    rewrite !Z.pow_add_r by lia. assert (P : 0 < 2 ^ (e' - e)) by (apply Z.pow_pos_nonneg; lia). rewrite Hm. nia. }
  assert (e = e') by lia. subst e'. rewrite Z.sub_diag in Hm. rewrite Z.mul_1_r in Hm. split; congruence.
Qed.

Lemma canon_unique : forall t m e m' e', bounded (fprec t) (femax t) m e = true -> bounded (fprec t) (femax t) m' e' = true ->
  Zpos m * 2 ^ (e + 1074) = Zpos m' * 2 ^ (e' + 1074) -> m = m' /\ e = e'.
Proof.
  intros t m e m' e' H H' Heq. destruct (Z.le_ge_cases e e').
  - eapply canon_unique_le; eauto.
  - destruct (canon_unique_le t m' e' m e) as [-> ->]; auto.
Qed.

Lemma xval_inj : forall t s m e g, is_float_of t (S754_finite s m e) -> is_float_of t g ->
  xval g = xval (S754_finite s m e) -> g = S754_finite s m e.
Proof.
  intros t s m e g Hf Hg Hx. pose proof Hf as Hf'. unfold is_float_of, valid_binary in Hf, Hg.
  pose proof (bounded_facts t m e Hf) as Fe. simpl in Fe.
  assert (Hemn : -1074 <= match t with F32 => -149 | F64 => -1074 end) by (destruct t; lia).
  assert (P : 0 < Zpos m * 2 ^ (e + 1074)) by (apply Z.mul_pos_pos; [lia|apply Z.pow_pos_nonneg; lia]).
  destruct g as [s'|s'| |s' m' e']; cbn [xval] in Hx; try discriminate.
  - injection Hx as Hx. destruct s; lia.
  - destruct s'; discriminate.
  - pose proof (bounded_facts t m' e' Hg) as Fe'. simpl in Fe'.
    assert (P' : 0 < Zpos m' * 2 ^ (e' + 1074)) by (apply Z.mul_pos_pos; [lia|apply Z.pow_pos_nonneg; lia]).
    injection Hx as Hx.
    assert (s = s') by (destruct s, s'; try reflexivity; lia). subst s'.
    destruct (canon_unique t m e m' e' Hf Hg) as [-> ->]; [destruct s; lia|reflexivity].
Qed.

Lemma widen_narrow : forall f, is_float_of F32 f -> fcast F32 (fcast F64 f) = f.
Proof.
  intros [s|s| |s m e] Hf; try reflexivity.
  destruct (xval (S754_finite s m e)) as [x|] eqn:Ex; [|discriminate].
  destruct (f32_is_f64 _ x Hf Ex) as (b & Hb & Hbx).
  pose proof (fcast_exact F64 F32 _ b x Hf Hb Ex Hbx) as H1.
  pose proof (fcast_exact F32 F64 _ _ x (fcast_valid F64 _) Hf H1 Ex) as H2.
  apply (xval_inj F32 s m e); [exact Hf|apply fcast_valid|congruence].
Qed.

Lemma fcast_id : forall t f, is_float_of t f -> fcast t f = f.
Proof.
  intros t [s|s| |s m e] Hf; try reflexivity.
  destruct (xval (S754_finite s m e)) as [x|] eqn:Ex; [|discriminate].
  apply (xval_inj t s m e); [exact Hf|apply fcast_valid|].
  rewrite Ex. exact (fcast_exact t t _ _ x Hf Hf Ex Ex).
Qed.
