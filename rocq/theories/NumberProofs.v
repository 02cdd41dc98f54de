(** Proofs about the number validator. *)
From Verif Require Import Base RangeModel NumberModel NumberSpec.
From Coq Require Import Floats.SpecFloat.
Local Open Scope Z_scope.

Lemma digits2_bounds : forall p, 2 ^ (Zpos (digits2_pos p) - 1) <= Zpos p < 2 ^ Zpos (digits2_pos p).
Proof.
  induction p as [p IH|p IH|]; cbn [digits2_pos].
  - rewrite Pos2Z.inj_succ. replace (Z.succ (Zpos (digits2_pos p)) - 1) with (Z.succ (Zpos (digits2_pos p) - 1)) by lia.
    rewrite !Z.pow_succ_r by lia. rewrite (Pos2Z.inj_xI p).
    generalize dependent (2 ^ (Z.pos (digits2_pos p) - 1)). generalize (2 ^ Z.pos (digits2_pos p)). lia.
  - rewrite Pos2Z.inj_succ. replace (Z.succ (Zpos (digits2_pos p)) - 1) with (Z.succ (Zpos (digits2_pos p) - 1)) by lia.
    rewrite !Z.pow_succ_r by lia. rewrite (Pos2Z.inj_xO p).
    generalize dependent (2 ^ (Z.pos (digits2_pos p) - 1)). generalize (2 ^ Z.pos (digits2_pos p)). lia.
  - simpl. change (2 ^ (1 - 1)) with 1. change (2 ^ 1) with 2. lia.
Qed.

Lemma bounded_facts : forall t m e, bounded (fprec t) (femax t) m e = true ->
  let emn := match t with F32 => -149 | F64 => -1074 end in
  emn <= e /\ Zpos (digits2_pos m) <= fprec t /\ (Zpos (digits2_pos m) = fprec t \/ e = emn) /\
  e <= femax t - fprec t.
Proof.
  intros t m e H emn. unfold bounded in H. apply andb_prop in H. destruct H as [H1 H2].
  unfold canonical_mantissa in H1. apply Zeq_bool_eq in H1. unfold fexp, SpecFloat.emin in H1.
  apply Zle_bool_imp_le in H2. unfold emn. destruct t; simpl in *; lia.
Qed.

Lemma mag_lt : forall t m1 e1 m2 e2,
  bounded (fprec t) (femax t) m1 e1 = true -> bounded (fprec t) (femax t) m2 e2 = true -> e1 < e2 ->
  Zpos m1 * 2 ^ (e1 + 1074) < Zpos m2 * 2 ^ (e2 + 1074).
Proof.
  intros t m1 e1 m2 e2 H1 H2 He.
  apply bounded_facts in H1. apply bounded_facts in H2. simpl in H1, H2.
  pose proof (digits2_bounds m1) as [_ B1]. pose proof (digits2_bounds m2) as [B2 _].
  assert (Hd2 : Zpos (digits2_pos m2) = fprec t) by (destruct t; lia).
  assert (He1 : 0 <= e1 + 1074) by (destruct t; lia).
  assert (Hp : 1 < fprec t) by (destruct t; reflexivity).
  assert (Hm1 : Zpos m1 < 2 ^ fprec t).
  { eapply Z.lt_le_trans; [exact B1|]. apply Z.pow_le_mono_r; lia. }
  replace (e2 + 1074) with ((e2 - e1 - 1) + 1 + (e1 + 1074)) by lia.
  rewrite (Z.pow_add_r 2 (e2 - e1 - 1 + 1)) by lia. rewrite (Z.pow_add_r 2 (e2 - e1 - 1) 1) by lia. change (2 ^ 1) with 2.
  assert (0 < 2 ^ (e1 + 1074)) by (apply Z.pow_pos_nonneg; lia).
  assert (0 < 2 ^ (e2 - e1 - 1)) by (apply Z.pow_pos_nonneg; lia).
  assert (Hpw : 2 ^ fprec t = 2 * 2 ^ (fprec t - 1))
    by (rewrite <- Z.pow_succ_r by lia; f_equal; lia).
  rewrite Hd2 in B2.
  assert (Hm2 : 2 ^ fprec t <= Zpos m2 * (2 ^ (e2 - e1 - 1) * 2)).
  { rewrite Hpw. nia. }
  nia.
Qed.

Local Arguments Z.compare : simpl never.

Definition xcmp (a b : xnum) : comparison :=
  match a, b with
  | NegInf, NegInf => Eq
  | NegInf, _ => Lt
  | _, NegInf => Gt
  | PosInf, PosInf => Eq
  | PosInf, _ => Gt
  | _, PosInf => Lt
  | Fin x, Fin y => x ?= y
  end.

Lemma SFcompare_xcmp : forall t f g x y, is_float_of t f -> is_float_of t g ->
  xval f = Some x -> xval g = Some y -> SFcompare f g = Some (xcmp x y).
Proof.
  intros t f g x y Hf Hg Hx Hy. unfold is_float_of in *.
  destruct f as [s|s| |s m e], g as [s'|s'| |s' m' e']; simpl in Hx, Hy; try discriminate;
    injection Hx as <-; injection Hy as <-; simpl.
  - reflexivity.
  - destruct s'; reflexivity.
  - f_equal. symmetry.
    assert (0 < 2 ^ (e' + 1074)) by (apply Z.pow_pos_nonneg; simpl in Hg; apply bounded_facts in Hg; destruct t; lia).
    destruct s'; [rewrite Z.compare_gt_iff | rewrite Z.compare_lt_iff]; nia.
  - destruct s; reflexivity.
  - destruct s, s'; reflexivity.
  - destruct s; reflexivity.
  - f_equal. symmetry.
    assert (0 < 2 ^ (e + 1074)) by (apply Z.pow_pos_nonneg; simpl in Hf; apply bounded_facts in Hf; destruct t; lia).
    destruct s; [rewrite Z.compare_lt_iff | rewrite Z.compare_gt_iff]; nia.
  - destruct s'; reflexivity.
  - f_equal. symmetry. simpl in Hf, Hg.
    assert (P1 : 0 < 2 ^ (e + 1074)) by (apply Z.pow_pos_nonneg; apply bounded_facts in Hf; destruct t; lia).
    assert (P2 : 0 < 2 ^ (e' + 1074)) by (apply Z.pow_pos_nonneg; apply bounded_facts in Hg; destruct t; lia).
    destruct s, s'.
    + destruct (Z.compare_spec e e') as [He|He|He].
      * subst e'. rewrite <- Pos.compare_antisym. change (Pos.compare_cont Eq m m') with (m ?= m')%positive.
        rewrite Pos2Z.inj_compare.
        destruct (Z.compare_spec (Z.pos m') (Z.pos m)) as [Hm|Hm|Hm].
        -- rewrite Z.compare_eq_iff. rewrite Hm. reflexivity.
        -- rewrite Z.compare_lt_iff. nia.
        -- rewrite Z.compare_gt_iff. nia.
      * pose proof (mag_lt t m e m' e' Hf Hg He). rewrite Z.compare_gt_iff. lia.
      * pose proof (mag_lt t m' e' m e Hg Hf He). rewrite Z.compare_lt_iff. lia.
    + rewrite Z.compare_lt_iff. nia.
    + rewrite Z.compare_gt_iff. nia.
    + destruct (Z.compare_spec e e') as [He|He|He].
      * subst e'. change (Pos.compare_cont Eq m m') with (m ?= m')%positive.
        rewrite Pos2Z.inj_compare.
        destruct (Z.compare_spec (Z.pos m) (Z.pos m')) as [Hm|Hm|Hm].
        -- rewrite Z.compare_eq_iff. rewrite Hm. reflexivity.
        -- rewrite Z.compare_lt_iff. nia.
        -- rewrite Z.compare_gt_iff. nia.
      * pose proof (mag_lt t m e m' e' Hf Hg He). rewrite Z.compare_lt_iff. lia.
      * pose proof (mag_lt t m' e' m e Hg Hf He). rewrite Z.compare_gt_iff. lia.
Qed.

Lemma SFcompare_nan_l : forall g, SFcompare S754_nan g = None.
Proof. reflexivity. Qed.
Lemma SFcompare_nan_r : forall f, SFcompare f S754_nan = None.
Proof. intros []; reflexivity. Qed.

Lemma xcmp_lt : forall x y, xcmp x y = Lt <-> xlt x y.
Proof.
  intros [|a|] [|b|]; unfold xcmp, xlt; try apply Z.compare_lt_iff; (split; intros; try discriminate; try contradiction; auto).
Qed.
Lemma xcmp_gt : forall x y, xcmp x y = Gt <-> xlt y x.
Proof.
  intros [|a|] [|b|]; unfold xcmp, xlt; try apply Z.compare_gt_iff; (split; intros; try discriminate; try contradiction; auto).
Qed.
Lemma xcmp_le : forall x y, xcmp x y <> Gt <-> xle x y.
Proof.
  intros [|a|] [|b|]; unfold xcmp, xle; try apply Z.compare_le_iff; (split; intros; try discriminate; try contradiction; auto).
Qed.
Lemma xle_refl : forall x, xle x x.
Proof. intros [|a|]; simpl; try exact I. lia. Qed.
Lemma xcmp_eq : forall x y, xcmp x y = Eq <-> x = y.
Proof.
  intros [|a|] [|b|]; unfold xcmp; try (split; intros; try discriminate; try reflexivity; fail).
  rewrite Z.compare_eq_iff. split; [intros ->; reflexivity | intros H; injection H; auto].
Qed.
Lemma xle_lt : forall x y, xle x y <-> ~ xlt y x.
Proof. intros x y. rewrite <- xcmp_le, <- xcmp_gt. tauto. Qed.
Lemma xlt_le : forall x y, xlt x y <-> ~ xle y x.
Proof.
  intros [|a|] [|b|]; simpl; try tauto; lia.
Qed.

Section Cmp.
Variables (t : fty) (f g : spec_float) (x y : xnum).
Hypotheses (Hf : is_float_of t f) (Hg : is_float_of t g) (Hx : xval f = Some x) (Hy : xval g = Some y).

Lemma SFltb_iff : SFltb f g = true <-> xlt x y.
Proof.
  unfold SFltb. rewrite (SFcompare_xcmp t f g x y) by auto. rewrite <- xcmp_lt.
  destruct (xcmp x y); split; congruence.
Qed.
Lemma SFleb_iff : SFleb f g = true <-> xle x y.
Proof.
  unfold SFleb. rewrite (SFcompare_xcmp t f g x y) by auto. rewrite <- xcmp_le.
  destruct (xcmp x y); split; congruence.
Qed.
Lemma SFeqb_iff : SFeqb f g = true <-> x = y.
Proof.
  unfold SFeqb. rewrite (SFcompare_xcmp t f g x y) by auto. rewrite <- xcmp_eq.
  destruct (xcmp x y); split; congruence.
Qed.
End Cmp.

Lemma float_equal_facts : forall t mn mx i, good_bound t mn -> good_bound t mx ->
  range_equal spec_float SFeqb float_inc true mn mx i = true ->
  i = true /\ exists a b x, mn = Some a /\ mx = Some b /\ xval a = Some x /\ xval b = Some x /\ is_float_of t a.
Proof.
  intros t [a|] [b|] i Ha Hb H; simpl in H; try discriminate.
  destruct i; [|discriminate]. split; [reflexivity|].
  destruct (Ha _ eq_refl) as [Fa Na]. destruct (Hb _ eq_refl) as [Fb Nb].
  destruct (xval a) as [x|] eqn:Ex; [|congruence]. destruct (xval b) as [y|] eqn:Ey; [|congruence].
  apply (SFeqb_iff t a b x y) in H; auto. subst y. exists a, b, x. auto.
Qed.

(** Everything about the range check of a number that is not NaN. *)
Lemma num_range_spec : forall t r f x, good_range t r -> ~ x_degenerate r ->
  is_float_of t f -> xval f = Some x ->
  match num_handle_range (to_tokens spec_float SFeqb float_inc true r) f with
  | Ok _ => x_allowed r x
  | Err NTooSmall => exists mn mx i m y, r = Inside mn mx i /\ mn = Some m /\ xval m = Some y /\ xlt x y
  | Err NTooLarge => exists mn mx i m y, r = Inside mn mx i /\ mx = Some m /\ xval m = Some y /\
                       (if i then xlt y x else xle y x) /\
                       (forall n z, mn = Some n -> xval n = Some z -> xle z x)
  | Err NForbidden => exists mn mx i, r = Outside mn mx i /\ x_in_bounds mn mx i x
  | _ => False
  end.
Proof.
  intros t r f x Hr Hd Hf Hx.
  destruct r as [mn mx i|mn mx i|]; simpl; [| |exact I].
  - destruct Hr as [Ha Hb].
    destruct (range_equal spec_float SFeqb float_inc true mn mx i) eqn:E.
    + apply (float_equal_facts t) in E; auto. destruct E as (-> & a & b & y & -> & -> & Ey & Ey' & Fa).
      rewrite (SFcompare_xcmp t f a x y) by auto.
      destruct (xcmp x y) eqn:Ec.
      * apply xcmp_eq in Ec. subst y. split.
        -- intros m z Hm Hz. injection Hm as <-. rewrite Ey in Hz. injection Hz as <-. apply xle_refl.
        -- intros m z Hm Hz. injection Hm as <-. rewrite Ey' in Hz. injection Hz as <-. apply xle_refl.
      * apply xcmp_lt in Ec. exists (Some a), (Some b), true, a, y. auto.
      * apply xcmp_gt in Ec. exists (Some a), (Some b), true, b, y. repeat split; auto.
        intros n z Hn Hz. injection Hn as <-. rewrite Ey in Hz. injection Hz as <-.
        apply xle_lt. intros Hc. destruct x, y; simpl in *; try tauto; lia.
    + destruct mn as [a|]; simpl.
      * destruct (Ha _ eq_refl) as [Fa Na]. destruct (xval a) as [y|] eqn:Ey; [|congruence].
        destruct (SFltb f a) eqn:E1; simpl.
        { apply (SFltb_iff t f a x y) in E1; auto. exists (Some a), mx, i, a, y. auto. }
        assert (H1 : xle y x) by (apply xle_lt; rewrite <- (SFltb_iff t f a x y) by auto; congruence).
        destruct mx as [b|].
        -- destruct (Hb _ eq_refl) as [Fb Nb]. destruct (xval b) as [z|] eqn:Ez; [|congruence].
           destruct i; [destruct (SFltb b f) eqn:E2 | destruct (SFleb b f) eqn:E2].
           ++ apply (SFltb_iff t b f z x) in E2; auto. exists (Some a), (Some b), true, b, z.
              repeat split; auto. intros n w Hn Hw. injection Hn as <-. congruence.
           ++ split; [intros m w Hm Hw; injection Hm as <-; congruence|].
              intros m w Hm Hw. injection Hm as <-. assert (w = z) by congruence. subst w.
              apply xle_lt. rewrite <- (SFltb_iff t b f z x) by auto. congruence.
           ++ apply (SFleb_iff t b f z x) in E2; auto. exists (Some a), (Some b), false, b, z.
              repeat split; auto. intros n w Hn Hw. injection Hn as <-. congruence.
           ++ split; [intros m w Hm Hw; injection Hm as <-; congruence|].
              intros m w Hm Hw. injection Hm as <-. assert (w = z) by congruence. subst w.
              apply xlt_le. rewrite <- (SFleb_iff t b f z x) by auto. congruence.
        -- split; [intros m w Hm Hw; injection Hm as <-; congruence|discriminate].
      * destruct mx as [b|].
        -- destruct (Hb _ eq_refl) as [Fb Nb]. destruct (xval b) as [z|] eqn:Ez; [|congruence].
           destruct i; [destruct (SFltb b f) eqn:E2 | destruct (SFleb b f) eqn:E2].
           ++ apply (SFltb_iff t b f z x) in E2; auto. exists None, (Some b), true, b, z.
              repeat split; auto. discriminate.
           ++ split; [discriminate|].
              intros m w Hm Hw. injection Hm as <-. assert (w = z) by congruence. subst w.
              apply xle_lt. rewrite <- (SFltb_iff t b f z x) by auto. congruence.
           ++ apply (SFleb_iff t b f z x) in E2; auto. exists None, (Some b), false, b, z.
              repeat split; auto. discriminate.
           ++ split; [discriminate|].
              intros m w Hm Hw. injection Hm as <-. assert (w = z) by congruence. subst w.
              apply xlt_le. rewrite <- (SFleb_iff t b f z x) by auto. congruence.
        -- split; discriminate.
  - destruct Hr as [Ha Hb].
    destruct (range_equal spec_float SFeqb float_inc true mn mx i) eqn:E.
    + apply (float_equal_facts t) in E; auto. destruct E as (-> & a & b & y & -> & -> & Ey & Ey' & Fa).
      destruct (SFeqb f a) eqn:Ec.
      * apply (SFeqb_iff t f a x y) in Ec; auto. subst y. exists (Some a), (Some b), true. split; [reflexivity|].
        split; intros m z Hm Hz; injection Hm as <-; [rewrite Ey in Hz | rewrite Ey' in Hz]; injection Hz as <-; apply xle_refl.
      * intros [H1 H2]. specialize (H1 _ _ eq_refl Ey). specialize (H2 _ _ eq_refl Ey'). simpl in H2.
        assert (x = y) by (destruct x, y; simpl in *; try tauto; try reflexivity; f_equal; lia).
        apply (SFeqb_iff t f a x y) in H; auto. congruence.
    + destruct mn as [a|], mx as [b|].
      * destruct (Ha _ eq_refl) as [Fa Na]. destruct (xval a) as [y|] eqn:Ey; [|congruence].
        destruct (Hb _ eq_refl) as [Fb Nb]. destruct (xval b) as [z|] eqn:Ez; [|congruence].
        destruct i.
        -- destruct (SFleb a f && SFleb f b)%bool eqn:E1.
           ++ apply andb_prop in E1. destruct E1 as [E1 E2].
              apply (SFleb_iff t a f y x) in E1; auto. apply (SFleb_iff t f b x z) in E2; auto.
              exists (Some a), (Some b), true. split; [reflexivity|].
              split; intros m w Hm Hw; injection Hm as <-; congruence.
           ++ intros [H1 H2]. specialize (H1 _ _ eq_refl Ey). specialize (H2 _ _ eq_refl Ez). simpl in H2.
              apply (SFleb_iff t a f y x) in H1; auto. apply (SFleb_iff t f b x z) in H2; auto.
              rewrite H1, H2 in E1. discriminate.
        -- destruct (SFleb a f && SFltb f b)%bool eqn:E1.
           ++ apply andb_prop in E1. destruct E1 as [E1 E2].
              apply (SFleb_iff t a f y x) in E1; auto. apply (SFltb_iff t f b x z) in E2; auto.
              exists (Some a), (Some b), false. split; [reflexivity|].
              split; intros m w Hm Hw; injection Hm as <-; congruence.
           ++ intros [H1 H2]. specialize (H1 _ _ eq_refl Ey). specialize (H2 _ _ eq_refl Ez). simpl in H2.
              apply (SFleb_iff t a f y x) in H1; auto. apply (SFltb_iff t f b x z) in H2; auto.
              rewrite H1, H2 in E1. discriminate.
      * destruct (Ha _ eq_refl) as [Fa Na]. destruct (xval a) as [y|] eqn:Ey; [|congruence].
        destruct (SFleb a f) eqn:E1.
        -- apply (SFleb_iff t a f y x) in E1; auto. exists (Some a), None, i. split; [reflexivity|].
           split; [|discriminate]. intros m w Hm Hw; injection Hm as <-; congruence.
        -- intros [H1 H2]. specialize (H1 _ _ eq_refl Ey). apply (SFleb_iff t a f y x) in H1; auto. congruence.
      * destruct (Hb _ eq_refl) as [Fb Nb]. destruct (xval b) as [z|] eqn:Ez; [|congruence].
        destruct i; [destruct (SFleb f b) eqn:E1 | destruct (SFltb f b) eqn:E1].
        -- apply (SFleb_iff t f b x z) in E1; auto. exists None, (Some b), true. split; [reflexivity|].
           split; [discriminate|]. intros m w Hm Hw; injection Hm as <-; congruence.
        -- intros [H1 H2]. specialize (H2 _ _ eq_refl Ez). simpl in H2. apply (SFleb_iff t f b x z) in H2; auto. congruence.
        -- apply (SFltb_iff t f b x z) in E1; auto. exists None, (Some b), false. split; [reflexivity|].
           split; [discriminate|]. intros m w Hm Hw; injection Hm as <-; congruence.
        -- intros [H1 H2]. specialize (H2 _ _ eq_refl Ez). simpl in H2. apply (SFltb_iff t f b x z) in H2; auto. congruence.
      * exfalso. apply Hd. exists i. reflexivity.
Qed.

Lemma num_range_nan : forall t r, good_range t r ->
  num_handle_range (to_tokens spec_float SFeqb float_inc true r) S754_nan = Ok tt.
Proof.
  intros t r Hr. destruct r as [mn mx i|mn mx i|]; simpl; [| |reflexivity].
  - destruct Hr as [Ha Hb].
    destruct (range_equal spec_float SFeqb float_inc true mn mx i) eqn:E.
    + apply (float_equal_facts t) in E; auto. destruct E as (-> & a & b & y & -> & -> & _). reflexivity.
    + destruct mn as [a|], mx as [b|]; simpl;
        unfold SFltb, SFleb; rewrite ?SFcompare_nan_l, ?SFcompare_nan_r; destruct i; reflexivity.
  - destruct Hr as [Ha Hb].
    destruct (range_equal spec_float SFeqb float_inc true mn mx i) eqn:E.
    + apply (float_equal_facts t) in E; auto. destruct E as (-> & a & b & y & -> & -> & _). reflexivity.
    + destruct mn as [a|], mx as [b|]; simpl;
        unfold SFltb, SFleb; rewrite ?SFcompare_nan_l, ?SFcompare_nan_r; destruct i; reflexivity.
Qed.

Lemma xval_nan : forall f, xval f = None <-> f = S754_nan.
Proof. intros [s|s| |s m e]; simpl; split; congruence. Qed.

(** C05 *)
Lemma number_exact_lemma : forall t r nan f, good_range t r -> ~ x_degenerate r -> is_float_of t f ->
  (forall g, own_parse_f t r nan f = Ok g <->
     g = f /\ match xval f with
              | Some x => nan <> Must /\ x_allowed r x
              | None => nan <> Disallow
              end) /\
  own_parse_f t r nan f <> Panic.
Proof.
  intros t r nan f Hr Hd Hf.
  assert (Hown : own_parse_f t r nan f = (let? _ := v_parse_f r nan f in Ok f)) by (destruct t; reflexivity).
  rewrite Hown. unfold v_parse_f.
  destruct (xval f) as [x|] eqn:Ex.
  - pose proof (num_range_spec t r f x Hr Hd Hf Ex) as H.
    assert (Hn : is_nan f = false) by (destruct f; simpl in *; congruence).
    destruct (num_handle_range (to_tokens spec_float SFeqb float_inc true r) f) as [[]|e|]; simpl.
    + unfold handle_nan. rewrite Hn. destruct nan; simpl.
      * split; [|discriminate]. intros g. split; [discriminate | intros (_ & Hc & _); congruence].
      * split; [|discriminate]. intros g. split; [intros Hg; injection Hg as <-; repeat split; auto; discriminate | intros [-> _]; reflexivity].
      * split; [|discriminate]. intros g. split; [intros Hg; injection Hg as <-; repeat split; auto; discriminate | intros [-> _]; reflexivity].
    + split; [|discriminate]. intros g. split; [discriminate|]. intros (_ & _ & Ha). exfalso.
      destruct e; try contradiction.
      * destruct H as (mn & mx & i & m & y & -> & -> & Hy & Hl & _). destruct Ha as [_ Ha].
        specialize (Ha _ _ eq_refl Hy). destruct i; [apply xle_lt in Ha; contradiction | apply xlt_le in Ha; contradiction].
      * destruct H as (mn & mx & i & m & y & -> & -> & Hy & Hl). destruct Ha as [Ha _].
        specialize (Ha _ _ eq_refl Hy). apply xle_lt in Ha. contradiction.
      * destruct H as (mn & mx & i & -> & Hb). exact (Ha Hb).
    + contradiction.
  - apply xval_nan in Ex. subst f. rewrite (num_range_nan t) by auto. simpl.
    destruct nan; simpl; (split; [|discriminate]); intros g;
      (split; [intros Hg; first [discriminate | injection Hg as <-; split; [reflexivity|discriminate]]
              | intros [-> Hc]; try reflexivity; congruence]).
Qed.

Lemma number_error_lemma : forall t r nan f x e, good_range t r -> ~ x_degenerate r -> is_float_of t f ->
  xval f = Some x -> own_parse_f t r nan f = Err e ->
  (e = NTooSmall /\ exists mn mx i m y, r = Inside mn mx i /\ mn = Some m /\ xval m = Some y /\ xlt x y) \/
  (e = NTooLarge /\ exists mn mx i m y, r = Inside mn mx i /\ mx = Some m /\ xval m = Some y /\
                       (if i then xlt y x else xle y x)) \/
  (e = NForbidden /\ exists mn mx i, r = Outside mn mx i /\ x_in_bounds mn mx i x) \/
  (e = NaNMust /\ nan = Must /\ x_allowed r x).
Proof.
  intros t r nan f x e Hr Hd Hf Ex He.
  assert (Hown : own_parse_f t r nan f = (let? _ := v_parse_f r nan f in Ok f)) by (destruct t; reflexivity).
  rewrite Hown in He. unfold v_parse_f in He.
  pose proof (num_range_spec t r f x Hr Hd Hf Ex) as H.
  destruct (num_handle_range (to_tokens spec_float SFeqb float_inc true r) f) as [[]|e'|]; simpl in He.
  - unfold handle_nan in He. assert (Hn : is_nan f = false) by (destruct f; simpl in *; congruence).
    rewrite Hn in He. destruct nan; simpl in He; try discriminate. injection He as <-. right; right; right. auto.
  - injection He as ->. destruct e; try contradiction.
    + right; left. split; [reflexivity|]. destruct H as (mn & mx & i & m & y & H1 & H2 & H3 & H4 & _).
      exists mn, mx, i, m, y. auto.
    + left. auto.
    + right; right; left. auto.
  - contradiction.
Qed.

Lemma number_strings_lemma : forall from_str t r nan s,
  (num_parse_str from_str r nan s =
    match from_str s with None => Err NParseFloat | Some f => own_parse_f t r nan f end) /\
  num_parse_string from_str r nan s = num_parse_str from_str r nan s /\
  num_validate_str from_str r nan s = omap (fun _ => tt) (num_parse_str from_str r nan s).
Proof.
  intros from_str t r nan s. unfold num_parse_str, num_parse_string, num_validate_str, num_v_parse_str.
  destruct (from_str s) as [f|]; simpl; [|auto].
  destruct t; simpl; destruct (v_parse_f r nan f); simpl; auto.
Qed.

Lemma number_validate_lemma : forall t r nan f,
  num_validate_f64 t r nan f = omap (fun _ => tt) (num_parse_f64 t r nan f) /\
  num_validate_f32 t r nan f = omap (fun _ => tt) (num_parse_f32 t r nan f).
Proof.
  intros t r nan f. destruct t; simpl; split;
    match goal with |- (let? _ := v_parse_f r nan ?x in _) = _ => destruct (v_parse_f r nan x); reflexivity end.
Qed.
