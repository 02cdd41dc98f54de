(** Facts about integer text: what [int_from_str] accepts and that printing inverts. *)
From Verif Require Import Base IntStr.
Local Open Scope Z_scope.

(** Specification: a byte is an ASCII decimal digit. *)
Definition is_digit (b : N) : Prop := (48 <= b <= 57)%N.

(** Specification: the number a list of decimal digits denotes, most significant first. *)
Inductive denotes_digits : list N -> Z -> Prop :=
| dd_one : forall c, is_digit c -> denotes_digits [c] (Z.of_N c - 48)
| dd_snoc : forall ds v c, denotes_digits ds v -> is_digit c ->
            denotes_digits (ds ++ [c]) (10 * v + (Z.of_N c - 48)).

(** Specification: the integer a decimal text denotes: optional sign, digits;
    a minus sign only when [signed]. *)
Inductive denotes_int (signed : bool) : list N -> Z -> Prop :=
| di_plain : forall ds v, denotes_digits ds v -> denotes_int signed ds v
| di_plus : forall ds v, denotes_digits ds v -> denotes_int signed (43%N :: ds) v
| di_minus : forall ds v, signed = true -> denotes_digits ds v ->
             denotes_int signed (45%N :: ds) (- v).

Lemma digit_Some : forall c d, digit c = Some d <-> is_digit c /\ d = Z.of_N c - 48.
Proof.
  intros c d. unfold digit, is_digit.
  destruct ((48 <=? c) && (c <=? 57))%N%bool eqn:E.
  - split; [intros H; injection H as <-; split; lia | intros [_ ->]; reflexivity].
  - split; [discriminate | intros [H _]; lia].
Qed.

Lemma digit_None : forall c, digit c = None <-> ~ is_digit c.
Proof.
  intros c. unfold digit, is_digit.
  destruct ((48 <=? c) && (c <=? 57))%N%bool eqn:E.
  - split; [discriminate | intros H; exfalso; apply H; lia].
  - split; [intros _; lia | reflexivity].
Qed.

(** Value of digits on top of an accumulator. *)
Fixpoint dval (ds : list N) (r : Z) : Z :=
  match ds with [] => r | c :: ds => dval ds (10 * r + (Z.of_N c - 48)) end.

Lemma dval_snoc : forall ds c r, dval (ds ++ [c]) r = 10 * dval ds r + (Z.of_N c - 48).
Proof. induction ds as [|x ds IH]; intros c r; simpl; [reflexivity | apply IH]. Qed.

Lemma denotes_digits_iff : forall ds v,
  denotes_digits ds v <-> ds <> [] /\ Forall is_digit ds /\ v = dval ds 0.
Proof.
  intros ds v. split.
  - induction 1 as [c Hc | ds v c H IH Hc].
    + split; [discriminate|]. split; [constructor; auto|]. simpl. lia.
    + destruct IH as (_ & HF & ->). repeat split.
      * destruct ds; discriminate.
      * apply Forall_app; split; auto.
      * rewrite dval_snoc. reflexivity.
  - intros (Hne & HF & ->). revert Hne HF.
    induction ds as [|c ds IH] using rev_ind; intros Hne HF; [congruence|].
    apply Forall_app in HF. destruct HF as [HF Hc]. inversion Hc as [|? ? Hc' _]; subst.
    destruct ds as [|d ds'].
    + replace (dval ([] ++ [c]) 0) with (Z.of_N c - 48) by (simpl; lia). constructor; auto.
    + rewrite dval_snoc. constructor; auto. apply IH; auto. discriminate.
Qed.

Lemma dval_mono : forall ds r, Forall is_digit ds -> 0 <= r -> r <= dval ds r.
Proof.
  induction ds as [|c ds IH]; intros r HF Hr; simpl; [lia|].
  inversion HF as [|? ? Hc HF']; subst. unfold is_digit in Hc.
  etransitivity; [|apply IH; auto; lia]. lia.
Qed.

Lemma acc_pos_spec : forall hi ds r v, 0 <= r <= hi ->
  (acc_pos hi ds r = Ok v <-> Forall is_digit ds /\ v = dval ds r /\ v <= hi).
Proof.
  intros hi. induction ds as [|c ds IH]; intros r v Hr; simpl.
  - split; [intros H; injection H as <-; repeat split; auto; lia | intros (_ & -> & _); reflexivity].
  - destruct (digit c) as [d|] eqn:Ed.
    + apply digit_Some in Ed. destruct Ed as [Hc ->]. pose proof Hc as Hc'. unfold is_digit in Hc'.
      destruct (hi <? r * 10) eqn:E1; [|destruct (hi <? r * 10 + (Z.of_N c - 48)) eqn:E2].
      * split; [discriminate|]. intros (HF & -> & Hle). inversion HF; subst.
        pose proof (dval_mono ds (10 * r + (Z.of_N c - 48)) ltac:(auto) ltac:(lia)). lia.
      * split; [discriminate|]. intros (HF & -> & Hle). inversion HF; subst.
        pose proof (dval_mono ds (10 * r + (Z.of_N c - 48)) ltac:(auto) ltac:(lia)). lia.
      * rewrite IH by lia. replace (r * 10) with (10 * r) by lia.
        split; intros (HF & Hv & Hle); repeat split; auto. inversion HF; auto.
    + apply digit_None in Ed. split; [discriminate|]. intros (HF & _). inversion HF; contradiction.
Qed.

Lemma acc_neg_spec : forall lo ds r v, lo <= r <= 0 ->
  (acc_neg lo ds r = Ok v <-> Forall is_digit ds /\ v = - dval ds (- r) /\ lo <= v).
Proof.
  intros lo. induction ds as [|c ds IH]; intros r v Hr; simpl.
  - split; [intros H; injection H as <-; repeat split; auto; lia | intros (_ & -> & _); f_equal; lia].
  - destruct (digit c) as [d|] eqn:Ed.
    + apply digit_Some in Ed. destruct Ed as [Hc ->]. pose proof Hc as Hc'. unfold is_digit in Hc'.
      destruct (r * 10 <? lo) eqn:E1; [|destruct (r * 10 - (Z.of_N c - 48) <? lo) eqn:E2].
      * split; [discriminate|]. intros (HF & -> & Hle). inversion HF; subst.
        pose proof (dval_mono ds (10 * - r + (Z.of_N c - 48)) ltac:(auto) ltac:(lia)). lia.
      * split; [discriminate|]. intros (HF & -> & Hle). inversion HF; subst.
        pose proof (dval_mono ds (10 * - r + (Z.of_N c - 48)) ltac:(auto) ltac:(lia)). lia.
      * rewrite IH by lia. replace (- (r * 10 - (Z.of_N c - 48))) with (10 * - r + (Z.of_N c - 48)) by lia.
        split; intros (HF & Hv & Hle); repeat split; auto. inversion HF; auto.
    + apply digit_None in Ed. split; [discriminate|]. intros (HF & _). inversion HF; contradiction.
Qed.

Lemma digits_not_sign : forall c ds v, denotes_digits (c :: ds) v -> (c <> 43 /\ c <> 45)%N.
Proof.
  intros c ds v H. apply denotes_digits_iff in H. destruct H as (_ & HF & _).
  inversion HF as [|? ? Hc _]; subst. unfold is_digit in Hc. lia.
Qed.

Theorem int_from_str_spec : forall lo hi s v, lo <= 0 <= hi ->
  (int_from_str lo hi s = Ok v <-> denotes_int (lo <? 0) s v /\ lo <= v <= hi).
Proof.
  intros lo hi s v Hb.
  assert (Hpos : forall ds, ds <> [] ->
            (acc_pos hi ds 0 = Ok v <-> denotes_digits ds v /\ lo <= v <= hi)).
  { intros ds Hne. rewrite acc_pos_spec by lia. rewrite denotes_digits_iff. split.
    - intros (HF & Hv & Hle). pose proof (dval_mono ds 0 HF ltac:(lia)). repeat split; auto; lia.
    - intros ((_ & HF & Hv) & Hle). repeat split; auto; lia. }
  assert (Hpl : forall ds, ds <> [] -> hd 0%N ds <> 43%N -> (hd 0%N ds <> 45%N \/ lo = 0) ->
            (acc_pos hi ds 0 = Ok v <-> denotes_int (lo <? 0) ds v /\ lo <= v <= hi)).
  { intros ds Hne H1 H2. rewrite Hpos by auto. split.
    - intros [H Hr]. split; auto. constructor; auto.
    - intros [H Hr]. split; auto. inversion H; subst; simpl in *; try congruence.
      destruct H2; [congruence | lia]. }
  destruct s as [|c rest].
  - simpl. split; [discriminate|]. intros [H _]. inversion H as [ds v' Hd| | ]; subst.
    apply denotes_digits_iff in Hd. destruct Hd as [Hd _]. congruence.
  - unfold int_from_str. destruct rest as [|c2 rest].
    + destruct ((c =? 43) || (c =? 45))%N%bool eqn:E.
      * split; [discriminate|]. intros [H _]. exfalso. inversion H as [ds v' Hd|ds v' Hd|ds v' Hs Hd]; subst.
        -- apply digits_not_sign in Hd. lia.
        -- apply denotes_digits_iff in Hd. destruct Hd as [Hd _]. congruence.
        -- apply denotes_digits_iff in Hd. destruct Hd as [Hd _]. congruence.
      * apply Hpl; simpl; [discriminate | lia | lia].
    + remember (c2 :: rest) as tl eqn:Etl.
      assert (Htl : tl <> []) by (subst; discriminate).
      destruct (c =? 43)%N eqn:E43.
      * apply N.eqb_eq in E43. subst c. rewrite Hpos by auto. split.
        -- intros [H Hr]; split; auto. apply di_plus; auto.
        -- intros [H Hr]; split; auto. inversion H as [ds v' Hd|ds v' Hd|]; subst; auto.
           apply digits_not_sign in Hd. lia.
      * destruct ((c =? 45)%N && (lo <? 0))%bool eqn:E45.
        -- assert (c = 45%N) by lia. subst c. rewrite acc_neg_spec by lia. change (- 0) with 0. split.
           ++ intros (HF & -> & Hle). pose proof (dval_mono tl 0 HF ltac:(lia)).
              split; [|lia]. apply di_minus; [lia|]. apply denotes_digits_iff. auto.
           ++ intros [H Hr]. inversion H as [ds v' Hd|ds v' Hd|ds v' Hs Hd]; subst v ds.
              ** apply digits_not_sign in Hd. lia.
              ** apply denotes_digits_iff in Hd. destruct Hd as (_ & HF & ->). split; [auto|]. split; [reflexivity|lia].
        -- apply Hpl; simpl; [discriminate | lia | lia].
Qed.

Lemma int_from_str_no_panic : forall lo hi s, int_from_str lo hi s <> Panic.
Proof.
  assert (HP : forall hi ds r, acc_pos hi ds r <> Panic).
  { intros hi. induction ds as [|c ds IH]; intros r; simpl; [discriminate|].
    destruct (digit c); [|discriminate].
    destruct (hi <? r * 10); [discriminate|]. destruct (hi <? r * 10 + z); [discriminate|]. apply IH. }
  assert (HN : forall lo ds r, acc_neg lo ds r <> Panic).
  { intros lo. induction ds as [|c ds IH]; intros r; simpl; [discriminate|].
    destruct (digit c); [|discriminate].
    destruct (r * 10 <? lo); [discriminate|]. destruct (r * 10 - z <? lo); [discriminate|]. apply IH. }
  intros lo hi s. destruct s as [|c [|c2 r]]; unfold int_from_str; try discriminate.
  - destruct ((c =? 43) || (c =? 45))%N%bool; [discriminate | apply HP].
  - destruct (c =? 43)%N; [apply HP|]. destruct ((c =? 45)%N && (lo <? 0))%bool; [apply HN | apply HP].
Qed.

(** Printing. *)
Lemma dec_digits_app : forall f n acc, dec_digits f n acc = dec_digits f n [] ++ acc.
Proof.
  induction f as [|f IH]; intros n acc; cbn [dec_digits]; [reflexivity|].
  destruct (n <? 10)%N; [reflexivity|]. rewrite IH. rewrite (IH _ [_]). rewrite <- app_assoc. reflexivity.
Qed.

Lemma dec_digits_spec : forall f n, (n < 2 ^ N.of_nat f)%N ->
  denotes_digits (dec_digits (S f) n []) (Z.of_N n).
Proof.
  assert (Hd : forall n, (n < 10)%N -> denotes_digits [(48 + n mod 10)%N] (Z.of_N n)).
  { intros n Hn. rewrite N.mod_small by auto.
    replace (Z.of_N n) with (Z.of_N (48 + n) - 48) by lia. constructor. unfold is_digit; lia. }
  induction f as [|f IH]; intros n Hn.
  - change (2 ^ N.of_nat 0)%N with 1%N in Hn. assert (n = 0%N) by lia. subst. apply (Hd 0%N). lia.
  - cbn [dec_digits]. destruct (n <? 10)%N eqn:E; [apply Hd; lia|].
    change (denotes_digits (dec_digits (S f) (n / 10) [(48 + n mod 10)%N]) (Z.of_N n)).
    rewrite dec_digits_app.
    pose proof (N.div_mod n 10 ltac:(lia)) as Hdm. pose proof (N.mod_lt n 10 ltac:(lia)) as Hml.
    replace (Z.of_N n) with (10 * Z.of_N (n / 10) + (Z.of_N (48 + n mod 10)%N - 48)) by lia.
    constructor; [|unfold is_digit; lia]. apply IH.
    replace (N.of_nat (S f)) with (N.succ (N.of_nat f)) in Hn by lia. rewrite N.pow_succ_r' in Hn.
    lia.
Qed.

Lemma size_nat_bound : forall n, (n < 2 ^ N.of_nat (N.size_nat n))%N.
Proof.
  intros n. replace (N.of_nat (N.size_nat n)) with (N.size n); [apply N.size_gt|].
  destruct n as [|p]; [reflexivity|]. simpl. induction p; simpl; lia.
Qed.

Lemma dec_of_N_denotes : forall n, denotes_digits (dec_of_N n) (Z.of_N n).
Proof. intros n. apply dec_digits_spec, size_nat_bound. Qed.

Lemma dec_of_Z_denotes : forall z, denotes_int true (dec_of_Z z) z.
Proof.
  intros z. unfold dec_of_Z. destruct (z <? 0) eqn:E.
  - replace z with (- Z.of_N (Z.to_N (- z))) at 2 by lia. apply di_minus; auto. apply dec_of_N_denotes.
  - replace z with (Z.of_N (Z.to_N z)) at 2 by lia. apply di_plain. apply dec_of_N_denotes.
Qed.

Lemma int_roundtrip : forall lo hi z, lo <= 0 <= hi -> lo <= z <= hi ->
  int_from_str lo hi (dec_of_Z z) = Ok z.
Proof.
  intros lo hi z Hb Hz. apply int_from_str_spec; auto. split; auto.
  destruct (lo <? 0) eqn:E; [apply dec_of_Z_denotes|].
  unfold dec_of_Z. destruct (z <? 0) eqn:E2; [lia|].
  replace z with (Z.of_N (Z.to_N z)) at 2 by lia. apply di_plain. apply dec_of_N_denotes.
Qed.

Lemma dec_of_N_digits : forall n, Forall is_digit (dec_of_N n) /\ dec_of_N n <> [].
Proof. intros n. pose proof (dec_of_N_denotes n) as H. apply denotes_digits_iff in H. tauto. Qed.
