(** Proofs about the decoders. *)
From Verif Require Import Base BaseModel BaseSpec BaseProofs CodecModel CodecSpec.
Local Open Scope N_scope.

Arguments bits_value : simpl never.

Lemma bits_length n x : List.length (bits n x) = n.
Proof. induction n; cbn [bits List.length]; congruence. Qed.

Lemma bits_app a b : forall x y, y < 2 ^ N.of_nat b ->
  bits (a + b) (x * 2 ^ N.of_nat b + y) = bits a x ++ bits b y.
Proof.
  intros x y Hy. induction a as [|a IH]; cbn [Nat.add bits app].
  - assert (H : forall n, (n <= b)%nat -> bits n (x * 2 ^ N.of_nat b + y) = bits n y).
    { induction n as [|n IHn]; intros Hn; cbn [bits]; [reflexivity|]. f_equal; [|apply IHn; lia].
      rewrite <- (N.mod_pow2_bits_low _ (N.of_nat b)) by lia.
      rewrite N.add_comm, N.mod_add by (apply N.pow_nonzero; lia).
      rewrite N.mod_small by exact Hy. reflexivity. }
    apply H. lia.
  - f_equal; [|exact IH].
    replace (N.of_nat (a + b)) with (N.of_nat a + N.of_nat b) by lia.
    rewrite <- N.div_pow2_bits.
    rewrite N.div_add_l by (apply N.pow_nonzero; lia).
    rewrite (N.div_small y) by exact Hy. rewrite N.add_0_r. reflexivity.
Qed.

Lemma bits_mod n : forall x, bits n (x mod 2 ^ N.of_nat n) = bits n x.
Proof.
  intros x.
  assert (H : forall k, (k <= n)%nat -> bits k (x mod 2 ^ N.of_nat n) = bits k x).
  { induction k as [|k IH]; intros Hk; cbn [bits]; [reflexivity|]. f_equal; [|apply IH; lia].
    apply N.mod_pow2_bits_low. lia. }
  apply H. lia.
Qed.

Lemma bits_inj n : forall x y, x < 2 ^ N.of_nat n -> y < 2 ^ N.of_nat n -> bits n x = bits n y -> x = y.
Proof.
  intros x y Hx Hy H. apply N.bits_inj. intros i.
  destruct (N.lt_ge_cases i (N.of_nat n)) as [Hi|Hi].
  - revert i Hi H. clear. induction n as [|n IH]; intros i Hi H; [lia|].
    cbn [bits] in H. injection H as H0 H1.
    destruct (N.eq_dec i (N.of_nat n)) as [->|]; [exact H0|]. apply IH; [lia|exact H1].
  - assert (Hz : forall z, z < 2 ^ N.of_nat n -> N.testbit z i = false).
    { intros z Hz. rewrite <- (N.mod_small z (2 ^ N.of_nat n)) by exact Hz.
      apply N.mod_pow2_bits_high. exact Hi. }
    rewrite !Hz by assumption. reflexivity.
Qed.

Lemma bits_zero n : bits n 0 = repeat false n.
Proof. induction n as [|n IH]; cbn [bits repeat]; [reflexivity|]. rewrite N.bits_0, IH. reflexivity. Qed.

Lemma bits_value_app l b : bits_value (l ++ [b]) = 2 * bits_value l + (if b then 1 else 0).
Proof. unfold bits_value. rewrite fold_left_app. reflexivity. Qed.

Lemma bits_value_bits : forall l, bits (List.length l) (bits_value l) = l /\ bits_value l < 2 ^ N.of_nat (List.length l).
Proof.
  intros l. induction l as [|b l IH] using rev_ind.
  - split; [reflexivity|]. reflexivity.
  - destruct IH as [IH1 IH2]. rewrite app_length. cbn [List.length].
    rewrite bits_value_app. split.
    + assert (E : 2 * bits_value l + (if b then 1 else 0) = bits_value l * 2 ^ N.of_nat 1 + (if b then 1 else 0)).
      { change (2 ^ N.of_nat 1) with 2. lia. }
      rewrite E, bits_app.
      * rewrite IH1. f_equal. destruct b; reflexivity.
      * change (2 ^ N.of_nat 1) with 2. destruct b; lia.
    + replace (N.of_nat (List.length l + 1)) with (N.succ (N.of_nat (List.length l))) by lia.
      rewrite N.pow_succ_r by lia. destruct b; lia.
Qed.

Lemma bits_value_of_bits n x : x < 2 ^ N.of_nat n -> bits_value (bits n x) = x.
Proof.
  intros Hx. destruct (bits_value_bits (bits n x)) as [H1 H2]. rewrite bits_length in H1, H2.
  eapply bits_inj; eassumption.
Qed.

(** Bit string of a byte sequence. *)
Definition byte_bits (d : list N) : list bool := List.concat (List.map (bits 8) d).

Lemma byte_bits_length d : List.length (byte_bits d) = (8 * List.length d)%nat.
Proof.
  unfold byte_bits. induction d as [|x d IH]; [reflexivity|].
  cbn [List.map List.concat List.length]. rewrite app_length, bits_length, IH. lia.
Qed.

Lemma be_value_bound d : bytes d -> be_value d < 256 ^ N.of_nat (List.length d).
Proof.
  induction d as [|x d IH]; intros H; cbn [be_value List.length]; [cbn; lia|].
  inversion H as [|? ? Hx Hd]; subst. specialize (IH Hd).
  rewrite Nat2N.inj_succ, N.pow_succ_r by lia. nia.
Qed.

Lemma pow256 n : 256 ^ N.of_nat n = 2 ^ N.of_nat (8 * n).
Proof. rewrite Nat2N.inj_mul, N.pow_mul_r. reflexivity. Qed.

Lemma byte_bits_value d : bytes d -> byte_bits d = bits (8 * List.length d) (be_value d).
Proof.
  induction d as [|x d IH]; intros H; [reflexivity|].
  inversion H as [|? ? Hx Hd]; subst. specialize (IH Hd).
  unfold byte_bits in *. cbn [List.map List.concat be_value]. rewrite IH.
  replace (8 * List.length (x :: d))%nat with (8 + 8 * List.length d)%nat by (cbn [List.length]; lia).
  rewrite pow256, bits_app; [reflexivity|]. rewrite <- pow256. apply be_value_bound, Hd.
Qed.

(** Bit string of a digit sequence. *)
Definition digit_bits (b : nat) (ds : list N) : list bool := List.concat (List.map (bits b) ds).

Lemma digit_bits_length b ds : List.length (digit_bits b ds) = (b * List.length ds)%nat.
Proof.
  unfold digit_bits. induction ds as [|x d IH]; [cbn; lia|].
  cbn [List.map List.concat List.length]. rewrite app_length, bits_length, IH. lia.
Qed.

Lemma digits_length base m : forall x, List.length (digits base m x) = m.
Proof. induction m; intros x; cbn [digits List.length]; congruence. Qed.

Lemma digits_bound base m : base <> 0 -> forall x, Forall (fun y => y < base) (digits base m x).
Proof. intros Hb. induction m; intros x; cbn [digits]; constructor; [apply N.mod_lt, Hb|apply IHm]. Qed.

Lemma digits_bits b m : forall x, digit_bits b (digits (2 ^ N.of_nat b) m x) = bits (b * m) x.
Proof.
  induction m as [|m IH]; intros x; unfold digit_bits in *; cbn [digits List.map List.concat].
  - rewrite Nat.mul_0_r. reflexivity.
  - rewrite IH, bits_mod. rewrite <- N.pow_mul_r, <- Nat2N.inj_mul.
    replace (b * S m)%nat with (b + b * m)%nat by lia.
    rewrite (N.div_mod x (2 ^ N.of_nat (b * m))) at 3 by (apply N.pow_nonzero; lia).
    rewrite (N.mul_comm (2 ^ _)), bits_app by (apply N.mod_lt, N.pow_nonzero; lia).
    f_equal. symmetry. apply bits_mod.
Qed.

Lemma digit_bits_inj b : forall ds1 ds2, b <> 0%nat ->
  Forall (fun y => y < 2 ^ N.of_nat b) ds1 -> Forall (fun y => y < 2 ^ N.of_nat b) ds2 ->
  digit_bits b ds1 = digit_bits b ds2 -> ds1 = ds2.
Proof.
  induction ds1 as [|x ds1 IH]; intros [|y ds2] Hb H1 H2 H.
  - reflexivity.
  - apply (f_equal (@List.length bool)) in H. rewrite !digit_bits_length in H. cbn in H. nia.
  - apply (f_equal (@List.length bool)) in H. rewrite !digit_bits_length in H. cbn in H. nia.
  - unfold digit_bits in H. cbn [List.map List.concat] in H.
    inversion H1; inversion H2; subst.
    assert (E : bits b x = bits b y /\ digit_bits b ds1 = digit_bits b ds2).
    { assert (HA : forall l1 l2 r1 r2 : list bool, List.length l1 = List.length l2 ->
        l1 ++ r1 = l2 ++ r2 -> l1 = l2 /\ r1 = r2).
      { clear. induction l1 as [|a l1 IH]; intros [|c l2] r1 r2 Hl He; cbn in *; try discriminate; auto.
        injection He as -> He. injection Hl as Hl. destruct (IH _ _ _ Hl He) as [-> ->]. auto. }
      apply HA in H; [exact H|]. rewrite !bits_length. reflexivity. }
    destruct E as [E1 E2]. f_equal.
    + eapply bits_inj; eassumption.
    + apply IH; assumption.
Qed.

(** The alphabets as value tables. *)
Lemma char_value_nth f x : x < 2 ^ N.of_nat (bit_width f) ->
  char_value f (nth (N.to_nat x) (alphabet f) 0) = Some x.
Proof.
  intros Hx.
  assert (Hall : forallb (fun n => match char_value f (nth n (alphabet f) 0) with
                     Some y => y =? N.of_nat n | None => false end)
                   (seq 0 (N.to_nat (2 ^ N.of_nat (bit_width f)))) = true)
    by (destruct f; vm_compute; reflexivity).
  rewrite forallb_forall in Hall. specialize (Hall (N.to_nat x)).
  assert (Hin : In (N.to_nat x) (seq 0 (N.to_nat (2 ^ N.of_nat (bit_width f))))) by (apply in_seq; lia).
  specialize (Hall Hin). destruct (char_value f _) as [y|]; [|discriminate].
  apply N.eqb_eq in Hall. rewrite N2Nat.id in Hall. congruence.
Qed.

Lemma char_value_inv f c x : char_value f c = Some x ->
  x < 2 ^ N.of_nat (bit_width f) /\ c = nth (N.to_nat x) (alphabet f) 0.
Proof.
  intros H.
  assert (Hc : c < 128).
  { destruct f; cbn in H;
    repeat match type of H with context [if ?b then _ else _] => destruct b eqn:? end; try discriminate; lia. }
  assert (Hall : forallb (fun n => match char_value f (N.of_nat n) with
                     Some y => (y <? 2 ^ N.of_nat (bit_width f)) && (N.of_nat n =? nth (N.to_nat y) (alphabet f) 0)
                   | None => true end) (seq 0 128) = true)
    by (destruct f; vm_compute; reflexivity).
  rewrite forallb_forall in Hall. specialize (Hall (N.to_nat c)).
  assert (Hin : In (N.to_nat c) (seq 0 128)) by (apply in_seq; lia).
  specialize (Hall Hin). rewrite N2Nat.id, H in Hall.
  apply andb_true_iff in Hall as [H1 H2]. apply N.ltb_lt in H1. apply N.eqb_eq in H2. auto.
Qed.

Lemma char_value_alphabet f c : in_alphabet f c = true <-> exists x, char_value f c = Some x.
Proof.
  split.
  - destruct f; unfold in_alphabet, char_value; intros H;
    repeat match goal with |- context [if ?b then _ else _] => destruct b eqn:? end; eauto; lia.
  - intros [x H]. destruct f; unfold in_alphabet, char_value in *;
    repeat match type of H with context [if ?b then _ else _] => destruct b eqn:? end; try discriminate; lia.
Qed.

(** A text as digits. *)
Definition chars (f : flavour) (ds : list N) : list N :=
  List.map (fun x => nth (N.to_nat x) (alphabet f) 0) ds.

Lemma bpc_width f : bpc f = bit_width f. Proof. destruct f; reflexivity. Qed.

Lemma text_bits_chars f ds : Forall (fun y => y < 2 ^ N.of_nat (bit_width f)) ds ->
  text_bits f (chars f ds) = Some (digit_bits (bit_width f) ds).
Proof.
  induction ds as [|x ds IH]; intros H; [reflexivity|].
  inversion H; subst. cbn [chars List.map text_bits].
  rewrite char_value_nth by assumption. fold (chars f ds). rewrite IH by assumption. reflexivity.
Qed.

Lemma text_bits_inv f : forall v l, text_bits f v = Some l ->
  exists ds, Forall (fun y => y < 2 ^ N.of_nat (bit_width f)) ds /\ v = chars f ds /\
             l = digit_bits (bit_width f) ds.
Proof.
  induction v as [|c v IH]; intros l H; cbn in H.
  - injection H as <-. exists []. repeat split. constructor.
  - destruct (char_value f c) as [x|] eqn:Ec; [|discriminate].
    destruct (text_bits f v) as [l'|]; [|discriminate]. injection H as <-.
    destruct (IH l' eq_refl) as (ds & H1 & H2 & H3). apply char_value_inv in Ec as [E1 E2].
    exists (x :: ds). repeat split.
    + constructor; assumption.
    + cbn. rewrite <- E2. f_equal. exact H2.
    + rewrite H3. reflexivity.
Qed.

Lemma text_bits_some f v : forallb (in_alphabet f) v = true <-> exists l, text_bits f v = Some l.
Proof.
  induction v as [|c v IH]; cbn.
  - split; eauto.
  - rewrite andb_true_iff, char_value_alphabet, IH. split.
    + intros [[x ->] [l ->]]. eauto.
    + intros [l H]. destruct (char_value f c); [|discriminate]. destruct (text_bits f v); [|discriminate]. eauto.
Qed.

Lemma text_bits_app f a b : text_bits f (a ++ b) =
  match text_bits f a, text_bits f b with Some x, Some y => Some (x ++ y) | _, _ => None end.
Proof.
  induction a as [|c a IH]; cbn.
  - destruct (text_bits f b); reflexivity.
  - destruct (char_value f c); [|reflexivity]. rewrite IH.
    destruct (text_bits f a); [|reflexivity]. destruct (text_bits f b); [|reflexivity].
    rewrite app_assoc. reflexivity.
Qed.

Lemma text_bits_length f v l : text_bits f v = Some l -> List.length l = (bit_width f * List.length v)%nat.
Proof.
  intros H. apply text_bits_inv in H as (ds & _ & -> & ->). rewrite digit_bits_length.
  unfold chars. rewrite map_length. reflexivity.
Qed.

(** Cutting a bit string into bytes. *)
Lemma take_bytes_app d : bytes d -> forall r,
  take_bytes (byte_bits d ++ r) = (d ++ fst (take_bytes r), snd (take_bytes r)).
Proof.
  induction d as [|x d IH]; intros Hd r; [cbn [byte_bits List.map List.concat app]; destruct (take_bytes r); reflexivity|].
  inversion Hd; subst.
  unfold byte_bits. cbn [List.map List.concat]. fold (byte_bits d). rewrite <- app_assoc.
  pose proof (bits_value_of_bits 8 x) as Hv.
  cbn [bits] in *. cbn [app take_bytes]. rewrite IH by assumption.
  rewrite Hv by assumption. reflexivity.
Qed.

Lemma take_bytes_short r : (List.length r < 8)%nat -> take_bytes r = ([], r).
Proof. do 8 (destruct r as [|? r]; [reflexivity|]). cbn. lia. Qed.

Lemma take_bytes_inv : forall n l, (List.length l <= n)%nat -> forall d r, take_bytes l = (d, r) ->
  l = byte_bits d ++ r /\ bytes d /\ (List.length r < 8)%nat.
Proof.
  induction n as [|n IH]; intros l Hn d r H.
  - destruct l; [|cbn in Hn; lia]. cbn in H. injection H as <- <-. repeat split; cbn; try lia. constructor.
  - destruct (Nat.lt_ge_cases (List.length l) 8) as [Hl|Hl].
    + rewrite take_bytes_short in H by exact Hl. injection H as <- <-. repeat split; [constructor|exact Hl].
    + do 8 (destruct l as [|? l]; [cbn in Hl; lia|]).
      cbn [take_bytes] in H. destruct (take_bytes l) as [d' r'] eqn:E.
      injection H as <- <-. apply IH in E; [|cbn in Hn; lia].
      destruct E as (E1 & E2 & E3).
      destruct (bits_value_bits [b; b0; b1; b2; b3; b4; b5; b6]) as [F1 F2]. cbn [List.length] in F1, F2.
      repeat split; [|constructor; [exact F2|exact E2]|exact E3].
      unfold byte_bits. cbn [List.map List.concat]. fold (byte_bits d'). rewrite F1.
      rewrite <- app_assoc, <- E1. reflexivity.
Qed.

Lemma forallb_negb r : forallb negb r = true <-> r = repeat false (List.length r).
Proof.
  induction r as [|[] r IH]; cbn [forallb negb andb List.length repeat]; [split; reflexivity|split; discriminate|].
  rewrite IH. split; congruence.
Qed.

Lemma enc_len_spec f n : exists k, (bpc f * enc_len f n = 8 * n + k)%nat /\ (k < bpc f)%nat.
Proof.
  unfold enc_len. set (q := ((8 * n + (bpc f - 1)) / bpc f)%nat).
  exists (bpc f * q - 8 * n)%nat.
  assert (Hb : bpc f <> 0%nat) by (destruct f; discriminate).
  pose proof (Nat.div_mod (8 * n + (bpc f - 1)) (bpc f) Hb) as Hd. fold q in Hd.
  pose proof (Nat.mod_upper_bound (8 * n + (bpc f - 1)) (bpc f) Hb) as Hm.
  destruct f; cbn [bpc] in *; lia.
Qed.

Lemma enc_len_unique f n m k : (bpc f * m = 8 * n + k)%nat -> (k < bpc f)%nat -> m = enc_len f n.
Proof.
  intros H1 H2. destruct (enc_len_spec f n) as (k' & H3 & H4). destruct f; cbn [bpc] in *; lia.
Qed.

Definition enc_digits (f : flavour) (d : list N) : list N :=
  digits (2 ^ N.of_nat (bpc f)) (enc_len f (List.length d))
         (be_value d * 2 ^ N.of_nat (bpc f * enc_len f (List.length d) - 8 * List.length d)).

Lemma encode_chars f d : encode f d = chars f (enc_digits f d). Proof. reflexivity. Qed.

Lemma encode_length f d : List.length (encode f d) = enc_len f (List.length d).
Proof. rewrite encode_chars. unfold chars, enc_digits. rewrite map_length, digits_length. reflexivity. Qed.

Lemma enc_digits_bits f d k : bytes d -> (bpc f * enc_len f (List.length d) = 8 * List.length d + k)%nat ->
  digit_bits (bit_width f) (enc_digits f d) = byte_bits d ++ repeat false k.
Proof.
  intros Hd Hk. unfold enc_digits. change (bpc f) with (bit_width f) in *. rewrite digits_bits, Hk.
  replace (8 * List.length d + k - 8 * List.length d)%nat with k by lia.
  rewrite <- (N.add_0_r (_ * _)), bits_app by (apply N.neq_0_lt_0, N.pow_nonzero; lia).
  rewrite bits_zero, byte_bits_value by exact Hd. reflexivity.
Qed.

Lemma enc_digits_bound f d : Forall (fun y => y < 2 ^ N.of_nat (bit_width f)) (enc_digits f d).
Proof. unfold enc_digits. change (bpc f) with (bit_width f). apply digits_bound. apply N.pow_nonzero. lia. Qed.

Lemma bit_width_bound f : (0 < bit_width f < 8)%nat. Proof. destruct f; cbn; lia. Qed.

Lemma decode_encode f d : bytes d -> decode_nopad f (encode f d) = Some d.
Proof.
  intros Hd. destruct (enc_len_spec f (List.length d)) as (k & H1 & H2).
  unfold decode_nopad. rewrite encode_chars, text_bits_chars by apply enc_digits_bound.
  rewrite (enc_digits_bits f d k) by assumption. rewrite take_bytes_app by exact Hd.
  pose proof (bit_width_bound f). change (bpc f) with (bit_width f) in *.
  rewrite take_bytes_short by (rewrite repeat_length; lia). cbn [fst snd].
  rewrite repeat_length, app_nil_r.
  replace (k <? bit_width f)%nat with true by (symmetry; apply Nat.ltb_lt; exact H2).
  replace (forallb negb (repeat false k)) with true
    by (symmetry; apply forallb_negb; rewrite repeat_length; reflexivity).
  reflexivity.
Qed.

Lemma decode_nopad_inv f v d : decode_nopad f v = Some d -> bytes d /\ v = encode f d.
Proof.
  unfold decode_nopad. destruct (text_bits f v) as [l|] eqn:El; [|discriminate].
  destruct (take_bytes l) as [d' r] eqn:Et.
  destruct (_ && _) eqn:Ec; [|discriminate]. intros H. injection H as <-.
  apply andb_true_iff in Ec as [E1 E2]. apply Nat.ltb_lt in E1. apply forallb_negb in E2.
  pose proof (text_bits_length f v l El) as Hlen.
  apply text_bits_inv in El as (ds & D1 & -> & ->).
  apply (take_bytes_inv _ _ (Nat.le_refl _)) in Et as (T1 & T2 & T3).
  split; [exact T2|]. rewrite encode_chars. f_equal.
  set (k := List.length r) in *.
  assert (Hk : (bpc f * List.length ds = 8 * List.length d' + k)%nat).
  { change (bpc f) with (bit_width f). apply (f_equal (@List.length bool)) in T1.
    rewrite app_length, byte_bits_length, digit_bits_length in T1. exact T1. }
  pose proof (enc_len_unique f _ _ k Hk ltac:(exact E1)) as Hm.
  rewrite Hm in Hk.
  apply (digit_bits_inj (bit_width f)); [pose proof (bit_width_bound f); lia|exact D1|apply enc_digits_bound|].
  rewrite (enc_digits_bits f d' k) by assumption. rewrite T1. f_equal. exact E2.
Qed.

Lemma decode_nopad_alphabet f v d : decode_nopad f v = Some d -> forallb (in_alphabet f) v = true.
Proof.
  unfold decode_nopad. intros H. apply text_bits_some. destruct (text_bits f v); [eauto|discriminate].
Qed.

(** Whole blocks carry whole bytes, so decoding goes block by block. *)
Lemma decode_nopad_app f a b : Nat.divide (block f) (List.length a) ->
  decode_nopad f (a ++ b) =
  match decode_nopad f a, decode_nopad f b with Some x, Some y => Some (x ++ y) | _, _ => None end.
Proof.
  intros [q Hq]. unfold decode_nopad. rewrite text_bits_app.
  destruct (text_bits f a) as [la|] eqn:Ea; [|reflexivity].
  destruct (take_bytes la) as [da ra] eqn:Eta.
  pose proof (text_bits_length f a la Ea) as Hla.
  destruct (take_bytes_inv _ _ (Nat.le_refl _) _ _ Eta) as (T1 & T2 & T3).
  assert (ra = []) as ->.
  { apply (f_equal (@List.length bool)) in T1. rewrite app_length, byte_bits_length in T1.
    destruct ra; [reflexivity|]. exfalso. cbn [List.length] in *. destruct f; cbn [block bit_width] in *; lia. }
  rewrite app_nil_r in T1. cbn [List.length forallb].
  replace (0 <? bit_width f)%nat with true by (destruct f; reflexivity). cbn [andb].
  destruct (text_bits f b) as [lb|] eqn:Eb; [|reflexivity].
  rewrite T1, take_bytes_app by exact T2.
  destruct (take_bytes lb) as [db rb]. cbn [fst snd].
  destruct (_ && _); reflexivity.
Qed.

Lemma strip_pad_alphabet f v : forallb (in_alphabet f) v = true -> forall k, strip_pad (v ++ repeat 61 k) = v.
Proof.
  intros Hv k.
  induction v as [|x v IH]; cbn [app].
  - induction k as [|k IHk]; cbn; [reflexivity|]. rewrite IHk. reflexivity.
  - cbn in Hv. apply andb_true_iff in Hv as [Hx Hv]. cbn [strip_pad]. rewrite IH by exact Hv.
    destruct v; [|reflexivity].
    destruct (N.eqb_spec x 61) as [->|]; [|reflexivity]. apply in_alphabet_ascii in Hx. lia.
Qed.

Lemma strip_pad_split v : exists k, v = strip_pad v ++ repeat 61 k.
Proof.
  induction v as [|x v [k IH]]; cbn [strip_pad]; [exists 0%nat; reflexivity|].
  destruct (strip_pad v) as [|y w].
  - destruct (N.eqb_spec x 61) as [->|].
    + exists (S k). cbn. f_equal. exact IH.
    + exists k. cbn in *. f_equal. exact IH.
  - exists k. cbn in *. f_equal. exact IH.
Qed.

(** Fuel. *)
Lemma decode_blocks_fuel f : forall n m v, (List.length v <= n)%nat -> (List.length v <= m)%nat ->
  decode_blocks n f v = decode_blocks m f v.
Proof.
  induction n as [|n IH]; intros m v Hn Hm.
  - destruct v; [|cbn in Hn; lia]. destruct m; reflexivity.
  - destruct v as [|x v]; [destruct m; reflexivity|].
    destruct m as [|m]; [cbn in Hm; lia|].
    cbn [decode_blocks]. destruct (Nat.ltb_spec (List.length (x :: v)) (block f)) as [|Hge]; [reflexivity|].
    assert (Hs : (List.length (skipn (block f) (x :: v)) < List.length (x :: v))%nat)
      by (rewrite skipn_length; destruct f; cbn [block List.length] in *; lia).
    rewrite (IH m) by lia. reflexivity.
Qed.

Lemma decode_pad_nil f : decode_pad f [] = Some []. Proof. reflexivity. Qed.

Lemma decode_pad_block f a v : List.length a = block f ->
  decode_pad f (a ++ v) =
  match decode_block f a, decode_pad f v with Some x, Some y => Some (x ++ y) | _, _ => None end.
Proof.
  intros Ha. unfold decode_pad.
  assert (Hb : (0 < block f)%nat) by (destruct f; cbn; lia).
  rewrite app_length.
  destruct (a ++ v) as [|x w] eqn:E.
  { destruct a; [cbn in Ha; lia|discriminate]. }
  destruct (List.length a + List.length v)%nat as [|n] eqn:En; [lia|].
  cbn [decode_blocks]. rewrite <- E.
  rewrite firstn_app, skipn_app, Ha, Nat.sub_diag, firstn_all2, skipn_all2 by lia. cbn [firstn skipn app].
  rewrite app_nil_r. rewrite app_length, Ha.
  replace (block f + List.length v <? block f)%nat with false by (symmetry; apply Nat.ltb_ge; lia).
  rewrite (decode_blocks_fuel f n (List.length v)) by lia. reflexivity.
Qed.

Lemma decode_pad_short f v : v <> [] -> (List.length v < block f)%nat -> decode_pad f v = None.
Proof.
  intros Hv Hl. unfold decode_pad. destruct v as [|x v]; [contradiction|].
  cbn [List.length decode_blocks]. cbn [List.length] in Hl.
  apply Nat.ltb_lt in Hl. rewrite Hl. reflexivity.
Qed.

(** Splitting off a whole block. *)
Lemma block_cases f (v : list N) : v = [] \/ (v <> [] /\ (List.length v < block f)%nat) \/
  exists a w, v = a ++ w /\ List.length a = block f.
Proof.
  destruct v as [|x v]; [left; reflexivity|right].
  destruct (Nat.lt_ge_cases (List.length (x :: v)) (block f)) as [H|H].
  - left. split; [discriminate|exact H].
  - right. exists (firstn (block f) (x :: v)), (skipn (block f) (x :: v)).
    split; [symmetry; apply firstn_skipn|]. rewrite firstn_length. lia.
Qed.

Lemma decode_pad_app f : forall n a b, (List.length a <= n)%nat -> Nat.divide (block f) (List.length a) ->
  decode_pad f (a ++ b) =
  match decode_pad f a, decode_pad f b with Some x, Some y => Some (x ++ y) | _, _ => None end.
Proof.
  assert (Hb : (0 < block f)%nat) by (destruct f; cbn; lia).
  induction n as [|n IH]; intros a b Hn Hd.
  - destruct a; [|cbn in Hn; lia]. rewrite decode_pad_nil. cbn [app]. destruct (decode_pad f b); reflexivity.
  - destruct (block_cases f a) as [->|[[Ha Hl]|(c & w & -> & Hc)]].
    + rewrite decode_pad_nil. cbn [app]. destruct (decode_pad f b); reflexivity.
    + exfalso. destruct Hd as [q Hq]. destruct a; [contradiction|]. cbn [List.length] in *.
      destruct q; [discriminate|]. nia.
    + rewrite <- app_assoc, (decode_pad_block f c (w ++ b)), (decode_pad_block f c w) by exact Hc.
      rewrite app_length, Hc in Hn.
      rewrite (IH w b).
      * destruct (decode_block f c), (decode_pad f w), (decode_pad f b); try reflexivity.
        rewrite app_assoc. reflexivity.
      * lia.
      * rewrite app_length, Hc in Hd. destruct Hd as [q Hq]. exists (q - 1)%nat.
        destruct q; [lia|]. cbn [Nat.sub]. nia.
Qed.

Lemma decode_pad_single f body k : forallb (in_alphabet f) body = true -> (k < block f)%nat ->
  forall n, (List.length body <= n)%nat -> body <> [] ->
  Nat.divide (block f) (List.length body + k) ->
  decode_pad f (body ++ repeat 61 k) = decode_nopad f body.
Proof.
  intros Hf Hk n. revert body Hf. induction n as [|n IH]; intros body Hf Hn Hne Hd.
  { destruct body; [contradiction|cbn in Hn; lia]. }
  assert (Hb : (0 < block f)%nat) by (destruct f; cbn; lia).
  destruct (Nat.lt_ge_cases (List.length body) (block f)) as [Hs|Hge].
  - assert (Ht : List.length (body ++ repeat 61 k) = block f).
    { rewrite app_length, repeat_length. destruct Hd as [q Hq]. rewrite Hq.
      destruct q as [|[|q]]; [destruct body; [contradiction|cbn in Hq; lia]|lia|nia]. }
    rewrite <- (app_nil_r (body ++ _)), decode_pad_block by exact Ht.
    rewrite decode_pad_nil. unfold decode_block. rewrite (strip_pad_alphabet f) by exact Hf.
    destruct body as [|x body]; [contradiction|].
    destruct (decode_nopad f (x :: body)); [rewrite app_nil_r|]; reflexivity.
  - set (a := firstn (block f) body). set (w := skipn (block f) body).
    assert (Eb : body = a ++ w) by (symmetry; apply firstn_skipn).
    assert (Ha : List.length a = block f) by (unfold a; rewrite firstn_length; lia).
    clearbody a w. subst body. rewrite <- app_assoc, decode_pad_block by exact Ha.
    rewrite forallb_app in Hf. apply andb_true_iff in Hf as [Hfa Hfw].
    rewrite decode_nopad_app by (rewrite Ha; exists 1%nat; lia).
    assert (Eda : decode_block f a = decode_nopad f a).
    { unfold decode_block. pose proof (strip_pad_alphabet f a Hfa 0) as S. cbn in S. rewrite app_nil_r in S.
      rewrite S. destruct a; [cbn in Ha; lia|reflexivity]. }
    rewrite Eda. destruct (decode_nopad f a) as [x|]; [|reflexivity].
    rewrite app_length, Ha in *.
    destruct w as [|y w].
    + assert (k = 0%nat) as ->.
      { cbn [List.length] in Hd. destruct Hd as [q Hq]. destruct q as [|[|q]]; nia. }
      destruct f; reflexivity.
    + rewrite IH; [reflexivity|exact Hfw|lia|discriminate|].
      destruct Hd as [q Hq]. exists (q - 1)%nat. destruct q; [lia|]. cbn [Nat.sub]. nia.
Qed.

Lemma alphabet_encode f d : forallb (in_alphabet f) (encode f d) = true.
Proof.
  rewrite encode_chars. apply text_bits_some. rewrite text_bits_chars by apply enc_digits_bound. eauto.
Qed.

Lemma encode_nonempty f d : d <> [] -> encode f d <> [].
Proof.
  intros Hd He. apply (f_equal (@List.length N)) in He. rewrite encode_length in He. cbn in He.
  destruct (enc_len_spec f (List.length d)) as (k & H1 & H2). rewrite He in H1.
  destruct d; [contradiction|]. cbn [List.length] in H1. lia.
Qed.

Lemma pad_len_facts f m : (pad_len f m < block f)%nat /\ Nat.divide (block f) (m + pad_len f m).
Proof.
  unfold pad_len. change (chars_per_block f) with (block f).
  assert (Hb : block f <> 0%nat) by (destruct f; discriminate).
  split; [apply Nat.mod_upper_bound; exact Hb|].
  pose proof (Nat.mod_upper_bound m (block f) Hb) as Hu.
  pose proof (Nat.div_mod m (block f) Hb) as Hd.
  destruct (Nat.eq_dec (m mod block f) 0) as [E|E].
  - rewrite E, Nat.sub_0_r, Nat.mod_same by exact Hb. rewrite Nat.add_0_r.
    apply Nat.mod_divide; assumption.
  - rewrite (Nat.mod_small (block f - _)) by lia. exists (m / block f + 1)%nat.
    rewrite Nat.mul_add_distr_r, (Nat.mul_comm (m / _)). lia.
Qed.

Lemma pad_len_unique f m k : (k < block f)%nat -> Nat.divide (block f) (m + k) -> k = pad_len f m.
Proof.
  intros Hk [q Hq]. destruct (pad_len_facts f m) as [H1 [q' H2]].
  destruct f; cbn [block] in *; lia.
Qed.

Lemma encode_pad_length f d : Nat.divide (block f) (List.length (encode_pad f d)).
Proof. unfold encode_pad. rewrite app_length, repeat_length. apply pad_len_facts. Qed.

Lemma decode_encode_pad f d : bytes d -> d <> [] -> decode_pad f (encode_pad f d) = Some d.
Proof.
  intros Hd Hne. unfold encode_pad. destruct (pad_len_facts f (List.length (encode f d))) as [H1 H2].
  rewrite (decode_pad_single f _ _ (alphabet_encode f d) H1 _ (Nat.le_refl _)
            (encode_nonempty f d Hne) H2).
  apply decode_encode, Hd.
Qed.

Lemma decode_block_inv f a x : List.length a = block f -> decode_block f a = Some x ->
  bytes x /\ x <> [] /\ a = encode_pad f x.
Proof.
  intros Ha. unfold decode_block. destruct (strip_pad_split a) as [k Hk].
  destruct (strip_pad a) as [|y w] eqn:E; [discriminate|]. intros H.
  apply decode_nopad_inv in H as [H1 H2]. split; [exact H1|]. split.
  - intros ->. rewrite Hk, H2 in Ha. apply (f_equal (@List.length N)) in H2. rewrite encode_length in H2.
    destruct f; cbn in H2; discriminate.
  - unfold encode_pad. rewrite <- H2. rewrite Hk at 1. f_equal. f_equal.
    assert (Hl : (List.length (y :: w) + k)%nat = block f)
      by (rewrite <- Ha; rewrite Hk; rewrite app_length, repeat_length; reflexivity).
    apply pad_len_unique; [cbn [List.length] in Hl; lia|].
    rewrite Hl. exists 1%nat. lia.
Qed.

(** The padded decoder accepts exactly concatenations of padded encodings. *)
Lemma decode_pad_iff f : forall v d, decode_pad f v = Some d <->
  exists ds, Forall (fun x => bytes x /\ x <> []) ds /\
             v = List.concat (List.map (encode_pad f) ds) /\ d = List.concat ds.
Proof.
  intros v d. split.
  - remember (List.length v) as n eqn:En. assert (Hn : (List.length v <= n)%nat) by lia. clear En.
    revert v d Hn. induction n as [|n IH]; intros v d Hn H.
    + destruct v; [|cbn in Hn; lia]. rewrite decode_pad_nil in H. injection H as <-.
      exists []. repeat split. constructor.
    + destruct (block_cases f v) as [->|[[Hv Hl]|(a & w & -> & Ha)]].
      * rewrite decode_pad_nil in H. injection H as <-. exists []. repeat split. constructor.
      * rewrite decode_pad_short in H by assumption. discriminate.
      * rewrite decode_pad_block in H by exact Ha.
        destruct (decode_block f a) as [x|] eqn:Ex; [|discriminate].
        destruct (decode_pad f w) as [y|] eqn:Ey; [|discriminate]. injection H as <-.
        apply IH in Ey.
        2:{ rewrite app_length, Ha in Hn. destruct f; cbn [block] in Hn; lia. }
        destruct Ey as (ds & D1 & D2 & D3).
        apply decode_block_inv in Ex as (X1 & X2 & X3); [|exact Ha].
        exists (x :: ds). cbn. rewrite <- X3, <- D2, <- D3. repeat split. constructor; auto.
  - intros (ds & H & -> & ->). induction H as [|x ds [Hx1 Hx2] H IH]; [apply decode_pad_nil|].
    cbn [List.map List.concat].
    rewrite (decode_pad_app f _ _ _ (Nat.le_refl _)) by apply encode_pad_length.
    rewrite decode_encode_pad by assumption. rewrite IH. reflexivity.
Qed.

Lemma concat_nonempty (ds : list (list N)) : Forall (fun x => bytes x /\ x <> []) ds ->
  bytes (List.concat ds) /\ (ds <> [] -> List.concat ds <> []).
Proof.
  induction 1 as [|x ds [H1 H2] H [IH1 IH2]]; cbn.
  - split; [constructor|contradiction].
  - split; [apply Forall_app; auto|]. intros _. destruct x; [contradiction|discriminate].
Qed.

(** Which texts decode, read off their length and last character. *)
Lemma digit_bits_app b ds1 ds2 : digit_bits b (ds1 ++ ds2) = digit_bits b ds1 ++ digit_bits b ds2.
Proof. unfold digit_bits. rewrite map_app, concat_app. reflexivity. Qed.

Lemma forallb_negb_bits n x : forallb negb (bits n x) = true <-> x mod 2 ^ N.of_nat n = 0.
Proof.
  rewrite forallb_negb, bits_length, <- bits_zero, <- (bits_mod n x). split.
  - intros H. eapply bits_inj; [apply N.mod_lt, N.pow_nonzero; lia|apply N.neq_0_lt_0, N.pow_nonzero; lia|exact H].
  - intros ->. reflexivity.
Qed.

Lemma decode_last f ds x : let m := S (List.length ds) in let r := ((bit_width f * m) mod 8)%nat in
  Forall (fun y => y < 2 ^ N.of_nat (bit_width f)) ds -> x < 2 ^ N.of_nat (bit_width f) ->
  (exists d, decode_nopad f (chars f (ds ++ [x])) = Some d) <->
  ((r < bit_width f)%nat /\ x mod 2 ^ N.of_nat r = 0).
Proof.
  intros m r Hds Hx. unfold decode_nopad.
  rewrite text_bits_chars by (apply Forall_app; auto).
  destruct (take_bytes _) as [d rest] eqn:Et.
  apply (take_bytes_inv _ _ (Nat.le_refl _)) in Et as (T1 & T2 & T3).
  assert (Hr : List.length rest = r).
  { apply (f_equal (@List.length bool)) in T1.
    rewrite digit_bits_length, !app_length, byte_bits_length in T1. cbn [List.length] in T1.
    unfold r, m. rewrite <- (Nat.add_1_r (List.length ds)), T1.
    rewrite (Nat.mul_comm 8), Nat.add_comm, Nat.mod_add by lia. symmetry. apply Nat.mod_small. exact T3. }
  rewrite digit_bits_app in T1. unfold digit_bits at 2 in T1. cbn [List.map List.concat] in T1.
  rewrite app_nil_r in T1.
  rewrite Hr.
  destruct (Nat.ltb_spec r (bit_width f)) as [Hlt|Hge]; cbn [andb].
  2:{ split; [intros [? ?]; discriminate|lia]. }
  assert (Hrest : rest = bits r x).
  { replace (bit_width f) with ((bit_width f - r) + r)%nat in T1 at 2 by lia.
    rewrite (N.div_mod x (2 ^ N.of_nat r)) in T1 at 1 by (apply N.pow_nonzero; lia).
    rewrite (N.mul_comm (2 ^ _)), bits_app, app_assoc, bits_mod in T1 by (apply N.mod_lt, N.pow_nonzero; lia).
    assert (HA : forall l1 l2 r1 r2 : list bool, List.length r1 = List.length r2 ->
        l1 ++ r1 = l2 ++ r2 -> r1 = r2).
    { clear. intros l1 l2 r1 r2 Hl He. apply (f_equal (@rev bool)) in He. rewrite !rev_app_distr in He.
      apply (f_equal (firstn (List.length r1))) in He. rewrite Hl in He at 2.
      rewrite <- (rev_length r1), <- (rev_length r2) in He.
      rewrite !firstn_app, !Nat.sub_diag, !firstn_all in He. cbn in He. rewrite !app_nil_r in He.
      apply (f_equal (@rev bool)) in He. rewrite !rev_involutive in He. exact He. }
    symmetry. eapply HA; [|exact T1]. rewrite bits_length. symmetry. exact Hr. }
  rewrite Hrest. rewrite <- forallb_negb_bits. split.
  - intros [d0 H]. destruct (forallb negb (bits r x)); [auto|discriminate].
  - intros [_ ->]. eauto.
Qed.

Lemma alphabet_chars f v : forallb (in_alphabet f) v = true ->
  exists ds, Forall (fun y => y < 2 ^ N.of_nat (bit_width f)) ds /\ v = chars f ds.
Proof.
  intros H. apply text_bits_some in H as [l H]. apply text_bits_inv in H as (ds & H1 & H2 & _). eauto.
Qed.

Lemma nth_alphabet_inj f x y : x < 2 ^ N.of_nat (bit_width f) -> y < 2 ^ N.of_nat (bit_width f) ->
  nth (N.to_nat x) (alphabet f) 0 = nth (N.to_nat y) (alphabet f) 0 -> x = y.
Proof.
  intros Hx Hy H. apply char_value_nth in Hx, Hy. rewrite H in Hx. congruence.
Qed.

(** The parser in terms of the decoders. *)
Lemma dec_parse_eq f padding v : v <> [] ->
  dec_parse_str f padding v =
  or_decode (match padding with
             | Must => decode_pad f v
             | Disallow => decode_nopad f v
             | Allow => if last v 0 =? 61 then decode_pad f v else decode_nopad f v
             end).
Proof.
  intros Hv. unfold dec_parse_str, dec_v_parse_str, dec_v_parse_u8_slice.
  destruct v as [|x v]; [contradiction|].
  destruct padding.
  - destruct (decode_pad f (x :: v)); reflexivity.
  - unfold idx.
    assert (E : nth_error (x :: v) (List.length (x :: v) - 1) = Some (last (x :: v) 0)).
    { rewrite (app_removelast_last 0 Hv) at 1 2. rewrite app_length. cbn [List.length].
      rewrite Nat.add_sub, nth_error_app2, Nat.sub_diag by lia. reflexivity. }
    rewrite E. cbn [obind]. destruct (_ =? 61).
    + destruct (decode_pad f (x :: v)); reflexivity.
    + destruct (decode_nopad f (x :: v)); reflexivity.
  - destruct (decode_nopad f (x :: v)); reflexivity.
Qed.

Lemma or_decode_ok {A} (x : option A) a : or_decode x = Ok a <-> x = Some a.
Proof. destruct x; cbn; split; congruence. Qed.

Lemma last_repeat (v : list N) k : last (v ++ repeat 61 (S k)) 0 = 61.
Proof.
  replace (S k) with (k + 1)%nat by lia. rewrite repeat_app, app_assoc. cbn [repeat]. apply last_last.
Qed.

Lemma last_alphabet f v : v <> [] -> forallb (in_alphabet f) v = true -> last v 0 =? 61 = false.
Proof.
  intros Hv H. rewrite (app_removelast_last 0 Hv), forallb_app in H. apply andb_true_iff in H as [_ H].
  cbn in H. rewrite andb_true_r in H. apply in_alphabet_ascii in H. apply N.eqb_neq. lia.
Qed.

Lemma decode_pad_full f v : v <> [] -> forallb (in_alphabet f) v = true -> Nat.divide (block f) (List.length v) ->
  decode_pad f v = decode_nopad f v.
Proof.
  intros Hv Hf Hd. rewrite <- (app_nil_r v) at 1. change (@nil N) with (repeat 61 0).
  apply (decode_pad_single f v 0 Hf ltac:(destruct f; cbn; lia) _ (Nat.le_refl _) Hv).
  rewrite Nat.add_0_r. exact Hd.
Qed.

(** Round trip through the encoder. *)
Lemma dec_roundtrip_lemma f padding d : bytes d -> d <> [] ->
  (padding <> Disallow -> dec_parse_str f padding (encode_pad f d) = Ok d) /\
  (padding <> Must -> dec_parse_str f padding (encode f d) = Ok d).
Proof.
  intros Hd Hne. pose proof (encode_nonempty f d Hne) as Hen. split; intros Hp.
  - rewrite dec_parse_eq.
    2:{ unfold encode_pad. intros H. apply app_eq_nil in H as [H _]. contradiction. }
    apply or_decode_ok. pose proof (decode_encode_pad f d Hd Hne) as HP. destruct padding; [exact HP| |contradiction].
    destruct (last (encode_pad f d) 0 =? 61) eqn:El; [exact HP|].
    unfold encode_pad in *. destruct (pad_len f (List.length (encode f d))) as [|k] eqn:Ek.
    + cbn [repeat]. rewrite app_nil_r. apply decode_encode, Hd.
    + rewrite last_repeat in El. discriminate.
  - rewrite dec_parse_eq by exact Hen. apply or_decode_ok.
    pose proof (decode_encode f d Hd) as HP. destruct padding; [contradiction| |exact HP].
    rewrite (last_alphabet f); [exact HP|exact Hen|apply alphabet_encode].
Qed.

(** What a successful parse means, exactly. *)
Lemma dec_parse_exact f padding v d :
  dec_parse_str f padding v = Ok d <->
  v <> [] /\
  ((padding <> Must /\ bytes d /\ v = encode f d /\ (padding = Allow -> last v 0 <> 61)) \/
   (padding <> Disallow /\ (padding = Allow -> last v 0 = 61) /\
    exists ds, Forall (fun x => bytes x /\ x <> []) ds /\
               v = List.concat (List.map (encode_pad f) ds) /\ d = List.concat ds)).
Proof.
  destruct (list_eq_dec N.eq_dec v []) as [->|Hv].
  { split; [discriminate|]. intros [H _]. contradiction. }
  rewrite dec_parse_eq by exact Hv. rewrite or_decode_ok. rewrite <- decode_pad_iff.
  assert (Hn : decode_nopad f v = Some d <-> bytes d /\ v = encode f d).
  { split; [apply decode_nopad_inv|]. intros [H1 ->]. apply decode_encode, H1. }
  destruct padding.
  - intuition congruence.
  - destruct (N.eqb_spec (last v 0) 61); rewrite ?Hn; intuition congruence.
  - rewrite Hn. intuition congruence.
Qed.

Lemma dec_parse_bytes f padding v d : dec_parse_str f padding v = Ok d -> bytes d /\ d <> [].
Proof.
  rewrite dec_parse_exact. intros [Hv [(H1 & H2 & -> & _)|(H1 & _ & ds & H3 & -> & ->)]].
  - split; [exact H2|]. intros ->. apply Hv. destruct f; reflexivity.
  - apply concat_nonempty in H3 as [H4 H5]. split; [exact H4|]. apply H5. intros ->. apply Hv. reflexivity.
Qed.

Lemma dec_no_panic f padding v : dec_parse_str f padding v <> Panic.
Proof.
  destruct (list_eq_dec N.eq_dec v []) as [->|Hv]; [discriminate|].
  rewrite dec_parse_eq by exact Hv. destruct padding; try destruct (_ =? 61);
  try destruct (decode_pad f v); try destruct (decode_nopad f v); discriminate.
Qed.

(** When validate accepts, parse accepts exactly the canonical texts. *)
Lemma encode_pad_of f d k : d <> [] -> (k < block f)%nat ->
  Nat.divide (block f) (List.length (encode f d) + k) -> encode f d ++ repeat 61 k = encode_pad f d.
Proof. intros Hd Hk Hdv. unfold encode_pad. rewrite <- (pad_len_unique f _ k Hk Hdv). reflexivity. Qed.

Lemma app_pad_unique f a b k l : forallb (in_alphabet f) a = true -> forallb (in_alphabet f) b = true ->
  a ++ repeat 61 k = b ++ repeat 61 l -> a = b /\ k = l.
Proof.
  intros Ha Hb H.
  assert (E : a = b).
  { apply (f_equal strip_pad) in H. rewrite !(strip_pad_alphabet f) in H by assumption. exact H. }
  split; [exact E|]. subst. apply (f_equal (@List.length N)) in H.
  rewrite !app_length, !repeat_length in H. lia.
Qed.

Lemma shape_parse f padding body k :
  base_shape f padding (body ++ repeat 61 k) -> forallb (in_alphabet f) body = true ->
  dec_parse_str f padding (body ++ repeat 61 k) = or_decode (decode_nopad f body).
Proof.
  intros (b & k' & E & Hne & Hf & Hk & Hm) Hb.
  apply Forall_alphabet in Hf.
  destruct (app_pad_unique f _ _ _ _ Hb Hf E) as [<- <-].
  change (chars_per_block f) with (block f) in *.
  rewrite dec_parse_eq by exact Hne. f_equal.
  destruct k as [|k].
  - cbn [repeat] in *. rewrite app_nil_r in *. destruct padding; [|rewrite (last_alphabet f) by assumption|]; try reflexivity.
    apply decode_pad_full; auto.
  - destruct (Hk ltac:(discriminate)) as (K1 & K2 & K3). apply pad_count_bound in K1.
    rewrite last_repeat, N.eqb_refl.
    assert (HP : decode_pad f (body ++ repeat 61 (S k)) = decode_nopad f body).
    { apply (decode_pad_single f body (S k) Hb ltac:(lia) _ (Nat.le_refl _)).
      - intros ->. rewrite app_length, repeat_length in K2. cbn [List.length] in K2.
        destruct K2 as [q Hq]. destruct f; cbn [block] in *; lia.
      - rewrite app_length, repeat_length in K2. exact K2. }
    destruct padding; [exact HP|exact HP|contradiction].
Qed.

Lemma dec_validate_parse f padding v : dec_validate_str f padding v = Ok tt ->
  is_ok (dec_parse_str f padding v) <-> exists d, bytes d /\ (v = encode f d \/ v = encode_pad f d).
Proof.
  intros H.
  assert (HS : base_shape f padding v).
  { apply scanner_ok. unfold dec_validate_str, dec_v_validate_str, dec_v_validate_u8_slice in H.
    destruct (base_v_parse_u8_slice f padding v) as [[]| |]; cbn in H; congruence. }
  destruct HS as (body & k & E & Hne & Hf & Hk & Hm) eqn:EHS. clear EHS. apply Forall_alphabet in Hf. subst v.
  rewrite shape_parse by assumption. split.
  - intros [d Hd]. apply or_decode_ok in Hd. apply decode_nopad_inv in Hd as [D1 D2].
    exists d. split; [exact D1|]. rewrite D2 in *.
    destruct k as [|k]; [left; cbn; apply app_nil_r|right].
    destruct (Hk ltac:(discriminate)) as (K1 & K2 & K3). apply pad_count_bound in K1.
    change (chars_per_block f) with (block f) in *. rewrite app_length, repeat_length in K2.
    apply encode_pad_of; [|lia|exact K2].
    intros ->. replace (encode f []) with (@nil N) in K2 by (destruct f; reflexivity).
    cbn [List.length Nat.add] in K2. destruct K2 as [q Hq]. destruct f; cbn [block] in *; lia.
  - intros (d & D1 & D2). exists d. apply or_decode_ok.
    assert (Eb : body = encode f d).
    { destruct D2 as [D2|D2].
      - apply (app_pad_unique f _ _ k 0); [exact Hf|apply alphabet_encode|]. cbn [repeat]. rewrite app_nil_r. exact D2.
      - eapply (app_pad_unique f); [exact Hf|apply alphabet_encode|exact D2]. }
    rewrite Eb. apply decode_encode, D1.
Qed.

(** When parse accepts, validate accepts exactly if padding occurs only at the end. *)
Lemma no_pad_encode f d : ~ In 61 (encode f d).
Proof.
  intros H. pose proof (alphabet_encode f d) as HA. rewrite forallb_forall in HA.
  apply HA, in_alphabet_ascii in H. lia.
Qed.

Lemma pad_len_count f d : d <> [] -> pad_len f (List.length (encode f d)) <> 0%nat ->
  pad_count f (pad_len f (List.length (encode f d))).
Proof.
  intros Hd. destruct (pad_len_facts f (List.length (encode f d))) as [H1 [q H2]].
  rewrite encode_length in *. destruct (enc_len_spec f (List.length d)) as (k & H3 & H4).
  set (p := pad_len f (enc_len f (List.length d))) in *. clearbody p.
  set (m := enc_len f (List.length d)) in *. clearbody m. intros Hp.
  destruct f; cbn [block bpc pad_count In] in *; lia.
Qed.

Lemma shape_encode f padding d : d <> [] ->
  (padding <> Disallow -> base_shape f padding (encode_pad f d)) /\
  ((padding = Must -> Nat.divide (block f) (List.length (encode f d))) -> base_shape f padding (encode f d)).
Proof.
  intros Hd. pose proof (encode_nonempty f d Hd) as Hen.
  assert (Hal : Forall (fun c => In c (alphabet f)) (encode f d)) by (apply Forall_alphabet, alphabet_encode).
  split; intros Hp.
  - exists (encode f d), (pad_len f (List.length (encode f d))).
    change (chars_per_block f) with (block f).
    split; [reflexivity|]. split.
    { unfold encode_pad. intros H. apply app_eq_nil in H as [H _]. contradiction. }
    split; [exact Hal|]. split; [|intros _; apply encode_pad_length].
    intros Hk. split; [apply pad_len_count; assumption|]. split; [apply encode_pad_length|exact Hp].
  - exists (encode f d), 0%nat. cbn [repeat]. rewrite app_nil_r.
    repeat split; try exact Hen; try exact Hal; try contradiction. exact Hp.
Qed.

Lemma dec_parse_validate f padding v : is_ok (dec_parse_str f padding v) ->
  dec_validate_str f padding v = Ok tt <-> exists body k, v = body ++ repeat 61 k /\ ~ In 61 body.
Proof.
  intros [d Hd].
  assert (HV : dec_validate_str f padding v = Ok tt <-> base_shape f padding v).
  { rewrite <- scanner_ok. unfold dec_validate_str, dec_v_validate_str, dec_v_validate_u8_slice.
    destruct (base_v_parse_u8_slice f padding v) as [[]| |]; cbn; split; congruence. }
  rewrite HV. split.
  - intros (b & k & E & _ & Hf & _). exists b, k. split; [exact E|].
    intros Hin. rewrite Forall_forall in Hf. apply Hf, in_alphabet_iff, in_alphabet_ascii in Hin. lia.
  - intros (body & k & E & Hb). apply dec_parse_exact in Hd.
    destruct Hd as [Hv [(P1 & P2 & P3 & P4)|(P1 & P2 & ds & D1 & D2 & D3)]].
    + rewrite P3. apply shape_encode.
      * intros ->. apply Hv. rewrite P3. destruct f; reflexivity.
      * intros X. contradiction.
    + (* only the last chunk can carry padding *)
      destruct (exists_last (l := ds)) as (ds' & x & Eds).
      { intros ->. apply Hv. exact D2. }
      subst ds. apply Forall_app in D1 as [D1 Dx]. apply Forall_inv in Dx as [Dx1 Dx2].
      rewrite map_app, concat_app in D2. cbn [List.map List.concat] in D2. rewrite app_nil_r in D2.
      assert (Hfront : forall y, In y ds' -> encode_pad f y = encode f y).
      { intros y Hy. unfold encode_pad. destruct (pad_len f (List.length (encode f y))) as [|p] eqn:Ep;
          [apply app_nil_r|]. exfalso.
        assert (Hy2 : exists l r, List.concat (List.map (encode_pad f) ds') = l ++ 61 :: r).
        { apply in_split in Hy as (l1 & l2 & ->). rewrite map_app, concat_app. cbn [List.map List.concat].
          unfold encode_pad at 2. rewrite Ep. cbn [repeat].
          eexists (List.concat (List.map (encode_pad f) l1) ++ encode f y), _.
          rewrite <- !app_assoc. reflexivity. }
        destruct Hy2 as (l & r & Er). rewrite Er in D2.
        (* after a padding character only padding can follow, but an encoding begins with a letter *)
        assert (Hafter : forall l r, body ++ repeat 61 k = l ++ 61 :: r -> forall z, In z r -> z = 61).
        { clear -Hb. intros l r H. revert l H. induction body as [|b0 body IH]; intros l H z Hz.
          - cbn in H. assert (X : In z (repeat 61 k)) by (rewrite H; apply in_or_app; right; right; exact Hz).
            apply repeat_spec in X. exact X.
          - destruct l as [|l0 l]; cbn in H; injection H as H0 H1.
            + exfalso. apply Hb. left. exact H0.
            + eapply IH; [intros X; apply Hb; right; exact X|exact H1|exact Hz]. }
        pose proof (encode_nonempty f x Dx2) as Hen. pose proof (no_pad_encode f x) as Hnp.
        unfold encode_pad in D2. destruct (encode f x) as [|e0 ex]; [contradiction|].
        rewrite <- app_assoc in D2. cbn [app] in D2.
        assert (e0 = 61).
        { eapply Hafter; [rewrite <- E; exact D2|]. apply in_or_app. right. left. reflexivity. }
        subst. apply Hnp. left. reflexivity. }
      assert (Efront : List.concat (List.map (encode_pad f) ds') = List.concat (List.map (encode f) ds')).
      { f_equal. apply map_ext_in. exact Hfront. }
      assert (Hdiv : Nat.divide (block f) (List.length (List.concat (List.map (encode_pad f) ds')))).
      { clear. induction ds' as [|y ds' IH]; [exists 0%nat; reflexivity|].
        cbn [List.map List.concat]. rewrite app_length. apply Nat.divide_add_r; [apply encode_pad_length|exact IH]. }
      assert (Hal : forallb (in_alphabet f) (List.concat (List.map (encode f) ds')) = true).
      { clear. induction ds' as [|y ds' IH]; [reflexivity|]. cbn [List.map List.concat].
        rewrite forallb_app, alphabet_encode. exact IH. }
      rewrite D2. unfold encode_pad at 2. rewrite app_assoc.
      assert (Hdiv2 : Nat.divide (block f)
         (List.length ((List.concat (List.map (encode_pad f) ds') ++ encode f x) ++
            repeat 61 (pad_len f (List.length (encode f x)))))).
      { rewrite <- app_assoc, app_length. apply Nat.divide_add_r; [exact Hdiv|apply encode_pad_length]. }
      exists (List.concat (List.map (encode_pad f) ds') ++ encode f x), (pad_len f (List.length (encode f x))).
      split; [reflexivity|]. split.
      { intros H. apply app_eq_nil in H as [H _]. apply app_eq_nil in H as [_ H].
        apply (encode_nonempty f x Dx2 H). }
      split.
      { apply Forall_alphabet. rewrite forallb_app, Efront, Hal, alphabet_encode. reflexivity. }
      split; [|intros _; exact Hdiv2].
      intros Hk. split; [apply pad_len_count; assumption|]. split; [exact Hdiv2|exact P1].
Qed.
