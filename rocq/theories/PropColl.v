(** Size of decoded data: C80. *)
From Verif Require Import Base RangeModel LengthModel LengthProofs BaseModel BaseSpec CodecModel CodecSpec CodecProofs CollModel.
Local Open Scope N_scope.

Lemma encode_size f d : d <> [] ->
  (8 * List.length d <= bpc f * List.length (encode f d) < 8 * List.length d + bpc f)%nat /\
  (List.length (encode f d) <= block f * List.length d)%nat.
Proof.
  intros Hd. rewrite encode_length. destruct (enc_len_spec f (List.length d)) as (k & E & L).
  assert (0 < List.length d)%nat by (destruct d; [congruence|cbn; lia]).
  destruct f; cbn [bpc block] in *; lia.
Qed.

Lemma encode_pad_size f d : d <> [] ->
  (8 * List.length d <= bpc f * List.length (encode_pad f d))%nat /\ (List.length (encode_pad f d) <= block f * List.length d)%nat.
Proof.
  intros Hd. destruct (encode_size f d Hd) as [[A B] C]. pose proof (pad_len_facts f (List.length (encode f d))) as [P [q Q]].
  assert (0 < List.length d)%nat by (destruct d; [congruence|cbn; lia]).
  unfold encode_pad. rewrite app_length, repeat_length.
  set (n := List.length (encode f d)) in *. set (p := pad_len f n) in *. set (m := List.length d) in *.
  split; [destruct f; cbn [bpc block] in *; lia|].
  rewrite Q, Nat.mul_comm. apply Nat.mul_le_mono_l. destruct f; cbn [bpc block] in *; lia.
Qed.

Lemma concat_size f ds : Forall (fun x => bytes x /\ x <> []) ds ->
  (8 * List.length (List.concat ds) <= bpc f * List.length (List.concat (List.map (encode_pad f) ds)))%nat /\
  (List.length (List.concat (List.map (encode_pad f) ds)) <= block f * List.length (List.concat ds))%nat.
Proof.
  induction 1 as [|d ds [_ Hd] _ IH]; [cbn; lia|]. cbn [List.map List.concat]. rewrite !app_length.
  pose proof (encode_pad_size f d Hd). lia.
Qed.

(** C80. Decoded data is never empty, has at most 5/8 (base32) or 6/8 (base64) of the bytes of the text, and at least one byte
    for every 8 (base32) or 4 (base64) of them. *)
Theorem C80_size : forall f padding v d, dec_parse_str f padding v = Ok d ->
  dec_is_empty d = false /\
  8 * dec_len d <= match f with B32 => 5 | B64 | B64Url => 6 end * N.of_nat (List.length v) /\
  N.of_nat (List.length v) <= match f with B32 => 8 | B64 | B64Url => 4 end * dec_len d.
Proof.
  intros f padding v d H. unfold dec_is_empty, dec_len.
  assert (Hd : d <> []) by (apply (dec_parse_bytes _ _ _ _ H)).
  assert (0 < List.length d)%nat by (destruct d; [congruence|cbn; lia]).
  apply dec_parse_exact in H as [_ [(_ & _ & -> & _)|(_ & _ & ds & Hds & -> & ->)]].
  - destruct (encode_size f d Hd) as [[A _] C]. split; [apply N.eqb_neq; lia|]. destruct f; cbn [bpc block] in *; lia.
  - destruct (concat_size f ds Hds) as [A C]. split; [apply N.eqb_neq; lia|]. destruct f; cbn [bpc block] in *; lia.
Qed.
Print Assumptions C80_size.

(** A text whose equals signs, if any, are all at its end: the encoding of one piece. *)
Lemma one_piece f padding body k d : ~ In 61 body -> dec_parse_str f padding (body ++ repeat 61 k) = Ok d -> body = encode f d.
Proof.
  intros Hb H. apply dec_parse_exact in H as [Hv [(_ & _ & E & _)|(_ & _ & ds & Hds & E & ->)]].
  - destruct k; [rewrite app_nil_r in E; exact E|]. exfalso. apply (no_pad_encode f d). rewrite <- E. apply in_or_app. right. left. reflexivity.
  - revert body Hb Hv E. induction Hds as [|x ds [Hx Nx] Hds IH]; intros body Hb Hv E; [cbn in E; congruence|].
    cbn [List.map List.concat] in E |- *. destruct ds as [|y ds].
    + cbn [List.map List.concat] in E |- *. rewrite app_nil_r in *. unfold encode_pad in E.
      apply (app_pad_unique f) in E; [tauto| |apply alphabet_encode].
      clear - Hb E. revert E. generalize (pad_len f (List.length (encode f x))). intros p E.
      assert (A : Forall (fun c => c = 61 \/ in_alphabet f c = true) (body ++ repeat 61 k)).
      { rewrite E. apply Forall_app. split.
        - apply Forall_forall. intros c Hc. right. revert c Hc. apply forallb_forall, alphabet_encode.
        - apply Forall_forall. intros c Hc. left. apply repeat_spec in Hc. exact Hc. }
      apply Forall_app in A as [A _]. apply forallb_forall. intros c Hc. rewrite Forall_forall in A.
      destruct (A c Hc) as [-> |]; [contradiction|assumption].
    + (* the first piece carries no padding, since another piece follows it *)
      assert (P : encode_pad f x = encode f x).
      { unfold encode_pad in *. destruct (pad_len f (List.length (encode f x))) as [|p] eqn:Ep; [cbn; apply app_nil_r|]. exfalso.
        pose proof (Forall_inv Hds) as [_ Ny].
        assert (Hy : exists c r, List.concat (List.map (encode_pad f) (y :: ds)) = c :: r /\ c <> 61).
        { cbn [List.map List.concat]. unfold encode_pad at 1. pose proof (encode_nonempty f y Ny) as Z.
          destruct (encode f y) as [|c r] eqn:Ec; [congruence|]. exists c. eexists. split; [reflexivity|].
          intros ->. apply (no_pad_encode f y). rewrite Ec. left. reflexivity. }
        destruct Hy as (c & r & Ey & Nc). unfold encode_pad in Ey. rewrite Ey in E. clear - E Hb Nc.
        assert (X : forall a b : list N, forall q, ~ In 61 a -> a ++ repeat 61 q = b -> forall b1 b2, b = b1 ++ 61 :: c :: b2 -> False).
        { induction a as [|z a IHa]; intros b q Ha <- b1 b2 E2.
          - cbn in E2. assert (In c (repeat 61 q)) by (rewrite E2; apply in_or_app; right; right; left; reflexivity).
            apply repeat_spec in H. congruence.
          - cbn in E2. destruct b1 as [|w b1]; cbn in E2; injection E2 as -> E2.
            + apply Ha. left. reflexivity.
            + apply (IHa _ q (fun h => Ha (or_intror h)) eq_refl b1 b2 E2). }
        eapply (X body _ k Hb E (encode f x ++ repeat 61 p) r).
        rewrite <- !app_assoc. f_equal. change (repeat 61 (S p)) with (61 :: repeat 61 p).
        rewrite repeat_cons, <- app_assoc. reflexivity. }
      rewrite P in E.
      assert (D : Nat.divide (block f) (List.length (encode f x))) by (rewrite <- P; apply encode_pad_length).
      (* so the body begins with the first piece *)
      assert (B : exists b2, body = encode f x ++ b2 /\ b2 ++ repeat 61 k = List.concat (List.map (encode_pad f) (y :: ds))).
      { assert (X : forall a b t : list N, ~ In 61 a -> ~ In 61 b -> t <> [] -> (forall c r, t = c :: r -> c <> 61) ->
          b ++ repeat 61 k = a ++ t -> exists b2, b = a ++ b2 /\ b2 ++ repeat 61 k = t).
        { clear. induction a as [|z a IHa]; intros b t Ha Hb Ht Hc E; [exists b; split; [reflexivity|exact E]|].
          destruct b as [|w b].
          - exfalso. cbn in E. assert (In z (repeat 61 k)) by (rewrite E; left; reflexivity). apply repeat_spec in H. subst. apply Ha. left. reflexivity.
          - cbn in E. injection E as <- E. destruct (IHa b t (fun h => Ha (or_intror h)) (fun h => Hb (or_intror h)) Ht Hc E) as (b2 & -> & Q).
            exists b2. split; [reflexivity|exact Q]. }
        pose proof (Forall_inv Hds) as [_ Ny]. pose proof (encode_nonempty f y Ny) as Z.
        apply X; [apply no_pad_encode|exact Hb| | |exact E].
        - cbn [List.map List.concat]. unfold encode_pad at 1. destruct (encode f y); [congruence|discriminate].
        - intros c r Ec ->. cbn [List.map List.concat] in Ec. unfold encode_pad at 1 in Ec. destruct (encode f y) as [|c' r'] eqn:Ey; [congruence|].
          injection Ec as -> _. apply (no_pad_encode f y). rewrite Ey. left. reflexivity. }
      destruct B as (b2 & -> & B).
      assert (N2 : ~ In 61 b2) by (intros h; apply Hb, in_or_app; right; exact h).
      pose proof (Forall_inv Hds) as [_ Ny].
      assert (V2 : b2 ++ repeat 61 k <> []).
      { rewrite B. cbn [List.map List.concat]. unfold encode_pad at 1. pose proof (encode_nonempty f y Ny). destruct (encode f y); [congruence|discriminate]. }
      specialize (IH b2 N2 V2 B). rewrite IH.
      destruct (concat_nonempty (y :: ds) Hds) as [By _].
      pose proof (decode_encode f x Hx) as Dx. pose proof (decode_encode f _ By) as Dy.
      pose proof (decode_nopad_app f (encode f x) (encode f (List.concat (y :: ds))) D) as Da. rewrite Dx, Dy in Da.
      apply decode_nopad_inv in Da as [_ Da]. exact Da.
Qed.

(** C80. Of a text whose equals signs are all at its end, the size of the decoded data is known from its length: the bits of its
    characters, divided by 8. *)
Theorem C80_exact : forall f padding body k d, ~ In 61 body -> dec_parse_str f padding (body ++ repeat 61 k) = Ok d ->
  dec_len d = match f with B32 => 5 | B64 | B64Url => 6 end * N.of_nat (List.length body) / 8.
Proof.
  intros f padding body k d Hb H. assert (Hd : d <> []) by (apply (dec_parse_bytes _ _ _ _ H)).
  apply one_piece in H; [|exact Hb]. subst body. destruct (encode_size f d Hd) as [[A B] _]. unfold dec_len.
  apply (N.div_unique _ _ _ (match f with B32 => 5 | B64 | B64Url => 6 end * N.of_nat (List.length (encode f d)) - 8 * N.of_nat (List.length d)));
    destruct f; cbn [bpc] in *; lia.
Qed.
Print Assumptions C80_exact.

(** C80 is false with equals signs inside the text: the number of characters does not give the size, nor is it the same for two
    texts of the same length with the same ending. *)
Theorem C80_exact_refuted : exists v d w e, dec_parse_str B64 Allow v = Ok d /\ dec_parse_str B64 Allow w = Ok e /\
  List.length v = List.length w /\ last v 0 = last w 0 /\ dec_len d = 2 /\ dec_len e = 4 /\
  dec_len d <> 6 * N.of_nat (List.length (List.filter (fun c => negb (c =? 61)) v)) / 8.
Proof.
  exists (bs "YQ==YQ=="), (bs "aa"), (bs "YWJjZA=="), (bs "abcd"). vm_compute. repeat split; discriminate.
Qed.
Print Assumptions C80_exact_refuted.

(** C80. A length validator around a decoded type (whose bounds the macro compiles: they differ, C09) keeps the decoded data,
    and accepts a text with its equals signs at the end exactly when it decodes and 5/8 or 6/8 of its characters are in the
    bounds. Whatever the text, an upper bound M limits the texts to 8 or 4 times M bytes. *)
Theorem C80_limit : forall f padding min max, (forall m M, min = Some m -> max = Some M -> m < M) ->
  (forall body k d, ~ In 61 body ->
     limited_parse f padding min max (body ++ repeat 61 k) = Ok d <->
     dec_parse_str f padding (body ++ repeat 61 k) = Ok d /\
     (let n := match f with B32 => 5 | B64 | B64Url => 6 end * N.of_nat (List.length body) / 8 in
      (forall m, min = Some m -> m <= n) /\ (forall M, max = Some M -> n <= M))) /\
  (forall v d M, max = Some M -> limited_parse f padding min max v = Ok d ->
     N.of_nat (List.length v) <= match f with B32 => 8 | B64 | B64Url => 4 end * M) /\
  (forall v, limited_parse f padding min max v <> Panic).
Proof.
  intros f padding min max Hmm.
  assert (S : well_scoped false (gen_length min max)).
  { apply scoped_iff. intros m E1 E2. specialize (Hmm _ _ E1 E2). lia. }
  assert (L : forall n, length_v_parse_v min max n = Ok tt <-> len_in_bounds min max n).
  { intros n. apply (length_exact_lemma min max n S). intros m M E1 E2. specialize (Hmm _ _ E1 E2). lia. }
  assert (NP : forall n, length_v_parse_v min max n <> Panic) by (intros n; apply (scoped_runs _ None n S)).
  assert (K : forall v d, limited_parse f padding min max v = Ok d <-> dec_parse_str f padding v = Ok d /\ len_in_bounds min max (dec_len d)).
  { intros v d. unfold limited_parse, parse_collection. destruct (dec_parse_str f padding v) as [e|e|] eqn:E; cbn [omap_err obind].
    - specialize (L (dec_len e)). destruct (length_v_parse_v min max (dec_len e)) as [[]|x|]; cbn [omap_err obind]; split.
      + intros X. injection X as <-. split; [reflexivity|]. apply L. reflexivity.
      + intros [X _]. injection X as <-. reflexivity.
      + discriminate.
      + intros [X Y]. injection X as <-. apply L in Y. discriminate.
      + discriminate.
      + intros [X Y]. injection X as <-. apply L in Y. discriminate.
    - split; [discriminate|intros [X _]; discriminate].
    - split; [discriminate|intros [X _]; discriminate]. }
  split; [|split].
  - intros body k d Hb. rewrite K. cbv zeta. split; intros [A B]; (split; [exact A|]).
    + rewrite <- (C80_exact _ _ _ _ _ Hb A). exact B.
    + rewrite <- (C80_exact _ _ _ _ _ Hb A) in B. exact B.
  - intros v d M EM X. apply K in X as [X [_ Y]]. specialize (Y _ EM). apply C80_size in X as (_ & _ & X). destruct f; lia.
  - intros v. unfold limited_parse, parse_collection. pose proof (dec_no_panic f padding v) as P.
    destruct (dec_parse_str f padding v) as [e|e|]; cbn [omap_err obind]; [|discriminate|congruence].
    specialize (NP (dec_len e)). destruct (length_v_parse_v min max (dec_len e)); cbn; congruence.
Qed.
Print Assumptions C80_limit.

(** [length(max = 8)] around base64_decoded: eight bytes are let through, nine are not. *)
Example C80_example :
  ~ In 61 (bs "MTIzNDU2Nzg") /\ bs "MTIzNDU2Nzg=" = bs "MTIzNDU2Nzg" ++ repeat 61 1 /\
  limited_parse B64 Allow None (Some 8) (bs "MTIzNDU2Nzg=") = Ok (bs "12345678") /\
  6 * N.of_nat (List.length (bs "MTIzNDU2Nzg")) / 8 = 8 /\
  dec_parse_str B64 Allow (bs "MTIzNDU2Nzg5") = Ok (bs "123456789") /\
  limited_parse B64 Allow None (Some 8) (bs "MTIzNDU2Nzg5") = Err tt /\
  limited_parse B32 Must (Some 1) (Some 2) (bs "GE======") = Ok (bs "1").
Proof. split; [vm_compute; intuition discriminate|]. vm_compute. repeat split. Qed.
