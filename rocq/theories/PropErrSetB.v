(** C116: the errors that a validator can return are those that its attribute provides for. Here: base encodings,
    identifiers, integers, numbers, collections, lines and texts. *)
From Coq Require Import Floats.SpecFloat.
From Verif Require Import Base Utf8 StrFacts NetModel RangeModel IntStr IntStrProofs IntModel IntSpec IntProofs NumberModel
  NumberSpec NumberProofs LengthModel AttrSpec LineModel LineSpec LineProofs BaseModel CodecModel MacModel
  MacSpec MacProofs PropSat PropErrorsC PropLine PropAttr PropErrSet.
Local Open Scope N_scope.

(** The policy named by an error is set. *)
Definition base_expected (p : tri) (e : base_err) : Prop :=
  match e with
  | BInvalid => True
  | BPaddingMust => p = Must
  | BPaddingDisallow => p = Disallow
  | BDecode => False
  end.
Definition id_expected (sep : sep_option) (e : hex_err) : Prop :=
  match e with
  | HInvalid => True
  | HSeparatorMust => exists c, sep = SepMust c
  | HSeparatorDisallow => sep = SepDisallow
  end.

(** C116, base encodings: exactly the expected errors, when the text is kept and when a decoding validator only
    validates. *)
Theorem C116_base : forall f p e,
  (returned (base_parse_str f p) e <-> base_expected p e) /\
  (returned (dec_validate_str f p) e <-> base_expected p e).
Proof.
  assert (Q : forall f p e, returned (base_parse_str f p) e <-> base_expected p e).
  { intros f p e. split.
    - intros (s & _ & H). apply C74_base_errors in H. destruct e; cbn; tauto.
    - destruct e; cbn [base_expected]; intros H; try contradiction; try subst p.
      + apply ret with []; [reflexivity|]. destruct f, p; reflexivity.
      + apply ret with (bs "A"); [reflexivity|]. destruct f; vm_compute; reflexivity.
      + apply ret with (match f with B32 => bs "AA======" | _ => bs "AA==" end); destruct f; vm_compute; reflexivity. }
  intros f p e. split; [apply Q|]. rewrite <- (Q f). unfold returned.
  split; intros (s & V & H); exists s; (split; [exact V|]); revert H;
    unfold dec_validate_str, dec_v_validate_str, dec_v_validate_u8_slice, base_parse_str, base_v_parse_str;
    generalize (base_v_parse_u8_slice f p s); intros []; cbn [obind]; intros H; (discriminate H || (injection H as ->; reflexivity)).
Qed.

(** C116, base encodings: false of a decoding validator that parses: whatever the padding, it returns Invalid (for the
    empty text only) and Decode, and the padding errors never. *)
Theorem C116_decoded_refuted : forall f p e,
  (returned (dec_parse_str f p) e <-> e = BInvalid \/ e = BDecode) /\
  (forall s, dec_parse_str f p s = Err BInvalid <-> s = []).
Proof.
  assert (O : forall A (x : option A) e, or_decode x = Err e -> e = BDecode).
  { intros A [a|] e H; [discriminate|]. now injection H as <-. }
  assert (Q : forall f p s e, dec_parse_str f p s = Err e -> (s = [] /\ e = BInvalid) \/ (s <> [] /\ e = BDecode)).
  { intros f p s e. unfold dec_parse_str, dec_v_parse_str, dec_v_parse_u8_slice.
    destruct s as [|c s]; [intros H; injection H as <-; auto|]. intros H. right. split; [discriminate|].
    revert H. destruct p.
    - destruct (or_decode _) eqn:D; cbn [obind]; try discriminate. apply O in D. subst. now intros [= <-].
    - destruct (idx _ _) as [b|e'|] eqn:I; cbn [obind]; try discriminate.
      + destruct (b =? 61); (destruct (or_decode _) eqn:D; cbn [obind]; try discriminate; apply O in D; subst; now intros [= <-]).
      + exfalso. unfold idx in I. destruct (nth_error _ _); discriminate.
    - destruct (or_decode _) eqn:D; cbn [obind]; try discriminate. apply O in D. subst. now intros [= <-]. }
  intros f p e. split.
  - split.
    + intros (s & _ & H). destruct (Q _ _ _ _ H) as [[_ ->]|[_ ->]]; auto.
    + intros [-> | ->].
      * apply ret with []; [reflexivity|]. destruct f, p; reflexivity.
      * apply ret with (bs "?"); [reflexivity|]. destruct f, p; vm_compute; reflexivity.
  - intros s. split.
    + intros H. destruct (Q _ _ _ _ H) as [[? _]|[_ ?]]; [auto|discriminate].
    + intros ->. destruct f, p; reflexivity.
Qed.

(** C116, identifiers: exactly the expected errors. *)
Theorem C116_identifiers : forall case sep e,
  (returned (mac_parse_str case sep) e <-> id_expected sep e) /\
  (returned (uuid_parse_str case sep) e <-> id_expected sep e).
Proof.
  assert (L : forall n, forallb (fun b => b <? 128) (repeat 103 n) = true).
  { induction n; [reflexivity|]. cbn. now rewrite IHn. }
  assert (NH : forall case d, ~ is_hex case 103 d).
  { intros case d H. apply hex_digit_iff in H. destruct case; discriminate H. }
  assert (G : forall mac case c, parse_of mac case (SepMust c) (repeat 103 (if mac then 17 else 36)) = Err HInvalid).
  { intros mac case c. set (v := repeat 103 (if mac then 17 else 36)%nat).
    destruct (parse_of mac case (SepMust c) v) as [x|e|] eqn:E.
    - exfalso. apply parse_sound in E. destruct E as (d & Gd & Hd).
      destruct mac; apply grouped_cons_inv in Gd; destruct Gd as (g & s & v' & d' & Lg & _ & _ & Ev & ->);
        (destruct g as [|c0 g]; [discriminate Lg|]); injection Ev as <- _;
        destruct (hex_denotes_in _ _ _ Hd 103 (or_introl eq_refl)) as (d0 & Hx); apply NH in Hx; exact Hx.
    - apply parse_err in E. destruct e; [reflexivity| |].
      + destruct E as (c' & _ & E). exfalso. apply E. destruct mac; reflexivity.
      + destruct E as [E _]. discriminate E.
    - apply parse_panic in E. destruct E as (c' & E & _). discriminate E. }
  intros case sep e. split.
  - split.
    + intros (s & _ & H). destruct (C74_identifier_errors case sep s e) as [A _]. specialize (A H). destruct e; cbn; tauto.
    + destruct e; cbn [id_expected]; intros H.
      * destruct sep as [c|c|].
        -- apply ret with (repeat 103 17); [apply L|]. apply (G true).
        -- apply ret with []; destruct case; reflexivity.
        -- apply ret with (repeat 103 12); [apply L|]. destruct case; vm_compute; reflexivity.
      * destruct H as (c & ->). apply ret with []; destruct case; reflexivity.
      * subst sep. apply ret with []; destruct case; reflexivity.
  - split.
    + intros (s & _ & H). destruct (C74_identifier_errors case sep s e) as [_ A]. specialize (A H). destruct e; cbn; tauto.
    + destruct e; cbn [id_expected]; intros H.
      * destruct sep as [c|c|].
        -- apply ret with (repeat 103 36); [apply L|]. apply (G false).
        -- apply ret with []; destruct case; reflexivity.
        -- apply ret with (repeat 103 32); [apply L|]. destruct case; vm_compute; reflexivity.
      * destruct H as (c & ->). apply ret with []; destruct case; reflexivity.
      * subst sep. apply ret with []; destruct case; reflexivity.
Qed.

Local Open Scope Z_scope.

(** The errors of an integer validator: those of reading an integer of the type, and those of a value of the type
    outside the range. *)
Definition int_expected (sg : bool) (pw : ptr_width) (t : ity) (r : range_option Z) (e : int_err) : Prop :=
  match e with
  | ParseInt INegOverflow => sg = true
  | ParseInt _ => True
  | TooSmall => exists m mx incl i, r = Inside (Some m) mx incl /\ fits sg pw t i /\ i < m
  | TooLarge => exists mn m incl i, r = Inside mn (Some m) incl /\ fits sg pw t i /\
                  (forall n, mn = Some n -> n <= i) /\ (if incl then m < i else m <= i)
  | Forbidden => exists mn mx incl i, r = Outside mn mx incl /\ fits sg pw t i /\ in_bounds mn mx incl i
  end.

(** C116, integers: exactly the expected errors. *)
Theorem C116_integers : forall sg pw t r e, ~ degenerate sg pw t r ->
  (returned (int_parse_str sg pw t r) e <-> int_expected sg pw t r e).
Proof.
  intros sg pw t r e D.
  assert (P : forall i, fits sg pw t i -> int_parse_str sg pw t r (dec_of_Z i) = let? _ := v_parse_i sg pw t r i in Ok i).
  { intros i F. apply fits_iff in F. unfold int_parse_str, v_parse_str.
    rewrite (int_roundtrip _ _ _ (min_max sg pw t) F). cbn [omap_err obind]. now destruct (v_parse_i sg pw t r i). }
  assert (V : forall i, valid_str (dec_of_Z i)).
  { intros i. apply ascii_text, forallb_forall. intros x Hx. apply N.ltb_lt. unfold dec_of_Z in Hx.
    assert (Hd : forall n, In x (dec_of_N n) -> (x < 128)%N).
    { intros n Hn. destruct (dec_of_N_digits n) as [HF _]. rewrite Forall_forall in HF. specialize (HF x Hn). unfold is_digit in HF. lia. }
    destruct (i <? 0); [destruct Hx as [<-|Hx]; [lia|]|]; eauto. }
  assert (R : forall i e', fits sg pw t i -> v_parse_i sg pw t r i = Err e' -> returned (int_parse_str sg pw t r) e').
  { intros i e' F H. exists (dec_of_Z i). split; [apply V|]. rewrite P, H by exact F. reflexivity. }
  assert (T : forall s e', int_from_str (int_min sg pw t) (int_max sg pw t) s = Err e' ->
    int_parse_str sg pw t r s = Err (ParseInt e')).
  { intros s e' H. unfold int_parse_str, v_parse_str. rewrite H. reflexivity. }
  split.
  - intros (s & _ & H). unfold int_parse_str, v_parse_str in H.
    destruct (int_from_str (int_min sg pw t) (int_max sg pw t) s) as [i|e'|] eqn:E; cbn [omap_err obind] in H; [| |discriminate].
    + apply int_from_str_spec in E; [|apply min_max]. destruct E as [_ F]. apply fits_iff in F.
      pose proof (v_parse_i_spec sg pw t r i D) as S. destruct (v_parse_i sg pw t r i) as [[]|e'|]; cbn [obind] in H; [discriminate| |discriminate].
      injection H as <-. destruct e'; [contradiction| | |].
      * destruct S as (mn & mx & incl & m & -> & -> & S1 & S2). cbn. eauto 10.
      * destruct S as (mn & mx & incl & m & -> & -> & S1). cbn. eauto 10.
      * destruct S as (mn & mx & incl & -> & S1). cbn. eauto 10.
    + injection H as <-. destruct e'; try exact I. cbn. destruct sg; [reflexivity|exfalso].
      assert (AP : forall hi ds a, acc_pos hi ds a <> Err INegOverflow).
      { intros hi. induction ds as [|c ds IH]; intros a; cbn [acc_pos]; [discriminate|].
        destruct (digit c); [|discriminate]. destruct (hi <? a * 10); [discriminate|].
        destruct (hi <? a * 10 + z); [discriminate|]. apply IH. }
      unfold int_from_str in E. rewrite sg_min in E. destruct s as [|c [|d s]]; [discriminate| |].
      * destruct (_ || _)%bool; [discriminate|]. now apply AP in E.
      * destruct (c =? 43)%N; [now apply AP in E|]. rewrite andb_false_r in E. now apply AP in E.
  - intros H. destruct e as [[]| | |]; cbn [int_expected] in H.
    + apply ret with []; [reflexivity|]. apply T. reflexivity.
    + apply ret with (bs "+"); [reflexivity|]. apply T. reflexivity.
    + apply ret with (repeat 57%N 50); [reflexivity|]. apply T. destruct sg, t, pw; vm_compute; reflexivity.
    + subst sg. apply ret with (45%N :: repeat 57%N 50); [reflexivity|]. apply T. destruct t, pw; vm_compute; reflexivity.
    + destruct H as (mn & m & incl & i & -> & F & A & B). apply (R i _ F).
      pose proof (v_parse_i_spec sg pw t _ i D) as S.
      destruct (v_parse_i _ _ _ _ i) as [[]|[]|]; try contradiction; try reflexivity.
      * destruct S as [_ S]. specialize (S _ eq_refl). destruct incl; lia.
      * destruct S as (mn' & mx & incl' & m' & [= <- <- <-] & E & S). specialize (A _ E). lia.
      * destruct S as (? & ? & ? & S & _). discriminate S.
    + destruct H as (m & mx & incl & i & -> & F & A). apply (R i _ F).
      pose proof (v_parse_i_spec sg pw t _ i D) as S.
      destruct (v_parse_i _ _ _ _ i) as [[]|[]|]; try contradiction; try reflexivity.
      * destruct S as [S _]. specialize (S _ eq_refl). lia.
      * destruct S as (mn' & mx' & incl' & m' & [= <- <- <-] & E & S & S2). specialize (S2 _ eq_refl). lia.
      * destruct S as (? & ? & ? & S & _). discriminate S.
    + destruct H as (mn & mx & incl & i & -> & F & A). apply (R i _ F).
      pose proof (v_parse_i_spec sg pw t _ i D) as S.
      destruct (v_parse_i _ _ _ _ i) as [[]|[]|]; try contradiction; try reflexivity.
      * destruct S as (? & ? & ? & ? & S & _). discriminate S.
      * destruct S as (? & ? & ? & ? & S & _). discriminate S.
Qed.

(** The errors of a number validator: those of a number of the type outside the range, and those of the NaN policy. *)
Definition num_expected (t : fty) (r : range_option spec_float) (nan : tri) (e : num_err) : Prop :=
  match e with
  | NParseFloat => False
  | NTooSmall => exists m mx i, r = Inside (Some m) mx i /\ xval m <> Some NegInf
  | NTooLarge => exists mn m i, r = Inside mn (Some m) i /\ (i = true -> xval m <> Some PosInf)
  | NForbidden => exists mn mx i f x, r = Outside mn mx i /\ is_float_of t f /\ xval f = Some x /\ x_in_bounds mn mx i x
  | NaNMust => nan = Must /\ exists f x, is_float_of t f /\ xval f = Some x /\ x_allowed r x
  | NaNDisallow => nan = Disallow
  end.

(** C116, numbers: exactly the expected errors, for values; a text has in addition the error of a text that is no
    number. *)
Theorem C116_numbers : forall t r nan e, good_range t r -> ~ x_degenerate r ->
  ((exists f, is_float_of t f /\ own_parse_f t r nan f = Err e) <-> num_expected t r nan e) /\
  (forall from_str s, num_parse_str from_str r nan s = Err NParseFloat <-> from_str s = None).
Proof.
  intros t r nan e G D. split.
  - assert (U : forall nan f, own_parse_f t r nan f =
      let? _ := num_handle_range (to_tokens spec_float SFeqb float_inc true r) f in let? _ := handle_nan nan f in Ok f).
    { clear nan. intros nan f. destruct t; cbn [own_parse_f]; unfold num_parse_f32, num_parse_f64, v_parse_f; cbn;
        (destruct (num_handle_range _ f) as [[]| |]; cbn [obind]; [|reflexivity|reflexivity]; now destruct (handle_nan nan f)). }
    assert (S1 : forall f, xval f = None -> f = S754_nan) by (intros [] H; (reflexivity || discriminate H)).
    split.
    + intros (f & Hf & H). destruct (xval f) as [x|] eqn:X.
      * pose proof (num_range_spec t r f x G D Hf X) as S. rewrite U in H.
        destruct (num_handle_range _ f) as [[]|e'|]; cbn [obind] in H; [| |discriminate].
        -- assert (N1 : is_nan f = false) by (destruct f; cbn in X |- *; congruence).
           unfold handle_nan in H. rewrite N1 in H. destruct nan; cbn in H; try discriminate. injection H as <-. cbn. eauto 6.
        -- injection H as ->. destruct e; try contradiction; cbn.
           ++ destruct S as (mn & mx & i & m & y & -> & -> & Hy & A & _). exists mn, m, i. split; [reflexivity|].
              intros -> Q. rewrite Hy in Q. injection Q as ->. destruct x; exact A.
           ++ destruct S as (mn & mx & i & m & y & -> & -> & Hy & A). exists m, mx, i. split; [reflexivity|].
              intros Q. rewrite Hy in Q. injection Q as ->. destruct x; exact A.
           ++ destruct S as (mn & mx & i & -> & A). eauto 10.
      * apply S1 in X. subst f. rewrite U, (num_range_nan t r G) in H. cbn [obind] in H.
        unfold handle_nan in H. destruct nan; cbn in H; try discriminate. injection H as <-. reflexivity.
    + intros H. destruct e; cbn [num_expected] in H; [contradiction| | | | |].
      * destruct H as (mn & m & i & -> & A). exists (S754_infinity false). split; [reflexivity|].
        pose proof (num_range_spec t _ (S754_infinity false) PosInf G D eq_refl eq_refl) as S. rewrite U.
        destruct G as [_ G2]. destruct (G2 m eq_refl) as [_ V].
        destruct (num_handle_range _ _) as [[]|[]|]; cbn [obind]; try contradiction; try reflexivity.
        -- exfalso. destruct S as [_ S]. destruct (xval m) as [y|] eqn:Y; [|congruence].
           specialize (S m y eq_refl Y). destruct i; [|destruct y; exact S]. specialize (A eq_refl). destruct y; (contradiction || congruence).
        -- destruct S as (? & ? & ? & m' & y & _ & _ & _ & S). destruct y; contradiction.
        -- destruct S as (? & ? & ? & S & _). discriminate S.
      * destruct H as (m & mx & i & -> & A). exists (S754_infinity true). split; [reflexivity|].
        pose proof (num_range_spec t _ (S754_infinity true) NegInf G D eq_refl eq_refl) as S. rewrite U.
        destruct G as [G1 _]. destruct (G1 m eq_refl) as [_ V].
        destruct (xval m) as [y|] eqn:Y; [|congruence].
        destruct (num_handle_range _ _) as [[]|[]|]; cbn [obind]; try contradiction; try reflexivity.
        -- exfalso. destruct S as [S _]. specialize (S m y eq_refl Y). destruct y; (contradiction || congruence).
        -- exfalso. destruct S as (? & ? & ? & m' & y' & [= <- <- <-] & _ & _ & _ & S). specialize (S m y eq_refl Y).
           destruct y; (contradiction || congruence).
        -- destruct S as (? & ? & ? & S & _). discriminate S.
      * destruct H as (mn & mx & i & f & x & -> & Hf & X & A). exists f. split; [exact Hf|].
        pose proof (num_range_spec t _ f x G D Hf X) as S. rewrite U.
        destruct (num_handle_range _ _) as [[]|[]|]; cbn [obind]; try contradiction; try reflexivity.
        -- destruct S as (? & ? & ? & ? & ? & S & _). discriminate S.
        -- destruct S as (? & ? & ? & ? & ? & S & _). discriminate S.
      * destruct H as (-> & f & x & Hf & X & A). exists f. split; [exact Hf|].
        destruct (number_exact_lemma t r Must f G D Hf) as [E1 E2]. rewrite X in E1.
        destruct (own_parse_f t r Must f) as [g|e|] eqn:E; [exfalso; apply (proj1 (E1 g) eq_refl); reflexivity| |congruence].
        rewrite U in E. destruct (num_handle_range _ f) as [[]|e'|] eqn:R; cbn [obind] in E; [| |discriminate].
        -- assert (N1 : is_nan f = false) by (destruct f; cbn in X |- *; congruence).
           unfold handle_nan in E. rewrite N1 in E. cbn in E. congruence.
        -- exfalso. destruct (number_exact_lemma t r Allow f G D Hf) as [F1 _]. rewrite X in F1.
           assert (K : own_parse_f t r Allow f = Ok f) by (apply F1; repeat split; [discriminate|exact A]).
           rewrite U, R in K. discriminate K.
      * subst nan. exists S754_nan. split; [reflexivity|]. rewrite U, (num_range_nan t r G). reflexivity.
  - intros from_str s. unfold num_parse_str, num_v_parse_str. destruct (from_str s) as [f|]; [|easy].
    split; [|discriminate]. cbn. intros H. exfalso. revert H.
    assert (K : num_handle_range (to_tokens spec_float SFeqb float_inc true r) f <> Err NParseFloat).
    { unfold num_handle_range. repeat match goal with |- context [match ?x with _ => _ end] => destruct x; cbn [obind] end; discriminate. }
    unfold v_parse_f. destruct (num_handle_range _ f) as [[]|e'|]; cbn [obind]; [|congruence|discriminate].
    unfold handle_nan. destruct nan, (is_nan f); cbn; discriminate.
Qed.

Local Open Scope N_scope.

(** C116, collections: too small needs a [min] above 0, too large a [max]. (A [max] of [usize::MAX] is not set apart:
    the lists of the model have no greatest length.) *)
Theorem C116_length : forall T (x : T) ps mn mx, coll_attribute ps = Ok (mn, mx) -> (forall m, mn = Some m -> mx <> Some m) ->
  let parse := parse_collection (fun l : list T => N.of_nat (List.length l)) mn mx in
  ((exists v, parse v = Err LTooSmall) <-> exists m, mn = Some m /\ 0 < m) /\
  ((exists v, parse v = Err LTooLarge) <-> exists m, mx = Some m).
Proof.
  intros T x ps mn mx A D parse.
  pose proof (fun v => C08_length_exact (list T) (fun l => N.of_nat (List.length l)) ps mn mx v A D) as C. split; split.
  - intros (v & H). apply (C v) in H. destruct H as (m & -> & H). exists m. split; [reflexivity|lia].
  - intros (m & -> & H). exists []. apply (C []). exists m. split; [reflexivity|exact H].
  - intros (v & H). apply (C v) in H. destruct H as (m & -> & H). eauto.
  - intros (m & ->). exists (repeat x (S (N.to_nat m))). apply (C _). exists m. split; [reflexivity|]. rewrite repeat_length. lia.
Qed.

(** The errors of a line or a text. *)
Definition line_expected (a : line_attr) (e : line_err) : Prop :=
  match e with
  | LTooLong => exists m, a_max a = Some m
  | LTooShort => exists m, 0 < m /\ (a_min a = Some m \/ a_tmin a = Some m)
  | LInvalid => ~ (a_byte a = true /\ a_max a = Some 0)
  end.

Lemma scan_bytes_err k : forall s e, scan_bytes k s = Err e -> e = LInvalid.
Proof.
  induction s as [|c s IH]; cbn [scan_bytes]; intros e H; [discriminate|]. destruct (ctl k c); [now injection H as <-|auto].
Qed.
Lemma scan_chars_err k : forall s n e, scan_chars k s n = Err e -> e = LInvalid.
Proof.
  induction s as [|c s IH]; cbn [scan_chars]; intros n e H; [discriminate|]. destruct (ctl k c); [now injection H as <-|eauto].
Qed.
Lemma inner_not_short k byte chk : forall s n m u, inner k byte chk s n m u <> Err LTooShort.
Proof.
  induction s as [|c s IH]; intros n m u; cbn [inner]; [discriminate|]. cbv zeta. destruct (ctl k c); [discriminate|].
  destruct (over _ _); [discriminate|]. destruct (is_whitespace c); apply IH.
Qed.
Lemma outer_not_short k byte chk1 chk2 fin empty : (forall n m, fin n m <> Err LTooShort) -> (forall n, empty n <> Err LTooShort) ->
  forall s n, outer k byte chk1 chk2 fin empty s n <> Err LTooShort.
Proof.
  intros F E. induction s as [|c s IH]; intros n; cbn [outer]; [apply E|]. cbv zeta. destruct (over _ _); [discriminate|].
  destruct (is_whitespace c); cbn [negb]; [apply IH|]. destruct (ctl k c); [discriminate|].
  pose proof (inner_not_short k byte chk2 s (n + unit_len byte c) (unit_len byte c) 0) as I.
  destruct (inner _ _ _ _ _ _ _) as [ct|e|]; cbn [obind]; [apply F|congruence|discriminate].
Qed.

Lemma not_short k byte min tmin max s : (forall m, min = Some m -> m = 0) -> (forall m, tmin = Some m -> m = 0) ->
  handle_str k byte min tmin max s <> Err LTooShort.
Proof.
  intros A B. pose proof (scan_bytes_err k (utf8 s) LTooShort) as SB.
  pose proof (fun l => scan_chars_err k l 0 LTooShort) as SC.
  assert (Z : forall n, (n <? 0) = false) by (intros n; apply N.ltb_ge; lia).
  destruct min as [m|]; [rewrite (A m eq_refl)|]; (destruct tmin as [t|]; [rewrite (B t eq_refl)|]); clear A B;
    destruct max as [mx|], byte; cbn [handle_str];
    try (apply outer_not_short; intros;
         repeat match goal with |- context [if ?b then _ else _] => destruct b eqn:? end;
         rewrite ?andb_false_iff, ?N.leb_gt, ?N.eqb_neq, ?N.ltb_lt in *; try discriminate; lia);
    rewrite ?Z;
    try (destruct (scan_chars _ _ _) as [n|e|] eqn:E; cbn [obind]; [|intros [= ->]; now apply SC in E|discriminate]);
    repeat match goal with |- context [if ?b then _ else _] => destruct b eqn:? end;
    rewrite ?N.leb_gt, ?N.ltb_lt in *; try discriminate; try lia; intros H; now apply SB in H.
Qed.

Lemma run_len byte n : len byte (repeat 97 n) = N.of_nat n.
Proof.
  induction n as [|n IH]; [apply len_nil|]. simpl repeat. rewrite len_cons, IH. destruct byte; unfold unit_len, len_utf8; simpl; lia.
Qed.
Lemma run_trims n : trims (repeat 97 n) [] (repeat 97 n) [].
Proof.
  split; [simpl; rewrite app_nil_r; reflexivity|]. split; [constructor|]. split; [constructor|].
  assert (Hw : ~ white 97) by (rewrite <- white_false; reflexivity).
  destruct n as [|j]; [left; auto|right]. split.
  - exists 97, (repeat 97 j). auto.
  - exists (repeat 97 j), 97. split; [|exact Hw]. clear. induction j as [|j IH]; [reflexivity|]. simpl in *. rewrite <- IH. reflexivity.
Qed.

(** C116, line and text: a [max] makes a text too long, a [min] or [trimmed_min] above 0 too short, and every validator
    but [byte_length(max = 0)] finds some text invalid. *)
Theorem C116_line : forall k a e, accepted_attr a ->
  ((exists s, Forall (fun c => is_scalar c = true) s /\ line_parse_str k a s = Err e) <-> line_expected a e).
Proof.
  intros k a e Ha.
  assert (V : forall s e, line_parse_str k a s = Err e <-> handle_str k (a_byte a) (a_min a) (a_tmin a) (a_max a) s = Err e).
  { intros s e'. unfold line_parse_str. rewrite line_v_eq. destruct (handle_str _ _ _ _ _ s) as [[]|e1|]; cbn [obind]; split; congruence. }
  assert (GL : (forall x y, a_tmin a = Some x -> a_min a = Some y -> x <= y) /\
               (forall x y, a_min a = Some x -> a_max a = Some y -> x <= y) /\
               (forall x y, a_tmin a = Some x -> a_max a = Some y -> x <= y)).
  { destruct a as [[b l]|]; [exact (accepted_good _ _ Ha)|]. repeat split; discriminate. }
  destruct GL as (G1 & G2 & G3).
  assert (SC : forall n, Forall (fun c => is_scalar c = true) (repeat 97 n)).
  { intros n. apply Forall_forall. intros x Hx. apply repeat_spec in Hx. subst. reflexivity. }
  assert (NF : forall n, ~ Exists (forbidden k) (repeat 97 n)).
  { intros n H. apply Exists_exists in H. destruct H as (x & Hx & F). apply repeat_spec in Hx. subst. destruct k; cbn in F; lia. }
  split.
  - intros (s & Hs & H). destruct e; cbn [line_expected].
    + pose proof (C14_errors_partial k a s Ha) as C. rewrite H in C. intros [Hb Hm]. apply V in H. rewrite Hb, Hm in H. clear C.
      destruct s as [|c s].
      * destruct (a_min a), (a_tmin a); cbn in H; repeat match type of H with context [if ?b then _ else _] => destruct b end; discriminate H.
      * assert (L1 : 0 < unit_len true c) by (unfold unit_len, len_utf8; repeat destruct (_ <? _); lia).
        assert (L2 : 0 < N.of_nat (List.length (utf8 (c :: s)))).
        { change (utf8 (c :: s)) with (utf8_char c ++ utf8 s). rewrite app_length. pose proof (utf8_char_len c). unfold unit_len in L1. lia. }
        apply N.ltb_lt in L2. assert (O : over (Some 0) (0 + unit_len true c) = true) by (apply N.ltb_lt; lia).
        destruct (a_min a), (a_tmin a); cbn [handle_str outer] in H; cbv zeta in H; rewrite ?L2, ?O in H; discriminate H.
    + pose proof (C14_errors_partial k a s Ha) as C. rewrite H in C. destruct (a_max a) as [m|]; [eauto|].
      exfalso. apply C. intros m E. discriminate E.
    + destruct (a_min a) as [[|p]|] eqn:M; [|exists (N.pos p); split; [lia|auto]|];
        (destruct (a_tmin a) as [[|q]|] eqn:T; [|exists (N.pos q); split; [lia|auto]|]);
        exfalso; apply V in H; revert H; apply not_short; rewrite ?M, ?T; congruence.
  - destruct e; cbn [line_expected]; intros H.
    + set (n := match a_min a with Some m => N.to_nat (m - 1) | None => 0%nat end).
      exists (1 :: repeat 97 n). split; [constructor; [reflexivity|apply SC]|]. apply V.
      assert (LL : N.of_nat (List.length (utf8 (1 :: repeat 97 n))) = 1 + N.of_nat n).
      { change (N.of_nat (List.length (utf8 (1 :: repeat 97 n)))) with (len true (1 :: repeat 97 n)). rewrite len_cons, run_len. reflexivity. }
      assert (SB : scan_bytes k (utf8 (1 :: repeat 97 n)) = Err LInvalid) by (destruct k; reflexivity).
      assert (TK : forall m, take (m + 1) (1 :: repeat 97 n) = 1 :: take m (repeat 97 n)).
      { intros m. unfold take. replace (N.to_nat (m + 1)) with (S (N.to_nat m)) by lia. reflexivity. }
      assert (SCH : forall l, scan_chars k (1 :: l) 0 = Err LInvalid) by (intros; destruct k; reflexivity).
      assert (OU : forall b c1 c2 fin empty l, over c1 1 = false -> outer k b c1 c2 fin empty (1 :: l) 0 = Err LInvalid).
      { intros b c1 c2 fin empty l O. cbn [outer]. replace (unit_len b 1) with 1 by (destruct b; reflexivity).
        cbv zeta. rewrite N.add_0_l, O. destruct k; reflexivity. }
      destruct (a_byte a) eqn:B.
      * assert (X : forall m, a_max a = Some m -> 1 <= m) by (intros m E; destruct m; [destruct H; auto|lia]).
        assert (Y : forall m, a_max a = Some m -> 1 + N.of_nat n <= m).
        { intros m E. unfold n. destruct (a_min a) as [mn|] eqn:M; [|specialize (X _ E); lia].
          specialize (G2 _ _ eq_refl E). specialize (X _ E). lia. }
        assert (W : forall m, a_min a = Some m -> m <= 1 + N.of_nat n) by (intros m E; unfold n; rewrite E; lia).
        destruct (a_max a) as [mx|] eqn:MX, (a_min a) as [mn|] eqn:M, (a_tmin a) as [t|] eqn:T; cbn [handle_str]; rewrite ?LL, ?SB;
          try (apply OU; cbn [over]; try reflexivity; apply N.ltb_ge; auto);
          repeat match goal with |- context [?x <? ?y] => replace (x <? y) with false by (symmetry; apply N.ltb_ge; auto) end; reflexivity.
      * destruct (a_max a) as [mx|] eqn:MX, (a_min a) as [mn|] eqn:M, (a_tmin a) as [t|] eqn:T; cbn [handle_str]; rewrite ?TK, ?SCH, ?SB;
          try (apply OU; reflexivity); reflexivity.
    + destruct H as (m & Hm). set (n := N.to_nat (m + 1)). exists (repeat 97 n). split; [apply SC|]. apply V.
      assert (LN : forall b, len b (repeat 97 n) = m + 1) by (intros b; rewrite run_len; unfold n; lia).
      pose proof (C14_errors_partial k a (repeat 97 n) Ha) as C.
      destruct (line_parse_str k a (repeat 97 n)) as [r|e|] eqn:E; [exfalso| |contradiction].
      * destruct (a_tmin a) as [t|] eqn:T.
        -- apply (C12_trimmed_min_exact k a t _ _ T) in E. destruct E as (_ & _ & _ & _ & _ & _ & _ & E & _).
           specialize (E _ Hm). rewrite LN in E. lia.
        -- apply (C11_no_trimmed_min_exact k a _ _ T) in E. destruct E as (_ & _ & _ & E). specialize (E _ Hm). rewrite LN in E. lia.
      * destruct e; [now apply NF in C|now apply V|exfalso].
        assert (MN : at_least (a_min a) (len (a_byte a) (repeat 97 n))).
        { intros x Ex. specialize (G2 _ _ Ex Hm). rewrite LN. lia. }
        destruct (a_tmin a) as [t|] eqn:T.
        -- destruct (a_byte a) eqn:B.
           ++ destruct (C (or_introl eq_refl)) as [C1|(t' & x & mm & y & Et & Tr & Lt)]; [contradiction|].
              injection Et as <-. destruct (proj2 (C12_trimming_unique (repeat 97 n)) _ _ _ _ _ _ Tr (run_trims n)) as (_ & -> & _).
              rewrite LN in Lt. specialize (G3 _ _ eq_refl Hm). lia.
           ++ apply V in E. rewrite ?B, ?T, ?Hm in E. assert (TK : take (m + 1) (repeat 97 n) = repeat 97 n).
              { unfold take. apply firstn_all2. rewrite repeat_length. unfold n. lia. }
              specialize (G3 _ _ eq_refl Hm).
              assert (OC : forall fin empty, outer k false None None fin empty (repeat 97 n) 0 = fin (m + 1) (m + 1)).
              { intros fin empty. destruct (outer_cases k false None None fin empty _ _ _ _ (run_trims n) eq_refl eq_refl (or_introl eq_refl))
                  as [[_ O]|[[_ O]|(_ & _ & O & _)]]; [discriminate O| |].
                - rewrite app_nil_r in O. now apply NF in O.
                - rewrite O, LN. unfold n. replace (N.to_nat (m + 1)) with (S (N.to_nat m)) by lia. reflexivity. }
              destruct (a_min a) as [mn|] eqn:M; cbn [handle_str] in E; rewrite TK, OC in E.
              ** specialize (G2 _ _ eq_refl Hm). replace (t <=? m + 1) with true in E by (symmetry; apply N.leb_le; lia).
                 replace (mn <=? m + 1) with true in E by (symmetry; apply N.leb_le; lia). cbn [andb] in E.
                 destruct (m + 1 <=? m); discriminate E.
              ** replace (t <=? m + 1) with true in E by (symmetry; apply N.leb_le; lia). destruct (m + 1 <=? m); discriminate E.
        -- destruct (C (or_intror (or_introl eq_refl))) as [C1|(t' & x & mm & y & Et & _)]; [contradiction|discriminate Et].
    + destruct H as (m & Hm & H). exists []. split; [constructor|]. apply V.
      pose proof (C14_errors_partial k a [] Ha) as C.
      destruct (line_parse_str k a []) as [r|e|] eqn:E; [exfalso| |contradiction].
      * destruct (a_tmin a) as [t|] eqn:T.
        -- apply (C12_trimmed_min_exact k a t _ _ T) in E. destruct E as (_ & x & mm & y & Tr & _ & E1 & _ & E2).
           destruct Tr as (Tr & _). symmetry in Tr. apply app_eq_nil in Tr. destruct Tr as [_ Tr]. apply app_eq_nil in Tr. destruct Tr as [-> _].
           rewrite len_nil in E1, E2. destruct H as [H|[= ->]]; [specialize (E1 _ H)|]; lia.
        -- apply (C11_no_trimmed_min_exact k a _ _ T) in E. destruct E as (_ & _ & E & _). rewrite len_nil in E.
           destruct H as [H|H]; [specialize (E _ H); lia|discriminate].
      * destruct e; [inversion C| |now apply V]. exfalso. apply C. intros x _. rewrite len_nil. lia.
Qed.

Example C116_example_b :
  base_parse_str B64 Must (bs "aGk") = Err BPaddingMust /\ dec_parse_str B64 Must (bs "aGk") = Err BDecode /\
  dec_validate_str B64 Must (bs "aGk") = Err BPaddingMust /\
  mac_parse_str AnyCase (SepMust 58) (bs "080027b46a2b") = Err HSeparatorMust /\
  int_parse_str true W64 I8 (Inside (Some (-5)) (Some 7) true)%Z (bs "8") = Err TooLarge /\
  int_parse_str false W64 I8 Unlimited (bs "-1") = Err (ParseInt IInvalidDigit) /\
  ~ int_expected true W64 I8 (Inside (Some (-128)) (Some 127) true)%Z TooLarge /\
  line_parse_str Line (Some (true, mk_len None None (Some 0))) [1] = Err LTooLong /\
  line_parse_str Line (Some (false, mk_len None None (Some 0))) [1] = Err LInvalid.
Proof.
  repeat match goal with |- _ /\ _ => split end; try (vm_compute; reflexivity).
  intros (mn & m & incl & i & [= <- <- <-] & F & _ & L). cbn in F. lia.
Qed.

Print Assumptions C116_base.
Print Assumptions C116_decoded_refuted.
Print Assumptions C116_identifiers.
Print Assumptions C116_integers.
Print Assumptions C116_numbers.
Print Assumptions C116_length.
Print Assumptions C116_line.
