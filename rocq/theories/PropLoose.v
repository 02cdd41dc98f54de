(** Property C98: loosening the bounds of an attribute does not refuse what was accepted. *)
From Verif Require Import Base RangeModel IntModel IntSpec IntStr IntStrProofs NumberModel NumberSpec NumberProofs SizeModel SizeProofs
  LengthModel LengthProofs Utf8 LineModel LineSpec MacModel MacSpec PhoneModel.
From Verif Require PropInt PropNumber PropSize PropAttr PropLine PropMac PropPhone PropUnionB.
From Coq Require Import Floats.SpecFloat.
Local Open Scope N_scope.

(** The interval between [mn] and [mx] lies in the one between [mn'] and [mx'], as can be seen from the bounds: each bound of the
    second is absent, or further out. *)
Definition within {T} (lt : T -> T -> Prop) (mn mx : option T) (i : bool) (mn' mx' : option T) (i' : bool) : Prop :=
  (mn' = None \/ exists m m', mn = Some m /\ mn' = Some m' /\ (lt m' m \/ m = m')) /\
  (mx' = None \/ exists x x', mx = Some x /\ mx' = Some x' /\ (lt x x' \/ x = x' /\ (i = true -> i' = true))).
(** A looser range: wider if it says what is accepted, narrower if it says what is not. *)
Definition looser {T} (lt : T -> T -> Prop) (r r' : range_option T) : Prop :=
  match r, r' with
  | _, Unlimited => True
  | Inside mn mx i, Inside mn' mx' i' => within lt mn mx i mn' mx' i'
  | Outside mn mx i, Outside mn' mx' i' => within lt mn' mx' i' mn mx i
  | _, _ => False
  end.
Definition lower_min (mn mn' : option N) : Prop := mn' = None \/ exists m m', mn = Some m /\ mn' = Some m' /\ m' <= m.
Definition higher_max (mx mx' : option N) : Prop := mx' = None \/ exists m m', mx = Some m /\ mx' = Some m' /\ m <= m'.

(** C98, integers: the entry points of all types and the texts. *)
Theorem C98_integers : forall sg pw t r r', looser Z.lt r r' -> ~ degenerate sg pw t r -> ~ degenerate sg pw t r' ->
  (forall m i v, fits sg pw m i -> int_parse sg pw t r m i = Ok v -> int_parse sg pw t r' m i = Ok v) /\
  (forall s v, int_parse_str sg pw t r s = Ok v -> int_parse_str sg pw t r' s = Ok v).
Proof.
  intros sg pw t r r' L D D'.
  assert (W : forall mn mx i mn' mx' i' v, within Z.lt mn mx i mn' mx' i' -> in_bounds mn mx i v -> in_bounds mn' mx' i' v).
  { intros mn mx i mn' mx' i' v [A B] [C E]. split.
    - intros m ->. destruct A as [A|(m1 & m2 & -> & [= <-] & A)]; [discriminate|]. specialize (C m1 eq_refl). lia.
    - intros m ->. destruct B as [B|(m1 & m2 & -> & [= <-] & B)]; [discriminate|]. specialize (E m1 eq_refl).
      destruct B as [B|[-> B]]; destruct i, i'; try lia; specialize (B eq_refl); discriminate. }
  assert (X : forall v, allowed r v -> allowed r' v).
  { intros v. destruct r as [mn mx i|mn mx i|], r' as [mn' mx' i'|mn' mx' i'|]; cbn in *; try tauto.
    - now apply W.
    - intros H H'. apply H. now apply (W mn' mx' i'). }
  split.
  - intros m i v F H. destruct (PropInt.C02_integer_entry_points sg pw t r m i D F) as [A _].
    destruct (PropInt.C02_integer_entry_points sg pw t r' m i D' F) as [B _]. apply B. apply A in H. intuition.
  - intros s v H. destruct (PropInt.C03_integer_strings sg pw t r s D) as [A _].
    destruct (PropInt.C03_integer_strings sg pw t r' s D') as [B _]. apply B. apply A in H. intuition.
Qed.
Print Assumptions C98_integers.

(** C98, number: also by allowing NaN and other numbers. *)
Definition flt (a b : spec_float) : Prop := exists x y, xval a = Some x /\ xval b = Some y /\ xlt x y.
Lemma xle_trans x y z : xle x y -> xle y z -> xle x z.
Proof. destruct x, y, z; cbn; lia. Qed.
Lemma xlt_xle x y : xlt x y -> xle x y.
Proof. destruct x, y; cbn; lia. Qed.
Lemma xle_xlt_trans x y z : xle x y -> xlt y z -> xlt x z.
Proof. destruct x, y, z; cbn; lia. Qed.
Theorem C98_number : forall t r r' nan nan' f, looser flt r r' -> nan' = nan \/ nan' = Allow ->
  good_range t r -> good_range t r' -> ~ x_degenerate r -> ~ x_degenerate r' -> is_float_of t f ->
  own_parse_f t r nan f = Ok f -> own_parse_f t r' nan' f = Ok f.
Proof.
  intros t r r' nan nan' f L N G G' D D' F H.
  assert (W : forall mn mx i mn' mx' i' v, within flt mn mx i mn' mx' i' -> good_bound t mn -> good_bound t mx ->
    x_in_bounds mn mx i v -> x_in_bounds mn' mx' i' v).
  { intros mn mx i mn' mx' i' v [A B] G1 G2 [C E]. split.
    - intros m y -> Y. destruct A as [A|(m1 & m2 & -> & [= <-] & A)]; [discriminate|].
      destruct A as [(p & q & P & Q & A)| ->]; [|exact (C _ _ eq_refl Y)].
      specialize (C m1 q eq_refl Q). rewrite Y in P. injection P as <-. apply (xle_trans y q v); [|exact C]. now apply xlt_xle.
    - intros m y -> Y. destruct B as [B|(m1 & m2 & -> & [= <-] & B)]; [discriminate|].
      destruct B as [(p & q & P & Q & B)|[-> B]].
      + rewrite Y in Q. injection Q as ->. specialize (E m1 p eq_refl P).
        assert (X : xlt v q). { apply (xle_xlt_trans v p q); [|exact B]. destruct i; [exact E|now apply xlt_xle]. }
        destruct i'; [now apply xlt_xle|exact X].
      + specialize (E m y eq_refl Y). destruct i, i'; try exact E; [specialize (B eq_refl); discriminate|now apply xlt_xle]. }
  destruct (PropNumber.C05_number_exact t r nan f G D F) as [A _]. destruct (PropNumber.C05_number_exact t r' nan' f G' D' F) as [B _].
  apply B. apply A in H as [_ H]. split; [reflexivity|]. destruct (xval f) as [x|].
  - destruct H as [H1 H2]. split; [destruct N as [->| ->]; [exact H1|discriminate]|].
    destruct r as [mn mx i|mn mx i|], r' as [mn' mx' i'|mn' mx' i'|]; cbn in *; try tauto.
    + destruct G. now apply (W mn mx i).
    + intros H'. apply H2. destruct G'. now apply (W mn' mx' i').
  - destruct N as [->| ->]; [exact H|discriminate].
Qed.
Print Assumptions C98_number.

(** C98, bit and byte. *)
Theorem C98_sizes : forall from_str cap r r',
  within N.lt (r_min r) (r_max r) (r_incl r) (r_min r') (r_max r') (r_incl r') ->
  (forall s v, size_parse_str from_str r s = Ok v -> size_parse_str from_str r' s = Ok v) /\
  (forall u v, size_parse_u128 cap r u = Ok v -> size_parse_u128 cap r' u = Ok v) /\
  (forall u v, size_parse_u64 r u = Ok v -> size_parse_u64 r' u = Ok v).
Proof.
  intros from_str cap r r' [A B].
  assert (W : forall v, size_in r v -> size_in r' v).
  { intros v [C E]. split.
    - intros m X. destruct A as [A|(m1 & m2 & P & Q & A)]; [congruence|]. specialize (C m1 P). assert (m2 = m) by congruence. lia.
    - intros m X. destruct B as [B|(m1 & m2 & P & Q & B)]; [congruence|]. specialize (E m1 P). assert (m2 = m) by congruence. subst m2.
      destruct B as [B|[-> B]]; destruct (r_incl r), (r_incl r'); try lia; specialize (B eq_refl); discriminate. }
  destruct (PropSize.C07_size_exact from_str cap r) as (S1 & S2 & S3 & S4).
  destruct (PropSize.C07_size_exact from_str cap r') as (T1 & T2 & T3 & T4).
  assert (V : forall (x y : outcome size_err N) u v, size_verdict x r u -> size_verdict y r' u -> x = Ok v -> y = Ok v).
  { intros x y u v (P & _) (Q & _) E. apply Q. apply P in E. destruct E as [E1 E2]. split; auto. }
  split; [|split].
  - intros s v H. specialize (S1 s). specialize (T1 s). destruct (from_str s) as [u|]; [exact (V _ _ u v S1 T1 H)|congruence].
  - intros u v H. destruct (N.le_gt_cases u cap) as [C|C]; [exact (V _ _ u v (S2 u C) (T2 u C) H)|].
    rewrite (S3 u C) in H. discriminate.
  - intros u v H. exact (V _ _ u v (S4 u) (T4 u) H).
Qed.
Print Assumptions C98_sizes.

(** C98, length. *)
Theorem C98_length : forall A (len : A -> N) ps ps' mn mx mn' mx' v w,
  coll_attribute ps = Ok (mn, mx) -> coll_attribute ps' = Ok (mn', mx') ->
  (forall m, mn = Some m -> mx <> Some m) -> (forall m, mn' = Some m -> mx' <> Some m) ->
  lower_min mn mn' -> higher_max mx mx' ->
  parse_collection len mn mx v = Ok w -> parse_collection len mn' mx' v = Ok w.
Proof.
  intros A len ps ps' mn mx mn' mx' v w P P' D D' L H E.
  destruct (PropAttr.C08_length_exact A len ps _ _ v P D) as (X & _).
  destruct (PropAttr.C08_length_exact A len ps' _ _ v P' D') as (Y & _). apply Y. apply X in E as [[E1 E2] ->]. split; [|reflexivity].
  split.
  - intros m ->. destruct L as [L|(a & b & -> & [= ->] & L)]; [discriminate|]. specialize (E1 a eq_refl). lia.
  - intros m ->. destruct H as [H|(a & b & -> & [= ->] & H)]; [discriminate|]. specialize (E2 a eq_refl). lia.
Qed.
Print Assumptions C98_length.

(** C98, line and text: the bounds of the same unit, with a trimmed minimum before and after, or neither before nor after. *)
Definition same_trimming (tm tm' : option N) : Prop :=
  (tm = None /\ tm' = None) \/ exists t t', tm = Some t /\ tm' = Some t' /\ t' <= t.
Theorem C98_lines : forall k a a' s v, a_byte a = a_byte a' ->
  lower_min (a_min a) (a_min a') -> higher_max (a_max a) (a_max a') -> same_trimming (a_tmin a) (a_tmin a') ->
  line_parse_str k a s = Ok v -> line_parse_str k a' s = Ok v.
Proof.
  intros k a a' s v B L H T E.
  assert (M1 : forall n, at_least (a_min a) n -> at_least (a_min a') n).
  { intros n X m Y. destruct L as [L|(p & q & P & Q & L)]; [congruence|]. specialize (X p P). assert (q = m) by congruence. lia. }
  assert (M2 : forall n, at_most (a_max a) n -> at_most (a_max a') n).
  { intros n X m Y. destruct H as [H|(p & q & P & Q & H)]; [congruence|]. specialize (X p P). assert (q = m) by congruence. lia. }
  destruct T as [[T T']|(t & t' & T & T' & Lt)].
  - apply (PropLine.C11_no_trimmed_min_exact k a s v T) in E. apply (PropLine.C11_no_trimmed_min_exact k a' s v T').
    rewrite <- B. intuition.
  - apply (PropLine.C12_trimmed_min_exact k a t s v T) in E as (-> & lead & m & trail & X & F & E1 & E2 & E3).
    apply (PropLine.C12_trimmed_min_exact k a' t' s s T'). split; [reflexivity|]. exists lead, m, trail. rewrite <- B.
    repeat split; auto; try apply X. lia.
Qed.
Print Assumptions C98_lines.

(** Counting characters instead of bytes loosens an upper bound, and counting bytes instead of characters a lower one. *)
Theorem C98_units : forall k (n : N) s v,
  (line_parse_str k (Some (true, mk_len None None (Some n))) s = Ok v -> line_parse_str k (Some (false, mk_len None None (Some n))) s = Ok v) /\
  (line_parse_str k (Some (false, mk_len (Some n) None None)) s = Ok v -> line_parse_str k (Some (true, mk_len (Some n) None None)) s = Ok v).
Proof.
  intros k n s v.
  assert (U : forall s, len false s <= len true s).
  { intros u. unfold len. assert (X : (List.length u <= List.length (utf8 u))%nat).
    { induction u as [|c u IH]; [cbn; lia|]. change (utf8 (c :: u)) with (utf8_char c ++ utf8 u). rewrite app_length.
      assert (1 <= List.length (utf8_char c))%nat. { unfold utf8_char. repeat destruct (_ <? _); cbn; lia. }
      cbn [List.length]. lia. }
    lia. }
  split; intros E; apply PropLine.C11_no_trimmed_min_exact in E; try reflexivity; destruct E as (-> & F & A & B);
    apply PropLine.C11_no_trimmed_min_exact; try reflexivity; cbn in *; specialize (U s).
  - repeat split; auto; [intros m [=]|]. intros m [= <-]. specialize (B n eq_refl). cbn in B. lia.
  - repeat split; auto; [|intros m [=]]. intros m [= <-]. specialize (A n eq_refl). cbn in A. lia.
Qed.
Print Assumptions C98_units.

(** Taking a trimmed minimum away refuses the texts that begin with a line break (or with other white control characters), which
    it let pass (C13). *)
Theorem C98_trimmed_min_refuted : exists k s, line_parse_str k (Some (false, mk_len None (Some 1) None)) s = Ok s /\
  line_parse_str k (Some (false, mk_len None None None)) s = Err LInvalid /\ line_parse_str k None s = Err LInvalid.
Proof. exists Line, [10; 97]. repeat split; reflexivity. Qed.
Print Assumptions C98_trimmed_min_refuted.

(** C98, mac_address and uuid: any case instead of one, and a separator that need not be there. *)
Definition looser_case (c c' : case_option) : Prop := c' = c \/ c' = AnyCase.
Definition looser_sep (s s' : sep_option) : Prop := s' = s \/ exists c, s' = SepAllow c /\ (s = SepMust c \/ s = SepDisallow).
Theorem C98_hex : forall case case' sep sep' v x, looser_case case case' -> looser_sep sep sep' ->
  sep_not_digit case' sep' ->
  (mac_parse_str case sep v = Ok x -> mac_parse_str case' sep' v = Ok x) /\
  (uuid_parse_str case sep v = Ok x -> uuid_parse_str case' sep' v = Ok x).
Proof.
  intros case case' sep sep' v x C S N'.
  assert (H : forall d y, hex_denotes case d y -> hex_denotes case' d y).
  { intros d y D. destruct C as [->| ->]; [exact D|]. induction D; [constructor|]. constructor; [|assumption].
    destruct H as (a & A & E). destruct case; cbn in A; [exists a; auto| |];
      destruct A as [<-|[]]; eexists; (split; [|exact E]); cbn; auto. }
  assert (G : forall sizes d, grouped sep sizes v d -> grouped sep' sizes v d).
  { intros sizes d. destruct S as [->|(c & -> & S)]; [auto|]. intros D. induction D as [|g s sizes v d F D IH]; constructor; [|exact IH].
    destruct S as [->| ->]; cbn in *; auto. }
  split; intros E.
  - apply PropMac.C25_mac_accepts_only in E as (d & D1 & D2). apply PropMac.C25_mac_accepts_exactly; [exact N'|]. eauto.
  - apply PropMac.C28_uuid_accepts_only in E as (d & D1 & D2). apply PropMac.C28_uuid_accepts_exactly; [exact N'|]. eauto.
Qed.
Print Assumptions C98_hex.
(** A separator that is a digit: where it may stand it is never read as a digit. *)
Theorem C98_hex_refuted : exists sep x y,
  (mac_parse_str AnyCase SepDisallow (bs "00a000000000") = Ok x /\ mac_parse_str AnyCase (SepAllow sep) (bs "00a000000000") = Err HInvalid) /\
  (uuid_parse_str AnyCase SepDisallow (bs "00000000a00000000000000000000000") = Ok y /\
   uuid_parse_str AnyCase (SepAllow sep) (bs "00000000a00000000000000000000000") = Err HInvalid).
Proof. exists 97. do 2 eexists. vm_compute. repeat split. Qed.
Print Assumptions C98_hex_refuted.

(** C98, phone: a longer list of countries, as long as the library can read the text for all of them ... *)
Theorem C98_phone_partial : forall cid eqb phone perr parse country valid,
  (forall a b : cid, eqb a b = true <-> a = b) -> forall cs cs' s, cs <> [] -> NoDup cs -> NoDup cs' -> incl cs cs' ->
  (forall c, In c cs' -> exists p, parse (Some c) s = inl p) ->
  is_ok (phone_parse_str cid eqb phone perr parse country valid cs s) ->
  is_ok (phone_parse_str cid eqb phone perr parse country valid cs' s).
Proof.
  intros cid eqb phone perr parse country valid E cs cs' s NE D D' I R H.
  assert (X : exists c p, In c cs /\ parse (Some c) s = inl p /\ country p = Some c /\ valid p = true).
  { destruct cs as [|c [|c2 cs]]; [congruence| |].
    - destruct H as [v V]. apply PropPhone.C51_one_country in V as (p & _ & V); [|exact E]. exists c, p. split; [now left|exact V].
    - destruct (PropPhone.C51_several_countries cid eqb phone perr parse country valid E (c :: c2 :: cs) s) as [_ X];
        [cbn; lia|exact D|]. apply X in H as [_ H]. exact H. }
  destruct X as (c & p & C & P). destruct cs' as [|c1 [|c2 cs']].
  - destruct (I c C).
  - destruct (I c C) as [->|[]]. exists (POne p). apply PropPhone.C51_one_country; eauto.
  - destruct (PropPhone.C51_several_countries cid eqb phone perr parse country valid E (c1 :: c2 :: cs') s) as [_ X];
      [cbn; lia|exact D'|]. apply X. split; [exact R|]. exists c, p. auto.
Qed.
Print Assumptions C98_phone_partial.

(** ... otherwise not: a country added, or the list left out, can refuse a number. *)
Theorem C98_phone_refuted : exists cid eqb phone perr parse country valid cs s c,
  (forall a b : cid, eqb a b = true <-> a = b) /\ NoDup (c :: cs) /\
  is_ok (phone_parse_str cid eqb phone perr parse country valid cs s) /\
  ~ is_ok (phone_parse_str cid eqb phone perr parse country valid (c :: cs) s) /\
  ~ is_ok (phone_parse_str cid eqb phone perr parse country valid [] s).
Proof.
  exists N, N.eqb, N, unit, (fun c s => match c with Some 886 => if eqbs s (bs "0912345678") then inl 886 else inr tt | _ => inr tt end),
    (fun p => Some p), (fun _ => true), [886], (bs "0912345678"), 1.
  split; [intros; apply N.eqb_eq|]. split; [repeat constructor; cbn; intuition discriminate|].
  split; [eexists; vm_compute; reflexivity|]. split; intros [v V]; vm_compute in V; discriminate.
Qed.
Print Assumptions C98_phone_refuted.

Example C98_example :
  looser Z.lt (Inside (Some 3%Z) (Some 5%Z) false) (Inside (Some 3%Z) (Some 5%Z) true) /\
  looser Z.lt (Outside None (Some 5%Z) true) (Outside (Some (-7)%Z) (Some 5%Z) false) /\
  ~ degenerate true W64 I8 (Outside (Some (-7)%Z) (Some 5%Z) false) /\
  int_parse_str true W64 I8 (Outside None (Some 5%Z) true) (bs "6") = Ok 6%Z /\
  int_parse_str true W64 I8 (Outside (Some (-7)%Z) (Some 5%Z) false) (bs "6") = Ok 6%Z /\
  int_parse_str true W64 I8 (Outside None (Some 5%Z) true) (bs "5") = Err Forbidden /\
  int_parse_str true W64 I8 (Outside (Some (-7)%Z) (Some 5%Z) false) (bs "5") = Ok 5%Z /\
  same_trimming (Some 2) (Some 1) /\ looser_sep SepDisallow (SepAllow 45).
Proof.
  split; [split; right; do 2 eexists; repeat split; auto|]. split; [split; [now left|]; right; do 2 eexists; repeat split; auto|].
  split; [intros [[i X]|[X _]]; discriminate|]. repeat split; try reflexivity.
  - right. do 2 eexists. repeat split. lia.
  - right. eexists. auto.
Qed.
