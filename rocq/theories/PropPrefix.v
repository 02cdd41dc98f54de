(** Property C105: past its limit a text is refused, whatever comes after. *)
From Verif Require Import Base LengthModel Utf8 StrFacts LineModel LineSpec LineProofs IntModel IntStr IntStrProofs BooleanModel BooleanProofs MacModel MacSpec EmailModel.
From Verif Require Import PropLine PropBoolean PropMac PropEmail IdnaFrag.
Local Open Scope N_scope.

(** The verdict on a text that begins with [s] is known from [s]: it is refused with an error that does not depend on the rest. *)
Definition settled {E A} (parse : list N -> outcome E A) (s : list N) : Prop := exists e, forall t, parse (s ++ t) = Err e.

Lemma no_panic k a s : line_v_parse_str k a s <> Panic.
Proof.
  intros H. rewrite line_v_eq in H. destruct (trims_exists s) as (x & m & y & T).
  pose proof (line_err_ok k (a_byte a) (a_min a) (a_tmin a) (a_max a) s x m y T) as X. rewrite H in X. exact X.
Qed.
Lemma over_long k a m s : a_max a = Some m -> m < len (a_byte a) s -> exists e, line_v_parse_str k a s = Err e.
Proof.
  intros M L. destruct (line_v_parse_str k a s) as [[]|e|] eqn:E; [|eauto|destruct (no_panic _ _ _ E)]. exfalso.
  assert (line_parse_str k a s = Ok s) as P by (unfold line_parse_str; rewrite E; reflexivity).
  assert (at_most (a_max a) (len (a_byte a) s)) as X.
  { destruct (a_tmin a) as [t|] eqn:T.
    - apply (proj1 (C12_trimmed_min_exact k a t s s T)) in P. destruct P as (_ & x & y & z & _ & _ & _ & Y & _). exact Y.
    - apply (proj1 (C11_no_trimmed_min_exact k a s s T)) in P. tauto. }
  specialize (X _ M). lia.
Qed.
Lemma settled_v k a s : settled (line_v_parse_str k a) s -> settled (line_parse_str k a) s /\ settled (line_validate_str k a) s.
Proof.
  intros [e H]. split; exists e; intros t; [unfold line_parse_str|unfold line_validate_str]; rewrite H; reflexivity.
Qed.
Lemma take_prefix n s t : List.length s = N.to_nat n -> take n (s ++ t) = s.
Proof. intros L. unfold take. rewrite <- L, firstn_app, firstn_all, Nat.sub_diag. apply app_nil_r. Qed.
Lemma handle_take k min tmin m s t : List.length s = N.to_nat (m + 1) ->
  handle_str k false min tmin (Some m) (s ++ t) = handle_str k false min tmin (Some m) s.
Proof.
  intros L. assert (take (m + 1) s = s) as E by (rewrite <- (app_nil_r s) at 1; apply take_prefix, L).
  unfold handle_str. destruct min, tmin; rewrite (take_prefix _ _ t L), E; reflexivity.
Qed.

(** C105, lengths in characters: the verdict is settled by the first [max + 1] characters. *)
Theorem C105_characters : forall k a m s, a_byte a = false -> a_max a = Some m -> N.of_nat (List.length s) = m + 1 ->
  settled (line_parse_str k a) s /\ settled (line_validate_str k a) s.
Proof.
  intros k a m s B M L. apply settled_v. destruct (over_long k a m s M) as [e E]; [rewrite B; unfold len; lia|].
  exists e. intros t. rewrite line_v_eq in *. rewrite B, M in *. rewrite handle_take by lia. exact E.
Qed.
Print Assumptions C105_characters.

Lemma inner_settled k m : forall s counter trimmed temp, m < counter + len true s -> counter <= m ->
  settled (fun t => inner k true (Some m) t counter trimmed temp) s.
Proof.
  induction s as [|c s IH]; intros counter trimmed temp L C; [rewrite len_nil in L; lia|].
  rewrite len_cons in L. unfold settled. cbn [app inner]. destruct (ctl k c); [eauto|]. unfold over.
  destruct (N.ltb_spec m (counter + unit_len true c)); [eauto|].
  destruct (is_whitespace c); apply IH; lia.
Qed.
Lemma outer_settled k m fin empty : forall s counter, m < counter + len true s -> counter <= m ->
  settled (fun t => outer k true (Some m) (Some m) fin empty t counter) s.
Proof.
  induction s as [|c s IH]; intros counter L C; [rewrite len_nil in L; lia|].
  rewrite len_cons in L. unfold settled. cbn [app outer]. unfold over at 1.
  destruct (N.ltb_spec m (counter + unit_len true c)); [eauto|].
  destruct (negb (is_whitespace c)); [|apply IH; lia]. destruct (ctl k c); [eauto|].
  destruct (inner_settled k m s (counter + unit_len true c) (unit_len true c) 0) as [e X]; [lia|lia|].
  exists e. intros t. rewrite X. reflexivity.
Qed.

(** C105, lengths in bytes: once there are more than [max] bytes, if there is no trimmed minimum or there is a minimum too. *)
Theorem C105_bytes_partial : forall k a m s, a_byte a = true -> a_max a = Some m -> m < len true s ->
  a_tmin a = None \/ a_min a <> None -> settled (line_parse_str k a) s /\ settled (line_validate_str k a) s.
Proof.
  intros k a m s B M L C. apply settled_v.
  assert (forall t, m < N.of_nat (List.length (utf8 (s ++ t)))) as K.
  { intros t. change (m < len true (s ++ t)). rewrite len_app. lia. }
  assert (settled (fun t => handle_str k true (a_min a) (a_tmin a) (Some m) t) s) as [e H].
  { destruct (a_tmin a) as [tm|]; [destruct C as [C|C]; [discriminate C|]; destruct (a_min a) as [mn|]; [|contradiction]|].
    - apply outer_settled; lia.
    - exists LTooLong. intros t. unfold handle_str. specialize (K t). apply N.ltb_lt in K. destruct (a_min a); rewrite K; reflexivity. }
  exists e. intros t. rewrite line_v_eq, B, M. apply H.
Qed.
Print Assumptions C105_bytes_partial.

(** In the remaining case every over-long text is refused, but the error may depend on what stands arbitrarily far behind the limit:
    the whole text is read (line/mod.rs:306-322 has no check, unlike 117-138). *)
Theorem C105_over_long_refused : forall k a m s, a_max a = Some m -> m < len (a_byte a) s ->
  exists e, line_parse_str k a s = Err e /\ line_validate_str k a s = Err e.
Proof.
  intros k a m s M L. destruct (over_long k a m s M L) as [e E]. exists e. unfold line_parse_str, line_validate_str. rewrite E. split; reflexivity.
Qed.
Print Assumptions C105_over_long_refused.

Lemma inner_as k : forall n counter trimmed r,
  inner k true None (repeat 97 n ++ r) counter trimmed 0 = inner k true None r (counter + N.of_nat n) (trimmed + N.of_nat n) 0.
Proof.
  induction n as [|n IH]; intros counter trimmed r; cbn [repeat app]; [f_equal; lia|].
  cbn [inner]. replace (ctl k 97) with false by (destruct k; reflexivity). unfold over.
  replace (is_whitespace 97) with false by reflexivity. change (unit_len true 97) with 1.
  rewrite IH. f_equal; lia.
Qed.
Theorem C105_bytes_refuted : forall k n, exists a s, accepted_attr a /\ a_byte a = true /\ a_max a = Some 4 /\
  4 + N.of_nat n < len true s /\ ~ settled (line_parse_str k a) s /\
  line_parse_str k a s = Err LTooLong /\ line_parse_str k a (s ++ [0]) = Err LInvalid.
Proof.
  intros k n. exists (Some (true, mk_len None (Some 1) (Some 4))), (repeat 97 (5 + n)).
  assert (forall r, line_parse_str k (Some (true, mk_len None (Some 1) (Some 4))) (repeat 97 (5 + n) ++ r) =
    let? _ := (let? ct := inner k true None r (5 + N.of_nat n) (5 + N.of_nat n) 0 in
      (if 1 <=? snd ct then if fst ct <=? 4 then Ok tt else Err LTooLong else Err LTooShort)) in Ok (repeat 97 (5 + n) ++ r)) as K.
  { intros r. unfold line_parse_str, line_v_parse_str, handle_str. cbn [l_max l_min l_tmin].
    change (repeat 97 (5 + n)) with (97 :: repeat 97 (4 + n)). cbn [app]. unfold outer. fold outer.
    change (unit_len true 97) with 1. change (over (Some 4) (0 + 1)) with false.
    replace (is_whitespace 97) with false by reflexivity. cbn [negb]. replace (ctl k 97) with false by (destruct k; reflexivity).
    rewrite inner_as. replace (0 + 1 + N.of_nat (4 + n)) with (5 + N.of_nat n) by lia. replace (1 + N.of_nat (4 + n)) with (5 + N.of_nat n) by lia. reflexivity. }
  assert (line_parse_str k (Some (true, mk_len None (Some 1) (Some 4))) (repeat 97 (5 + n)) = Err LTooLong) as R1.
  { rewrite <- (app_nil_r (repeat 97 (5 + n))), K. cbn [inner obind fst snd].
    replace (1 <=? 5 + N.of_nat n) with true by (symmetry; apply N.leb_le; lia).
    replace (5 + N.of_nat n <=? 4) with false by (symmetry; apply N.leb_gt; lia). reflexivity. }
  assert (line_parse_str k (Some (true, mk_len None (Some 1) (Some 4))) (repeat 97 (5 + n) ++ [0]) = Err LInvalid) as R2.
  { rewrite K. cbn [inner]. replace (ctl k 0) with true by (destruct k; reflexivity). reflexivity. }
  split; [exists (Some [UByteLength [LTrimmedMin (Some 1); LMax (Some 4)]]); reflexivity|]. do 2 (split; [reflexivity|]).
  split.
  { assert (forall j, len true (repeat 97 j) = N.of_nat j) as W.
    { induction j as [|j IH]; [reflexivity|]. cbn [repeat]. rewrite len_cons, IH. change (unit_len true 97) with 1. lia. }
    rewrite W. lia. }
  split; [|split; assumption]. intros [e X]. pose proof (X []) as Y. rewrite app_nil_r, R1 in Y. specialize (X [0]). rewrite R2 in X. congruence.
Qed.
Print Assumptions C105_bytes_refuted.

(** C105, the other validators with a greatest length: e-mail addresses (320 bytes), MAC addresses (17), uuids (36) and boolean
    words (5). *)
Theorem C105_fixed : forall s,
  (forall idna prof c, (320 < List.length s)%nat -> settled (email_parse_str idna prof c) s /\ settled (email_validate_str idna prof c) s) /\
  (forall case sep, (17 < List.length s)%nat -> settled (mac_parse_str case sep) s /\ settled (mac_validate_str case sep) s) /\
  (forall case sep, (36 < List.length s)%nat -> settled (uuid_parse_str case sep) s /\ settled (uuid_validate_str case sep) s) /\
  ((5 < List.length s)%nat -> settled bool_parse_str s).
Proof.
  intros s. assert (forall n t, (n < List.length s)%nat -> (n < List.length (s ++ t))%nat) as K by (intros n t; rewrite app_length; lia).
  split; [|split; [|split]].
  - intros idna prof c L.
    assert (forall t, email_v_parse_str idna prof c (s ++ t) = Err EInvalid) as X.
    { intros t. unfold email_v_parse_str. specialize (K _ t L). apply Nat.ltb_lt in K. rewrite K, Bool.orb_true_r. reflexivity. }
    split; exists EInvalid; intros t; [unfold email_parse_str|unfold email_validate_str]; rewrite X; reflexivity.
  - intros case sep L.
    assert (exists e, forall t, mac_iter sep (s ++ t) = Err e) as [e X].
    { destruct sep as [c|c|]; eexists; intros t; unfold mac_iter; specialize (K _ t L).
      - replace (Nat.eqb (List.length (s ++ t)) 17) with false by (symmetry; apply Nat.eqb_neq; lia). reflexivity.
      - replace (List.length (s ++ t) <=? 17)%nat with false by (symmetry; apply Nat.leb_gt; lia). rewrite Bool.andb_false_r. reflexivity.
      - replace (Nat.eqb (List.length (s ++ t)) 12) with false by (symmetry; apply Nat.eqb_neq; lia). reflexivity. }
    split; exists e; intros t; [unfold mac_parse_str, mac_v_parse_str|unfold mac_validate_str, mac_v_validate_str]; rewrite X; reflexivity.
  - intros case sep L.
    assert (exists e, forall t, uuid_iter sep (s ++ t) = Err e) as [e X].
    { destruct sep as [c|c|]; eexists; intros t; unfold uuid_iter; specialize (K _ t L).
      - replace (Nat.eqb (List.length (s ++ t)) 36) with false by (symmetry; apply Nat.eqb_neq; lia). reflexivity.
      - replace (List.length (s ++ t) <=? 36)%nat with false by (symmetry; apply Nat.leb_gt; lia). rewrite Bool.andb_false_r. reflexivity.
      - replace (Nat.eqb (List.length (s ++ t)) 32) with false by (symmetry; apply Nat.eqb_neq; lia). reflexivity. }
    split; exists e; intros t; [unfold uuid_parse_str, uuid_v_parse_str|unfold uuid_validate_str, uuid_v_validate_str]; rewrite X; reflexivity.
  - intros L. exists BooleanError. intros t. specialize (K _ t L).
    destruct (C16_boolean_otherwise (s ++ t)) as [X|[b X]]; [exact X|]. exfalso.
    apply C16_boolean_words in X as (w & W & M).
    assert (List.length (s ++ t) = List.length w) as E by (unfold same_but_case in M; clear -M; induction M; cbn; congruence).
    assert (List.length w <= 5)%nat; [|lia]. clear -W. cbn in W.
    repeat match type of W with _ \/ _ => destruct W as [W|W] | False => contradiction W | _ = _ => injection W as <- <-; cbn; lia end.
Qed.
Print Assumptions C105_fixed.

Example C105_example :
  settled (line_parse_str Line (Some (false, mk_len (Some 2) None (Some 3)))) [97; 98; 99; 100] /\
  ~ settled (line_parse_str Line (Some (false, mk_len (Some 2) None (Some 3)))) [97; 98; 99] /\
  settled (line_parse_str Line (Some (true, mk_len (Some 2) (Some 1) (Some 3)))) [97; 233; 233] /\
  line_parse_str Line (Some (true, mk_len (Some 2) (Some 1) (Some 3))) [97; 233; 233; 0] = Err LTooLong /\
  line_parse_str Line (Some (true, mk_len None (Some 1) (Some 3))) [97; 233; 233; 0] = Err LInvalid /\
  ~ settled bool_parse_str (bs "fals") /\ settled (mac_parse_str AnyCase (SepMust 58)) (bs "00:00:00:00:00:00:").
Proof.
  split; [apply (C105_characters Line (Some (false, mk_len (Some 2) None (Some 3))) 3); reflexivity|].
  split; [intros [e X]; specialize (X []); vm_compute in X; discriminate X|].
  split.
  { apply (C105_bytes_partial Line (Some (true, mk_len (Some 2) (Some 1) (Some 3))) 3); try reflexivity. right. discriminate. }
  do 2 (split; [reflexivity|]). split; [intros [e X]; specialize (X (bs "e")); vm_compute in X; discriminate X|].
  apply (C105_fixed (bs "00:00:00:00:00:00:")). vm_compute. lia.
Qed.
