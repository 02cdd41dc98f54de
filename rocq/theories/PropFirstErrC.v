(** Property C135, continued: lines and texts. *)
From Verif Require Import Base RangeModel LengthModel Utf8 LineModel LineSpec LineProofs PropFirstErr.
Local Open Scope N_scope.

(** The characters that a validator that counts characters looks at. *)
Definition looked_at (max : option N) (s : list N) : list N :=
  match max with Some m => firstn (N.to_nat (m + 1)) s | None => s end.

Lemma fb_dec {E A} (good : A -> Prop) (P : Prop) (e : E) rest (r : outcome E A) :
  (~ P -> r = Err e) -> (P -> first_broken good rest r) -> first_broken good ((P, e) :: rest) r.
Proof. intros F T. split; assumption. Qed.

(** A line or text validator without [trimmed_min] that counts octets looks at the length first and at the characters
    last. *)
Theorem C135_line_bytes : forall k a s, a_tmin a = None -> a_byte a = true ->
  first_broken (fun r => r = s)
    [(at_most (a_max a) (len true s), LTooLong); (at_least (a_min a) (len true s), LTooShort);
     (Forall (fun c => ~ forbidden k c) s, LInvalid)]
    (line_parse_str k a s).
Proof.
  intros k [[b [mi ti ma]]|] s Ht Hb; [|discriminate Hb]. cbn in Ht, Hb. subst ti b.
  unfold line_parse_str, line_v_parse_str, handle_str. cbn [l_min l_max l_tmin a_min a_max].
  pose proof (scan_bytes_spec k s) as HB.
  assert (HI : ~ Forall (fun c => ~ forbidden k c) s -> scan_bytes k (utf8 s) = Err LInvalid).
  { intros N. destruct (scan_bytes k (utf8 s)) as [?|[]|]; try contradiction. reflexivity. }
  assert (HO : Forall (fun c => ~ forbidden k c) s -> scan_bytes k (utf8 s) = Ok tt).
  { intros F. destruct (scan_bytes k (utf8 s)) as [[]|[]|]; try contradiction; [reflexivity|].
    exfalso. exact (forall_not_exists _ _ F HB). }
  change (N.of_nat (List.length (utf8 s))) with (len true s).
  apply fb_dec; [intros K|intros K; apply fb_dec; [intros K1|intros K1; apply fb_dec; [intros K2|intros K2; cbn [first_broken]]]].
  - destruct ma as [x|]; [|destruct K; apply at_most_none; exact I]. rewrite at_most_some in K.
    assert (L : (x <? len true s) = true) by lia. destruct mi; rewrite L; reflexivity.
  - destruct mi as [y|]; [|destruct K1; apply at_least_none; exact I]. rewrite at_least_some in K1.
    assert (L : (len true s <? y) = true) by lia. destruct ma as [x|]; [|rewrite L; reflexivity].
    rewrite at_most_some in K. assert (L' : (x <? len true s) = false) by lia. rewrite L', L. reflexivity.
  - rewrite (HI K2). destruct mi as [y|], ma as [x|]; rewrite ?at_most_some in K; rewrite ?at_least_some in K1;
      try (assert (L' : (x <? len true s) = false) by lia; rewrite L');
      try (assert (L : (len true s <? y) = false) by lia; rewrite L); reflexivity.
  - exists s. split; [|reflexivity]. rewrite (HO K2). destruct mi as [y|], ma as [x|]; rewrite ?at_most_some in K; rewrite ?at_least_some in K1;
      try (assert (L' : (x <? len true s) = false) by lia; rewrite L');
      try (assert (L : (len true s <? y) = false) by lia; rewrite L); reflexivity.
Qed.

(** One that counts characters looks at the characters first, up to one more than the greatest length, and at the
    length last. *)
Theorem C135_line_chars : forall k a s, accepted_attr a -> a_tmin a = None -> a_byte a = false ->
  first_broken (fun r => r = s)
    [(Forall (fun c => ~ forbidden k c) (looked_at (a_max a) s), LInvalid);
     (at_least (a_min a) (len false s), LTooShort); (at_most (a_max a) (len false s), LTooLong)]
    (line_parse_str k a s).
Proof.
  intros k a s Ha Ht Hb.
  assert (NB : forall t, Forall (fun c => ~ forbidden k c) t -> scan_chars k t 0 = Ok (len false t)).
  { intros t F. pose proof (scan_chars_spec k t 0) as H. destruct (scan_chars k t 0) as [?|[]|]; try contradiction.
    - destruct H as [_ ->]. reflexivity.
    - exfalso. exact (forall_not_exists _ _ F H). }
  assert (IB : forall t, ~ Forall (fun c => ~ forbidden k c) t -> scan_chars k t 0 = Err LInvalid).
  { intros t F. pose proof (scan_chars_spec k t 0) as H. destruct (scan_chars k t 0) as [?|[]|]; try contradiction.
    - destruct (F (proj1 H)).
    - reflexivity. }
  destruct a as [[b [mi ti ma]]|].
  - cbn in Ht, Hb. subst ti b. destruct (accepted_good _ _ Ha) as (_ & G & _). cbn [l_min l_max] in G.
    unfold line_parse_str, line_v_parse_str, handle_str. cbn [l_min l_max l_tmin a_min a_max].
    apply fb_dec; [intros K|intros K; apply fb_dec; [intros K1|intros K1; apply fb_dec; [intros K2|intros K2; cbn [first_broken]]]].
    + apply IB in K. destruct mi, ma; cbn [looked_at] in K; unfold take; try rewrite K; try reflexivity.
      pose proof (scan_bytes_spec k s) as HB. destruct (scan_bytes k (utf8 s)) as [?|[]|]; try contradiction; [|reflexivity].
      rewrite (NB _ HB) in K. discriminate K.
    + apply NB in K. destruct mi as [y|]; [|destruct K1; apply at_least_none; exact I]. rewrite at_least_some in K1.
      destruct ma as [x|]; cbn [looked_at] in K.
      * unfold take. rewrite K. cbn [obind]. assert (L : (len false (firstn (N.to_nat (x + 1)) s) <? y) = true).
        { pose proof (take_len (x + 1) s) as T. unfold take in T. lia. }
        rewrite L. reflexivity.
      * rewrite K. cbn [obind]. assert (L : (y <=? len false s) = false) by lia. rewrite L. reflexivity.
    + apply NB in K. destruct ma as [x|]; [|destruct K2; apply at_most_none; exact I]. rewrite at_most_some in K2.
      cbn [looked_at] in K. pose proof (take_len (x + 1) s) as T. unfold take in *.
      destruct mi as [y|]; rewrite K; cbn [obind].
      * pose proof (G y x eq_refl eq_refl) as G'.
        assert (L : (len false (firstn (N.to_nat (x + 1)) s) <? y) = false) by lia. rewrite L.
        assert (L' : (x <? len false (firstn (N.to_nat (x + 1)) s)) = true) by lia. rewrite L'. reflexivity.
      * assert (L' : (len false (firstn (N.to_nat (x + 1)) s) <=? x) = false) by lia. rewrite L'. reflexivity.
    + exists s. split; [|reflexivity]. destruct ma as [x|]; cbn [looked_at] in K.
      * rewrite at_most_some in K2. pose proof (take_all (x + 1) s ltac:(lia)) as T. change (firstn (N.to_nat (x + 1)) s) with (take (x + 1) s) in K.
        rewrite T in *. apply NB in K. destruct mi as [y|]; rewrite K; cbn [obind].
        -- rewrite at_least_some in K1. assert (L : (len false s <? y) = false) by lia. rewrite L.
           assert (L' : (x <? len false s) = false) by lia. rewrite L'. reflexivity.
        -- assert (L' : (len false s <=? x) = true) by lia. rewrite L'. reflexivity.
      * destruct mi as [y|].
        -- rewrite at_least_some in K1. apply NB in K. rewrite K. cbn [obind]. assert (L : (y <=? len false s) = true) by lia.
           rewrite L. reflexivity.
        -- pose proof (scan_bytes_spec k s) as HB. destruct (scan_bytes k (utf8 s)) as [[]|[]|]; try contradiction; [reflexivity|].
           exfalso. exact (forall_not_exists _ _ K HB).
  - unfold line_parse_str, line_v_parse_str, handle_str. cbn [a_min a_max looked_at].
    pose proof (scan_bytes_spec k s) as HB.
    apply fb_dec; [intros K|intros K; apply fb_dec; [intros K1; destruct K1; apply at_least_none; exact I
      |intros K1; apply fb_dec; [intros K2; destruct K2; apply at_most_none; exact I|intros K2; cbn [first_broken]]]].
    + destruct (scan_bytes k (utf8 s)) as [?|[]|]; try contradiction. reflexivity.
    + exists s. split; [|reflexivity]. destruct (scan_bytes k (utf8 s)) as [[]|[]|]; try contradiction; [reflexivity|].
      exfalso. exact (forall_not_exists _ _ K HB).
Qed.

(** With [trimmed_min] and without [max], octets and characters alike: a forbidden character behind the leading white
    space first, then the two least lengths. *)
Theorem C135_line_trimmed : forall k a t s lead m trail, a_tmin a = Some t -> a_max a = None -> trims s lead m trail ->
  first_broken (fun r => r = s)
    [(Forall (fun c => ~ forbidden k c) (m ++ trail), LInvalid);
     (at_least (a_min a) (len (a_byte a) s) /\ t <= len (a_byte a) m, LTooShort)]
    (line_parse_str k a s).
Proof.
  intros k [[b [mi ti ma]]|] t s lead m trail Ht Hm Hs; [|discriminate Ht]. cbn in Ht, Hm. subst ti ma.
  unfold line_parse_str, line_v_parse_str, handle_str. cbn [l_min l_max l_tmin a_min a_max a_byte].
  assert (Z : m = [] -> len b m = 0) by (intros ->; apply len_nil).
  apply fb_dec; [intros K|intros K; apply fb_dec; [intros K1|intros K1; cbn [first_broken]]]; destruct mi as [y|];
    match goal with |- context [outer k b None None ?fin ?empty s 0] =>
      destruct (outer_cases k b None None fin empty s lead m trail Hs eq_refl eq_refl (or_introl eq_refl))
        as [[_ O]|[[R X]|(F & _ & R & _)]] end;
    try discriminate O; try (destruct (K F)); try (exfalso; exact (forall_not_exists _ _ K X));
    try (rewrite R; reflexivity).
  - rewrite at_least_some in K1. rewrite R. destruct m as [|c m]; cbn [obind].
    + rewrite (Z eq_refl) in K1. destruct (t =? 0) eqn:T; [|reflexivity].
      assert (L : (y <=? len b s) = false) by lia. rewrite L. reflexivity.
    + assert (L : ((t <=? len b (c :: m)) && (y <=? len b s))%bool = false) by lia. rewrite L. reflexivity.
  - rewrite R. assert (K2 : ~ t <= len b m) by (intros K2; apply K1; split; [apply at_least_none; exact I|exact K2]).
    destruct m as [|c m]; cbn [obind].
    + rewrite (Z eq_refl) in K2. assert (L : (t =? 0) = false) by lia. rewrite L. reflexivity.
    + assert (L : (t <=? len b (c :: m)) = false) by lia. rewrite L. reflexivity.
  - exists s. split; [|reflexivity]. rewrite at_least_some in K1. destruct K1 as [K1 K2]. rewrite R. destruct m as [|c m]; cbn [obind].
    + rewrite (Z eq_refl) in K2. assert (L : (t =? 0) = true) by lia. rewrite L.
      assert (L' : (y <=? len b s) = true) by lia. rewrite L'. reflexivity.
    + assert (L : ((t <=? len b (c :: m)) && (y <=? len b s))%bool = true) by lia. rewrite L. reflexivity.
  - exists s. split; [|reflexivity]. destruct K1 as [_ K2]. rewrite R. destruct m as [|c m]; cbn [obind].
    + rewrite (Z eq_refl) in K2. assert (L : (t =? 0) = true) by lia. rewrite L. reflexivity.
    + assert (L : (t <=? len b (c :: m)) = true) by lia. rewrite L. reflexivity.
Qed.

(** By the first two the same ASCII text under the same bound is too long for one validator and
    invalid for the other. *)
Theorem C135_line_order_refuted : exists k l s, accepted_attr (Some (true, l)) /\ accepted_attr (Some (false, l)) /\
  Forall (fun c => c < 128) s /\ line_parse_str k (Some (true, l)) s = Err LTooLong /\
  line_parse_str k (Some (false, l)) s = Err LInvalid.
Proof.
  exists Line, (mk_len None None (Some 2)), [97; 10; 98].
  split; [exists (Some [UByteLength [LMax (Some 2)]]); reflexivity|].
  split; [exists (Some [UCharLength [LMax (Some 2)]]); reflexivity|].
  split; [repeat constructor; lia|]. split; reflexivity.
Qed.

(** Texts that break two rules. *)
Example C135_line_example :
  accepted_attr (Some (true, mk_len (Some 3) None (Some 5))) /\ accepted_attr (Some (false, mk_len (Some 3) None (Some 5))) /\
  line_parse_str Text (Some (true, mk_len (Some 3) None (Some 5))) [0; 97] = Err LTooShort /\
  line_parse_str Text (Some (false, mk_len (Some 3) None (Some 5))) [0; 97] = Err LInvalid /\
  line_parse_str Text (Some (false, mk_len (Some 3) None (Some 5))) [97; 97; 97; 97; 97; 97; 0] = Err LTooLong /\
  line_parse_str Text (Some (true, mk_len None (Some 3) None)) [32; 97; 0; 32] = Err LInvalid.
Proof.
  split; [exists (Some [UByteLength [LMin (Some 3); LMax (Some 5)]]); reflexivity|].
  split; [exists (Some [UCharLength [LMin (Some 3); LMax (Some 5)]]); reflexivity|].
  split; [reflexivity|]. split; [reflexivity|]. split; reflexivity.
Qed.

Print Assumptions C135_line_bytes.
Print Assumptions C135_line_chars.
Print Assumptions C135_line_trimmed.
Print Assumptions C135_line_order_refuted.
