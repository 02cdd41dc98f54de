(** The parts of an email address. *)
From Verif Require Import Base IntStr IntStrProofs NetModel NetSpec NetProofs IpModel IpSpec LocalProofs IpProofs
  Utf8 StrFacts Serde DomainModel DomainSpec DomainProofs HostModel HostSpec HostProofs EmailModel EmailSpec EmailProofs.
Local Open Scope N_scope.

Lemma skipn_cons_len {A} (a : list A) x b : skipn (List.length a + 1) (a ++ x :: b) = b.
Proof.
  replace (a ++ x :: b) with ((a ++ [x]) ++ b) by (rewrite <- app_assoc; reflexivity).
  replace (List.length a + 1)%nat with (List.length (a ++ [x])) by (rewrite app_length; reflexivity).
  apply skipn_app_len.
Qed.

Lemma ascii_end_snoc a x : x < 128 -> ascii_end (a ++ [x]).
Proof. intros H. right. eauto. Qed.

(** The unquoted local part. *)
Lemma unquoted_cons na o e b : unquoted na o (e :: b) <->
  local_char na e /\ e <> 46 /\ unq_tail na (o + 1) false b.
Proof.
  unfold unquoted, unq_tail. cbn [dotted]. split.
  - intros (_ & H1 & H2 & H3 & H4). inversion H2 as [|? ? F1 F2]. assert (N : e <> 46) by (intros ->; exact (H1 _ eq_refl)).
    split; [exact F1|]. split; [exact N|]. split; [exact F2|]. split; [rewrite <- (double_dot_skip e b N); exact H3|].
    intros i y Hi Hy. specialize (H4 (S i) y Hi ltac:(lia) Hy). lia.
  - intros (H1 & H2 & H3 & H4 & H5). split; [discriminate|]. split; [intros r E; injection E as E _; contradiction|].
    split; [constructor; assumption|]. split; [rewrite (double_dot_skip e b H2); exact H4|].
    intros [|i] y Hi Hlt Hy; [lia|]. cbn in Hi. specialize (H5 i y Hi Hy). lia.
Qed.

Lemma first_unquoted c e : atext e || other_ok c e = true <-> local_char (e_non_ascii c) e /\ e <> 46.
Proof.
  rewrite orb_true_iff, atext_spec. unfold other_ok, local_char. rewrite andb_true_iff, N.leb_le. split.
  - intros [H|[H1 H2]].
    + split; [auto|]. intros ->. apply atext_spec in H. discriminate.
    + split; [auto|lia].
  - intros [[H|[H|H]] N]; [auto|contradiction|auto].
Qed.

Definition local_split (c : email_cfg) (pre rest l : list N) (nq q : bool) (n : nat) : Prop :=
  exists lt r, rest = lt ++ r /\ local_text (e_non_ascii c) (List.length pre) lt l nq q /\
    n = (List.length pre + List.length lt)%nat /\ r <> [] /\ (q = false -> exists x r', r = x :: r' /\ stop_char x).

Lemma local_part_unquoted c pre e rest l nq q n : valid_str (pre ++ e :: rest) -> ascii_end pre -> e <> 34 ->
  (e_local_part c (pre ++ e :: rest) (List.length pre) = Ok (l, nq, q, n) <-> local_split c pre (e :: rest) l nq q n).
Proof.
  intros Hv Ha He. unfold e_local_part. rewrite idx_app. cbn [obind].
  replace (e =? 34) with false by (symmetry; apply N.eqb_neq; exact He).
  rewrite skipn_cons_len. unfold local_split. split.
  - destruct (atext e || other_ok c e) eqn:EF; [|discriminate]. apply first_unquoted in EF as [F1 F2].
    destruct (e_unquoted_loop c rest (List.length pre + 1) false) as [p| |] eqn:EL; cbn [obind]; try discriminate.
    apply unquoted_loop_spec in EL as (b & x & r & -> & Hx & -> & Hb).
    replace (List.length pre + 1 + List.length b)%nat with (List.length pre + List.length (e :: b))%nat by (cbn; lia).
    pose proof (@slice_between email_err pre (e :: b) x r Hv Ha) as X. cbn [app] in X.
    rewrite X by (destruct Hx; subst; lia). cbn [obind]. intros E. injection E as <- <- <- <-.
    exists (e :: b), (x :: r). split; [reflexivity|]. split.
    + left. split; [reflexivity|]. split; [reflexivity|]. split; [|reflexivity]. apply unquoted_cons. auto.
    + split; [reflexivity|]. split; [discriminate|]. intros _. eauto.
  - intros (lt & r & E & HL & -> & Hr & Hs). destruct HL as [(-> & -> & HU & ->)|(-> & -> & _)].
    + destruct (Hs eq_refl) as (x & r' & -> & Hx). destruct l as [|y b]; [destruct HU as [X _]; contradiction|].
      cbn in E. injection E as <- ->. apply unquoted_cons in HU as (F1 & F2 & F3).
      rewrite (proj2 (first_unquoted c e) (conj F1 F2)).
      rewrite (proj2 (unquoted_loop_spec c (b ++ x :: r') (List.length pre + 1) false (List.length pre + 1 + List.length b)))
        by (exists b, x, r'; auto). cbn [obind].
      replace (List.length pre + 1 + List.length b)%nat with (List.length pre + List.length (e :: b))%nat by (cbn; lia).
      pose proof (@slice_between email_err pre (e :: b) x r' Hv Ha) as X. cbn [app] in X.
      rewrite X by (destruct Hx; subst; lia). reflexivity.
    + cbn in E. injection E as E _. contradiction.
Qed.

Lemma local_part_quoted c pre rest l nq q n : valid_str (pre ++ 34 :: rest) -> ascii_end pre ->
  (e_local_part c (pre ++ 34 :: rest) (List.length pre) = Ok (l, nq, q, n) <-> local_split c pre (34 :: rest) l nq q n).
Proof.
  intros Hv Ha. unfold e_local_part. rewrite idx_app. cbn [obind]. change (34 =? 34) with true. cbn iota.
  unfold local_split.
  (* the text after the quote *)
  assert (S34 : pre ++ 34 :: rest = (pre ++ [34]) ++ rest) by (rewrite <- app_assoc; reflexivity).
  assert (L34 : (List.length pre + 1)%nat = List.length (pre ++ [34])) by (rewrite app_length; reflexivity).
  destruct rest as [|x rest].
  { split.
    - replace (List.length pre + 1 =? List.length (pre ++ [34%N]))%nat with true.
      + rewrite orb_true_r. discriminate.
      + symmetry. apply Nat.eqb_eq. exact L34.
    - intros (lt & r & E & HL & _ & Hr & Hs). exfalso. destruct HL as [(-> & -> & HU & _)|(-> & -> & (HQ & _) & _)].
      + destruct (Hs eq_refl) as (y & r' & -> & Hy). destruct l as [|z l]; [destruct HU as [X _]; contradiction|].
        apply unquoted_cons in HU as ([X|[X|[_ X]]] & _); cbn in E; injection E as <- _; [|lia|lia].
        apply atext_spec in X. discriminate.
      + cbn in E. injection E as E. destruct l; [contradiction|discriminate]. }
  replace (List.length pre + 1 =? List.length (pre ++ 34%N :: x :: rest))%nat with false.
  2: { symmetry. apply Nat.eqb_neq. rewrite app_length. cbn. lia. }
  rewrite orb_false_r.
  assert (IX : @idx email_err (pre ++ 34 :: x :: rest) (List.length pre + 1) = Ok x).
  { rewrite S34, L34. apply idx_app. }
  rewrite IX. cbn [obind].
  assert (SK : skipn (List.length pre + 1 + 1) (pre ++ 34 :: x :: rest) = rest).
  { rewrite S34, L34. apply skipn_cons_len. }
  rewrite SK. split.
  - destruct (Nat.eqb_spec (List.length pre + 1) 63) as [|Hp]; [discriminate|].
    destruct (e_quoted_first c x) as [st| |] eqn:EF; cbn [obind]; try discriminate.
    apply quoted_first_spec in EF as [F1 ->]. unfold first_state.
    destruct (e_quoted_loop c rest (List.length pre + 1 + 1) _ _ _) as [[p nq']| |] eqn:EL; cbn [obind]; try discriminate.
    apply quoted_loop_spec in EL as (b & r & -> & -> & Hb & He & ->).
    pose proof (@slice_between email_err (pre ++ [34]) (x :: b) 34 r) as X. rewrite <- app_assoc in X. cbn [app] in X.
    replace (List.length pre + 1 + 1 + List.length b)%nat with (List.length (pre ++ [34%N]) + List.length (x :: b))%nat
      by (rewrite app_length; cbn; lia).
    rewrite L34, X by (assumption || (apply ascii_end_snoc; lia) || lia). cbn [obind].
    destruct (Nat.eqb_spec (List.length (pre ++ [34]) + List.length (x :: b) + 1) (List.length (pre ++ 34 :: x :: b ++ 34 :: r)))
      as [|Hn]; [discriminate|].
    intros E. injection E as <- <- <- <-. exists (34 :: x :: b ++ [34]), r.
    split; [cbn; rewrite <- app_assoc; reflexivity|].
    assert (Hb' : qrun (e_non_ascii c) (List.length pre + 2) (step x false) b) by (replace (List.length pre + 2)%nat with (List.length pre + 1 + 1)%nat by lia; exact Hb).
    split.
    + right. split; [reflexivity|]. split; [reflexivity|]. split; [apply quoted_body; auto|]. apply (needs_spec _ _ _ _ F1 Hb).
    + split; [repeat (rewrite app_length || cbn [List.length app]); lia|]. split; [|discriminate].
      intros ->. apply Hn. rewrite !app_length. cbn [List.length app]. rewrite app_length. cbn. lia.
  - intros (lt & r & E & HL & -> & Hr & Hs). destruct HL as [(-> & -> & HU & _)|(-> & -> & HQ & HN)].
    { exfalso. destruct (Hs eq_refl) as (y & r' & -> & Hy). destruct l as [|z l]; [destruct HU as [X _]; contradiction|].
      apply unquoted_cons in HU as ([X|[X|[_ X]]] & _); cbn in E; injection E as <- _; [|lia|lia].
      apply atext_spec in X. discriminate. }
    destruct l as [|y b]; [destruct HQ as [X _]; contradiction|]. cbn in E. rewrite <- app_assoc in E. cbn in E.
    injection E as <- ->. apply quoted_body in HQ as (F1 & F2 & F3 & F4).
    replace (List.length pre + 1 =? 63)%nat with false by (symmetry; apply Nat.eqb_neq; exact F2).
    rewrite (proj2 (quoted_first_spec c x _) (conj F1 eq_refl)). cbn [obind]. unfold first_state.
    pose proof (needs_spec _ _ _ _ F1 F3) as NS.
    replace (List.length pre + 2)%nat with (List.length pre + 1 + 1)%nat in F3 by lia.
    rewrite (proj2 (quoted_loop_spec c (b ++ 34 :: r) (List.length pre + 1 + 1) _ _ _ (List.length pre + 1 + 1 + List.length b) _))
      by (exists b, r; split; [reflexivity|]; split; [reflexivity|]; split; [exact F3|]; split; [exact F4|reflexivity]).
    cbn [obind].
    pose proof (@slice_between email_err (pre ++ [34]) (x :: b) 34 r) as X. rewrite <- app_assoc in X. cbn [app] in X.
    replace (List.length pre + 1 + 1 + List.length b)%nat with (List.length (pre ++ [34%N]) + List.length (x :: b))%nat
      by (rewrite app_length; cbn; lia).
    rewrite L34, X by (assumption || (apply ascii_end_snoc; lia) || lia). cbn [obind].
    destruct (Nat.eqb_spec (List.length (pre ++ [34]) + List.length (x :: b) + 1) (List.length (pre ++ 34 :: x :: b ++ 34 :: r)))
      as [Hn|Hn].
    + exfalso. apply Hr. rewrite !app_length in Hn. cbn [List.length app] in Hn. rewrite app_length in Hn. cbn in Hn.
      apply length_zero_iff_nil. lia.
    + match goal with |- Ok (_, ?a, _, ?m) = Ok (_, ?b, _, ?n) => replace a with b; [replace m with n; [reflexivity|]|] end.
      * repeat (rewrite app_length || cbn [List.length app]). lia.
      * apply eq_iff_eq_true. rewrite NS, HN. tauto.
Qed.

Lemma local_part_spec c pre rest l nq q n : valid_str (pre ++ rest) -> ascii_end pre ->
  (e_local_part c (pre ++ rest) (List.length pre) = Ok (l, nq, q, n) <-> local_split c pre rest l nq q n).
Proof.
  intros Hv Ha. destruct rest as [|e rest].
  - rewrite app_nil_r. unfold e_local_part. rewrite idx_end. cbn [obind]. split; [discriminate|].
    intros (lt & r & E & _ & _ & Hr & _). symmetry in E. apply app_eq_nil in E as [_ E]. contradiction.
  - destruct (N.eq_dec e 34) as [->|He]; [apply local_part_quoted|apply local_part_unquoted]; assumption.
Qed.

Lemma local_part_no_panic c pre rest : valid_str (pre ++ rest) -> ascii_end pre -> rest <> [] ->
  e_local_part c (pre ++ rest) (List.length pre) <> Panic.
Proof.
  intros Hv Ha Hr. destruct rest as [|e rest]; [contradiction|]. unfold e_local_part. rewrite idx_app. cbn [obind].
  destruct (N.eqb_spec e 34) as [->|He].
  - destruct ((List.length pre + 1 =? 63)%nat || (List.length pre + 1 =? List.length (pre ++ 34%N :: rest))%nat) eqn:E; [discriminate|].
    apply orb_false_iff in E as [E1 E2]. destruct rest as [|x rest].
    { apply Nat.eqb_neq in E2. rewrite app_length in E2. cbn in E2. lia. }
    assert (S34 : pre ++ 34 :: x :: rest = (pre ++ [34]) ++ x :: rest) by (rewrite <- app_assoc; reflexivity).
    assert (L34 : (List.length pre + 1)%nat = List.length (pre ++ [34])) by (rewrite app_length; reflexivity).
    assert (IX : @idx email_err (pre ++ 34 :: x :: rest) (List.length pre + 1) = Ok x) by (rewrite S34, L34; apply idx_app).
    assert (SK : skipn (List.length pre + 1 + 1) (pre ++ 34 :: x :: rest) = rest) by (rewrite S34, L34; apply skipn_cons_len).
    rewrite IX, SK. cbn [obind]. destruct (e_quoted_first c x) as [[[a b] d]| |] eqn:EF; cbn [obind]; try discriminate.
    2: { exfalso. unfold e_quoted_first in EF. repeat match type of EF with context [if ?b then _ else _] => destruct b end; discriminate. }
    destruct (e_quoted_loop c rest (List.length pre + 1 + 1) a b d) as [[p nq']| |] eqn:EL; cbn [obind]; try discriminate.
    + apply quoted_loop_spec in EL as (b' & r & -> & -> & _ & _ & _).
      pose proof (@slice_between email_err (pre ++ [34]) (x :: b') 34 r) as X. rewrite <- app_assoc in X. cbn [app] in X.
      replace (List.length pre + 1 + 1 + List.length b')%nat with (List.length (pre ++ [34%N]) + List.length (x :: b'))%nat
        by (rewrite app_length; cbn; lia).
      rewrite L34, X by (assumption || (apply ascii_end_snoc; lia) || lia). cbn [obind].
      match goal with |- (if ?b then _ else _) <> _ => destruct b; discriminate end.
    + destruct (quoted_loop_no_panic c _ _ _ _ _ EL).
  - rewrite skipn_cons_len. destruct (atext e || other_ok c e); [|discriminate].
    destruct (e_unquoted_loop c rest (List.length pre + 1) false) as [p| |] eqn:EL; cbn [obind]; try discriminate.
    + apply unquoted_loop_spec in EL as (b & x & r & -> & Hx & -> & Hb).
      replace (List.length pre + 1 + List.length b)%nat with (List.length pre + List.length (e :: b))%nat by (cbn; lia).
      pose proof (@slice_between email_err pre (e :: b) x r Hv Ha) as X. cbn [app] in X.
      rewrite X by (destruct Hx; subst; lia). discriminate.
    + destruct (unquoted_loop_no_panic c _ _ _ EL).
Qed.

(** The second comment. *)
Lemma comment2_some prof c pre t r : valid_str (pre ++ 40 :: t ++ 41 :: r) -> ~ In 41 t ->
  e_comment2 prof c (pre ++ 40 :: t ++ 41 :: r) (List.length pre) =
  if negb (e_comment c) then Err ECommentDisallow
  else if (63 <? List.length pre)%nat
  then match prof with
       | Debug => Panic
       | Release => match r with [] => Err EInvalid | _ => Ok ((List.length pre + List.length (ctext (Some t)))%nat, Some t) end
       end
  else if (List.length pre + List.length t + 2 <=? 64)%nat
  then match r with [] => Err EInvalid | _ => Ok ((List.length pre + List.length (ctext (Some t)))%nat, Some t) end
  else Err EInvalid.
Proof.
  intros Hv Ht. unfold e_comment2. rewrite idx_app. cbn [obind]. change (40 =? 40) with true. cbn iota.
  destruct (negb (e_comment c)); [reflexivity|].
  assert (S40 : pre ++ 40 :: t ++ 41 :: r = (pre ++ [40]) ++ t ++ 41 :: r) by (rewrite <- app_assoc; reflexivity).
  assert (L40 : (List.length pre + 1)%nat = List.length (pre ++ [40])) by (rewrite app_length; reflexivity).
  replace (List.length pre + 1 <? List.length (pre ++ 40%N :: t ++ 41%N :: r))%nat with true.
  2: { symmetry. apply Nat.ltb_lt. repeat (rewrite app_length || cbn [List.length app]). lia. }
  assert (SF : @slice_from email_err (pre ++ 40 :: t ++ 41 :: r) (List.length pre + 1) = Ok (t ++ 41 :: r)).
  { rewrite S40, L40. apply slice_from_app. }
  rewrite SF. cbn [obind].
  assert (P : position 41 (t ++ 41 :: r) = Some (List.length t)) by (apply position_some; exists t, r; auto).
  assert (SB : @str_slice email_err (pre ++ 40 :: t ++ 41 :: r) (List.length pre + 1) (List.length t + (List.length pre + 1)) = Ok t).
  { rewrite (Nat.add_comm (List.length t)), S40, L40. apply slice_between; [rewrite <- S40; exact Hv|apply ascii_end_snoc; lia|lia]. }
  assert (LE : ((List.length t + (List.length pre + 1) + 1)%nat = (List.length pre + List.length (ctext (Some t)))%nat)).
  { cbn [ctext]. repeat (rewrite app_length || cbn [List.length app]). lia. }
  assert (FIN : (if (List.length pre + List.length (ctext (Some t)) =? List.length (pre ++ 40%N :: t ++ 41%N :: r))%nat
                 then Err EInvalid else Ok ((List.length pre + List.length (ctext (Some t)))%nat, Some t)) =
                match r with [] => Err EInvalid | _ => Ok ((List.length pre + List.length (ctext (Some t)))%nat, Some t) end).
  { destruct (Nat.eqb_spec (List.length pre + List.length (ctext (Some t))) (List.length (pre ++ 40%N :: t ++ 41%N :: r))) as [H|H];
      cbn [ctext] in H; repeat (rewrite app_length in H || cbn [List.length app] in H); destruct r; cbn in H; lia || reflexivity. }
  unfold e_take2. destruct (Nat.ltb_spec 63 (List.length pre)) as [L|L].
  - replace (List.length pre + 1 <=? 64)%nat with false by (symmetry; apply Nat.leb_gt; lia).
    destruct prof; cbn [obind]; [reflexivity|].
    assert (Q : (List.length t < List.length (pre ++ 40%N :: t ++ 41%N :: r))%nat)
      by (repeat (rewrite app_length || cbn [List.length app]); lia).
    rewrite (proj2 (position_firstn 41 _ _ (List.length t)) (conj P Q)). rewrite SB. cbn [obind]. rewrite LE. exact FIN.
  - replace (List.length pre + 1 <=? 64)%nat with true by (symmetry; apply Nat.leb_le; lia). cbn [obind].
    destruct (Nat.leb_spec (List.length pre + List.length t + 2) 64) as [L2|L2].
    + assert (Q : (List.length t < 64 - (List.length pre + 1))%nat) by lia.
      rewrite (proj2 (position_firstn 41 _ _ (List.length t)) (conj P Q)). rewrite SB. cbn [obind]. rewrite LE. exact FIN.
    + match goal with |- match ?p with _ => _ end = _ => destruct p as [i|] eqn:E end; [|reflexivity].
      apply position_firstn in E as [E1 E2]. rewrite P in E1. injection E1 as <-. lia.
Qed.

Lemma comment2_open prof c pre r : ~ In 41 r ->
  (exists e, e_comment2 prof c (pre ++ 40 :: r) (List.length pre) = Err e) \/
  (e_comment2 prof c (pre ++ 40 :: r) (List.length pre) = Panic /\ prof = Debug /\ e_comment c = true /\ (64 <= List.length pre)%nat).
Proof.
  intros Hr. unfold e_comment2. rewrite idx_app. cbn [obind]. change (40 =? 40) with true. cbn iota.
  destruct (e_comment c) eqn:EC; cbn [negb]; [|eauto].
  assert (S40 : pre ++ 40 :: r = (pre ++ [40]) ++ r) by (rewrite <- app_assoc; reflexivity).
  assert (L40 : (List.length pre + 1)%nat = List.length (pre ++ [40])) by (rewrite app_length; reflexivity).
  destruct (List.length pre + 1 <? List.length (pre ++ 40%N :: r))%nat eqn:E; [|eauto].
  assert (SF : @slice_from email_err (pre ++ 40 :: r) (List.length pre + 1) = Ok r) by (rewrite S40, L40; apply slice_from_app).
  rewrite SF. cbn [obind]. unfold e_take2.
  assert (NP : forall n, position 41 (firstn n r) = None).
  { intros n. apply position_none. intros X. apply Hr. rewrite <- (firstn_skipn n r). apply in_or_app. auto. }
  destruct (Nat.leb_spec (List.length pre + 1) 64) as [L|L].
  - cbn [obind]. rewrite NP. eauto.
  - destruct prof; cbn [obind]; [right; repeat split; lia|]. rewrite NP. eauto.
Qed.

Lemma comment2_none prof c pre x r : x <> 40 ->
  e_comment2 prof c (pre ++ x :: r) (List.length pre) = Ok (List.length pre, None).
Proof.
  intros Hx. unfold e_comment2. rewrite idx_app. cbn [obind]. destruct (N.eqb_spec x 40); [contradiction|reflexivity].
Qed.

Lemma comment2_spec prof c pre rest n k : valid_str (pre ++ rest) -> (List.length (pre ++ rest) <= 320)%nat ->
  (e_comment2 prof c (pre ++ rest) (List.length pre) = Ok (n, k) <->
   exists r, leading c 320 rest k r /\ second_ok prof (List.length pre) k /\ n = (List.length pre + List.length (ctext k))%nat).
Proof.
  intros Hv HL. unfold leading. destruct rest as [|x s].
  { rewrite app_nil_r. unfold e_comment2. rewrite idx_end. split; [discriminate|].
    intros (r & (E & Hr & _) & _). symmetry in E. apply app_eq_nil in E as [_ E]. contradiction. }
  destruct (N.eq_dec x 40) as [->|Hx].
  - destruct (first_split 41 s) as [(t & r & -> & Ht)|Hs].
    + rewrite comment2_some by assumption. repeat (rewrite app_length in HL || cbn [List.length app] in HL).
      assert (LT : List.length (ctext (Some t)) = (List.length t + 2)%nat)
        by (cbn [ctext]; repeat (rewrite app_length || cbn [List.length app]); lia).
      split.
      * destruct (e_comment c) eqn:EC; cbn [negb]; [|discriminate]. intros E.
        assert (X : exists y r', r = y :: r' /\ n = (List.length pre + List.length (ctext (Some t)))%nat /\ k = Some t /\
          ((List.length pre + List.length t + 2 <= 64)%nat \/ (prof = Release /\ (64 <= List.length pre)%nat))).
        { destruct (Nat.ltb_spec 63 (List.length pre)) as [L|L].
          - destruct prof; [discriminate|]. destruct r as [|y r]; [discriminate|]. injection E as <- <-.
            exists y, r. repeat split. right. split; [reflexivity|lia].
          - destruct (Nat.leb_spec (List.length pre + List.length t + 2) 64) as [L2|L2]; [|discriminate].
            destruct r as [|y r]; [discriminate|]. injection E as <- <-. exists y, r. repeat split. auto. }
        destruct X as (y & r' & -> & -> & -> & HS).
        exists (y :: r'). split; [|split; [|reflexivity]].
        -- split; [cbn; rewrite <- app_assoc; reflexivity|]. split; [discriminate|].
           split; [|discriminate]. intros t' E'. injection E' as <-. split; [exact EC|]. split; [exact Ht|lia].
        -- intros t' E'. injection E' as <-. rewrite LT. destruct HS; [left; lia|right; assumption].
      * intros (r' & (E & Hr & Hk & Hn) & HS & ->). destruct k as [t'|].
        -- cbn [ctext app] in E. rewrite <- app_assoc in E. cbn [app] in E. injection E as E.
           destruct (Hk t' eq_refl) as (C1 & C2 & C3).
           apply split_unique in E as [-> ->]; [|assumption|assumption]. rewrite C1. cbn [negb].
           specialize (HS t' eq_refl). rewrite LT in HS.
           destruct r' as [|y r']; [contradiction|].
           destruct (Nat.ltb_spec 63 (List.length pre)) as [L|L].
           ++ destruct HS as [HS|[-> HS]]; [lia|reflexivity].
           ++ destruct HS as [HS|[-> HS]]; [|lia]. rewrite (proj2 (Nat.leb_le _ _)) by lia. reflexivity.
        -- cbn in E. exfalso. exact (Hn eq_refl _ (eq_sym E)).
    + split.
      * destruct (comment2_open prof c pre s Hs) as [[e ->]|[-> _]]; discriminate.
      * intros (r & (E & Hr & Hk & Hn) & _). exfalso. destruct k as [t'|]; cbn in E.
        -- injection E as E. apply Hs. rewrite E. apply in_or_app. left. apply in_or_app. right. left. reflexivity.
        -- exact (Hn eq_refl _ (eq_sym E)).
  - rewrite comment2_none by exact Hx. split.
    + intros E. injection E as <- <-. exists (x :: s). split; [|split; [intros t E; discriminate|cbn; lia]].
      split; [reflexivity|]. split; [discriminate|].
      split; [intros t E; discriminate|]. intros _ r' E. injection E as E _. contradiction.
    + intros (r & (E & Hr & Hk & Hn) & _ & ->). destruct k as [t'|]; cbn in E.
      * injection E as E _. contradiction.
      * cbn. rewrite Nat.add_0_r. reflexivity.
Qed.

Lemma comment2_panic prof c pre rest : valid_str (pre ++ rest) -> rest <> [] ->
  e_comment2 prof c (pre ++ rest) (List.length pre) = Panic ->
  prof = Debug /\ e_comment c = true /\ (64 <= List.length pre)%nat /\ exists r, rest = 40 :: r.
Proof.
  intros Hv Hr. destruct rest as [|x s]; [contradiction|]. destruct (N.eq_dec x 40) as [->|Hx].
  - destruct (first_split 41 s) as [(t & r & -> & Ht)|H].
    + rewrite comment2_some by assumption. destruct (e_comment c) eqn:EC; cbn [negb]; [|discriminate].
      destruct (Nat.ltb_spec 63 (List.length pre)) as [L|L].
      * destruct prof; [eauto|destruct r; discriminate].
      * destruct (_ <=? _)%nat; [destruct r; discriminate|discriminate].
    + destruct (comment2_open prof c pre s H) as [[e ->]|(-> & -> & -> & L)]; [discriminate|eauto].
  - rewrite comment2_none by exact Hx. discriminate.
Qed.

(** The fourth comment. *)
Lemma comment4_spec c pre rest k : valid_str (pre ++ rest) ->
  (e_comment4 c (pre ++ rest) (List.length pre) = Ok k <-> tail_ok c k rest).
Proof.
  intros Hv. unfold e_comment4, tail_ok. destruct rest as [|x r].
  { rewrite app_nil_r, Nat.ltb_irrefl. split.
    - intros E. injection E as <-. reflexivity.
    - destruct k as [t|]; [|reflexivity]. intros (_ & _ & j & E). discriminate. }
  replace (List.length pre <? List.length (pre ++ x :: r))%nat with true
    by (symmetry; apply Nat.ltb_lt; rewrite app_length; cbn; lia).
  rewrite idx_app. cbn [obind]. split.
  - destruct (e_comment c) eqn:EC; cbn [negb]; [|discriminate]. destruct (N.eqb_spec x 40) as [->|]; [|discriminate].
    destruct (_ <? _)%nat eqn:EL; [|discriminate].
    assert (S40 : pre ++ 40 :: r = (pre ++ [40]) ++ r) by (rewrite <- app_assoc; reflexivity).
    assert (L40 : (List.length pre + 1)%nat = List.length (pre ++ [40])) by (rewrite app_length; reflexivity).
    rewrite S40, L40, slice_from_app. cbn [obind]. destruct (position 41 r) as [i|] eqn:EP; [|discriminate].
    apply position_some in EP as (a & b & -> & <- & Ha). rewrite Nat.add_comm, slice_between; [|rewrite <- S40; exact Hv|apply ascii_end_snoc; lia|lia].
    cbn [obind]. intros E. injection E as <-. split; [reflexivity|]. split; [exact Ha|]. exists b. cbn. rewrite <- app_assoc. reflexivity.
  - destruct k as [t|]; [|discriminate]. intros (-> & Ht & j & E). cbn in E. rewrite <- app_assoc in E. cbn in E.
    injection E as -> ->. cbn [negb]. change (40 =? 40) with true. cbn iota.
    assert (S40 : pre ++ 40 :: t ++ 41 :: j = (pre ++ [40]) ++ t ++ 41 :: j) by (rewrite <- app_assoc; reflexivity).
    assert (L40 : (List.length pre + 1)%nat = List.length (pre ++ [40])) by (rewrite app_length; reflexivity).
    replace (List.length pre + 1 <? List.length (pre ++ 40%N :: t ++ 41%N :: j))%nat with true.
    2: { symmetry. apply Nat.ltb_lt. repeat (rewrite app_length || cbn [List.length app]). lia. }
    rewrite S40, L40, slice_from_app. cbn [obind].
    rewrite (proj2 (position_some 41 (t ++ 41 :: j) (List.length t))) by (exists t, j; auto).
    rewrite Nat.add_comm, slice_between; [reflexivity|rewrite <- S40; exact Hv|apply ascii_end_snoc; lia|lia].
Qed.

Lemma comment4_no_panic c pre rest : valid_str (pre ++ rest) -> e_comment4 c (pre ++ rest) (List.length pre) <> Panic.
Proof.
  intros Hv. unfold e_comment4. destruct rest as [|x r].
  { rewrite app_nil_r, Nat.ltb_irrefl. discriminate. }
  destruct (_ <? _)%nat; [|discriminate]. rewrite idx_app. cbn [obind]. destruct (negb (e_comment c)); [discriminate|].
  destruct (N.eqb_spec x 40) as [->|]; [|discriminate]. destruct (_ <? _)%nat; [|discriminate].
  assert (S40 : pre ++ 40 :: r = (pre ++ [40]) ++ r) by (rewrite <- app_assoc; reflexivity).
  assert (L40 : (List.length pre + 1)%nat = List.length (pre ++ [40])) by (rewrite app_length; reflexivity).
  rewrite S40, L40, slice_from_app. cbn [obind]. destruct (position 41 r) as [i|] eqn:EP; [|discriminate].
  apply position_some in EP as (a & b & -> & <- & Ha). rewrite Nat.add_comm, slice_between; [discriminate|rewrite <- S40; exact Hv|apply ascii_end_snoc; lia|lia].
Qed.
