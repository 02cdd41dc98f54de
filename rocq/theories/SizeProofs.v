(** Proofs about the bit and byte validators. *)
From Verif Require Import Base RangeModel SizeModel.
Local Open Scope N_scope.

(** Specification: [v] is in the configured interval. *)
Definition size_in (r : range N) (v : N) : Prop :=
  (forall m, r_min r = Some m -> m <= v) /\
  (forall m, r_max r = Some m -> if r_incl r then v <= m else v < m).

(** Specification: [v] is below the lower bound / not below it and beyond the upper bound. *)
Definition size_below (r : range N) (v : N) : Prop := exists m, r_min r = Some m /\ v < m.
Definition size_above (r : range N) (v : N) : Prop :=
  exists m, r_max r = Some m /\ if r_incl r then m < v else m <= v.

Lemma size_v_parse_v_spec : forall r v,
  (size_v_parse_v r v = Ok tt /\ size_in r v) \/
  (size_v_parse_v r v = Err STooSmall /\ size_below r v) \/
  (size_v_parse_v r v = Err STooLarge /\ size_above r v /\ ~ size_below r v).
Proof.
  intros [mn mx i] v. unfold size_v_parse_v, size_in, size_below, size_above; simpl.
  destruct (range_equal N N.eqb u128_inc false mn mx i) eqn:E.
  - unfold range_equal in E. destruct mn as [mn|]; [|discriminate]. destruct mx as [mx|]; [|discriminate].
    assert (Hmx : mx = if i then mn else mn + 1).
    { destruct i; [lia|]. unfold u128_inc in E. destruct (mn + 1 <? 2 ^ 128); [lia|discriminate]. }
    subst mx. destruct (v ?= mn) eqn:Ec.
    + apply N.compare_eq in Ec. subst. left. split; [reflexivity|].
      split; intros m Hm; injection Hm as <-; [lia|destruct i; lia].
    + rewrite N.compare_lt_iff in Ec. right; left. split; [reflexivity|]. eauto.
    + rewrite N.compare_gt_iff in Ec. right; right. split; [reflexivity|].
      split; [eexists; split; [reflexivity|destruct i; lia]|].
      intros (m & Hm & Hl). injection Hm as <-. lia.
  - destruct mn as [mn|]; simpl; [destruct (v <? mn) eqn:E1; simpl;
      [right; left; split; [reflexivity|]; exists mn; split; [reflexivity|lia]|]|].
    + destruct mx as [mx|].
      * destruct i; [destruct (mx <? v) eqn:E2 | destruct (mx <=? v) eqn:E2].
        -- right; right. split; [reflexivity|]. split; [exists mx; split; [reflexivity|lia]|].
           intros (m & Hm & Hl). injection Hm as <-. lia.
        -- left. split; [reflexivity|]. split; intros m Hm; injection Hm as <-; lia.
        -- right; right. split; [reflexivity|]. split; [exists mx; split; [reflexivity|lia]|].
           intros (m & Hm & Hl). injection Hm as <-. lia.
        -- left. split; [reflexivity|]. split; intros m Hm; injection Hm as <-; lia.
      * left. split; [reflexivity|]. split; intros m Hm; [injection Hm as <-; lia|discriminate].
    + destruct mx as [mx|].
      * destruct i; [destruct (mx <? v) eqn:E2 | destruct (mx <=? v) eqn:E2].
        -- right; right. split; [reflexivity|]. split; [exists mx; split; [reflexivity|lia]|].
           intros (m & Hm & Hl). discriminate.
        -- left. split; [reflexivity|]. split; intros m Hm; [discriminate|injection Hm as <-; lia].
        -- right; right. split; [reflexivity|]. split; [exists mx; split; [reflexivity|lia]|].
           intros (m & Hm & Hl). discriminate.
        -- left. split; [reflexivity|]. split; intros m Hm; [discriminate|injection Hm as <-; lia].
      * left. split; [reflexivity|]. split; intros m Hm; discriminate.
Qed.

Lemma size_excl : forall r v,
  ~ (size_in r v /\ size_below r v) /\ ~ (size_in r v /\ size_above r v).
Proof.
  intros r v. split; intros [[H1 H2] (m & Hm & Hl)].
  - specialize (H1 _ Hm). lia.
  - specialize (H2 _ Hm). destruct (r_incl r); lia.
Qed.

(** What one entry point does with a size [v] (or without one). *)
Definition size_verdict (x : outcome size_err N) (r : range N) (v : N) : Prop :=
  (forall w, x = Ok w <-> size_in r v /\ w = v) /\
  (x = Err STooSmall <-> size_below r v) /\
  (x = Err STooLarge <-> size_above r v /\ ~ size_below r v) /\
  x <> Err SParse /\ x <> Panic.

Lemma size_core : forall r v, size_verdict (let? _ := size_v_parse_v r v in Ok v) r v.
Proof.
  intros r v. pose proof (size_excl r v) as [X1 X2].
  destruct (size_v_parse_v_spec r v) as [[E H]|[[E H]|[E [H H']]]]; rewrite E; simpl;
    unfold size_verdict; (split; [|split; [|split; [|split; discriminate]]]).
  - intros w. split; [intros Hw; injection Hw as <-; auto | intros [_ ->]; reflexivity].
  - split; [discriminate | tauto].
  - split; [discriminate | tauto].
  - intros w. split; [discriminate | tauto].
  - split; [auto | reflexivity].
  - split; [discriminate | tauto].
  - intros w. split; [discriminate | tauto].
  - split; [discriminate | tauto].
  - split; [auto | reflexivity].
Qed.

Lemma size_exact_lemma : forall from_str cap r,
  (forall s, match from_str s with
             | Some v => size_verdict (size_parse_str from_str r s) r v
             | None => size_parse_str from_str r s = Err SParse
             end) /\
  (forall u, u <= cap -> size_verdict (size_parse_u128 cap r u) r u) /\
  (forall u, cap < u -> size_parse_u128 cap r u = Err STooLarge) /\
  (forall u, size_verdict (size_parse_u64 r u) r u).
Proof.
  intros from_str cap r. split; [|split; [|split]].
  - intros s. unfold size_parse_str, size_v_parse_str. destruct (from_str s) as [v|]; [|reflexivity].
    pose proof (size_core r v) as H. destruct (size_v_parse_v r v) as [[]| |]; exact H.
  - intros u Hu. unfold size_parse_u128, size_from_u128. replace (u <=? cap) with true by lia. apply size_core.
  - intros u Hu. unfold size_parse_u128, size_from_u128. replace (u <=? cap) with false by lia. reflexivity.
  - intros u. apply size_core.
Qed.

Lemma size_validate_lemma : forall from_str cap r,
  (forall s, size_validate_str from_str r s = omap (fun _ => tt) (size_parse_str from_str r s)) /\
  (forall s, size_parse_string from_str r s = size_parse_str from_str r s) /\
  (forall u, size_validate_u128 cap r u = omap (fun _ => tt) (size_parse_u128 cap r u)) /\
  (forall u, size_validate_u64 r u = omap (fun _ => tt) (size_parse_u64 r u)) /\
  (forall u, u <= cap -> size_parse_u128 cap r u = size_parse_u64 r u).
Proof.
  intros from_str cap r. repeat split.
  - intros s. unfold size_validate_str, size_parse_str, size_v_parse_str.
    destruct (from_str s); [|reflexivity]. destruct (size_v_parse_v r n); reflexivity.
  - intros u. unfold size_validate_u128, size_parse_u128. destruct (size_from_u128 cap u); [|reflexivity].
    destruct (size_v_parse_v r n); reflexivity.
  - intros u. unfold size_validate_u64, size_parse_u64. destruct (size_v_parse_v r u); reflexivity.
  - intros u Hu. unfold size_parse_u128, size_parse_u64, size_from_u128. replace (u <=? cap) with true by lia. reflexivity.
Qed.
