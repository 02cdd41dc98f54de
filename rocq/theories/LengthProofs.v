(** Proofs about the length validator. *)
From Verif Require Import Base RangeModel LengthModel.
Local Open Scope N_scope.

(** Specification: [n] is between the bounds that are present. *)
Definition len_in_bounds (min max : option N) (n : N) : Prop :=
  (forall m, min = Some m -> m <= n) /\ (forall m, max = Some m -> n <= m).

(** Specification: every use of the variable [length] is after its definition. *)
Fixpoint well_scoped (bound : bool) (p : list lstmt) : Prop :=
  match p with
  | [] => True
  | LetLength :: p => well_scoped true p
  | (MatchCmp _ | IfLess _ | IfGreater _) :: p => bound = true /\ well_scoped bound p
  end.

Lemma scoped_iff : forall min max,
  well_scoped false (gen_length min max) <-> (forall m, min = Some m -> max <> Some m).
Proof.
  intros [mn|] [mx|]; simpl.
  - destruct (mn =? mx) eqn:E; simpl; split.
    + intros [H _]; discriminate.
    + intros H. exfalso. apply (H mn eq_refl). f_equal. lia.
    + intros _ m Hm Hc. injection Hm as <-. injection Hc as <-. lia.
    + auto.
  - split; [discriminate|auto].
  - split; [discriminate|auto].
  - split; [discriminate|auto].
Qed.

(** A well scoped program never hits an unbound name. *)
Lemma scoped_runs : forall p env n, well_scoped (match env with Some _ => true | None => false end) p ->
  run_length n env p <> Err Unbound /\ run_length n env p <> Panic.
Proof.
  induction p as [|s p IH]; intros env n H; simpl in *; [split; discriminate|].
  destruct s as [|k|k|k]; [apply (IH (Some n)); auto| | |];
    destruct env as [l|]; destruct H as [Hb H]; try discriminate.
  - destruct (l ?= k); [apply (IH (Some l)); auto | split; discriminate | split; discriminate].
  - destruct (l <? k); [split; discriminate | apply (IH (Some l)); auto].
  - destruct (k <? l); [split; discriminate | apply (IH (Some l)); auto].
Qed.

Lemma length_exact_lemma : forall min max n, well_scoped false (gen_length min max) ->
  (forall m M, min = Some m -> max = Some M -> m <= M) ->
  (length_v_parse_v min max n = Ok tt <-> len_in_bounds min max n) /\
  (length_v_parse_v min max n = Err LTooSmall <-> exists m, min = Some m /\ n < m) /\
  (length_v_parse_v min max n = Err LTooLarge <-> exists m, max = Some m /\ m < n).
Proof.
  intros min max n Hs Hmm. rewrite scoped_iff in Hs. unfold length_v_parse_v, len_in_bounds.
  destruct min as [mn|], max as [mx|]; simpl.
  - specialize (Hs _ eq_refl). specialize (Hmm _ _ eq_refl eq_refl).
    destruct (mn =? mx) eqn:E; [exfalso; apply Hs; f_equal; lia|]. simpl.
    destruct (n <? mn) eqn:E1; [|destruct (mx <? n) eqn:E2]; (split; [|split]); split;
      try discriminate; try reflexivity;
      try (intros [H1 H2]; specialize (H1 _ eq_refl); specialize (H2 _ eq_refl); lia);
      try (intros [m [Hm Hl]]; injection Hm as <-; lia);
      try (intros _; eexists; split; [reflexivity|lia]).
    intros _. split; intros m Hm; injection Hm as <-; lia.
  - destruct (n <? mn) eqn:E1; (split; [|split]); split;
      try discriminate; try reflexivity;
      try (intros [H1 H2]; specialize (H1 _ eq_refl); lia);
      try (intros [m [Hm Hl]]; try discriminate; injection Hm as <-; lia);
      try (intros _; eexists; split; [reflexivity|lia]).
    intros _. split; intros m Hm; [injection Hm as <-; lia | discriminate].
  - destruct (mx <? n) eqn:E2; (split; [|split]); split;
      try discriminate; try reflexivity;
      try (intros [H1 H2]; specialize (H2 _ eq_refl); lia);
      try (intros [m [Hm Hl]]; try discriminate; injection Hm as <-; lia);
      try (intros _; eexists; split; [reflexivity|lia]).
    intros _. split; intros m Hm; [discriminate | injection Hm as <-; lia].
  - (split; [|split]); split; try discriminate; try reflexivity;
      try (intros [m [Hm Hl]]; discriminate).
    intros _. split; intros m Hm; discriminate.
Qed.

Lemma coll_attribute_ok : forall ps mn mx, coll_attribute ps = Ok (mn, mx) ->
  forall m M, mn = Some m -> mx = Some M -> m <= M.
Proof.
  intros ps mn mx H m M -> ->. unfold coll_attribute in H.
  destruct (match ps with Some ps => _ | None => _ end) as [st| |]; simpl in H; try discriminate.
  destruct (cs_min st) as [a|], (cs_max st) as [c|]; try discriminate.
  destruct (c <? a) eqn:E; [discriminate|]. injection H as <- <-. lia.
Qed.

Lemma length_values_lemma : forall A (len : A -> N) ps mn mx (v : A),
  coll_attribute ps = Ok (mn, mx) -> (forall m, mn = Some m -> mx <> Some m) ->
  (forall w, parse_collection len mn mx v = Ok w <-> len_in_bounds mn mx (len v) /\ w = v) /\
  (parse_collection len mn mx v = Err LTooSmall <-> exists m, mn = Some m /\ len v < m) /\
  (parse_collection len mn mx v = Err LTooLarge <-> exists m, mx = Some m /\ m < len v) /\
  validate_collection len mn mx v = omap (fun _ => tt) (parse_collection len mn mx v).
Proof.
  intros A len ps mn mx v Ha Hne. apply scoped_iff in Hne.
  pose proof (length_exact_lemma mn mx (len v) Hne (coll_attribute_ok _ _ _ Ha)) as (H1 & H2 & H3).
  unfold parse_collection, validate_collection.
  destruct (length_v_parse_v mn mx (len v)) as [[]|e|] eqn:E; simpl.
  - split; [|split; [|split]].
    + intros w. split; [intros Hw; injection Hw as <-; tauto | intros [_ ->]; reflexivity].
    + split; [discriminate|intros Hx; apply H2 in Hx; discriminate].
    + split; [discriminate|intros Hx; apply H3 in Hx; discriminate].
    + reflexivity.
  - split; [|split; [|split]].
    + intros w. split; [discriminate | intros [Hw _]; apply H1 in Hw; discriminate].
    + rewrite <- H2. split; intros Hx; injection Hx as ->; reflexivity.
    + rewrite <- H3. split; intros Hx; injection Hx as ->; reflexivity.
    + reflexivity.
  - exfalso. unfold length_v_parse_v in E. apply (scoped_runs _ None (len v)) in Hne. tauto.
Qed.
