(** Proofs about the integer validators. *)
From Verif Require Import Base RangeModel IntStr IntStrProofs IntModel IntSpec.
Local Open Scope Z_scope.

Lemma fits_iff : forall sg pw t i, fits sg pw t i <-> int_min sg pw t <= i <= int_max sg pw t.
Proof. intros sg pw t i. destruct sg, t, pw;
  match goal with |- _ <-> ?a <= _ <= ?b =>
    let a' := eval vm_compute in a in let b' := eval vm_compute in b in
    change a with a'; change b with b'
  end; simpl; tauto.
Qed.

Lemma min_max : forall sg pw t, int_min sg pw t <= 0 <= int_max sg pw t.
Proof. intros sg pw t. apply fits_iff. destruct sg, t, pw; simpl; lia. Qed.

Lemma sg_min : forall sg pw t, (int_min sg pw t <? 0) = sg.
Proof. intros sg pw t. destruct sg, t, pw; reflexivity. Qed.

Lemma cast_fits : forall sg pw t i, fits sg pw t i -> cast sg pw t i = i.
Proof.
  intros sg pw t i H. apply fits_iff in H. unfold cast, int_min, int_max in *.
  assert (0 < bits pw t) by (destruct t, pw; simpl; lia).
  replace (2 ^ bits pw t) with (2 * 2 ^ (bits pw t - 1)) in *
    by (rewrite <- Z.pow_succ_r by lia; f_equal; lia).
  destruct sg; [rewrite Z.mod_small by lia | rewrite Z.mod_small by lia]; lia.
Qed.

Lemma range_equal_int : forall sg pw t min max incl,
  range_equal Z Z.eqb (int_inc sg pw t) false min max incl = true ->
  exists mn mx, min = Some mn /\ max = Some mx /\
    mx = (if incl then mn else mn + 1).
Proof.
  intros sg pw t [mn|] [mx|] incl H; simpl in H; try discriminate.
  exists mn, mx. split; [reflexivity|]. split; [reflexivity|].
  destruct incl; [lia|]. unfold int_inc in H.
  destruct (mn + 1 <=? int_max sg pw t); [lia | discriminate].
Qed.

Lemma below_iff : forall sg pw t i, below_type sg pw t i <-> i < int_min sg pw t.
Proof.
  intros sg pw t i. pose proof (min_max sg pw t). unfold below_type. split.
  - intros H1. apply H1. apply fits_iff. lia.
  - intros H1 j Hj. apply fits_iff in Hj. lia.
Qed.

Lemma above_iff : forall sg pw t i, above_type sg pw t i <-> int_max sg pw t < i.
Proof.
  intros sg pw t i. pose proof (min_max sg pw t). unfold above_type. split.
  - intros H1. apply H1. apply fits_iff. lia.
  - intros H1 j Hj. apply fits_iff in Hj. lia.
Qed.

(** The check compiles except over a gap. *)
Lemma builds_spec : forall sg pw t r, int_builds sg pw t r = true <-> ~ gap sg pw t r.
Proof.
  intros sg pw t r. unfold int_builds, gap. destruct sg.
  - split; [intros _ [H _]; discriminate|intros _].
    destruct r as [[x|] [y|] b|[x|] [y|] b|]; cbn [to_tokens names_read]; try destruct (range_equal _ _ _ _ _ _ _); reflexivity.
  - destruct r as [mn mx b|mn mx b|]; cbn [to_tokens names_read].
    + split; [intros _ (_ & ? & ? & ? & H & _); discriminate|intros _].
      destruct (range_equal _ _ _ _ _ _ _); [reflexivity|destruct mn, mx; reflexivity].
    + destruct mn as [mn|], mx as [mx|];
        try (split; [intros _ (_ & ? & ? & ? & H & _); discriminate|intros _; destruct (range_equal _ _ _ _ _ _ _); reflexivity]).
      assert (E : range_equal Z Z.eqb (int_inc false pw t) false (Some mn) (Some mx) b = true <->
                  (if b then mx = mn else mx = mn + 1 /\ ~ above_type false pw t mx)).
      { unfold range_equal. destruct b; [rewrite Z.eqb_eq; split; congruence|]. rewrite above_iff. unfold int_inc.
        destruct (mn + 1 <=? int_max false pw t) eqn:E1; [rewrite Z.eqb_eq|]; split; try discriminate; lia. }
      destruct (range_equal Z Z.eqb (int_inc false pw t) false (Some mn) (Some mx) b); cbn.
      * split; [|reflexivity]. intros _ (_ & x & y & c & H & K). injection H as <- <- <-. apply K, E. reflexivity.
      * split; [discriminate|]. intros H. exfalso. apply H. split; [reflexivity|]. exists mn, mx, b.
        split; [reflexivity|]. intros K. apply E in K. discriminate.
    + split; [intros _ (_ & ? & ? & ? & H & _); discriminate|reflexivity].
Qed.

(** Everything about [v_parse_i] in one statement. *)
Lemma v_parse_i_spec : forall sg pw t r i, ~ degenerate sg pw t r ->
  match v_parse_i sg pw t r i with
  | Ok _ => allowed r i
  | Err TooSmall => exists min max incl m, r = Inside min max incl /\ min = Some m /\ i < m
  | Err TooLarge => exists min max incl m, r = Inside min max incl /\ max = Some m /\
                      (if incl then m < i else m <= i) /\ (forall n, min = Some n -> n <= i)
  | Err Forbidden => exists min max incl, r = Outside min max incl /\ in_bounds min max incl i
  | Err (ParseInt _) => False
  | Panic => False
  end.
Proof.
  intros sg pw t r i Hd. unfold v_parse_i.
  rewrite (proj2 (builds_spec sg pw t r)) by (intros G; apply Hd; right; exact G).
  destruct r as [min max incl|min max incl|]; simpl; [| |exact I].
  - destruct (range_equal Z Z.eqb (int_inc sg pw t) false min max incl) eqn:E.
    + apply range_equal_int in E. destruct E as (mn & mx & -> & -> & ->). simpl.
      destruct (i ?= mn) eqn:Ec.
      * apply Z.compare_eq in Ec. subst. split; intros m Hm; injection Hm as <-; [lia|destruct incl; lia].
      * rewrite Z.compare_lt_iff in Ec. repeat eexists. auto.
      * rewrite Z.compare_gt_iff in Ec. repeat eexists; [destruct incl; lia|].
        intros n Hn; injection Hn as <-; lia.
    + destruct min as [mn|]; simpl; [destruct (i <? mn) eqn:E1; simpl; [repeat eexists; lia|]|];
        (destruct max as [mx|]; [destruct incl; [destruct (mx <? i) eqn:E2 | destruct (mx <=? i) eqn:E2]|]);
        (repeat eexists || split); try discriminate; try (intros m Hm; injection Hm as <-); try lia.
  - destruct (range_equal Z Z.eqb (int_inc sg pw t) false min max incl) eqn:E.
    + apply range_equal_int in E. destruct E as (mn & mx & -> & -> & ->). simpl.
      destruct (i =? mn) eqn:Ec.
      * repeat eexists; intros m Hm; injection Hm as <-; [lia | destruct incl; lia].
      * intros [H1 H2]. specialize (H1 mn eq_refl). specialize (H2 _ eq_refl). destruct incl; lia.
    + destruct min as [mn|], max as [mx|].
      * destruct incl;
          [destruct ((mn <=? i) && (i <=? mx))%bool eqn:E1 | destruct ((mn <=? i) && (i <? mx))%bool eqn:E1];
          try (intros [H1 H2]; specialize (H1 _ eq_refl); specialize (H2 _ eq_refl); simpl in H2; lia);
          repeat eexists; intros m Hm; injection Hm as <-; lia.
      * destruct (mn <=? i) eqn:E1; [|intros [H1 _]; specialize (H1 _ eq_refl); lia].
        repeat eexists; intros m Hm; [injection Hm as <-; lia | discriminate].
      * destruct incl;
          [destruct (i <=? mx) eqn:E1 | destruct (i <? mx) eqn:E1];
          try (intros [_ H2]; specialize (H2 _ eq_refl); simpl in H2; lia);
          repeat eexists; intros m Hm; try discriminate; injection Hm as <-; lia.
      * exfalso. apply Hd. left. exists incl. reflexivity.
Qed.

Lemma allowed_ok : forall sg pw t r i, ~ degenerate sg pw t r ->
  (v_parse_i sg pw t r i = Ok tt <-> allowed r i).
Proof.
  intros sg pw t r i Hd. pose proof (v_parse_i_spec sg pw t r i Hd) as H.
  destruct (v_parse_i sg pw t r i) as [[]|e|].
  - tauto.
  - split; [discriminate|]. intros Ha. exfalso. destruct e; [exact H| | |].
    + destruct H as (min & max & incl & m & -> & -> & Hm & _). destruct Ha as [_ Ha].
      specialize (Ha _ eq_refl). destruct incl; lia.
    + destruct H as (min & max & incl & m & -> & -> & Hm). destruct Ha as [Ha _].
      specialize (Ha _ eq_refl). lia.
    + destruct H as (min & max & incl & -> & Hb). exact (Ha Hb).
  - contradiction.
Qed.

Lemma fits_dec : forall sg pw t i,
  {fits sg pw t i} + {below_type sg pw t i} + {above_type sg pw t i}.
Proof.
  intros sg pw t i.
  destruct (Z_lt_dec i (int_min sg pw t)) as [H|H].
  - left; right. intros j Hj. apply fits_iff in Hj. lia.
  - destruct (Z_lt_dec (int_max sg pw t) i) as [H'|H'].
    + right. intros j Hj. apply fits_iff in Hj. lia.
    + left; left. apply fits_iff. lia.
Qed.

(** The chain of calls: whatever the entry method, the value reaches [final] unchanged
    exactly when it fits the field type. *)
Ltac conc H :=
  match type of H with
  | (?a <? ?b) = _ =>
      match a with
      | int_max _ _ _ => let v := eval vm_compute in a in change a with v in H
      | _ => let v := eval vm_compute in b in change b with v in H
      end
  end.

Ltac chain sg pw t m i Hf E1 E2 :=
  destruct (int_max sg pw t <? i) eqn:E1; destruct (i <? int_min sg pw t) eqn:E2;
  destruct sg, pw, t, m;
  cbn [call resolve own_parse default_parse own_validate default_validate andb];
  repeat (rewrite cast_fits by (simpl in *; lia));
  rewrite ?E1, ?E2; cbn [andb]; try reflexivity;
  try (rewrite cast_fits by (conc E1; conc E2; simpl in *; lia); reflexivity);
  exfalso; conc E1; conc E2; simpl in Hf; lia.

Lemma call_parse_spec : forall (A : Type) sg pw t (final : Z -> outcome int_err A) m i,
  fits sg pw m i ->
  call sg pw t (fun m => resolve (own_parse pw t m) (default_parse pw m)) final call_fuel m i =
  (if int_max sg pw t <? i then Err TooLarge
   else if i <? int_min sg pw t then Err TooSmall
   else final i).
Proof.
  intros A sg pw t final m i Hf. unfold call_fuel. chain sg pw t m i Hf E1 E2.
Qed.

Lemma call_validate_spec : forall (A : Type) sg pw t (final : Z -> outcome int_err A) m i,
  fits sg pw m i ->
  call sg pw t (fun m => resolve (own_validate pw t m) (default_validate pw m)) final call_fuel m i =
  (if int_max sg pw t <? i then Err TooLarge
   else if i <? int_min sg pw t then Err TooSmall
   else final i).
Proof.
  intros A sg pw t final m i Hf. unfold call_fuel. chain sg pw t m i Hf E1 E2.
Qed.

Lemma v_parse_i_no_panic : forall sg pw t r i, ~ degenerate sg pw t r -> v_parse_i sg pw t r i <> Panic.
Proof.
  intros sg pw t r i Hd. pose proof (v_parse_i_spec sg pw t r i Hd) as H.
  destruct (v_parse_i sg pw t r i); congruence || auto.
Qed.

(** C01 *)
Lemma range_exact_lemma : forall sg pw t r i v, ~ degenerate sg pw t r -> fits sg pw t i ->
  (int_parse sg pw t r t i = Ok v <-> allowed r i /\ v = i).
Proof.
  intros sg pw t r i v Hd Hf. unfold int_parse. rewrite call_parse_spec by auto.
  apply fits_iff in Hf.
  destruct (int_max sg pw t <? i) eqn:E1; [lia|]. destruct (i <? int_min sg pw t) eqn:E2; [lia|].
  pose proof (allowed_ok sg pw t r i Hd) as H.
  destruct (v_parse_i sg pw t r i) as [[]|e|]; simpl; (split; [intros Hx | intros [Hx ->]]).
  - injection Hx as <-. tauto.
  - reflexivity.
  - discriminate.
  - apply H in Hx. discriminate.
  - discriminate.
  - apply H in Hx. discriminate.
Qed.

(** C02 *)
Lemma entry_points_lemma : forall sg pw t r m i, ~ degenerate sg pw t r -> fits sg pw m i ->
  (forall v, int_parse sg pw t r m i = Ok v <-> fits sg pw t i /\ allowed r i /\ v = i) /\
  (above_type sg pw t i -> int_parse sg pw t r m i = Err TooLarge) /\
  (below_type sg pw t i -> int_parse sg pw t r m i = Err TooSmall) /\
  int_parse sg pw t r m i <> Panic.
Proof.
  intros sg pw t r m i Hd Hf. unfold int_parse. rewrite call_parse_spec by auto.
  rewrite above_iff, below_iff. setoid_rewrite fits_iff.
  pose proof (allowed_ok sg pw t r i Hd) as H.
  pose proof (v_parse_i_no_panic sg pw t r i Hd) as Hp.
  pose proof (min_max sg pw t) as Hmm.
  destruct (int_max sg pw t <? i) eqn:E1; [|destruct (i <? int_min sg pw t) eqn:E2].
  - repeat split; try congruence; try discriminate; try lia.
  - repeat split; try congruence; try discriminate; try lia.
  - split; [|split; [lia|split; [lia|]]].
    + intros v. destruct (v_parse_i sg pw t r i) as [[]|e|]; simpl; (split; [intros Hx | intros (Hf' & Hx & ->)]).
      * injection Hx as <-. split; [lia|]. tauto.
      * reflexivity.
      * discriminate.
      * apply H in Hx. discriminate.
      * discriminate.
      * apply H in Hx. discriminate.
    + destruct (v_parse_i sg pw t r i); simpl; congruence.
Qed.

Lemma entry_points_agree_lemma : forall sg pw t r m m' i, fits sg pw m i -> fits sg pw m' i ->
  int_parse sg pw t r m i = int_parse sg pw t r m' i /\
  int_validate sg pw t r m i = omap (fun _ => tt) (int_parse sg pw t r m' i).
Proof.
  intros sg pw t r m m' i Hf Hf'. unfold int_parse, int_validate.
  rewrite (call_validate_spec unit sg pw t) by auto. rewrite !call_parse_spec by auto. split; [reflexivity|].
  destruct (int_max sg pw t <? i); [reflexivity|].
  destruct (i <? int_min sg pw t); [reflexivity|].
  destruct (v_parse_i sg pw t r i); reflexivity.
Qed.

(** C03 *)
Lemma int_strings_lemma : forall sg pw t r s, ~ degenerate sg pw t r ->
  (forall v, int_parse_str sg pw t r s = Ok v <->
             denotes_int sg s v /\ fits sg pw t v /\ allowed r v) /\
  int_parse_string sg pw t r s = int_parse_str sg pw t r s /\
  int_validate_str sg pw t r s = omap (fun _ => tt) (int_parse_str sg pw t r s) /\
  int_parse_str sg pw t r s <> Panic.
Proof.
  intros sg pw t r s Hd.
  unfold int_parse_str, int_parse_string, int_validate_str, v_parse_str.
  pose proof (fun v => int_from_str_spec (int_min sg pw t) (int_max sg pw t) s v (min_max sg pw t)) as Hs.
  rewrite sg_min in Hs.
  pose proof (int_from_str_no_panic (int_min sg pw t) (int_max sg pw t) s) as Hp.
  destruct (int_from_str (int_min sg pw t) (int_max sg pw t) s) as [i|e|] eqn:E; simpl.
  - pose proof (proj1 (Hs i) eq_refl) as [Hden Hfit].
    pose proof (allowed_ok sg pw t r i Hd) as Ha.
    pose proof (v_parse_i_no_panic sg pw t r i Hd) as Hp2.
    split; [intros v; split|].
    + intros H. destruct (v_parse_i sg pw t r i) as [[]|e|]; simpl in *; try discriminate.
      injection H as <-. split; [auto|]. split; [apply fits_iff; auto | tauto].
    + intros (H1 & H2 & H3). apply fits_iff in H2.
      pose proof (proj2 (Hs v) (conj H1 H2)) as Hv. injection Hv as ->.
      apply Ha in H3. rewrite H3. reflexivity.
    + destruct (v_parse_i sg pw t r i) as [[]|e|]; simpl in *; repeat split; congruence.
  - split; [|repeat split; discriminate]. intros v. split; [discriminate|].
    intros (H1 & H2 & H3). apply fits_iff in H2.
    pose proof (proj2 (Hs v) (conj H1 H2)) as Hv. discriminate.
  - congruence.
Qed.

Lemma int_print_parse_lemma : forall sg pw t r v, ~ degenerate sg pw t r -> fits sg pw t v -> allowed r v ->
  int_parse_str sg pw t r (dec_of_Z v) = Ok v.
Proof.
  intros sg pw t r v Hd Hf Ha. apply int_strings_lemma; auto. repeat split; auto.
  apply fits_iff in Hf.
  pose proof (int_roundtrip (int_min sg pw t) (int_max sg pw t) v (min_max sg pw t) Hf) as H.
  apply int_from_str_spec in H; [|apply min_max]. rewrite sg_min in H. tauto.
Qed.

(** C04 *)
Lemma error_kind_lemma : forall sg pw t r i e, ~ degenerate sg pw t r -> fits sg pw t i ->
  int_parse sg pw t r t i = Err e ->
  (exists min max incl, r = Inside min max incl /\
     ((e = TooSmall /\ exists m, min = Some m /\ i < m) \/
      (e = TooLarge /\ (forall n, min = Some n -> n <= i) /\
         exists m, max = Some m /\ if incl then m < i else m <= i))) \/
  (exists min max incl, r = Outside min max incl /\ e = Forbidden /\ in_bounds min max incl i).
Proof.
  intros sg pw t r i e Hd Hf H. unfold int_parse in H. rewrite call_parse_spec in H by auto.
  apply fits_iff in Hf.
  destruct (int_max sg pw t <? i) eqn:E1; [lia|]. destruct (i <? int_min sg pw t) eqn:E2; [lia|].
  pose proof (v_parse_i_spec sg pw t r i Hd) as Hs.
  destruct (v_parse_i sg pw t r i) as [[]|e'|]; simpl in H; try discriminate.
  injection H as ->. destruct e as [pe| | |].
  - contradiction.
  - destruct Hs as (min & max & incl & m & -> & -> & Hm & Hn). left.
    exists min, (Some m), incl. split; [reflexivity|]. right. eauto.
  - destruct Hs as (min & max & incl & m & -> & -> & Hm). left.
    exists (Some m), max, incl. split; [reflexivity|]. left. eauto.
  - destruct Hs as (min & max & incl & -> & Hb). right. exists min, max, incl. auto.
Qed.
