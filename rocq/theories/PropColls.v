(** C118: what the bounds of a length validator count when a collection is deserialised. *)
From Coq Require Import Permutation.
From Verif Require Import Base Serde LengthModel DeModel CollsModel.
From Verif Require LengthProofs.
Local Open Scope N_scope.

(** [n] different keys occur among the elements. *)
Definition distinct {K V} (l : list (K * V)) (n : N) : Prop :=
  exists d, NoDup d /\ (forall k, In k d <-> In k (List.map fst l)) /\ n = N.of_nat (List.length d).
Definition within (mn mx : option N) (n : N) : Prop := (forall m, mn = Some m -> m <= n) /\ (forall m, mx = Some m -> n <= m).
(** Which collections keep every element, which keep one for each key, and which give a key a value. *)
Definition sequences : list coll := [CVec; CBinaryHeap].
Definition sets : list coll := [CBTreeSet; CHashSet].
Definition maps : list coll := [CBTreeMap; CHashMap; CJsonMap].

Lemma sequences_keyed c : In c sequences -> keyed c = false.
Proof. cbn. intuition (subst; reflexivity). Qed.
Lemma sets_maps_keyed c : In c (sets ++ maps) -> keyed c = true.
Proof. cbn. intuition (subst; reflexivity). Qed.
Lemma maps_mapped c : In c maps -> mapped c = true.
Proof. cbn. intuition (subst; reflexivity). Qed.

Section Facts.
Context {K V : Type} (eqb : K -> K -> bool) (eqb_spec : forall a b, eqb a b = true <-> a = b).

Lemma has_in k (m : list (K * V)) : coll_has eqb k m = true <-> In k (List.map fst m).
Proof.
  unfold coll_has. rewrite existsb_exists, in_map_iff. split.
  - intros (e & I & H). apply eqb_spec in H. exists e. split; assumption.
  - intros (e & H & I). exists e. split; [exact I |]. apply eqb_spec. exact H.
Qed.

Lemma replace_keys k v (m : list (K * V)) : List.map fst (coll_replace eqb k v m) = List.map fst m.
Proof. induction m as [| (k', v') m IH]; cbn; [reflexivity |]. now rewrite IH. Qed.

Lemma replace_in k v (m : list (K * V)) a b : In (a, b) (coll_replace eqb k v m) <-> (a = k /\ b = v /\ In k (List.map fst m)) \/ (a <> k /\ In (a, b) m).
Proof.
  induction m as [| (k', v') m IH]; cbn.
  - tauto.
  - rewrite IH. destruct (eqb k' k) eqn:Q.
    + apply eqb_spec in Q. subst k'. split.
      * intros [H | [H | H]]; [inversion H; subst; left; tauto | left; tauto | right; tauto].
      * intros [(-> & -> & _) | (N & [H | H])]; [left; reflexivity | inversion H; subst; congruence | right; right; tauto].
    + assert (k' <> k) by (intros X; apply eqb_spec in X; congruence). split.
      * intros [H' | [H' | H']]; [inversion H'; subst; right; tauto | left; tauto | right; tauto].
      * intros [(-> & -> & [H' | H']) | (N & [H' | H'])]; [congruence | right; left; tauto | left; congruence | right; right; tauto].
Qed.

Lemma unkeyed_of c (l m : list (K * V)) : keyed c = false -> fold_left (coll_insert eqb c) l m = m ++ l.
Proof.
  intros Q. revert m. induction l as [| e l IH]; intros m; cbn; [now rewrite app_nil_r |].
  rewrite IH. unfold coll_insert. rewrite Q. cbn. now rewrite <- app_assoc.
Qed.

Lemma keyed_keys c (l m : list (K * V)) : keyed c = true -> NoDup (List.map fst m) ->
  NoDup (List.map fst (fold_left (coll_insert eqb c) l m)) /\
  forall k, In k (List.map fst (fold_left (coll_insert eqb c) l m)) <-> In k (List.map fst m) \/ In k (List.map fst l).
Proof.
  intros Q. revert m. induction l as [| (k, v) l IH]; intros m D; cbn; [split; [exact D | tauto] |].
  assert (X : NoDup (List.map fst (coll_insert eqb c m (k, v))) /\ forall x, In x (List.map fst (coll_insert eqb c m (k, v))) <-> In x (List.map fst m) \/ x = k).
  { unfold coll_insert. rewrite Q. cbn. destruct (coll_has eqb k m) eqn:H.
    - apply has_in in H. assert (E : forall x, In x (List.map fst m) <-> In x (List.map fst m) \/ x = k) by (intros x; split; [tauto | intros [A | ->]; assumption]).
      destruct (mapped c); [rewrite replace_keys |]; split; assumption.
    - assert (N : ~ In k (List.map fst m)) by (rewrite <- has_in; congruence).
      rewrite map_app. cbn. split.
      + apply (Permutation_NoDup (Permutation_cons_append (List.map fst m) k)). constructor; assumption.
      + intros x. rewrite in_app_iff. cbn. firstorder congruence. }
  destruct X as (X1 & X2). destruct (IH _ X1) as (A & B). split; [exact A |]. intros x. rewrite B, X2. firstorder congruence.
Qed.

Lemma map_entries c (l m : list (K * V)) : mapped c = true -> forall k v, In (k, v) (fold_left (coll_insert eqb c) l m) <->
  (exists l1 l2, l = l1 ++ (k, v) :: l2 /\ ~ In k (List.map fst l2)) \/ (~ In k (List.map fst l) /\ In (k, v) m).
Proof.
  intros Q. assert (Qk : keyed c = true) by (destruct c; try discriminate Q; reflexivity).
  revert m. induction l as [| (a, b) l IH]; intros m k v; cbn [fold_left].
  - cbn. split; [tauto |]. intros [(l1 & l2 & H & _) | (_ & H)]; [destruct l1; discriminate H | exact H].
  - rewrite IH. clear IH.
    assert (X : In (k, v) (coll_insert eqb c m (a, b)) <-> (k = a /\ v = b) \/ (k <> a /\ In (k, v) m)).
    { unfold coll_insert. rewrite Qk, Q. cbn. destruct (coll_has eqb a m) eqn:H.
      - apply has_in in H. rewrite replace_in. tauto.
      - assert (N : ~ In a (List.map fst m)) by (rewrite <- has_in; congruence).
        rewrite in_app_iff. cbn. split.
        + intros [I | [I | []]]; [| inversion I; left; tauto]. right. split; [| exact I]. intros ->. apply N. apply in_map_iff. exists (a, v). tauto.
        + intros [(-> & ->) | (_ & I)]; tauto. }
    rewrite X. split.
    + intros [(l1 & l2 & -> & N) | (N & [(-> & ->) | (M & I)])].
      * left. exists ((a, b) :: l1), l2. split; [reflexivity | exact N].
      * left. exists [], l. split; [reflexivity | exact N].
      * right. split; [| exact I]. cbn. intros [H | H]; [congruence | tauto].
    + intros [(l1 & l2 & H & N) | (N & I)].
      * destruct l1 as [| e l1]; inversion H; subst; [right; split; [exact N | left; split; reflexivity] | left; exists l1, l2; split; [reflexivity | exact N]].
      * cbn in N. right. split; [tauto |]. right. split; [| exact I]. intros ->. tauto.
Qed.

Lemma distinct_unique (l : list (K * V)) n n' : distinct l n -> distinct l n' -> n = n'.
Proof.
  intros (d & D & I & ->) (d' & D' & I' & ->). f_equal. apply Permutation_length, NoDup_Permutation; [exact D | exact D' |].
  intros x. rewrite I, I'. reflexivity.
Qed.

Lemma keyed_len c (l : list (K * V)) : keyed c = true -> distinct l (coll_len (coll_of eqb c l)).
Proof.
  intros Q. destruct (keyed_keys c l [] Q (NoDup_nil _)) as (A & B). exists (List.map fst (coll_of eqb c l)).
  split; [exact A |]. split; [intros k; rewrite B; cbn; tauto |]. unfold coll_len. now rewrite map_length.
Qed.
End Facts.

(** The bounds of the attribute, as in C08; the attribute [min = max] gives code that does not compile (C09). *)
Definition bounds (mn mx : option N) : Prop :=
  (exists ps, coll_attribute ps = Ok (mn, mx)) /\ forall m, mn = Some m -> mx <> Some m.

Lemma de_ok {K V} eqb c mn mx (l m : list (K * V)) : bounds mn mx ->
  coll_de eqb c mn mx l = Ok m <-> within mn mx (coll_len (coll_of eqb c l)) /\ m = coll_of eqb c l.
Proof.
  intros ((ps & P) & D). unfold coll_de, length_own_de. cbn [obind].
  destruct (LengthProofs.length_values_lemma _ (@coll_len K V) ps mn mx (coll_of eqb c l) P D) as (A & _).
  unfold LengthProofs.len_in_bounds in A. unfold within. rewrite <- A.
  destruct (parse_collection coll_len mn mx (coll_of eqb c l)); cbn; split; congruence.
Qed.

(** A vector or heap is accepted exactly if the number of elements presented is within the bounds. *)
Theorem C118_sequences : forall K V eqb c mn mx (l m : list (K * V)), In c sequences -> bounds mn mx ->
  coll_de eqb c mn mx l = Ok m <-> m = l /\ within mn mx (N.of_nat (List.length l)).
Proof.
  intros K V eqb c mn mx l m Q B. apply sequences_keyed in Q. rewrite (de_ok eqb c mn mx l m B). unfold coll_of. rewrite (unkeyed_of eqb c l [] Q). cbn. tauto.
Qed.
Print Assumptions C118_sequences.

(** A set or map is accepted exactly if the number of different keys is within the bounds; it holds each key once. *)
Theorem C118_keyed : forall K V eqb, (forall a b : K, eqb a b = true <-> a = b) -> forall c mn mx (l : list (K * V)),
  In c (sets ++ maps) -> bounds mn mx ->
  (is_ok (coll_de eqb c mn mx l) <-> exists n, distinct l n /\ within mn mx n) /\
  (forall m, coll_de eqb c mn mx l = Ok m -> NoDup (List.map fst m) /\ (forall k, In k (List.map fst m) <-> In k (List.map fst l))).
Proof.
  intros K V eqb E c mn mx l Q B. apply sets_maps_keyed in Q. split.
  - split.
    + intros (m & H). apply (de_ok eqb c mn mx l m B) in H. destruct H as (H & _). exists (coll_len (coll_of eqb c l)). split; [exact (keyed_len eqb E c l Q) | exact H].
    + intros (n & D & H). exists (coll_of eqb c l). apply (de_ok eqb c mn mx l _ B). split; [| reflexivity].
      rewrite (distinct_unique l _ n (keyed_len eqb E c l Q) D). exact H.
  - intros m H. apply (de_ok eqb c mn mx l m B) in H. destruct H as (_ & ->).
    destruct (keyed_keys eqb E c l [] Q (NoDup_nil _)) as (X & Y). split; [exact X |]. intros k. unfold coll_of. rewrite Y. cbn. tauto.
Qed.
Print Assumptions C118_keyed.

(** A map keeps the last value of each key. *)
Theorem C118_last_value : forall K V eqb, (forall a b : K, eqb a b = true <-> a = b) -> forall c mn mx (l m : list (K * V)),
  In c maps -> bounds mn mx -> coll_de eqb c mn mx l = Ok m ->
  forall k v, In (k, v) m <-> exists l1 l2, l = l1 ++ (k, v) :: l2 /\ ~ In k (List.map fst l2).
Proof.
  intros K V eqb E c mn mx l m Q B H k v. apply maps_mapped in Q. apply (de_ok eqb c mn mx l m B) in H. destruct H as (_ & ->).
  unfold coll_of. rewrite (map_entries eqb E c l [] Q). cbn. tauto.
Qed.
Print Assumptions C118_last_value.

(** The order in which the elements come never matters for whether they are accepted. *)
Theorem C118_order : forall K V eqb, (forall a b : K, eqb a b = true <-> a = b) -> forall c mn mx (l l' : list (K * V)),
  bounds mn mx -> Permutation l l' -> is_ok (coll_de eqb c mn mx l) -> is_ok (coll_de eqb c mn mx l').
Proof.
  intros K V eqb E c mn mx l l' B P H. assert (In c (sets ++ maps) \/ In c sequences) as [Q|Q] by (destruct c; cbn; tauto).
  - apply (C118_keyed K V eqb E c mn mx l Q B) in H. apply (C118_keyed K V eqb E c mn mx l' Q B).
    destruct H as (n & (d & D & I & L) & W). exists n. split; [| exact W]. exists d. split; [exact D |]. split; [| exact L].
    intros k. rewrite I. apply (Permutation_map fst) in P. split; [apply Permutation_in; exact P | apply Permutation_in, Permutation_sym; exact P].
  - destruct H as (m & H). apply (C118_sequences K V eqb c mn mx l m Q B) in H. destruct H as (-> & W). exists l'.
    apply (C118_sequences K V eqb c mn mx l' l' Q B). split; [reflexivity |]. rewrite <- (Permutation_length P). exact W.
Qed.
Print Assumptions C118_order.

(** [is_empty] is what [min = 1] refuses, for every collection. *)
Theorem C118_is_empty : forall K V eqb c (l : list (K * V)),
  coll_is_empty (coll_of eqb c l) = true <-> ~ is_ok (coll_de eqb c (Some 1) None l).
Proof.
  intros K V eqb c l. assert (B : bounds (Some 1) None) by (split; [exists (Some [CMin (Some 1)]); reflexivity | discriminate]). unfold coll_is_empty. rewrite N.eqb_eq. split.
  - intros Z (m & H). apply (de_ok eqb c _ _ l m B) in H. destruct H as ((H & _) & _). specialize (H 1 eq_refl). lia.
  - intros H. destruct (N.eq_dec (coll_len (coll_of eqb c l)) 0) as [| N]; [assumption |]. exfalso. apply H. exists (coll_of eqb c l).
    apply (de_ok eqb c _ _ l _ B). split; [| reflexivity]. split; [intros m Q; inversion Q; lia | discriminate].
Qed.
Print Assumptions C118_is_empty.

(** The claim that a greatest length limits the elements that are presented is false of sets and maps: under any greatest length but 0, inputs of
    any size are accepted. *)
Theorem C118_input_limit_refuted : forall c mn mx, In c (sets ++ maps) -> bounds mn (Some mx) -> 1 <= mx ->
  forall n, exists l : list (N * N), n <= N.of_nat (List.length l) /\ is_ok (coll_de N.eqb c mn (Some mx) l).
Proof.
  intros c mn mx Q B X n. set (k := N.to_nat mx).
  set (keys := List.map (fun i => (N.of_nat i, 7)) (seq 0 k)).
  exists (keys ++ repeat (0, 7) (N.to_nat n)). split; [rewrite app_length, repeat_length; lia |].
  apply (C118_keyed N N N.eqb N.eqb_eq c mn (Some mx) _ Q B). exists mx. split.
  - exists (List.map fst keys). split; [| split].
    + unfold keys. rewrite map_map. apply FinFun.Injective_map_NoDup; [intros a b H; cbn in H; lia | apply seq_NoDup].
    + intros x. rewrite map_app, in_app_iff. split; [tauto |]. intros [H | H]; [exact H |].
      apply in_map_iff in H. destruct H as (e & <- & H). apply repeat_spec in H. subst e.
      unfold keys. rewrite map_map. apply in_map_iff. exists 0%nat. split; [reflexivity |]. apply in_seq. unfold k. lia.
    + unfold keys. rewrite !map_length, seq_length. unfold k. lia.
  - split; [| intros m H; inversion H; lia]. intros m H. destruct B as ((ps & P) & _). exact (LengthProofs.coll_attribute_ok ps mn (Some mx) P m mx H eq_refl).
Qed.
Print Assumptions C118_input_limit_refuted.

(** Nor is what has too many elements refused with every other kind: the same elements pass as a set and fail as a vector, and the other way round. *)
Theorem C118_kinds_differ_refuted : forall s v, In s (sets ++ maps) -> In v sequences ->
  (exists l : list (N * N), is_ok (coll_de N.eqb s None (Some 1) l) /\ coll_de N.eqb v None (Some 1) l = Err (DCustom LTooLarge)) /\
  (exists l : list (N * N), is_ok (coll_de N.eqb v (Some 2) None l) /\ coll_de N.eqb s (Some 2) None l = Err (DCustom LTooSmall)).
Proof.
  intros s v Hs Hv. apply sets_maps_keyed in Hs. apply sequences_keyed in Hv. split; exists [(3, 1); (3, 1)]; (split; [destruct s, v; try discriminate; eexists; reflexivity | destruct s, v; try discriminate; reflexivity]).
Qed.
Print Assumptions C118_kinds_differ_refuted.

Example C118_example :
  bounds (Some 1) (Some 2) /\ bounds (Some 1) None /\
  coll_de N.eqb CVec (Some 1) (Some 2) [(5, 0); (5, 0); (6, 0)] = Err (DCustom LTooLarge) /\
  coll_de N.eqb CHashSet (Some 1) (Some 2) [(5, 0); (5, 0); (6, 0)] = Ok [(5, 0); (6, 0)] /\
  coll_de N.eqb CJsonMap (Some 1) (Some 2) [(5, 0); (6, 1); (5, 2)] = Ok [(5, 2); (6, 1)] /\
  coll_de (V := N) N.eqb CBTreeMap (Some 1) None [] = Err (DCustom LTooSmall) /\
  distinct [(5, 0); (6, 1); (5, 2)] 2.
Proof.
  split; [split; [exists (Some [CMin (Some 1); CMax (Some 2)]); reflexivity | intros m H; inversion H; discriminate] |].
  split; [split; [exists (Some [CMin (Some 1)]); reflexivity | discriminate] |].
  repeat (split; [reflexivity |]). exists [5; 6]. split; [repeat constructor; cbn; lia |]. split; [| reflexivity]. intros k. cbn. tauto.
Qed.
