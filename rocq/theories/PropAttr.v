(** Properties C08, C09, C10, C53: attributes and the length validator. *)
From Verif Require Import Base RangeModel LengthModel AttrSpec AttrProofs AttrMore LengthProofs.
From Coq Require Import Permutation.

(** C08: for every accepted attribute whose bounds differ, exact acceptance, errors, stored value. *)
Theorem C08_length_exact : forall A (len : A -> N) ps mn mx (v : A),
  coll_attribute ps = Ok (mn, mx) -> (forall m, mn = Some m -> mx <> Some m) ->
  (forall w, parse_collection len mn mx v = Ok w <-> len_in_bounds mn mx (len v) /\ w = v) /\
  (parse_collection len mn mx v = Err LTooSmall <-> exists m, mn = Some m /\ (len v < m)%N) /\
  (parse_collection len mn mx v = Err LTooLarge <-> exists m, mx = Some m /\ (m < len v)%N) /\
  validate_collection len mn mx v = omap (fun _ => tt) (parse_collection len mn mx v).
Proof. exact length_values_lemma. Qed.
Print Assumptions C08_length_exact.

Example C08_example :
  coll_attribute (Some [CMax (Some 3%N); CMin (Some 1%N)]) = Ok (Some 1%N, Some 3%N) /\
  parse_collection (fun l : list nat => N.of_nat (List.length l)) (Some 1%N) (Some 3%N) [5; 6] = Ok [5; 6] /\
  parse_collection (fun l : list nat => N.of_nat (List.length l)) (Some 1%N) (Some 3%N) [] = Err LTooSmall.
Proof. repeat split. Qed.

(** C09 (full statement): every accepted attribute generates a well-scoped program.
    It is false: with min = max the generated [match] uses [length] without defining it. *)
Theorem C09_length_scope_refuted : exists ps mn mx,
  coll_attribute ps = Ok (mn, mx) /\ ~ well_scoped false (gen_length mn mx).
Proof.
  exists (Some [CMin (Some 5%N); CMax (Some 5%N)]), (Some 5%N), (Some 5%N).
  split; [reflexivity|]. simpl. intros [H _]. discriminate.
Qed.
Print Assumptions C09_length_scope_refuted.

(** C09, what does hold: the program is well scoped exactly when the bounds are not equal,
    and a well-scoped program never meets an unbound name. *)
Theorem C09_length_scope_partial : forall mn mx,
  (well_scoped false (gen_length mn mx) <-> (forall m, mn = Some m -> mx <> Some m)) /\
  (well_scoped false (gen_length mn mx) -> forall n, length_v_parse_v mn mx n <> Err Unbound).
Proof.
  intros mn mx. split; [apply scoped_iff|]. intros H n. exact (proj1 (scoped_runs _ None n H)).
Qed.
Print Assumptions C09_length_scope_partial.

Example C09_example : length_v_parse_v (Some 5%N) (Some 5%N) 5%N = Err Unbound /\
  well_scoped false (gen_length (Some 1%N) (Some 100%N)).
Proof. split; [reflexivity|]. simpl. auto. Qed.

(** C10, keyword form: an accepted range contains a value. *)
Theorem C10_range_nonempty_partial : forall full ps r,
  range_from_meta Z Z.ltb Z.leb full (RList None (Some ps)) = Ok r ->
  exists i : Z, (forall m, r_min r = Some m -> m <= i)%Z /\
                (forall m, r_max r = Some m -> if r_incl r then i <= m else i < m)%Z.
Proof. exact range_nonempty_lemma. Qed.
Print Assumptions C10_range_nonempty_partial.

Example C10_example :
  range_from_meta Z Z.ltb Z.leb false (RList None (Some [PMax (Some 4%Z); PMin (Some 3%Z); PInclusive (Some false)]))
    = Ok (mk_range (Some 3%Z) (Some 4%Z) false) /\
  range_from_meta Z Z.ltb Z.leb false (RList None (Some [PMax (Some 3%Z); PMin (Some 3%Z); PInclusive (Some false)]))
    = Err EMinMax.
Proof. split; reflexivity. Qed.

(** C10, literal form (cargo feature full): [range(Inside(7..=3))] is accepted. *)
Theorem C10_range_literal_refuted : exists m r,
  range_from_meta Z Z.ltb Z.leb true m = Ok r /\
  forall i : Z, ~ ((forall a, r_min r = Some a -> a <= i)%Z /\
                   (forall a, r_max r = Some a -> if r_incl r then i <= a else i < a)%Z).
Proof.
  exists (RList (Some (mk_expr_range (LitBound (Some 7%Z)) (LitBound (Some 3%Z)) false)) None),
         (mk_range (Some 7%Z) (Some 3%Z) true).
  split; [reflexivity|]. simpl. intros i [H1 H2].
  specialize (H1 _ eq_refl). specialize (H2 _ eq_refl). lia.
Qed.
Print Assumptions C10_range_literal_refuted.

(** C53: the order of parameters is irrelevant (range, length, line/text, collection length). *)
Theorem C53_range_order : forall T ltb leb full ps qs, Permutation ps qs ->
  agree (range_from_meta T ltb leb full (RList None (Some ps)))
        (range_from_meta T ltb leb full (RList None (Some qs))).
Proof. exact range_perm_lemma. Qed.
Print Assumptions C53_range_order.

Theorem C53_length_order : forall ps qs, Permutation ps qs ->
  agree (length_from_meta ps) (length_from_meta qs).
Proof. exact length_perm_lemma. Qed.
Print Assumptions C53_length_order.

Theorem C53_utf8_order : forall ps qs, Permutation ps qs ->
  agree (utf8_attribute (Some ps)) (utf8_attribute (Some qs)).
Proof. exact utf8_perm_lemma. Qed.
Print Assumptions C53_utf8_order.

Theorem C53_collection_order : forall ps qs, Permutation ps qs ->
  agree (coll_attribute (Some ps)) (coll_attribute (Some qs)).
Proof. exact coll_perm_lemma. Qed.
Print Assumptions C53_collection_order.

(** C53: an accepted list gives each key at most once, no unknown key, the given values,
    and the defaults for the absent keys. *)
Theorem C53_range_values : forall T ltb leb full ps r,
  range_from_meta T ltb leb full (RList None (Some ps)) = Ok r ->
  (count is_min ps <= 1 /\ count is_max ps <= 1 /\ count is_inclusive ps <= 1)%nat /\
  ~ In POther ps /\
  (count is_min ps = 0 -> r_min r = None)%nat /\
  (count is_max ps = 0 -> r_max r = None)%nat /\
  (count is_inclusive ps = 0 -> r_incl r = true)%nat /\
  (forall v, In (PMin v) ps -> r_min r = v) /\
  (forall v, In (PMax v) ps -> r_max r = v) /\
  (forall v, In (PInclusive v) ps -> v = Some (r_incl r)).
Proof. exact range_defaults_lemma. Qed.
Print Assumptions C53_range_values.

Theorem C53_length_values : forall ps l, length_from_meta ps = Ok l ->
  (count is_lmin ps <= 1 /\ count is_ltmin ps <= 1 /\ count is_lmax ps <= 1)%nat /\
  ~ In LOther ps /\
  (count is_lmin ps = 0 -> l_min l = None)%nat /\
  (count is_ltmin ps = 0 -> l_tmin l = None)%nat /\
  (count is_lmax ps = 0 -> l_max l = None)%nat /\
  (forall v, In (LMin v) ps -> l_min l = v) /\
  (forall v, In (LTrimmedMin v) ps -> l_tmin l = v) /\
  (forall v, In (LMax v) ps -> l_max l = v).
Proof. exact length_defaults_lemma. Qed.
Print Assumptions C53_length_values.

Theorem C53_utf8_values : forall ps r, utf8_attribute (Some ps) = Ok r ->
  (count is_ulen ps <= 1)%nat /\ ~ In UOther ps /\
  (r = None <-> count is_ulen ps = 0%nat) /\
  (forall q, In (UCharLength q) ps -> exists l, length_from_meta q = Ok l /\ r = Some (false, l)) /\
  (forall q, In (UByteLength q) ps -> exists l, length_from_meta q = Ok l /\ r = Some (true, l)).
Proof. exact utf8_one_length_lemma. Qed.
Print Assumptions C53_utf8_values.

(** C53: what is refused is refused for a reason: an unreadable or unknown parameter, a repeated
    key, or bounds in the wrong order. *)
Theorem C53_range_accepts : forall T ltb leb full (ps : list (rparam T)),
  (exists r, range_from_meta T ltb leb full (RList None (Some ps)) = Ok r) <->
  Forall rgood ps /\
  (count is_min ps <= 1 /\ count is_max ps <= 1 /\ count is_inclusive ps <= 1)%nat /\
  (forall a b, In (PMin (Some a)) ps -> In (PMax (Some b)) ps ->
     (In (PInclusive (Some false)) ps -> leb b a = false) /\
     (~ In (PInclusive (Some false)) ps -> ltb b a = false)).
Proof. exact range_accepts_lemma. Qed.
Print Assumptions C53_range_accepts.

Theorem C53_length_accepts : forall ps,
  (exists l, length_from_meta ps = Ok l) <->
  Forall lgood ps /\
  (count is_lmin ps <= 1 /\ count is_ltmin ps <= 1 /\ count is_lmax ps <= 1)%nat /\
  (forall a b, In (LTrimmedMin (Some a)) ps -> In (LMin (Some b)) ps -> a <= b)%N /\
  (forall a b, In (LMin (Some a)) ps -> In (LMax (Some b)) ps -> a <= b)%N /\
  (forall a b, In (LTrimmedMin (Some a)) ps -> In (LMax (Some b)) ps -> a <= b)%N.
Proof. exact length_accepts_lemma. Qed.
Print Assumptions C53_length_accepts.

Theorem C53_utf8_accepts : forall ps,
  (exists r, utf8_attribute (Some ps) = Ok r) <->
  Forall ugood ps /\
  (count is_ulen ps <= 1 /\ count is_userde ps <= 1 /\ count is_urocket ps <= 1)%nat.
Proof. exact utf8_accepts_lemma. Qed.
Print Assumptions C53_utf8_accepts.

Theorem C53_collection_exact : forall ps mn mx,
  coll_attribute (Some ps) = Ok (mn, mx) <->
  Forall cgood ps /\
  (count is_cmin ps <= 1 /\ count is_cmax ps <= 1 /\ count is_cserde ps <= 1)%nat /\
  (forall a, mn = Some a <-> In (CMin (Some a)) ps) /\
  (forall b, mx = Some b <-> In (CMax (Some b)) ps) /\
  (forall a b, mn = Some a -> mx = Some b -> a <= b)%N.
Proof. exact coll_exact_lemma. Qed.
Print Assumptions C53_collection_exact.

(** C53, the literal form (cargo feature full): the bounds are the literals, a missing side is
    unbounded, and the end is included exactly with the [..=] operator. *)
Theorem C53_range_literal : forall T ltb leb (e : expr_range T) ps r,
  range_from_meta T ltb leb true (RList (Some e) ps) = Ok r <->
  (e_start e = NoBound /\ r_min r = None \/ exists a, e_start e = LitBound (Some a) /\ r_min r = Some a) /\
  (e_end e = NoBound /\ r_max r = None /\ r_incl r = true \/
   exists b, e_end e = LitBound (Some b) /\ r_max r = Some b /\ r_incl r = negb (e_half_open e)).
Proof. intros T ltb leb e ps r. exact (range_literal_exact T e r). Qed.
Print Assumptions C53_range_literal.

Example C53_example :
  range_from_meta Z Z.ltb Z.leb false (RList None (Some [PMin (Some 1%Z); PMin (Some 1%Z)])) = Err EReset /\
  length_from_meta [LMax (Some 9%N); LTrimmedMin (Some 2%N)] = Ok (mk_len None (Some 2%N) (Some 9%N)) /\
  utf8_attribute (Some [UCharLength []; UByteLength []]) = Err EReset /\
  coll_attribute (Some [CSerde true; CMin (Some 2%N); CSerde true]) = Err EReset /\
  coll_attribute (Some [CSerde true; CMax (Some 9%N)]) = Ok (None, Some 9%N) /\
  range_from_meta Z Z.ltb Z.leb true (RList (Some (mk_expr_range (LitBound (Some 3%Z)) (LitBound (Some 7%Z)) true)) None)
    = Ok (mk_range (Some 3%Z) (Some 7%Z) false).
Proof. repeat split. Qed.
