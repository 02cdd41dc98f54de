(** C110: the ways of writing one attribute are interchangeable. *)
From Coq Require Import SpecFloat Permutation Relations.
From Verif Require Import Base IntStr IntModel RangeModel SizeModel LengthModel MacModel PhoneModel AttrSpec NumberModel MetaModel MetaSpec
  MetaProofs PropMeta MacroModel SpellSpec SpellProofs.
Local Open Scope N_scope.

Section Spelling.
Context {cid : Type}.
Variable id_from_str : list N -> option cid.
Variable cid_eqb : cid -> cid -> bool.
Hypothesis cid_ok : forall a b, cid_eqb a b = true <-> a = b.
Variable compiles : list N -> bool.
Variable float_lit : fty -> list N -> option SpecFloat.spec_float.
Variable pw : ptr_width.

Lemma step_same f m n : attr_respelt m n ->
  agree (basic_attribute f m) (basic_attribute f n) /\
  agree (base_attribute f m) (base_attribute f n) /\
  agree (http_attribute f m) (http_attribute f n) /\
  agree (ip_attribute f m) (ip_attribute f n) /\
  agree (host_attribute f m) (host_attribute f n) /\
  agree (domain_attribute f m) (domain_attribute f n) /\
  agree (email_attribute f m) (email_attribute f n) /\
  agree (mac_attribute f m) (mac_attribute f n) /\
  agree (uuid_attribute f m) (uuid_attribute f n) /\
  agree (coll_meta f m) (coll_meta f n) /\
  agree (utf8_meta f m) (utf8_meta f n) /\
  (forall T (from_str : list N -> option T) ltb leb,
     agree (range_attribute from_str ltb leb f m) (range_attribute from_str ltb leb f n) /\
     agree (number_attribute from_str ltb leb f m) (number_attribute from_str ltb leb f n) /\
     agree (bit_attribute from_str ltb leb f m) (bit_attribute from_str ltb leb f n) /\
     agree (byte_attribute from_str ltb leb f m) (byte_attribute from_str ltb leb f n)) /\
  (forall c (id : list N -> option c) eqb, (forall a b, eqb a b = true <-> a = b) ->
     agree (phone_attribute id eqb f m) (phone_attribute id eqb f n)) /\
  (forall cs, agree (regex_attribute cs f m) (regex_attribute cs f n)).
Proof.
  intros [p | p ms ns tr tr' P E | p pre a b post tr R].
  - repeat split; intros; first [apply agree_refl | idtac]; auto.
  - now apply C66_order.
  - split; [now apply at_basic|]. split; [now apply at_base|]. split; [now apply at_http|]. split; [now apply at_ip|].
    split; [now apply at_host|]. split; [now apply at_domain|]. split; [now apply at_email|]. split; [now apply at_hex|].
    split; [now apply at_hex|]. split; [now apply at_length|]. split; [now apply at_utf8|].
    split; [intros; split; [now apply at_range|]; split; [now apply at_number|]; split; [now apply at_bit|now apply at_byte]|].
    split; [intros; now apply at_phone|]. intros. now apply at_regex.
Qed.

Lemma handler_same v f m n d : attr_respelt m n ->
  agree (handler id_from_str cid_eqb compiles float_lit pw v f m d) (handler id_from_str cid_eqb compiles float_lit pw v f n d).
Proof.
  intro H. destruct (step_same f m n H) as (A1 & A2 & A3 & A4 & A5 & A6 & A7 & A8 & A9 & A10 & A11 & A12 & A13 & A14).
  destruct v; cbn [handler]; apply agree_omap;
  try (unfold tuple_handler, http_handler, ip_handler, host_handler, domain_handler, email_handler;
       apply agree_bind; [first [assumption | apply A12 | apply A13; exact cid_ok | apply A14] | intro; apply agree_refl]).
  - unfold number_handler. destruct d as [[ns | [| ty [| ty' tys]] |] | |]; try apply agree_refl.
    destruct (float_type ty); [| apply agree_refl]. apply agree_bind; [apply A12 | intro; apply agree_refl].
  - unfold int_handler. destruct d as [[ns | [| ty [| ty' tys]] |] | |]; try apply agree_refl.
    destruct (int_type true ty); [| apply agree_refl]. apply agree_bind; [apply A12 | intro; apply agree_refl].
  - unfold int_handler. destruct d as [[ns | [| ty [| ty' tys]] |] | |]; try apply agree_refl.
    destruct (int_type false ty); [| apply agree_refl]. apply agree_bind; [apply A12 | intro; apply agree_refl].
Qed.
End Spelling.

(** What the attributes before and after the changed one do does not depend on the spelling. *)
Lemma find_used on rest u w :
  (exists e, find_validator on rest (Some u) = Err e /\ find_validator on rest (Some w) = Err e) \/
  (find_validator on rest (Some u) = Ok (Some u) /\ find_validator on rest (Some w) = Ok (Some w)).
Proof.
  induction rest as [| x rest IH]; cbn [find_validator]; [right; split; reflexivity |].
  destruct (get_ident (meta_path x)) as [i |]; [| exact IH].
  destruct (eqbs i (bs "validator")); [| exact IH].
  destruct x as [p | p e | p items tr]; try (left; eexists; split; reflexivity).
  destruct (args_meta items tr) as [m |]; [| left; eexists; split; reflexivity].
  destruct (from_path on (meta_path m)); left; eexists; split; reflexivity.
Qed.
Lemma find_middle on before m n after used : meta_path m = meta_path n ->
  let F x := find_validator on (before ++ MList [bs "validator"] [IMeta x] false :: after) used in
  F m = F n \/ exists v, F m = Ok (Some (v, m)) /\ F n = Ok (Some (v, n)).
Proof.
  intro MP. revert used. induction before as [| x before IH]; intro used; cbn [app find_validator].
  - cbn [meta_path get_ident args_meta]. replace (eqbs (bs "validator") (bs "validator")) with true by (vm_compute; reflexivity).
    rewrite MP. destruct (from_path on (meta_path n)) as [v |]; [| left; reflexivity].
    destruct used; [left; reflexivity |].
    destruct (find_used on after (v, m) (v, n)) as [(e & -> & ->) | [-> ->]]; [left; reflexivity |].
    right. exists v. split; reflexivity.
  - destruct (get_ident (meta_path x)) as [i |]; [| apply IH].
    destruct (eqbs i (bs "validator")); [| apply IH].
    destruct x as [p | p e | p items tr]; try (left; reflexivity).
    destruct (args_meta items tr) as [a |]; [| left; reflexivity].
    destruct (from_path on (meta_path a)) as [v |]; [| left; reflexivity].
    destruct used; [left; reflexivity |]. apply IH.
Qed.

(** C110: however an attribute is spelt, the macro makes the same validator of it, or refuses it. *)
Theorem C110_spelling : forall cid (id_from_str : list N -> option cid) cid_eqb compiles float_lit pw,
  (forall a b, cid_eqb a b = true <-> a = b) ->
  forall on f before after data k m n, clos_refl_sym_trans _ attr_respelt m n ->
  let expand x := derive id_from_str cid_eqb compiles float_lit pw on f
    {| di_attrs := before ++ MList [bs "validator"] [IMeta x] false :: after; di_data := data; di_params := k |} in
  forall g, expand m = Ok g <-> expand n = Ok g.
Proof.
  intros cid id eqb compiles fl pw EQ on f before after data k m n H. induction H as [m n H | m | m n H IH | m n o H IH H' IH'].
  - cbv zeta. unfold derive. cbn [di_attrs di_data].
    assert (MP : meta_path m = meta_path n) by (destruct H; reflexivity).
    destruct (find_middle on before m n after None MP) as [-> | (v & -> & ->)]; [reflexivity |].
    cbn [obind]. exact (handler_same id eqb EQ compiles fl pw v f m n data H).
  - reflexivity.
  - intros expand g. exact (iff_sym (IH g)).
  - intros expand g. exact (iff_trans (IH g) (IH' g)).
Qed.
Print Assumptions C110_spelling.

(** A range in words is the range expression, if it is not empty. *)
Theorem C110_range_expression : forall T (from_str : list N -> option T) ltb leb f p lo hi half_open r, f_full f = true ->
  range_meta from_str ltb leb f (MList p (List.map IMeta (in_words lo hi half_open)) false) = Ok r <->
  range_meta from_str ltb leb f (MList p [IRange (in_expression lo hi half_open)] false) = Ok r /\
  (forall a b, r_min r = Some a -> r_max r = Some b -> if r_incl r then ltb b a = false else leb b a = false).
Proof.
  intros T fs ltb leb f p lo hi ho r F. unfold range_meta. cbn [rmeta_of]. rewrite F.
  rewrite args_range_map.
  replace (args_metas (List.map IMeta (in_words lo hi ho)) false) with (Some (in_words lo hi ho))
    by (unfold args_metas; rewrite all_metas_map; destruct lo, hi; reflexivity).
  cbn [args_range range_from_meta].
  assert (Lo : forall l e, rparam_of_meta fs (MNameValue [bs "min"] e) = PMin (number_opt fs (MNameValue l e)) /\
                           rparam_of_meta fs (MNameValue [bs "max"] e) = PMax (number_opt fs (MNameValue l e))).
  { intros l e. split; reflexivity. }
  assert (In1 : forall b, rparam_of_meta fs (MNameValue [bs "inclusive"] (ELit (LitBool b))) = PInclusive (Some b))
    by reflexivity.
  unfold from_expr_range, expr_range_of, in_expression. cbn [e_start e_end e_half_open re_start re_end re_half_open].
  unfold in_words. rewrite map_app.
  destruct lo as [l |]; destruct hi as [h |]; cbn [List.map app lit_bound_of read_bound obind range_params];
  rewrite ?(proj1 (Lo [] _)), ?(proj2 (Lo [] _)), ?In1; cbn [range_handler number_opt meta_2_number expr_2_number].
  - unfold number_opt. cbn [meta_2_number expr_2_number].
    destruct (lit_2_number fs l) as [x | |]; cbn [obind omap_err read_bound range_handler]; [| split; [discriminate | intros [? _]; discriminate] ..].
    cbn [rstate0 st_min_set st_max_set st_incl_set st_min st_max st_incl obind].
    destruct (lit_2_number fs h) as [y | |]; cbn [obind omap_err read_bound]; [| split; [discriminate | intros [? _]; discriminate] ..].
    cbn [st_min_set st_max_set st_incl_set st_min st_max st_incl obind range_check omap_err].
    destruct (negb ho).
    + destruct (ltb y x) eqn:C; cbn [omap_err].
      * split; [discriminate |]. intros [[= <-] K]. cbn [r_min r_max r_incl] in K. rewrite (K x y eq_refl eq_refl) in C. discriminate.
      * split; [| tauto]. intros [= <-]. split; [reflexivity |]. cbn [r_min r_max r_incl]. intros a b [= <-] [= <-]. exact C.
    + destruct (leb y x) eqn:C; cbn [omap_err].
      * split; [discriminate |]. intros [[= <-] K]. cbn [r_min r_max r_incl] in K. rewrite (K x y eq_refl eq_refl) in C. discriminate.
      * split; [| tauto]. intros [= <-]. split; [reflexivity |]. cbn [r_min r_max r_incl]. intros a b [= <-] [= <-]. exact C.
  - unfold number_opt. cbn [meta_2_number expr_2_number].
    destruct (lit_2_number fs l) as [x | |]; cbn [obind omap_err read_bound range_handler]; [| split; [discriminate | intros [? _]; discriminate] ..].
    cbn [rstate0 st_min_set st_max_set st_incl_set st_min st_max st_incl obind range_check omap_err].
    split; [| tauto]. intros [= <-]. split; [reflexivity |]. cbn [r_max]. discriminate.
  - unfold number_opt. cbn [meta_2_number expr_2_number].
    destruct (lit_2_number fs h) as [y | |]; cbn [obind omap_err read_bound range_handler]; [| split; [discriminate | intros [? _]; discriminate] ..].
    cbn [rstate0 st_min_set st_max_set st_incl_set st_min st_max st_incl obind range_check omap_err].
    split; [| tauto]. intros [= <-]. split; [reflexivity |]. cbn [r_min]. discriminate.
  - cbn [rstate0 st_min_set st_max_set st_incl_set st_min st_max st_incl obind range_check omap_err].
    split; [| tauto]. intros [= <-]. split; [reflexivity |]. cbn [r_min]. discriminate.
Qed.
Print Assumptions C110_range_expression.

(** Does the range that was understood hold an integer? *)
Definition holds_some {cid} (g : expansion cid) : Prop :=
  match g with
  | GInt _ _ a =>
      match ra_range a with
      | Inside (Some a) (Some b) incl | Outside (Some a) (Some b) incl => if incl then (a <= b)%Z else (a < b)%Z
      | _ => True
      end
  | _ => True
  end.

(** The struct [struct S(ty)] under [#\[validator(name(range(which(..))))\]]. *)
Definition ranged (name which ty : list N) (args : list item) : derive_input :=
  {| di_attrs := [MList [bs "validator"] [IMeta (MList [name] [IMeta (MList [bs "range"]
                   [IMeta (MList [which] args false)] false)] false)] false];
     di_data := DataStruct (FUnnamed [ty]); di_params := 0 |}.

Lemma bind_mono {E A B} (x y : outcome E A) (k : A -> outcome E B) (Q : A -> Prop) (P : B -> Prop) :
  (forall r, x = Ok r <-> y = Ok r /\ Q r) -> (forall a b, k a = Ok b -> (P b <-> Q a)) ->
  forall b, obind x k = Ok b <-> obind y k = Ok b /\ P b.
Proof.
  intros H K b. destruct x as [a | |]; cbn [obind].
  - destruct (proj1 (H a) eq_refl) as [-> q]. cbn [obind]. split; [| tauto]. intro E1. split; [exact E1 |]. now apply (K a b E1).
  - split; [discriminate |]. destruct y as [c | |]; cbn [obind]; [| intros [? _]; discriminate ..].
    intros [E1 p]. apply (K c b E1) in p. discriminate (proj2 (H c) (conj eq_refl p)).
  - split; [discriminate |]. destruct y as [c | |]; cbn [obind]; [| intros [? _]; discriminate ..].
    intros [E1 p]. apply (K c b E1) in p. discriminate (proj2 (H c) (conj eq_refl p)).
Qed.

(** C110, for the integer validators and the whole macro. *)
Theorem C110_integer_ranges : forall cid (id_from_str : list N -> option cid) cid_eqb compiles float_lit pw on f
  name which ty lo hi half_open g, f_full f = true ->
  In name [bs "signed_integer"; bs "unsigned_integer"] -> In which [bs "Inside"; bs "Outside"] ->
  let expand args := derive id_from_str cid_eqb compiles float_lit pw on f (ranged name which ty args) in
  expand (List.map IMeta (in_words lo hi half_open)) = Ok g <->
  expand [IRange (in_expression lo hi half_open)] = Ok g /\ holds_some g.
Proof.
  intros cid id eqb cs fl pw on f name which ty lo hi ho g F N0 W. cbv zeta.
  assert (K : forall sg t, let h args := range_attribute (int_lit sg pw t) Z.ltb Z.leb f
      (MList [name] [IMeta (MList [bs "range"] [IMeta (MList [which] args false)] false)] false) in
    forall a, h (List.map IMeta (in_words lo hi ho)) = Ok a <->
    h [IRange (in_expression lo hi ho)] = Ok a /\ holds_some (cid := cid) (GInt sg t a)).
  { intros sg t. cbv beta zeta.
    pose proof (C110_range_expression Z (int_lit sg pw t) Z.ltb Z.leb f [which] lo hi ho) as R.
    assert (R1 := fun r => R r F). clear R.
    assert (D : forall args, range_attribute (int_lit sg pw t) Z.ltb Z.leb f
        (MList [name] [IMeta (MList [bs "range"] [IMeta (MList [which] args false)] false)] false) =
        obind (range_meta (int_lit sg pw t) Z.ltb Z.leb f (MList [which] args false))
          (fun r => Ok (mk_range_attr (if eqbs which (bs "Inside") then Inside (r_min r) (r_max r) (r_incl r)
                                       else Outside (r_min r) (r_max r) (r_incl r)) opts0))).
    { intro args. unfold range_attribute, build_from_meta. cbn [args_metas all_metas attr_loop meta_path get_ident].
      match goal with |- context [find ?p ?l] => change (find p l) with (hd_error l) end. cbn [hd_error p_read obind].
      unfold range_option_meta, range_meta. cbn [args_meta meta_path get_ident].
      destruct W as [<- | [<- | []]].
      - replace (eqbs (bs "Inside") (bs "Inside")) with true by reflexivity. cbn [range_option_from_meta].
        destruct (range_from_meta Z Z.ltb Z.leb (f_full f) (rmeta_of (int_lit sg pw t) (MList [bs "Inside"] args false)));
        reflexivity.
      - replace (eqbs (bs "Outside") (bs "Inside")) with false by reflexivity.
        replace (eqbs (bs "Outside") (bs "Outside")) with true by reflexivity. cbn [range_option_from_meta].
        destruct (range_from_meta Z Z.ltb Z.leb (f_full f) (rmeta_of (int_lit sg pw t) (MList [bs "Outside"] args false)));
        reflexivity. }
    intro a. rewrite !D. revert a. apply bind_mono with (Q := fun r => forall a b, r_min r = Some a -> r_max r = Some b -> if r_incl r then (b <? a)%Z = false else (b <=? a)%Z = false).
    - exact R1.
    - intros r b [= <-]. unfold holds_some. cbn [ra_range].
      destruct (eqbs which (bs "Inside")); destruct (r_min r) as [u |]; destruct (r_max r) as [v |];
      try (split; [intros _ ? ? | intros _]; try discriminate; exact I).
      + destruct (r_incl r); split; intro H.
        * intros ? ? [= <-] [= <-]. lia.
        * specialize (H u v eq_refl eq_refl). lia.
        * intros ? ? [= <-] [= <-]. lia.
        * specialize (H u v eq_refl eq_refl). lia.
      + destruct (r_incl r); split; intro H.
        * intros ? ? [= <-] [= <-]. lia.
        * specialize (H u v eq_refl eq_refl). lia.
        * intros ? ? [= <-] [= <-]. lia.
        * specialize (H u v eq_refl eq_refl). lia. }
  unfold derive, ranged. cbn [di_attrs di_data find_validator meta_path get_ident args_meta].
  replace (eqbs (bs "validator") (bs "validator")) with true by reflexivity.
  destruct N0 as [<- | [<- | []]]; destruct (from_path on _) as [v |] eqn:V; cbn [obind];
  try (split; [discriminate | intros [? _]; discriminate]).
  - assert (v = Vsigned_integer) as ->.
    { unfold from_path in V. cbn [get_ident] in V. replace (validator_of (bs "signed_integer")) with (Some Vsigned_integer) in V by reflexivity.
      destruct (on Vsigned_integer); congruence. }
    cbn [handler int_handler]. destruct (int_type true ty) as [t |]; [| cbn [omap]; split; [discriminate | intros [? _]; discriminate]].
    specialize (K true t). cbv beta zeta in K.
    set (x := range_attribute _ _ _ _ (MList _ [IMeta (MList _ [IMeta (MList _ (List.map IMeta _) false)] false)] false)) in *.
    set (y := range_attribute _ _ _ _ (MList _ [IMeta (MList _ [IMeta (MList _ [IRange _] false)] false)] false)) in *.
    clearbody x y. destruct x as [a | |]; cbn [obind omap fst snd].
    + destruct (proj1 (K a) eq_refl) as [-> q]. cbn [obind omap fst snd]. split; [intros [= <-]; split; [reflexivity | exact q] | tauto].
    + split; [discriminate |]. destruct y as [c | |]; cbn [obind omap fst snd]; [| intros [? _]; discriminate ..].
      intros [[= <-] p]. discriminate (proj2 (K c) (conj eq_refl p)).
    + split; [discriminate |]. destruct y as [c | |]; cbn [obind omap fst snd]; [| intros [? _]; discriminate ..].
      intros [[= <-] p]. discriminate (proj2 (K c) (conj eq_refl p)).
  - assert (v = Vunsigned_integer) as ->.
    { unfold from_path in V. cbn [get_ident] in V. replace (validator_of (bs "unsigned_integer")) with (Some Vunsigned_integer) in V by reflexivity.
      destruct (on Vunsigned_integer); congruence. }
    cbn [handler int_handler]. destruct (int_type false ty) as [t |]; [| cbn [omap]; split; [discriminate | intros [? _]; discriminate]].
    specialize (K false t). cbv beta zeta in K.
    set (x := range_attribute _ _ _ _ (MList _ [IMeta (MList _ [IMeta (MList _ (List.map IMeta _) false)] false)] false)) in *.
    set (y := range_attribute _ _ _ _ (MList _ [IMeta (MList _ [IMeta (MList _ [IRange _] false)] false)] false)) in *.
    clearbody x y. destruct x as [a | |]; cbn [obind omap fst snd].
    + destruct (proj1 (K a) eq_refl) as [-> q]. cbn [obind omap fst snd]. split; [intros [= <-]; split; [reflexivity | exact q] | tauto].
    + split; [discriminate |]. destruct y as [c | |]; cbn [obind omap fst snd]; [| intros [? _]; discriminate ..].
      intros [[= <-] p]. discriminate (proj2 (K c) (conj eq_refl p)).
    + split; [discriminate |]. destruct y as [c | |]; cbn [obind omap fst snd]; [| intros [? _]; discriminate ..].
      intros [[= <-] p]. discriminate (proj2 (K c) (conj eq_refl p)).
Qed.
Print Assumptions C110_integer_ranges.

(** C110, for bit and byte, whose range has no word around it. *)
Definition size_ranged (name : list N) (args : list item) : derive_input :=
  {| di_attrs := [MList [bs "validator"] [IMeta (MList [name] [IMeta (MList [bs "range"] args false)] false)] false];
     di_data := DataStruct (FUnnamed [bs "T"]); di_params := 0 |}.
Definition size_some {cid} (g : expansion cid) : Prop :=
  let ok (r : range N) := match r_min r, r_max r with Some a, Some b => if r_incl r then a <= b else a < b | _, _ => True end in
  match g with GBit a => ok (bi_range a) | GByte a => ok (by_range a) | _ => True end.

Theorem C110_size_ranges : forall cid (id_from_str : list N -> option cid) cid_eqb compiles float_lit pw on f
  name lo hi half_open g, f_full f = true -> In name [bs "bit"; bs "byte"] ->
  let expand args := derive id_from_str cid_eqb compiles float_lit pw on f (size_ranged name args) in
  expand (List.map IMeta (in_words lo hi half_open)) = Ok g <->
  expand [IRange (in_expression lo hi half_open)] = Ok g /\ size_some g.
Proof.
  intros cid id eqb cs fl pw on f name lo hi ho g F N0. cbv zeta.
  assert (R := fun r => C110_range_expression N u128_lit N.ltb N.leb f [bs "range"] lo hi ho r F).
  assert (Q : forall r : range N, (forall a b, r_min r = Some a -> r_max r = Some b -> if r_incl r then (b <? a) = false else (b <=? a) = false) <->
    match r_min r, r_max r with Some a, Some b => if r_incl r then a <= b else a < b | _, _ => True end).
  { intros r. destruct (r_min r) as [u|]; destruct (r_max r) as [v|]; try (split; [intros _; exact I|intros _ ? ?; discriminate]).
    destruct (r_incl r); split; intro H; try (intros ? ? [= <-] [= <-]); try (specialize (H u v eq_refl eq_refl)); lia. }
  unfold derive, size_ranged. cbn [di_attrs di_data find_validator meta_path get_ident args_meta].
  replace (eqbs (bs "validator") (bs "validator")) with true by reflexivity.
  destruct N0 as [<- | [<- | []]]; destruct (from_path on _) as [v |] eqn:V; cbn [obind];
  try (split; [discriminate | intros [? _]; discriminate]).
  - assert (v = Vbit) as ->.
    { unfold from_path in V. cbn [get_ident] in V. replace (validator_of (bs "bit")) with (Some Vbit) in V by reflexivity.
      destruct (on Vbit); congruence. }
    assert (D : forall args, handler id eqb cs fl pw Vbit f (MList [bs "bit"] [IMeta (MList [bs "range"] args false)] false) (DataStruct (FUnnamed [bs "T"])) =
      obind (range_meta u128_lit N.ltb N.leb f (MList [bs "range"] args false)) (fun r => Ok (GBit (mk_bit_attr r opts0)))).
    { intro args. cbn [handler]. unfold tuple_handler, bit_attribute, build_from_meta. cbn [args_metas all_metas attr_loop meta_path get_ident].
      match goal with |- context [find ?p ?l] => change (find p l) with (hd_error l) end. cbn [hd_error p_read obind].
      destruct (range_meta u128_lit N.ltb N.leb f (MList [bs "range"] args false)); reflexivity. }
    rewrite !D. revert g. apply bind_mono with (Q := fun r => forall a b, r_min r = Some a -> r_max r = Some b -> if r_incl r then (b <? a) = false else (b <=? a) = false).
    + exact R.
    + intros r b [= <-]. symmetry. exact (Q r).
  - assert (v = Vbyte) as ->.
    { unfold from_path in V. cbn [get_ident] in V. replace (validator_of (bs "byte")) with (Some Vbyte) in V by reflexivity.
      destruct (on Vbyte); congruence. }
    assert (D : forall args, handler id eqb cs fl pw Vbyte f (MList [bs "byte"] [IMeta (MList [bs "range"] args false)] false) (DataStruct (FUnnamed [bs "T"])) =
      obind (range_meta u128_lit N.ltb N.leb f (MList [bs "range"] args false)) (fun r => Ok (GByte (mk_byte_attr r true opts0)))).
    { intro args. cbn [handler]. unfold tuple_handler, byte_attribute, build_from_meta. cbn [args_metas all_metas attr_loop meta_path get_ident].
      match goal with |- context [find ?p ?l] => change (find p l) with (hd_error l) end. cbn [hd_error p_read obind].
      destruct (range_meta u128_lit N.ltb N.leb f (MList [bs "range"] args false)); reflexivity. }
    rewrite !D. revert g. apply bind_mono with (Q := fun r => forall a b, r_min r = Some a -> r_max r = Some b -> if r_incl r then (b <? a) = false else (b <=? a) = false).
    + exact R.
    + intros r b [= <-]. symmetry. exact (Q r).
Qed.
Example C110_size_example :
  let expand := derive (cid := unit) (fun _ => Some tt) (fun _ _ => true) (fun _ => true) (fun _ _ => None) W64 (fun _ => true)
    {| f_serde := true; f_rocket := true; f_full := true |} in
  let lo := Some (LitInt (bs "8")) in let hi := Some (LitInt (bs "64")) in
  expand (size_ranged (bs "bit") [IRange (in_expression lo hi true)]) = Ok (GBit (mk_bit_attr (mk_range (Some 8) (Some 64) false) opts0)) /\
  expand (size_ranged (bs "bit") (List.map IMeta (in_words lo hi true))) = expand (size_ranged (bs "bit") [IRange (in_expression lo hi true)]) /\
  is_ok (expand (size_ranged (bs "byte") [IRange (in_expression hi lo true)])) /\
  ~ is_ok (expand (size_ranged (bs "byte") (List.map IMeta (in_words hi lo true)))).
Proof. cbv zeta. repeat split; try (vm_compute; reflexivity). - eexists. vm_compute. reflexivity. - intros [g E]. vm_compute in E. discriminate E. Qed.
Print Assumptions C110_size_ranges.

(** C110, for number; a comparison with NaN is false. *)
Definition float_some {cid} (g : expansion cid) : Prop :=
  match g with
  | GNumber _ a =>
      match na_range a with
      | Inside (Some a) (Some b) incl | Outside (Some a) (Some b) incl =>
          match SFcompare b a with Some Lt => False | Some Eq => incl = true | _ => True end
      | _ => True
      end
  | _ => True
  end.

Theorem C110_number_ranges : forall cid (id_from_str : list N -> option cid) cid_eqb compiles float_lit pw on f
  which ty lo hi half_open g, f_full f = true -> In which [bs "Inside"; bs "Outside"] ->
  let expand args := derive id_from_str cid_eqb compiles float_lit pw on f (ranged (bs "number") which ty args) in
  expand (List.map IMeta (in_words lo hi half_open)) = Ok g <->
  expand [IRange (in_expression lo hi half_open)] = Ok g /\ float_some g.
Proof.
  intros cid id eqb cs fl pw on f which ty lo hi ho g F W. cbv zeta.
  unfold derive, ranged. cbn [di_attrs di_data find_validator meta_path get_ident args_meta].
  replace (eqbs (bs "validator") (bs "validator")) with true by reflexivity.
  destruct (from_path on _) as [v |] eqn:V; cbn [obind]; try (split; [discriminate | intros [? _]; discriminate]).
  assert (v = Vnumber) as ->.
  { unfold from_path in V. cbn [get_ident] in V. replace (validator_of (bs "number")) with (Some Vnumber) in V by reflexivity.
    destruct (on Vnumber); congruence. }
  cbn [handler number_handler]. destruct (float_type ty) as [t |]; [| cbn [omap]; split; [discriminate | intros [? _]; discriminate]].
  assert (R := fun r => C110_range_expression spec_float (fl t) SFltb SFleb f [which] lo hi ho r F).
  assert (D : forall args, omap (fun p => GNumber (cid := cid) (fst p) (snd p))
      (let? a := number_attribute (fl t) SFltb SFleb f
         (MList [bs "number"] [IMeta (MList [bs "range"] [IMeta (MList [which] args false)] false)] false) in
       if number_conflict (na_range a) (na_nan a) (na_conflict a) then Err XConflict else Ok (t, a)) =
      obind (range_meta (fl t) SFltb SFleb f (MList [which] args false))
        (fun r => Ok (GNumber t (mk_number_attr (if eqbs which (bs "Inside") then Inside (r_min r) (r_max r) (r_incl r)
                                     else Outside (r_min r) (r_max r) (r_incl r)) Allow false opts0)))).
  { intro args. unfold number_attribute, build_from_meta. cbn [args_metas all_metas attr_loop meta_path get_ident].
    match goal with |- context [find ?p ?l] => change (find p l) with (hd_error l) end. cbn [hd_error p_read obind].
    unfold range_option_meta, range_meta. cbn [args_meta meta_path get_ident].
    destruct W as [<- | [<- | []]].
    - replace (eqbs (bs "Inside") (bs "Inside")) with true by reflexivity. cbn [range_option_from_meta].
      destruct (range_from_meta spec_float SFltb SFleb (f_full f) (rmeta_of (fl t) (MList [bs "Inside"] args false))); reflexivity.
    - replace (eqbs (bs "Outside") (bs "Inside")) with false by reflexivity.
      replace (eqbs (bs "Outside") (bs "Outside")) with true by reflexivity. cbn [range_option_from_meta].
      destruct (range_from_meta spec_float SFltb SFleb (f_full f) (rmeta_of (fl t) (MList [bs "Outside"] args false))); reflexivity. }
  rewrite !D. revert g.
  apply bind_mono with (Q := fun r => forall a b, r_min r = Some a -> r_max r = Some b -> if r_incl r then SFltb b a = false else SFleb b a = false).
  - exact R.
  - assert (Q : forall u v (incl : bool), match SFcompare v u with Some Lt => False | Some Eq => incl = true | _ => True end <->
      if incl then SFltb v u = false else SFleb v u = false).
    { intros u v incl. unfold SFltb, SFleb. destruct (SFcompare v u) as [[]|]; destruct incl; split; intros; try contradiction; try discriminate; auto. }
    intros r b [= <-]. unfold float_some. cbn [na_range].
    destruct (eqbs which (bs "Inside")); destruct (r_min r) as [u |]; destruct (r_max r) as [v |];
    try (split; [intros _ ? ? | intros _]; try discriminate; exact I).
    + rewrite (Q u v (r_incl r)). split; [intros H ? ? [= <-] [= <-]; exact H|intros H; exact (H u v eq_refl eq_refl)].
    + rewrite (Q u v (r_incl r)). split; [intros H ? ? [= <-] [= <-]; exact H|intros H; exact (H u v eq_refl eq_refl)].
Qed.
Example C110_number_example :
  let lit (t : fty) (s : list N) := if eqbs s (bs "1.5") then Some (S754_finite false 3 (-1)) else Some (S754_finite false 1 1) in
  let expand := derive (cid := unit) (fun _ => Some tt) (fun _ _ => true) (fun _ => true) lit W64 (fun _ => true)
    {| f_serde := true; f_rocket := true; f_full := true |} in
  let lo := Some (LitFloat (bs "1.5")) in let hi := Some (LitFloat (bs "2.0")) in
  is_ok (expand (ranged (bs "number") (bs "Inside") (bs "f64") [IRange (in_expression lo hi false)])) /\
  expand (ranged (bs "number") (bs "Inside") (bs "f64") (List.map IMeta (in_words lo hi false))) =
    expand (ranged (bs "number") (bs "Inside") (bs "f64") [IRange (in_expression lo hi false)]) /\
  is_ok (expand (ranged (bs "number") (bs "Outside") (bs "f64") [IRange (in_expression hi lo true)])) /\
  ~ is_ok (expand (ranged (bs "number") (bs "Outside") (bs "f64") (List.map IMeta (in_words hi lo true)))).
Proof.
  cbv zeta. split; [eexists; vm_compute; reflexivity|]. split; [vm_compute; reflexivity|]. split; [eexists; vm_compute; reflexivity|].
  intros [g E]. vm_compute in E. discriminate E.
Qed.
Print Assumptions C110_number_ranges.

(** The macro with every feature, on [#\[validator(m)\]] over a tuple struct with one field of type [ty]. *)
Definition expand1 (ty : list N) (m : meta) : outcome macro_err (expansion unit) :=
  derive (fun _ => Some tt) (fun _ _ => true) (fun _ => true) (fun _ _ => None) W64 (fun _ => true)
    {| f_serde := true; f_rocket := true; f_full := true |}
    {| di_attrs := [MList [bs "validator"] [IMeta m] false]; di_data := DataStruct (FUnnamed [ty]); di_params := 0 |}.

(** Not every parameter may be written both ways: the second spelling of each pair is refused. *)
Theorem C110_spelling_refuted :
  (* [uuid(separator(Disallow))], [uuid(separator = Disallow)] *)
  is_ok (expand1 (bs "u128") (MList [bs "uuid"] [IMeta (MList [bs "separator"] [IMeta (MPath [bs "Disallow"])] false)] false)) /\
  ~ is_ok (expand1 (bs "u128") (MList [bs "uuid"] [IMeta (MNameValue [bs "separator"] (EPath [bs "Disallow"]))] false)) /\
  (* [base32(serde = false)], [base32(serde(false))] *)
  is_ok (expand1 (bs "String") (MList [bs "base32"] [IMeta (MNameValue [bs "serde"] (ELit (LitBool false)))] false)) /\
  ~ is_ok (expand1 (bs "String") (MList [bs "base32"] [IMeta (MList [bs "serde"] [ILit (LitBool false)] false)] false)) /\
  (* [base32(padding(Must))], [base32(padding(Must,))] *)
  is_ok (expand1 (bs "String") (MList [bs "base32"] [IMeta (MList [bs "padding"] [IMeta (MPath [bs "Must"])] false)] false)) /\
  ~ is_ok (expand1 (bs "String") (MList [bs "base32"] [IMeta (MList [bs "padding"] [IMeta (MPath [bs "Must"])] true)] false)) /\
  (* [signed_integer(range(Unlimited))], [signed_integer(range = Unlimited)] *)
  is_ok (expand1 (bs "i8") (MList [bs "signed_integer"] [IMeta (MList [bs "range"] [IMeta (MPath [bs "Unlimited"])] false)] false)) /\
  ~ is_ok (expand1 (bs "i8") (MList [bs "signed_integer"] [IMeta (MNameValue [bs "range"] (EPath [bs "Unlimited"]))] false)) /\
  (* [phone(countries(TW))], [phone(countries = TW)] *)
  is_ok (expand1 (bs "P") (MList [bs "phone"] [IMeta (MList [bs "countries"] [IMeta (MPath [bs "TW"])] false)] false)) /\
  ~ is_ok (expand1 (bs "P") (MList [bs "phone"] [IMeta (MNameValue [bs "countries"] (EPath [bs "TW"]))] false)).
Proof.
  repeat match goal with |- _ /\ _ => split end;
  first [vm_compute; eexists; reflexivity | intros [g G]; vm_compute in G; discriminate].
Qed.
Print Assumptions C110_spelling_refuted.

(** A range with a negative bound has no range expression: [Inside(min = -5, max = 5)] is accepted and
    [Inside(-5..=5)] is not, its bound being no literal but a negated one. *)
Theorem C110_negative_refuted :
  is_ok (expand1 (bs "i8") (MList [bs "signed_integer"] [IMeta (MList [bs "range"] [IMeta (MList [bs "Inside"]
    [IMeta (MNameValue [bs "min"] (ENeg (LitInt (bs "5")))); IMeta (MNameValue [bs "max"] (ELit (LitInt (bs "5"))))] false)] false)] false)) /\
  (forall half_open hi, ~ is_ok (expand1 (bs "i8") (MList [bs "signed_integer"] [IMeta (MList [bs "range"] [IMeta (MList [bs "Inside"]
    [IRange {| re_start := Some None; re_end := hi; re_half_open := half_open |}] false)] false)] false))).
Proof.
  split; [vm_compute; eexists; reflexivity |]. intros ho hi [g G]. vm_compute in G. discriminate.
Qed.
Print Assumptions C110_negative_refuted.

(** An empty range is refused in words and accepted as an expression (C10). *)
Theorem C110_empty_refuted :
  let five := Some (LitInt (bs "5")) in let three := Some (LitInt (bs "3")) in
  let attr args := MList [bs "signed_integer"] [IMeta (MList [bs "range"] [IMeta (MList [bs "Inside"] args false)] false)] false in
  is_ok (expand1 (bs "i8") (attr [IRange (in_expression five three false)])) /\
  ~ is_ok (expand1 (bs "i8") (attr (List.map IMeta (in_words five three false)))).
Proof.
  cbv zeta. split; [vm_compute; eexists; reflexivity |]. intros [g G]. vm_compute in G. discriminate.
Qed.
Print Assumptions C110_empty_refuted.

(** [#\[validator(signed_integer(range(Inside(min = -3, max(8))), serde = false))\]] and
    [#\[validator(signed_integer(serde = false, range(Inside(min(-3), max = 8,)),))\]]; and [Inside(3..8)]. *)
Example C110_example :
  let inside a b tr := MList [bs "range"] [IMeta (MList [bs "Inside"] [IMeta a; IMeta b] tr)] false in
  let no_serde := MNameValue [bs "serde"] (ELit (LitBool false)) in
  let min_nv := MNameValue [bs "min"] (ENeg (LitInt (bs "3"))) in
  let min_list := MList [bs "min"] [ILit (LitInt (45 :: bs "3"))] false in
  let max_nv := MNameValue [bs "max"] (ELit (LitInt (bs "8"))) in
  let max_list := MList [bs "max"] [ILit (LitInt (bs "8"))] false in
  let m := MList [bs "signed_integer"] [IMeta (inside min_nv max_list false); IMeta no_serde] false in
  let n := MList [bs "signed_integer"] [IMeta no_serde; IMeta (inside min_list max_nv true)] true in
  clos_refl_sym_trans _ attr_respelt m n /\
  expand1 (bs "i8") m =
    Ok (GInt true I8 (mk_range_attr (Inside (Some (-3)%Z) (Some 8%Z) true) (mk_opts (false, false) (true, true)))) /\
  expand1 (bs "i8") n = expand1 (bs "i8") m /\
  derive (fun _ => Some tt) (fun _ _ => true) (fun _ => true) (fun _ _ => None) W64 (fun _ => true)
    {| f_serde := true; f_rocket := true; f_full := true |}
    (ranged (bs "signed_integer") (bs "Inside") (bs "i8") [IRange (in_expression (Some (LitInt (bs "3"))) (Some (LitInt (bs "8"))) true)])
  = Ok (GInt true I8 (mk_range_attr (Inside (Some 3%Z) (Some 8%Z) false) opts0)).
Proof.
  intros inside no_serde min_nv min_list max_nv max_list m n. repeat split; try (vm_compute; reflexivity).
  apply rst_trans with (MList [bs "signed_integer"] [IMeta (inside min_list max_list false); IMeta no_serde] false).
  { apply rst_step. apply (at_param [bs "signed_integer"] [] _ _ [IMeta no_serde]).
    apply (sp_inside (bs "range") [] _ _ []). apply (sp_inside (bs "Inside") [] _ _ [IMeta max_list]).
    apply sp_negative_int. now left. }
  apply rst_trans with (MList [bs "signed_integer"] [IMeta (inside min_list max_nv false); IMeta no_serde] false).
  { apply rst_sym, rst_step. apply (at_param [bs "signed_integer"] [] _ _ [IMeta no_serde]).
    apply (sp_inside (bs "range") [] _ _ []). apply (sp_inside (bs "Inside") [IMeta min_list] _ _ []).
    apply sp_literal. vm_compute. tauto. }
  apply rst_trans with (MList [bs "signed_integer"] [IMeta (inside min_list max_nv true); IMeta no_serde] false).
  { apply rst_sym, rst_step. apply (at_param [bs "signed_integer"] [] _ _ [IMeta no_serde]).
    apply (sp_inside (bs "range") [] _ _ []). apply (sp_comma (bs "Inside") [min_list; max_nv]); [now left | discriminate]. }
  apply rst_step. apply (at_order [bs "signed_integer"] [inside min_list max_nv true; no_serde] [no_serde; inside min_list max_nv true]).
  - apply perm_swap.
  - discriminate.
Qed.
