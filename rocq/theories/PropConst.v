(** C84: the constants that the derive macro writes into the generated program are values of their types. *)
From Verif Require Import Base RangeModel NumberModel IntModel IntSpec IntStr IntStrProofs IntProofs LengthModel SizeModel MetaModel MetaSpec MacroModel MacroSpec
  MacroProofs PropMeta PropTokens ConstModel.
Local Open Scope Z_scope.

(** [v] is a value of the type on a target with pointer width [tw]. *)
Definition of_type (tw : ptr_width) (c : cty) (v : Z) : Prop :=
  match c with
  | CInt sg t => IntSpec.fits sg tw t v
  | CU128 => 0 <= v <= 340282366920938463463374607431768211455
  end.

(** The Rust compiler takes the constant: its number and, for a sum, the result are values of the type. *)
Definition takes (tw : ptr_width) (c : cty * cexpr) : Prop :=
  match snd c with
  | CNum v => of_type tw (fst c) v
  | CPlusOne v => of_type tw (fst c) v /\ of_type tw (fst c) (v + 1)
  end.

(** The largest [usize]. *)
Definition usize_max (tw : ptr_width) : N :=
  match tw with W16 => 65535 | W32 => 4294967295 | W64 => 18446744073709551615 end%N.

(** What a number written in an attribute was read from. *)
Lemma num_from {T} (fs : list N -> option T) m x : num_written fs m x -> exists s, fs s = Some x.
Proof. intros (p & l & d & _ & [[H _]|[H _]]); eauto. Qed.
Lemma bound_from {T} (fs : list N -> option T) b x : bound_written fs b (Some x) -> exists s, fs s = Some x.
Proof.
  destruct b as [[l|]|]; cbn [bound_written]; [|contradiction|discriminate].
  intros (d & y & _ & H & E). injection E as <-. eauto.
Qed.
Lemma value_from {T} (fs : list N -> option T) ms n x :
  value ms n (fun m v => exists x, num_written fs m x /\ v = Some x) None (Some x) -> exists s, fs s = Some x.
Proof.
  intros [(m & _ & _ & y & H & E)|[_ E]]; [|discriminate E]. injection E as <-. eapply num_from; eassumption.
Qed.
Lemma range_from {T} (fs : list N -> option T) ltb leb full m r x :
  range_written fs ltb leb full m r -> r_min r = Some x \/ r_max r = Some x -> exists s, fs s = Some x.
Proof.
  intros [(p & rg & _ & _ & A & B & _)|(p & items & tr & ms & _ & _ & _ & A & B & _)] [E|E].
  - rewrite E in A. eapply bound_from; eassumption.
  - rewrite E in B. eapply bound_from; eassumption.
  - rewrite E in A. eapply value_from; eassumption.
  - rewrite E in B. eapply value_from; eassumption.
Qed.
Lemma option_from {T} (fs : list N -> option T) ltb leb full m r x :
  range_option_written fs ltb leb full m r -> a_bound r x -> exists s, fs s = Some x.
Proof.
  intros (p & a & _ & H) B. destruct r as [mn mx i|mn mx i|]; cbn [a_bound] in B; [| |contradiction];
    destruct H as [_ H]; eapply range_from; cbn; eauto.
Qed.

Lemma int_lit_fits sg pw t s v : int_lit sg pw t s = Some v -> IntSpec.fits sg pw t v.
Proof.
  unfold int_lit. intros H. destruct (int_from_str (int_min sg pw t) (int_max sg pw t) s) as [z| |] eqn:E; try discriminate.
  injection H as ->. apply int_from_str_spec in E as [_ E]; [|apply min_max]. apply IntProofs.fits_iff. exact E.
Qed.
Lemma u128_lit_fits s v : u128_lit s = Some v -> 0 <= Z.of_N v <= 340282366920938463463374607431768211455.
Proof.
  unfold u128_lit. intros H. destruct (int_from_str 0 (2 ^ 128 - 1) s) as [z| |] eqn:E; try discriminate.
  injection H as <-. apply int_from_str_spec in E as [_ E]; [|lia]. rewrite Z2N.id by lia.
  change (2 ^ 128 - 1) with 340282366920938463463374607431768211455 in E. exact E.
Qed.
Lemma usize_fits s v : usize_from_str s = Some v -> 0 <= Z.of_N v <= 18446744073709551615.
Proof.
  unfold usize_from_str. intros H. destruct (int_from_str 0 (2 ^ 64 - 1) s) as [z| |] eqn:E; try discriminate.
  injection H as <-. apply int_from_str_spec in E as [_ E]; [|lia]. rewrite Z2N.id by lia.
  change (2 ^ 64 - 1) with 18446744073709551615 in E. exact E.
Qed.

(** Every constant of an integer validator is a bound of its range. *)
Lemma range_consts_bound sg pw t r z : In z (range_consts (to_tokens Z Z.eqb (int_inc sg pw t) false r)) -> a_bound r z.
Proof.
  destruct r as [[x|] [y|] i|[x|] [y|] i|]; cbn [to_tokens range_consts]; try (intros []; fail);
    (match goal with |- context [if ?b then _ else _] => destruct b end); cbn;
    intros; repeat match goal with H : _ \/ _ |- _ => destruct H | H : False |- _ => destruct H end; subst; auto.
Qed.
Lemma size_consts_bound r n : In n (size_consts r) -> r_min r = Some n \/ r_max r = Some n.
Proof.
  unfold size_consts. destruct (range_equal _ _ _ _ _ _ _), (r_min r) as [x|], (r_max r) as [y|]; cbn;
    intros; repeat match goal with H : _ \/ _ |- _ => destruct H | H : False |- _ => destruct H end; subst; auto.
Qed.
Lemma length_consts_bound mn mx n : In n (flat_map stmt_consts (gen_length mn mx)) -> mn = Some n \/ mx = Some n.
Proof.
  unfold gen_length. destruct mn as [x|], mx as [y|]; try destruct (x =? y)%N; cbn;
    intros; repeat match goal with H : _ \/ _ |- _ => destruct H | H : False |- _ => destruct H end; subst; auto.
Qed.

Section Derived.
Context {cid : Type} (id_from_str : list N -> option cid) (cid_eqb : cid -> cid -> bool) (compiles : list N -> bool)
  (float_lit : fty -> list N -> option SpecFloat.spec_float) (pw : ptr_width) (on : validator -> bool) (f : features).

Lemma derived_int d sg t a z : derive id_from_str cid_eqb compiles float_lit pw on f d = Ok (GInt sg t a) ->
  a_bound (ra_range a) z -> IntSpec.fits sg pw t z.
Proof.
  intros H B. apply derive_lemma in H. destruct H as (pre & post & m & v & _ & _ & _ & _ & H).
  assert (K : exists m', range_attribute (int_lit sg pw t) Z.ltb Z.leb f m' = Ok a).
  { destruct v; cbn [handler] in H; apply omap_inv in H as (p & H & E); try discriminate E; injection E as -> -> ->;
      unfold int_handler in H; destruct (di_data d) as [[|[|ty [|]]|]| |]; try discriminate H;
      (destruct (int_type _ ty) as [t'|]; [|discriminate H]);
      (destruct (range_attribute _ _ _ f m) as [a'| |] eqn:R; try discriminate H); cbn [obind] in H; injection H as <-;
      exists m; exact R. }
  destruct K as (m' & K). apply C66_integer in K. destruct K as (ms & _ & _ & V & _).
  destruct V as [(x & _ & _ & W)|[_ E]]; [|rewrite E in B; destruct B].
  destruct (option_from _ _ _ _ _ _ _ W B) as (s & S). eapply int_lit_fits; exact S.
Qed.

Lemma derived_size d g r n : derive id_from_str cid_eqb compiles float_lit pw on f d = Ok g ->
  (exists a, g = GBit a /\ bi_range a = r) \/ (exists a, g = GByte a /\ by_range a = r) ->
  r_min r = Some n \/ r_max r = Some n -> 0 <= Z.of_N n <= 340282366920938463463374607431768211455.
Proof.
  intros H G B. apply derive_lemma in H. destruct H as (pre & post & m & v & _ & _ & _ & _ & H).
  assert (K : exists m', range_written u128_lit N.ltb N.leb (f_full f) m' r \/ r = mk_range None None false).
  { destruct G as [(a & -> & <-)|(a & -> & <-)]; destruct v; cbn [handler] in H; apply omap_inv in H as (p & H & E);
      try discriminate E; injection E as ->; unfold tuple_handler in H;
      [destruct (bit_attribute _ _ _ f m) as [a'| |] eqn:R|destruct (byte_attribute _ _ _ f m) as [a'| |] eqn:R];
      try discriminate H; cbn [obind] in H; unfold on_struct in H; destruct (di_data d) as [fs| |]; try discriminate H;
      destruct (tuple1 fs); try discriminate H; injection H as ->;
      [apply C66_bit in R|apply C66_byte in R]; destruct R as (ms & _ & _ & [(x & _ & _ & W)|[_ W]] & _);
      first [exists x; left; exact W|exists m; right; exact W]. }
  destruct K as (m' & [K| ->]); [|destruct B; discriminate].
  destruct (range_from _ _ _ _ _ _ _ K B) as (s & S). eapply u128_lit_fits; exact S.
Qed.

Lemma derived_length d a n : derive id_from_str cid_eqb compiles float_lit pw on f d = Ok (GLength a) ->
  ca_min a = Some n \/ ca_max a = Some n -> 0 <= Z.of_N n <= 18446744073709551615.
Proof.
  intros H B. apply derive_lemma in H. destruct H as (pre & post & m & v & _ & _ & _ & _ & H).
  destruct v; cbn [handler] in H; apply omap_inv in H as (p & H & E); try discriminate E; injection E as ->.
  unfold tuple_handler in H. destruct (coll_meta f m) as [a'| |] eqn:R; try discriminate H. cbn [obind] in H.
  unfold on_struct in H. destruct (di_data d) as [fs| |]; try discriminate H. destruct (tuple1 fs); try discriminate H.
  injection H as ->. apply C66_length in R. destruct R as (ms & _ & _ & A & C & _).
  assert (K : exists s, usize_from_str s = Some n).
  { destruct B as [E|E]; rewrite E in *; [eapply (value_from _ _ _ _ A)|eapply (value_from _ _ _ _ C)]. }
  destruct K as (s & S). eapply usize_fits; exact S.
Qed.

Lemma derived_utf8 d g a byte l n : derive id_from_str cid_eqb compiles float_lit pw on f d = Ok g -> g = GLine a \/ g = GText a ->
  ta_length a = Some (byte, l) -> l_min l = Some n \/ l_tmin l = Some n \/ l_max l = Some n -> 0 <= Z.of_N n <= 18446744073709551615.
Proof.
  intros H G L B. apply derive_lemma in H. destruct H as (pre & post & m & v & _ & _ & _ & _ & H).
  assert (R : utf8_meta f m = Ok a).
  { destruct G as [-> | ->]; destruct v; cbn [handler] in H; apply omap_inv in H as (p & H & E); try discriminate E; injection E as ->;
      unfold tuple_handler in H; (destruct (utf8_meta f m) as [a'| |]; try discriminate H); cbn [obind] in H;
      unfold on_struct in H; (destruct (di_data d) as [fs| |]; try discriminate H); (destruct (tuple1 fs); try discriminate H);
      injection H as ->; reflexivity. }
  apply C66_line_text in R. destruct R as (ms & _ & _ & [(x & b & l' & _ & _ & W & E & _)|[_ E]] & _); [|congruence].
  rewrite L in E. injection E as <- <-. destruct W as (p & items & tr & ms' & _ & _ & _ & A & C & D & _).
  assert (K : exists s, usize_from_str s = Some n).
  { destruct B as [E|[E|E]]; rewrite E in *;
      [eapply (value_from _ _ _ _ A)|eapply (value_from _ _ _ _ C)|eapply (value_from _ _ _ _ D)]. }
  destruct K as (s & S). eapply usize_fits; exact S.
Qed.
End Derived.

(** C84, signed_integer and unsigned_integer: the bounds are values of the field type on a machine like the one that ran the macro; if the
    type is not isize or usize, on every target. *)
Theorem C84_integer_fits : forall cid (id_from_str : list N -> option cid) cid_eqb compiles float_lit pw on f d sg t a,
  derive id_from_str cid_eqb compiles float_lit pw on f d = Ok (GInt sg t a) ->
  Forall (takes pw) (consts pw (@GInt cid sg t a)) /\
  (t <> Isize -> forall tw, Forall (takes tw) (consts pw (@GInt cid sg t a))).
Proof.
  intros cid ifs ceq comp fl pw on f d sg t a H.
  assert (B : forall z, In z (range_consts (to_tokens Z Z.eqb (int_inc sg pw t) false (ra_range a))) -> IntSpec.fits sg pw t z).
  { intros z Hz. eapply derived_int; [exact H|]. eapply range_consts_bound; exact Hz. }
  cbn [consts]. split.
  - apply Forall_map, Forall_forall. intros z Hz. exact (B z Hz).
  - intros N tw. apply Forall_map, Forall_forall. intros z Hz. specialize (B z Hz). unfold takes. cbn [fst snd of_type].
    destruct sg, t; cbn [IntSpec.fits] in *; first [exact B|congruence].
Qed.
Print Assumptions C84_integer_fits.

(** C84, cross-compilation: for isize and usize the bounds need not fit the target. *)
Theorem C84_integer_cross_refuted : exists d g,
  @derive unit (fun _ => None) (fun _ _ => true) (fun _ => true) (fun _ _ => None) W64 (fun _ => true)
    {| f_serde := false; f_rocket := false; f_full := false |} d = Ok g /\
  Forall (takes W64) (consts W64 g) /\ ~ Forall (takes W32) (consts W64 g).
Proof.
  exists {| di_attrs := [MList [bs "validator"] [IMeta (MList [bs "unsigned_integer"] [IMeta (MList [bs "range"]
           [IMeta (MList [bs "Inside"] [IMeta (MNameValue [bs "max"] (ELit (LitInt (bs "4294967296"))))] false)] false)] false)] false];
            di_data := DataStruct (FUnnamed [bs "usize"]); di_params := 0%nat |}.
  eexists. split; [vm_compute; reflexivity|]. split.
  - repeat constructor; vm_compute; discriminate.
  - intros H. inversion H as [|x l A _ E]. vm_compute in A. destruct A as [_ A]. apply A. reflexivity.
Qed.
Print Assumptions C84_integer_cross_refuted.

(** C84, cross-compilation: when the constants fit the target, the check that was generated on another machine decides about values of the
    field type exactly like the one generated for the target (the width of the machine that ran the macro leaves no other trace). *)
Theorem C84_integer_host_independent : forall cid (id_from_str : list N -> option cid) cid_eqb compiles float_lit pw on f d sg t a tw i,
  derive id_from_str cid_eqb compiles float_lit pw on f d = Ok (GInt sg t a) ->
  Forall (takes tw) (consts pw (@GInt cid sg t a)) -> IntSpec.fits sg tw t i ->
  handle_range (to_tokens Z Z.eqb (int_inc sg pw t) false (ra_range a)) i =
  handle_range (to_tokens Z Z.eqb (int_inc sg tw t) false (ra_range a)) i.
Proof.
  intros cid ifs ceq comp fl pw on f d sg t a tw i H T F.
  assert (B : forall z, a_bound (ra_range a) z -> IntSpec.fits sg pw t z) by (intros z; eapply derived_int; exact H).
  cbn [consts] in T. rewrite Forall_map in T. rewrite Forall_forall in T. unfold takes in T. cbn [fst snd of_type] in T.
  assert (MX : forall w v, IntSpec.fits sg w t v -> v <= int_max sg w t) by (intros w v K; apply IntProofs.fits_iff in K; apply K).
  clear H. destruct (ra_range a) as [[x|] [y|] [|]|[x|] [y|] [|]|]; try reflexivity.
  - assert (By := MX _ _ (B y (or_intror eq_refl))). assert (Ii := MX _ _ F).
    cbn [to_tokens range_equal] in *. unfold int_inc in *. unfold handle_range.
    destruct (Z.leb_spec (x + 1) (int_max sg pw t)); [destruct (Z.eqb_spec (x + 1) y) as [EQ|NE]|]; cbv iota beta in *.
    + assert (Bx := MX _ _ (T x (or_introl eq_refl))).
      destruct (Z.leb_spec (x + 1) (int_max sg tw t)); cbv iota beta; [rewrite (proj2 (Z.eqb_eq _ _) EQ); reflexivity|].
      cbn [obind]. destruct (Z.compare_spec i x), (Z.ltb_spec i x); cbn [obind]; try lia; try reflexivity;
        destruct (Z.leb_spec y i); try lia; reflexivity.
    + destruct (Z.leb_spec (x + 1) (int_max sg tw t)); cbv iota beta; [|reflexivity]. rewrite (proj2 (Z.eqb_neq (x + 1) y)) by assumption. reflexivity.
    + destruct (Z.leb_spec (x + 1) (int_max sg tw t)); cbv iota beta; [|reflexivity]. rewrite (proj2 (Z.eqb_neq (x + 1) y)) by lia. reflexivity.
  - assert (By := MX _ _ (B y (or_intror eq_refl))). assert (Ii := MX _ _ F).
    cbn [to_tokens range_equal] in *. unfold int_inc in *. unfold handle_range.
    destruct (Z.leb_spec (x + 1) (int_max sg pw t)); [destruct (Z.eqb_spec (x + 1) y) as [EQ|NE]|]; cbv iota beta in *.
    + assert (Bx := MX _ _ (T x (or_introl eq_refl))).
      destruct (Z.leb_spec (x + 1) (int_max sg tw t)); cbv iota beta; [rewrite (proj2 (Z.eqb_eq _ _) EQ); reflexivity|].
      destruct (Z.eqb_spec i x), (Z.leb_spec x i), (Z.ltb_spec i y); cbn [andb]; try lia; reflexivity.
    + destruct (Z.leb_spec (x + 1) (int_max sg tw t)); cbv iota beta; [|reflexivity]. rewrite (proj2 (Z.eqb_neq (x + 1) y)) by assumption. reflexivity.
    + destruct (Z.leb_spec (x + 1) (int_max sg tw t)); cbv iota beta; [|reflexivity]. rewrite (proj2 (Z.eqb_neq (x + 1) y)) by lia. reflexivity.
Qed.
Print Assumptions C84_integer_host_independent.

(** C84, bit and byte: the bounds are [u128] values on every target. *)
Theorem C84_size_fits : forall cid (id_from_str : list N -> option cid) cid_eqb compiles float_lit pw on f d g tw,
  derive id_from_str cid_eqb compiles float_lit pw on f d = Ok g -> generated g = Vbit \/ generated g = Vbyte ->
  Forall (takes tw) (consts pw g).
Proof.
  intros cid ifs ceq comp fl pw on f d g tw H G.
  destruct g; cbn [generated] in G; try (destruct G; discriminate).
  all: try (match goal with v : validator |- _ => destruct G as [-> | ->] end; constructor).
  all: try (match goal with sg : bool |- _ => destruct sg, G; discriminate end).
  - apply Forall_map, Forall_forall. intros n Hn. apply size_consts_bound in Hn.
    eapply derived_size; [exact H|left; eexists; split; reflexivity|exact Hn].
  - apply Forall_map, Forall_forall. intros n Hn. apply size_consts_bound in Hn.
    eapply derived_size; [exact H|right; eexists; split; reflexivity|exact Hn].
Qed.
Print Assumptions C84_size_fits.

(** C84, length: on a 64-bit target every accepted bound fits; on another target exactly when the bounds are at most the largest usize. *)
Theorem C84_length_fits : forall cid (id_from_str : list N -> option cid) cid_eqb compiles float_lit pw on f d a,
  derive id_from_str cid_eqb compiles float_lit pw on f d = Ok (GLength a) ->
  Forall (takes W64) (consts pw (@GLength cid a)) /\
  forall tw, Forall (takes tw) (consts pw (@GLength cid a)) <->
    forall n, ca_min a = Some n \/ ca_max a = Some n -> (n <= usize_max tw)%N.
Proof.
  intros cid ifs ceq comp fl pw on f d a H.
  assert (U : forall tw, Forall (takes tw) (consts pw (@GLength cid a)) <->
    forall n, ca_min a = Some n \/ ca_max a = Some n -> (n <= usize_max tw)%N).
  { intros tw. cbn [consts]. rewrite Forall_map, Forall_forall. unfold takes. cbn [fst snd of_type].
    assert (E : forall n, IntSpec.fits false tw Isize (Z.of_N n) <-> (n <= usize_max tw)%N) by (intros n; destruct tw; cbn; lia).
    split.
    - intros K n B. apply E, K. unfold gen_length. destruct (ca_min a) as [x|], (ca_max a) as [y|];
        try (destruct (N.eqb_spec x y); [subst y|]); cbn; destruct B as [B|B]; try discriminate B; injection B as ->; auto.
    - intros K n B. apply E, K. apply length_consts_bound. exact B. }
  split; [|exact U]. apply U. intros n B. apply (derived_length _ _ _ _ _ _ _ _ _ _ H) in B. cbn. lia.
Qed.
Print Assumptions C84_length_fits.

(** C84, line and text: the bounds have to be usize values of the target, and a maximum of [char_length] must not be the largest one. *)
Theorem C84_utf8_fits_exactly : forall cid pw tw a byte l g, g = GLine a \/ g = GText a -> ta_length a = Some (byte, l) ->
  (Forall (takes tw) (@consts cid pw g) <->
   (forall n, l_min l = Some n \/ l_tmin l = Some n \/ l_max l = Some n -> (n <= usize_max tw)%N) /\
   (byte = false -> l_max l <> Some (usize_max tw))).
Proof.
  intros cid pw tw a byte l g G L.
  assert (C : consts pw g = List.map (fun e => (CInt false Isize, e)) (utf8_consts (Some (byte, l)))) by (destruct G as [-> | ->]; cbn [consts]; rewrite L; reflexivity).
  rewrite C. rewrite Forall_map, Forall_forall. unfold takes. cbn [fst snd of_type]. cbn [utf8_consts].
  assert (E : forall n, IntSpec.fits false tw Isize (Z.of_N n) <-> (n <= usize_max tw)%N) by (intros n; destruct tw; cbn; lia).
  assert (E1 : forall n, IntSpec.fits false tw Isize (Z.of_N n + 1) <-> (n < usize_max tw)%N) by (intros n; destruct tw; cbn; lia).
  destruct (l_min l) as [mn|], (l_tmin l) as [tm|], (l_max l) as [mx|]; cbn [opt_list app List.map]; split.
  all: try (intros K; split;
    [intros n [B|[B|B]]; try discriminate B; injection B as ->; apply E; refine (K (CNum _) _); destruct byte; cbn; tauto
    |intros -> EQ; try discriminate EQ; injection EQ as ->; destruct (K (CPlusOne (Z.of_N (usize_max tw))) (or_introl eq_refl)) as [_ K1];
     apply E1 in K1; lia]).
  all: intros [K1 K2] x Hx; destruct byte; cbn [app In] in Hx;
    repeat match goal with H : _ \/ _ |- _ => destruct H as [H|H] end; try contradiction; subst x; cbn.
  all: try (apply E, K1; tauto).
  all: split; [apply E, K1; tauto|apply E1].
  all: specialize (K2 eq_refl); assert (mx <= usize_max tw)%N by (apply K1; tauto); destruct (N.eq_dec mx (usize_max tw)); [congruence|lia].
Qed.
Print Assumptions C84_utf8_fits_exactly.

(** C84, line and text, on a 64-bit target. Missing: [char_length(max = 18446744073709551615)], for which it is false. *)
Theorem C84_utf8_fits_partial : forall cid (id_from_str : list N -> option cid) cid_eqb compiles float_lit pw on f d g a,
  derive id_from_str cid_eqb compiles float_lit pw on f d = Ok g -> g = GLine a \/ g = GText a ->
  (forall l, ta_length a = Some (false, l) -> l_max l <> Some 18446744073709551615%N) -> Forall (takes W64) (consts pw g).
Proof.
  intros cid ifs ceq comp fl pw on f d g a H G L. destruct (ta_length a) as [[byte l]|] eqn:E.
  - apply (C84_utf8_fits_exactly cid pw W64 a byte l g G E). split.
    + intros n B. apply (derived_utf8 _ _ _ _ _ _ _ _ _ _ _ _ _ H G E) in B. cbn. lia.
    + intros ->. exact (L l eq_refl).
  - destruct G as [-> | ->]; cbn [consts]; rewrite E; constructor.
Qed.
Print Assumptions C84_utf8_fits_partial.

(** C84 is false of [char_length(max = 18446744073709551615)]: the macro accepts it and the Rust compiler refuses what it generates. *)
Theorem C84_utf8_refuted : exists d g,
  @derive unit (fun _ => None) (fun _ _ => true) (fun _ => true) (fun _ _ => None) W64 (fun _ => true)
    {| f_serde := false; f_rocket := false; f_full := false |} d = Ok g /\ ~ Forall (takes W64) (consts W64 g).
Proof.
  exists {| di_attrs := [MList [bs "validator"] [IMeta (MList [bs "line"] [IMeta (MList [bs "char_length"]
           [IMeta (MNameValue [bs "max"] (ELit (LitInt (bs "18446744073709551615"))))] false)] false)] false];
            di_data := DataStruct (FUnnamed [bs "String"]); di_params := 0%nat |}.
  eexists. split; [vm_compute; reflexivity|].
  intros H. inversion H as [|x l A _ E]. vm_compute in A. destruct A as [_ [_ A]]. apply A. reflexivity.
Qed.
Print Assumptions C84_utf8_refuted.

(** The hypotheses are met by [byte_length(min = 1, max = 18446744073709551615)] and by an exclusive integer range of one value. *)
Example C84_example :
  (exists a l, @derive unit (fun _ => None) (fun _ _ => true) (fun _ => true) (fun _ _ => None) W64 (fun _ => true)
    {| f_serde := false; f_rocket := false; f_full := false |}
    {| di_attrs := [MList [bs "validator"] [IMeta (MList [bs "text"] [IMeta (MList [bs "byte_length"]
         [IMeta (MNameValue [bs "min"] (ELit (LitInt (bs "1"))));
          IMeta (MNameValue [bs "max"] (ELit (LitInt (bs "18446744073709551615"))))] false)] false)] false];
       di_data := DataStruct (FUnnamed [bs "String"]); di_params := 0%nat |} = Ok (GText a) /\
    ta_length a = Some (true, l) /\ consts W64 (@GText unit a) = [(CInt false Isize, CNum 18446744073709551615); (CInt false Isize, CNum 1)]) /\
  (exists a, @derive unit (fun _ => None) (fun _ _ => true) (fun _ => true) (fun _ _ => None) W64 (fun _ => true)
    {| f_serde := false; f_rocket := false; f_full := false |}
    {| di_attrs := [MList [bs "validator"] [IMeta (MList [bs "unsigned_integer"] [IMeta (MList [bs "range"]
         [IMeta (MList [bs "Inside"] [IMeta (MNameValue [bs "min"] (ELit (LitInt (bs "4294967295"))));
            IMeta (MNameValue [bs "max"] (ELit (LitInt (bs "4294967296"))));
            IMeta (MNameValue [bs "inclusive"] (ELit (LitBool false)))] false)] false)] false)] false];
       di_data := DataStruct (FUnnamed [bs "usize"]); di_params := 0%nat |} = Ok (GInt false Isize a) /\
    consts W64 (@GInt unit false Isize a) = [(CInt false Isize, CNum 4294967295)] /\
    v_parse_i false W32 Isize (ra_range a) 4294967295 = Ok tt).
Proof.
  split.
  - eexists _, _. split; [vm_compute; reflexivity|]. split; reflexivity.
  - eexists. split; [vm_compute; reflexivity|]. split; reflexivity.
Qed.
