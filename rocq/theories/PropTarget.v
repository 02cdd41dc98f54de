(** C99: the same source gives the same validator on machines of every pointer width, except for isize and usize. *)
From Verif Require Import Base RangeModel IntModel IntSpec IntStr IntStrProofs IntProofs BooleanModel Serde JsonModel MetaModel MetaSpec MacroModel
  MacroSpec MacroProofs PropMeta PropTokens PropInt PropBoolean PropJson PropMacro.
Local Open Scope Z_scope.

(** The pointers of the second machine are at least as wide. *)
Definition wider (pw pw' : ptr_width) : Prop :=
  match pw, pw' with W16, _ | W32, W32 | W32, W64 | W64, W64 => True | _, _ => False end.

Lemma wider_fits sg pw pw' t i : wider pw pw' -> IntSpec.fits sg pw t i -> IntSpec.fits sg pw' t i.
Proof. destruct sg, t, pw, pw'; cbn [wider IntSpec.fits]; lia. Qed.

Section Mono.
Context {T : Type} (fs fs' : list N -> option T).
Hypothesis H : forall s v, fs s = Some v -> fs' s = Some v.

Lemma num_mono m v : num_written fs m v -> num_written fs' m v.
Proof. intros (p & l & d & D & [[E F]|[E F]]); exists p, l, d; split; auto. Qed.
Lemma bound_mono b v : bound_written fs b v -> bound_written fs' b v.
Proof. destruct b as [[l|]|]; cbn [bound_written]; auto. intros (d & x & D & E & F). exists d, x. auto. Qed.
Lemma value_mono ms n v : value ms n (fun m v => exists x, num_written fs m x /\ v = Some x) None v ->
  value ms n (fun m v => exists x, num_written fs' m x /\ v = Some x) None v.
Proof.
  intros [(m & I & N & x & W & E)|R]; [left|right; exact R]. exists m. split; [exact I|]. split; [exact N|].
  exists x. split; [apply num_mono; exact W|exact E].
Qed.
Lemma range_mono ltb leb full m r : range_written fs ltb leb full m r -> range_written fs' ltb leb full m r.
Proof.
  intros [(p & rg & F & E & A & B & I)|(p & items & tr & ms & E & A & W & V1 & V2 & V3 & C)]; [left|right].
  - exists p, rg. repeat split; auto using bound_mono; apply I.
  - exists p, items, tr, ms. repeat split; auto using value_mono; apply W || apply A.
Qed.
Lemma range_option_mono ltb leb full m r : range_option_written fs ltb leb full m r -> range_option_written fs' ltb leb full m r.
Proof.
  intros (p & a & E & M). exists p, a. split; [exact E|]. destruct r; try exact M; destruct M as [N M]; split; auto using range_mono.
Qed.
End Mono.

Lemma int_lit_spec sg pw t s v : int_lit sg pw t s = Some v <-> denotes_int (int_min sg pw t <? 0) s v /\ IntSpec.fits sg pw t v.
Proof.
  unfold int_lit. pose proof (int_from_str_spec (int_min sg pw t) (int_max sg pw t) s v (min_max sg pw t)) as S.
  rewrite <- (IntProofs.fits_iff sg pw t v) in S. rewrite <- S.
  destruct (int_from_str _ _ s) as [z| |]; split; intros E; try discriminate E; injection E as ->; reflexivity.
Qed.
Lemma signed_min sg pw t : (int_min sg pw t <? 0) = sg.
Proof. destruct sg, t, pw; reflexivity. Qed.
Lemma int_lit_wider sg pw pw' t s v : wider pw pw' \/ t <> Isize -> int_lit sg pw t s = Some v -> int_lit sg pw' t s = Some v.
Proof.
  intros W. rewrite !int_lit_spec, !signed_min. intros [D F]. split; [exact D|]. destruct W as [W|W]; [eapply wider_fits; eassumption|].
  destruct t; try exact F. congruence.
Qed.

Lemma int_handler_inv sg pw f m d t a : int_handler pw sg f m d = Ok (t, a) <->
  exists ty, d = DataStruct (FUnnamed [ty]) /\ int_type sg ty = Some t /\ range_attribute (int_lit sg pw t) Z.ltb Z.leb f m = Ok a.
Proof.
  unfold int_handler. split.
  - intros H. destruct d as [[|[|ty [|]]|]| |]; try discriminate H. exists ty. split; [reflexivity|].
    destruct (int_type sg ty) as [t'|]; [|discriminate H].
    destruct (range_attribute _ _ _ f m) as [a'| |] eqn:R; try discriminate H. cbn [obind] in H. injection H as <- <-.
    split; [reflexivity|exact R].
  - intros (ty & -> & -> & ->). reflexivity.
Qed.

(** C99: a declaration that the macro accepts is accepted with the same meaning when the macro runs on another machine: always,
    if the field is not an isize or usize, and otherwise if the pointers of the other machine are at least as wide. (Literals
    of lengths are read as 64-bit numbers.) *)
Theorem C99_declarations :
  forall cid (id_from_str : list N -> option cid) cid_eqb compiles float_lit pw pw' on f d g,
  derive id_from_str cid_eqb compiles float_lit pw on f d = Ok g ->
  wider pw pw' \/ (forall sg a, g <> GInt sg Isize a) ->
  derive id_from_str cid_eqb compiles float_lit pw' on f d = Ok g.
Proof.
  intros cid ifs ceq comp fl pw pw' on f d g D W. apply derive_lemma in D. apply derive_lemma.
  destruct D as (pre & post & m & v & E & P & M & O & D). exists pre, post, m, v. repeat (split; [assumption|]).
  assert (K : forall sg t a, g = GInt sg t a -> range_attribute (int_lit sg pw t) Z.ltb Z.leb f m = Ok a ->
              range_attribute (int_lit sg pw' t) Z.ltb Z.leb f m = Ok a).
  { intros sg t a G R. apply C66_integer in R. apply C66_integer. destruct R as (ms & A & B & V & R). exists ms.
    split; [exact A|]. split; [exact B|]. split; [|exact R].
    destruct V as [(x & I & N & V)|V]; [left|right; exact V]. exists x. split; [exact I|]. split; [exact N|].
    eapply range_option_mono; [|exact V]. intros s z. apply int_lit_wider. destruct W as [W|W]; [left; exact W|right].
    intros ->. exact (W sg a G). }
  destruct v; try exact D; cbn [handler] in *; apply omap_inv in D as ((t & a) & D & G); cbn [fst snd] in G;
    apply int_handler_inv in D as (ty & Ed & Et & R); apply (K _ _ _ G) in R;
    rewrite (proj2 (int_handler_inv _ pw' f m (di_data d) t a)); [rewrite G; reflexivity| |rewrite G; reflexivity|];
    exists ty; auto.
Qed.
Print Assumptions C99_declarations.

(** C99 is false of isize and usize: a declaration that is accepted on a 64-bit machine need not be accepted on a 32-bit one. *)
Theorem C99_declarations_refuted : exists on f d g,
  derive no_countries unit_eqb (fun _ => true) (fun _ _ => None) W64 on f d = Ok g /\
  derive no_countries unit_eqb (fun _ => true) (fun _ _ => None) W32 on f d = Err (XAttr ENumber).
Proof.
  exists (fun _ => true), {| f_serde := true; f_rocket := true; f_full := false |},
    {| di_attrs := [attr (MList [bs "unsigned_integer"] [IMeta (MList [bs "range"]
         [IMeta (MList [bs "Inside"] [IMeta (MNameValue [bs "max"] (ELit (LitInt (bs "4294967296"))))] false)] false)] false)];
       di_data := DataStruct (FUnnamed [bs "usize"]); di_params := 0 |}.
  eexists. split; vm_compute; reflexivity.
Qed.
Print Assumptions C99_declarations_refuted.

(** C99: an integer validator of a type with a fixed size reads every text in the same way on every machine, with the same value or
    error. *)
Theorem C99_integer_texts : forall sg pw pw' t r s, t <> Isize ->
  int_parse_str sg pw t r s = int_parse_str sg pw' t r s /\ int_validate_str sg pw t r s = int_validate_str sg pw' t r s.
Proof. intros sg pw pw' t r s N. destruct t; try (split; reflexivity). congruence. Qed.
Print Assumptions C99_integer_texts.

(** C99: and every number, through every entry point that takes the number on both machines. *)
Theorem C99_integer_values : forall sg pw pw' t r m i, t <> Isize -> IntSpec.fits sg pw m i -> IntSpec.fits sg pw' m i ->
  int_parse sg pw t r m i = int_parse sg pw' t r m i /\ int_validate sg pw t r m i = int_validate sg pw' t r m i.
Proof.
  intros sg pw pw' t r m i N F F'.
  assert (G : forall w, IntSpec.fits sg w m i -> IntSpec.fits sg w I128 i) by (intros w; destruct sg, m, w; cbn [IntSpec.fits]; lia).
  destruct (C02_integer_entry_points_agree sg pw t r m I128 i F (G _ F)) as [-> ->].
  destruct (C02_integer_entry_points_agree sg pw' t r m I128 i F' (G _ F')) as [-> ->].
  assert (E : int_parse sg pw t r I128 i = int_parse sg pw' t r I128 i) by (destruct t; try reflexivity; congruence).
  rewrite E. split; reflexivity.
Qed.
Print Assumptions C99_integer_values.

(** C99: the integer entry points of boolean and json validators. *)
Theorem C99_boolean_values : forall sg pw pw' m i, IntSpec.fits sg pw m i -> IntSpec.fits sg pw' m i ->
  bool_parse_int sg pw m i = bool_parse_int sg pw' m i /\ bool_validate_int sg pw m i = bool_validate_int sg pw' m i.
Proof.
  intros sg pw pw' m i F F'. apply IntProofs.fits_iff in F, F'.
  destruct (C17_boolean_int sg pw m i F) as (A & B & _). destruct (C17_boolean_int sg pw' m i F') as (A' & B' & _).
  rewrite B, B', A, A'. split; reflexivity.
Qed.
Print Assumptions C99_boolean_values.

Theorem C99_json_values : forall A from_value sg pw pw' m i, IntSpec.fits sg pw m i -> IntSpec.fits sg pw' m i ->
  json_parse_int A from_value sg pw m i = json_parse_int A from_value sg pw' m i.
Proof.
  intros A fv sg pw pw' m i F F'.
  assert (D : - 2 ^ 63 <= i < 2 ^ 64 \/ m = I128 /\ (i < - 2 ^ 63 \/ 2 ^ 64 <= i)).
  { change (- 2 ^ 63) with (-9223372036854775808). change (2 ^ 64) with 18446744073709551616.
    destruct m; cycle 4; [destruct (Z_lt_ge_dec i (-9223372036854775808)) as [L|L]; [right; auto|];
                          destruct (Z_lt_ge_dec i 18446744073709551616); [left; lia|right; split; [reflexivity|right; lia]]|..];
      left; destruct sg, pw, pw'; cbn [IntSpec.fits] in *; lia. }
  destruct D as [D|[-> D]].
  - rewrite (proj1 (C64_integers_partial A fv sg pw m i F D)), (proj1 (C64_integers_partial A fv sg pw' m i F' D)). reflexivity.
  - rewrite !C64_large_integers by exact D. reflexivity.
Qed.
Print Assumptions C99_json_values.

(** C99: of isize and usize, the narrower machine accepts exactly what the wider one accepts among the numbers it has. *)
Theorem C99_sizes : forall sg pw pw' r, wider pw pw' -> ~ degenerate sg pw Isize r ->
  (forall s v, int_parse_str sg pw Isize r s = Ok v <-> int_parse_str sg pw' Isize r s = Ok v /\ IntSpec.fits sg pw Isize v) /\
  (forall m i v, IntSpec.fits sg pw m i ->
     (int_parse sg pw Isize r m i = Ok v <-> int_parse sg pw' Isize r m i = Ok v /\ IntSpec.fits sg pw Isize v)).
Proof.
  intros sg pw pw' r W D.
  assert (D' : ~ degenerate sg pw' Isize r).
  { intros [G|(S & mn & mx & incl & E & G)]; apply D; [left; exact G|right]. split; [exact S|]. exists mn, mx, incl. split; [exact E|].
    destruct incl; [exact G|]. intros [A B]. apply G. split; [exact A|]. intros C. apply B. intros j J. apply C.
    eapply wider_fits; eassumption. }
  pose proof (fun v => wider_fits sg pw pw' Isize v W) as F. split.
  - intros s v. rewrite (proj1 (C03_integer_strings sg pw Isize r s D) v), (proj1 (C03_integer_strings sg pw' Isize r s D') v).
    specialize (F v). tauto.
  - intros m i v Fm. assert (Fm' := wider_fits sg pw pw' m i W Fm).
    rewrite (proj1 (C02_integer_entry_points sg pw Isize r m i D Fm) v), (proj1 (C02_integer_entry_points sg pw' Isize r m i D' Fm') v).
    specialize (F v). split.
    + intros (A & B & ->). auto.
    + intros ((A & B & ->) & C). auto.
Qed.
Print Assumptions C99_sizes.

Example C99_example :
  wider W32 W64 /\ ~ degenerate true W32 Isize (Inside (Some 5) None true) /\
  int_parse_str true W64 Isize (Inside (Some 5) None true) (bs "2147483648") = Ok 2147483648 /\
  int_parse_str true W32 Isize (Inside (Some 5) None true) (bs "2147483648") = Err (ParseInt IPosOverflow) /\
  int_parse_str true W32 Isize (Inside (Some 5) None true) (bs "2147483647") = Ok 2147483647 /\
  int_parse_str true W32 I64 (Inside (Some 5) None true) (bs "2147483648") = Ok 2147483648 /\
  IntSpec.fits true W16 Isize (-300) /\ int_parse true W16 I32 Unlimited Isize (-300) = Ok (-300) /\
  json_parse_int Z (fun j => match j with JInt z => Some z | _ => None end) true W16 Isize (-300) = Ok (-300).
Proof.
  split; [exact I|]. split.
  { intros [[incl E]|(_ & mn & mx & incl & E & _)]; discriminate E. }
  vm_compute. repeat split; discriminate.
Qed.
