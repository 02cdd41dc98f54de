(** Property C97: the constants that the feature [test] adds to a struct describe what the struct accepts. *)
From Verif Require Import Base RangeModel IntModel IntSpec NumberModel NumberSpec SizeModel SizeProofs LengthModel LengthProofs
  Utf8 LineModel LineSpec MacModel MacSpec MacProofs BaseModel BaseSpec NetModel NetSpec IpModel IpSpec DomainModel DomainSpec
  DomainProofs StrFacts HostModel HostSpec EmailModel EmailSpec PhoneModel MetaModel MacroModel MacroSpec ReflectModel.
From Verif Require PropInt PropNumber PropSize PropAttr PropLine PropMac PropBase PropIp PropDomain PropHost PropHttp HttpModel
  HttpSpec PropMeta MetaSpec BaseProofs PropRelB LocalProofs HostProofs CodecProofs PropEmail PropPhone HttpProofs IdnaFrag.
From Verif Require Import CodecSpec CodecModel.
From Coq Require Import Floats.SpecFloat Permutation.
Local Open Scope N_scope.

(** The oracle of the repository's own tests for ranges, /repo/validators/tests/number.rs:5-58 (bit, byte and the integers have
    the same): with it they say which numbers are to be accepted. *)
Definition check_range {T} (lt le : T -> T -> bool) (v : T) (r : range_option T) : bool :=
  match r with
  | Inside min max inclusive =>
      match min with Some m => negb (lt v m) | None => true end &&
      match max with Some m => if inclusive then negb (lt m v) else negb (le m v) | None => true end
  | Outside min max inclusive =>
      match min, max with
      | Some m, Some n => if inclusive then negb (le m v && le v n) else negb (le m v && lt v n)
      | Some m, None => lt v m
      | None, Some n => if inclusive then lt n v else le n v
      | None, None => true
      end
  | Unlimited => true
  end%bool.
(** ... for lengths, /repo/validators/tests/line.rs:5-32. *)
Definition check_length (min max trimmed_min : option N) (length trimmed : N) : bool :=
  match min with Some m => negb (length <? m) | None => true end &&
  match max with Some m => negb (m <? length) | None => true end &&
  match trimmed_min with Some m => negb (trimmed <? m) | None => true end.

(** A policy about a feature that a text has or has not: "V_X.allow()" and "!V_X.disallow()" where it has it, "!V_X.must()" where
    it has not. *)
Definition told (t : tri) (P : Prop) : Prop := (P -> t_allow t = true /\ t_disallow t = false) /\ (~ P -> t_must t = false).

Lemma all_some {T} (m : T) (P : T -> Prop) : (forall x, Some m = Some x -> P x) <-> P m.
Proof. split; [intros H; now apply H|intros H x [= <-]; exact H]. Qed.
Lemma all_none {T} (P : T -> Prop) : (forall x, None = Some x -> P x) <-> True.
Proof. split; [trivial|intros _ x H; discriminate]. Qed.
Lemma check_range_Z r i : (forall incl, r <> Outside None None incl) -> check_range Z.ltb Z.leb i r = true <-> allowed r i.
Proof.
  intros D. destruct r as [[m|] [n|] b | [m|] [n|] b |]; cbn [check_range allowed]; unfold in_bounds;
    rewrite ?all_some, ?all_none; try destruct b; cbn [andb]; try (now destruct (D true)); try (now destruct (D false)); lia.
Qed.
Lemma check_range_N r v : check_range N.ltb N.leb v (size_const r) = true <-> size_in r v.
Proof.
  destruct r as [[m|] [n|] b]; unfold size_in; cbn [size_const check_range r_min r_max r_incl];
    rewrite ?all_some, ?all_none; destruct b; cbn [andb]; lia.
Qed.
Lemma check_range_SF t r f x : good_range t r -> is_float_of t f -> xval f = Some x ->
  (forall incl, r <> Outside None None incl) -> check_range SFltb SFleb f r = true <-> x_allowed r x.
Proof.
  intros G F X D.
  assert (L : forall g, (is_float_of t g /\ xval g <> None) -> exists y, xval g = Some y /\
    SFltb f g = negb (SFleb g f) /\ SFltb g f = negb (SFleb f g) /\
    (xle x y <-> SFleb f g = true) /\ (xle y x <-> SFleb g f = true) /\ (xlt x y <-> SFleb g f = false)).
  { intros g [Hg N]. destruct (xval g) as [y|] eqn:Hy; [|congruence]. exists y. split; [reflexivity|].
    pose proof (NumberProofs.SFltb_iff t f g x y F Hg X Hy) as A1. pose proof (NumberProofs.SFltb_iff t g f y x Hg F Hy X) as A2.
    pose proof (NumberProofs.SFleb_iff t f g x y F Hg X Hy) as A3. pose proof (NumberProofs.SFleb_iff t g f y x Hg F Hy X) as A4.
    rewrite NumberProofs.xlt_le in A1, A2. rewrite NumberProofs.xlt_le, <- A3, <- A4. rewrite <- A3 in A2. rewrite <- A4 in A1.
    destruct (SFltb f g), (SFltb g f), (SFleb f g), (SFleb g f); cbn; intuition congruence. }
  assert (B : forall g y (P : xnum -> Prop), xval g = Some y ->
    (forall m z, Some g = Some m -> xval m = Some z -> P z) <-> P y).
  { intros g y P Y. split; [intros H; now apply (H g)|]. intros H m z [= <-] Z. congruence. }
  assert (B0 : forall (P : xnum -> Prop), (forall m z, @None spec_float = Some m -> xval m = Some z -> P z) <-> True).
  { intros P. split; [trivial|discriminate]. }
  destruct r as [mn mx b | mn mx b |]; cbn [good_range check_range x_allowed] in *; [ | |tauto]; unfold x_in_bounds;
    destruct G as [G1 G2];
    (destruct mn as [m|]; [destruct (L m (G1 m eq_refl)) as (y & Y & L1 & L2 & L3 & L4 & L5)|]);
    (destruct mx as [n|]; [destruct (L n (G2 n eq_refl)) as (z & Z & M1 & M2 & M3 & M4 & M5)|]);
    try (now destruct (D b)); destruct b; cbn [andb];
    rewrite ?(B m y) by exact Y; rewrite ?(B n z (fun z => xle x z)) by exact Z; rewrite ?(B n z (fun z => xlt x z)) by exact Z;
    rewrite ?B0; clear B B0 L G1 G2 D;
    rewrite ?L1, ?L2, ?M1, ?M2, ?L4, ?M3, ?M5;
    try match goal with |- context [SFleb m f] => destruct (SFleb m f) end;
    try match goal with |- context [SFleb f n] => destruct (SFleb f n) end;
    try match goal with |- context [SFleb n f] => destruct (SFleb n f) end; cbn;
    clear; intuition congruence.
Qed.
Lemma check_length_spec min max tmin n t :
  check_length min max tmin n t = true <-> at_least min n /\ at_most max n /\ at_least tmin t.
Proof.
  unfold check_length, at_least, at_most. rewrite !andb_true_iff.
  destruct min, max, tmin; rewrite ?all_some, ?all_none, ?negb_true_iff, ?N.ltb_ge; tauto.
Qed.
Lemma told_tri t (P : Prop) : P \/ ~ P ->
  told t P <-> match t with Must => P | Allow => True | Disallow => ~ P end.
Proof. unfold told. destruct t; cbn; intros [H|H]; split; intuition congruence. Qed.
Lemma told_of t (P : Prop) : match t with Must => P | Allow => True | Disallow => ~ P end -> told t P.
Proof. unfold told. destruct t; cbn; intuition congruence. Qed.
Lemma told_port t (p : option N) : port_ok t p -> told t (p <> None).
Proof. intros H. apply told_of. destruct t; cbn in *; [exact H|exact I|]. rewrite H. tauto. Qed.

Definition hex_char (c : N) : Prop := 48 <= c <= 57 \/ 65 <= c <= 70 \/ 97 <= c <= 102.
Definition hex_text (digits : list N) : Prop := Forall hex_char digits.
(** Lower case letters only by [V_CASE.lower()], upper case letters only by [V_CASE.upper()], both only by [V_CASE.any()]. *)
Definition hex_case_ok (case : case_option) (digits : list N) : Prop :=
  (Exists (fun c => 97 <= c <= 102) digits -> c_lower case = true) /\
  (Exists (fun c => 65 <= c <= 70) digits -> c_upper case = true) /\
  (Exists (fun c => 97 <= c <= 102) digits /\ Exists (fun c => 65 <= c <= 70) digits -> c_any case = true).
Lemma case_ok_two case digits : hex_case_ok case digits <->
  (Exists (fun c => 97 <= c <= 102) digits -> c_lower case = true) /\
  (Exists (fun c => 65 <= c <= 70) digits -> c_upper case = true).
Proof. unfold hex_case_ok. split; [tauto|]. intros [A B]. repeat split; auto. intros [C D]. specialize (A C). specialize (B D). now destruct case. Qed.
Lemma is_hex_char case c :
  (exists d, is_hex case c d) <-> hex_char c /\ (97 <= c <= 102 -> c_lower case = true) /\ (65 <= c <= 70 -> c_upper case = true).
Proof.
  split.
  - intros (d & a & A & E). apply nth_error_In in E. unfold hex_char.
    destruct case; vm_compute in A; repeat (destruct A as [A|A]; [subst a|]); try contradiction;
      vm_compute in E; repeat (destruct E as [E|E]; [subst c; cbn; split; [lia|split; intros; try reflexivity; lia]|]); contradiction.
  - intros (H & L & U).
    assert (X : exists a, In a (hex_alphabets case) /\ In c a).
    { destruct H as [H|[H|H]].
      - assert (C : c = 48 \/ c = 49 \/ c = 50 \/ c = 51 \/ c = 52 \/ c = 53 \/ c = 54 \/ c = 55 \/ c = 56 \/ c = 57) by lia.
        destruct case; eexists; (split; [left; reflexivity|]); vm_compute; intuition.
      - assert (C : c = 65 \/ c = 66 \/ c = 67 \/ c = 68 \/ c = 69 \/ c = 70) by lia. specialize (U H).
        destruct case; try discriminate; eexists; (split; [left; reflexivity|]); vm_compute; intuition.
      - assert (C : c = 97 \/ c = 98 \/ c = 99 \/ c = 100 \/ c = 101 \/ c = 102) by lia. specialize (L H).
        destruct case; try discriminate; eexists; (split; [first [right; left; reflexivity | left; reflexivity]|]); vm_compute;
          intuition. }
    destruct X as (a & A & I). apply In_nth_error in I as [n I]. exists (N.of_nat n), a. rewrite Nat2N.id. auto.
Qed.
Lemma hex_denotes_text case digits : (exists x, hex_denotes case digits x) <-> hex_text digits /\ hex_case_ok case digits.
Proof.
  rewrite case_ok_two. induction digits as [|c digits IH].
  - split; [intros _|intros _; exists 0; constructor]. split; [constructor|]. split; intros X; inversion X.
  - split.
    + intros [x X]. inversion X; subst. destruct (proj1 (is_hex_char case c)) as (A & B & C); [eauto|].
      destruct IH as [IH _]. destruct IH as (D & E & F); [eauto|]. split; [now constructor|].
      split; intros Y; inversion Y; subst; auto.
    + intros (A & B & C). inversion A; subst. destruct (proj2 (is_hex_char case c)) as [d D].
      { repeat split; [assumption| |]; intros Y; [apply B|apply C]; now left. }
      destruct IH as [_ IH]. destruct IH as [x X].
      { split; [assumption|]. split; intros Y; [apply B|apply C]; now right. }
      eexists. econstructor; eassumption.
Qed.
Lemma grouped_in sep sizes v d x : grouped sep sizes v d -> In x v -> In x d \/ s_allow sep = Some x.
Proof.
  induction 1 as [g|g s sizes v d S G IH]; [auto|]. rewrite !in_app_iff. intros [X|[X|X]]; [auto| |].
  - destruct sep; cbn in S; [subst s; destruct X as [->|[]]; auto| |subst s; destruct X].
    destruct S as [->| ->]; [destruct X|destruct X as [->|[]]; auto].
  - apply IH in X. tauto.
Qed.
Lemma grouped_has c n m sizes v d : grouped (SepMust c) (n :: m :: sizes) v d -> In c v.
Proof. intros G. inversion G as [|g s ? ? ? S G']; subst. cbn in S. subst s. apply in_app_iff. right. now left. Qed.
Lemma filter_all c (l : list N) : ~ In c l -> filter (fun x => negb (x =? c)) l = l.
Proof.
  induction l as [|x l IH]; [reflexivity|]. cbn. intros H. destruct (N.eqb_spec x c); cbn; [exfalso; auto|].
  f_equal. apply IH. tauto.
Qed.
Lemma grouped_filter sep c sizes v d : grouped sep sizes v d -> (sep = SepDisallow \/ s_allow sep = Some c) -> ~ In c d ->
  d = filter (fun x => negb (x =? c)) v.
Proof.
  intros G C. induction G as [g|g s sizes v d S G IH]; intros D.
  - now rewrite filter_all.
  - rewrite !filter_app, filter_all, <- IH by (rewrite in_app_iff in D; tauto). f_equal.
    destruct C as [->|C]; [cbn in S; subst s; reflexivity|].
    destruct sep; cbn in C, S; try discriminate; injection C as ->; [subst s|destruct S as [->| ->]]; cbn;
      now rewrite ?N.eqb_refl.
Qed.
Lemma grouped_weaken c sep sizes v d : sep = SepMust c \/ sep = SepDisallow -> grouped sep sizes v d ->
  grouped (SepAllow c) sizes v d.
Proof.
  intros S G. induction G as [g|g s sizes v d F G IH]; constructor; [|exact IH].
  destruct S as [->| ->]; cbn in *; auto.
Qed.
Lemma grouped_reads (parse : case_option -> sep_option -> list N -> outcome hex_err N) n m sizes :
  (forall case sep v x, sep_not_digit case sep ->
     parse case sep v = Ok x <-> exists digits, grouped sep (n :: m :: sizes) v digits /\ hex_denotes case digits x) ->
  forall case sep, (forall c, s_allow sep = Some c -> ~ hex_char c) -> forall v digits, hex_text digits ->
  (forall c, ~ hex_char c -> grouped (SepMust c) (n :: m :: sizes) v digits ->
     (is_ok (parse case sep v) <-> s_allow sep = Some c /\ hex_case_ok case digits)) /\
  (grouped SepDisallow (n :: m :: sizes) v digits ->
     (is_ok (parse case sep v) <-> s_must sep = None /\ hex_case_ok case digits)).
Proof.
  intros P case sep Sep v digits H.
  assert (ND : sep_not_digit case sep).
  { intros c d -> X. apply (Sep c eq_refl). apply (is_hex_char case c). eauto. }
  assert (NI : forall c l, ~ hex_char c -> hex_text l -> ~ In c l).
  { intros c l Hc Hl I. unfold hex_text in Hl. rewrite Forall_forall in Hl. auto. }
  assert (Q : is_ok (parse case sep v) <-> exists ds, grouped sep (n :: m :: sizes) v ds /\ hex_text ds /\ hex_case_ok case ds).
  { split.
    - intros [x X]. apply P in X; [|exact ND]. destruct X as (ds & G & D). exists ds. split; [exact G|]. apply hex_denotes_text. eauto.
    - intros (ds & G & D). apply hex_denotes_text in D as [x X]. exists x. apply P; [exact ND|]. eauto. }
  split.
  - intros c Hc G. rewrite Q. split.
    + intros (ds & G' & D1 & D2). assert (C : s_allow sep = Some c).
      { pose proof (grouped_in _ _ _ _ c G' (grouped_has _ _ _ _ _ _ G)) as [X|X]; [|exact X].
        exfalso. now apply (NI c ds). }
      split; [exact C|]. rewrite (grouped_filter _ c _ _ _ G) by (auto; right; reflexivity).
      rewrite <- (grouped_filter _ c _ _ _ G') by auto. exact D2.
    + intros [C D]. exists digits. split; [|auto].
      destruct sep as [c'|c'|]; cbn in C; try discriminate; injection C as ->; [exact G|]. now apply (grouped_weaken c (SepMust c)); auto.
  - intros G. rewrite Q. split.
    + intros (ds & G' & D1 & D2). split.
      * destruct sep as [c'|c'|]; try reflexivity. exfalso. pose proof (grouped_has _ _ _ _ _ _ G') as I.
        apply grouped_disallow in G. subst v. now apply (NI c' digits (Sep c' eq_refl)).
      * destruct (s_allow sep) as [c'|] eqn:C.
        -- rewrite (grouped_filter _ c' _ _ _ G) by auto. rewrite <- (grouped_filter _ c' _ _ _ G') by auto. exact D2.
        -- destruct sep; try discriminate. apply grouped_disallow in G, G'. subst. exact D2.
    + intros [C D]. exists digits. split; [|auto]. destruct sep as [c'|c'|]; cbn in C; try discriminate; [|exact G].
      now apply (grouped_weaken c' SepDisallow); auto.
Qed.

Section Constants.
Context {cid : Type}.
Variable order : list cid -> list cid.
Notation const g n := (const_of n (constants order g)).

(** C97, integers: [check_range(i, V_RANGE)] decides.  Ranges whose code does not compile (C90) are left out; [Outside()] is not. *)
Theorem C97_integers : forall sg t (a : range_attr Z) pw r i,
  const (GInt sg t a) (bs "V_RANGE") = Some (CInts r) -> ~ gap sg pw t (ra_range a) -> fits sg pw t i ->
  (is_ok (int_parse sg pw t (ra_range a) t i) <-> check_range Z.ltb Z.leb i r = true).
Proof.
  intros sg t a pw r i H G F. cbn [constants] in H. cbn in H. injection H as <-.
  assert (D : {incl | ra_range a = Outside None None incl} + {~ exists incl, ra_range a = Outside None None incl}).
  { destruct (ra_range a) as [| [m|] [n|] b |]; try (right; intros E; destruct E; discriminate). left. eexists. reflexivity. }
  destruct D as [[incl D]|D].
  - rewrite D. cbn. split; [reflexivity|intros _].
    exists i. unfold int_parse. destruct pw, t; reflexivity.
  - assert (ND : ~ degenerate sg pw t (ra_range a)). { intros [X|X]; [now apply D|now apply G]. }
    assert (E : is_ok (int_parse sg pw t (ra_range a) t i) <-> allowed (ra_range a) i).
    { split.
      - intros [v E]. apply PropInt.C01_integer_range_exact in E; tauto.
      - intros E. exists i. apply PropInt.C01_integer_range_exact; tauto. }
    rewrite E. clear E ND G F. replace (range_const (ra_range a)) with (ra_range a) by (now destruct (ra_range a)).
    symmetry. apply check_range_Z. intros incl E. apply D. eauto.
Qed.

(** C97, texts of integers: the decimal texts of the numbers for which [check_range(i, V_RANGE)] holds. *)
Theorem C97_integer_texts : forall sg t (a : range_attr Z) pw r s i,
  const (GInt sg t a) (bs "V_RANGE") = Some (CInts r) -> ~ degenerate sg pw t (ra_range a) ->
  (int_parse_str sg pw t (ra_range a) s = Ok i <->
   IntStrProofs.denotes_int sg s i /\ fits sg pw t i /\ check_range Z.ltb Z.leb i r = true).
Proof.
  intros sg t a pw r s i H D. cbn [constants] in H. cbn in H. injection H as <-.
  destruct (PropInt.C03_integer_strings sg pw t (ra_range a) s D) as [E _]. rewrite E.
  replace (range_const (ra_range a)) with (ra_range a) by (now destruct (ra_range a)).
  rewrite check_range_Z; [tauto|]. intros incl X. apply D. left. eauto.
Qed.

(** C97, sizes of bit and byte. *)
Theorem C97_sizes : forall (g : expansion cid) r0 r u,
  (exists o, g = GBit (mk_bit_attr r0 o)) \/ (exists c o, g = GByte (mk_byte_attr r0 c o)) ->
  const g (bs "V_RANGE") = Some (CSizes r) ->
  (is_ok (size_parse_u64 r0 u) <-> check_range N.ltb N.leb u r = true).
Proof.
  intros g r0 r u G H. assert (E : r = size_const r0).
  { destruct G as [[o ->]|(c & o & ->)]; cbn in H; injection H as <-; reflexivity. }
  subst r. rewrite check_range_N. destruct (PropSize.C07_size_exact (fun _ => None) 0 r0) as (_ & _ & _ & X).
  destruct (X u) as (Y & _). split.
  - intros [w W]. now apply Y in W.
  - intros W. exists u. now apply Y.
Qed.

(** C97, number: NaN by [V_NAN.allow()], other numbers by [!V_NAN.must() && check_range(f, V_RANGE)]. *)
Theorem C97_numbers : forall t (a : number_attr spec_float) nan r f,
  const (GNumber t a) (bs "V_NAN") = Some (CTri nan) -> const (GNumber t a) (bs "V_RANGE") = Some (CFloats r) ->
  good_range t (na_range a) -> is_float_of t f ->
  (is_ok (own_parse_f t (na_range a) (na_nan a) f) <->
   if is_nan f then t_allow nan = true else t_must nan = false /\ check_range SFltb SFleb f r = true).
Proof.
  intros t a nan r f H1 H2 G F. cbn in H1, H2. injection H1 as <-. injection H2 as <-.
  replace (range_const (na_range a)) with (na_range a) by (now destruct (na_range a)).
  assert (D : {incl | na_range a = Outside None None incl} + {~ x_degenerate (na_range a)}).
  { destruct (na_range a) as [| [m|] [n|] b |]; try (right; intros E; destruct E; discriminate). left. eexists. reflexivity. }
  destruct D as [[incl D]|D].
  - rewrite D. cbn [check_range]. unfold is_ok.
    assert (E : own_parse_f t (Outside None None incl) (na_nan a) f =
                omap (fun _ => f) (handle_nan (na_nan a) f)).
    { destruct t; cbn; destruct (handle_nan (na_nan a) f); reflexivity. }
    rewrite E. unfold handle_nan. destruct (is_nan f), (na_nan a); cbn; split; intros X;
      try (destruct X; discriminate); try discriminate; eauto.
  - destruct (PropNumber.C05_number_exact t (na_range a) (na_nan a) f G D F) as [E _].
    destruct (xval f) as [x|] eqn:X.
    + replace (is_nan f) with false by (destruct f; cbn in *; congruence).
      rewrite (check_range_SF t (na_range a) f x G F X) by (intros incl Y; apply D; exists incl; exact Y). split.
      * intros [g W]. apply E in W as (_ & N & R). split; [now destruct (na_nan a)|exact R].
      * intros [N R]. exists f. apply E. split; [reflexivity|]. split; [intros Y; now rewrite Y in N|exact R].
    + apply NumberProofs.xval_nan in X. subst f. cbn [is_nan]. split.
      * intros [g W]. apply E in W as (_ & N). now destruct (na_nan a).
      * intros N. exists S754_nan. apply E. split; [reflexivity|]. intros Y. now rewrite Y in N.
Qed.

(** C97, length. *)
Theorem C97_collections : forall (a : coll_attr) mn mx A (len : A -> N) (v : A) ps,
  const (GLength a) (bs "V_LENGTH_MIN") = Some (CLen mn) -> const (GLength a) (bs "V_LENGTH_MAX") = Some (CLen mx) ->
  coll_attribute ps = Ok (ca_min a, ca_max a) -> (forall m, ca_min a = Some m -> ca_max a <> Some m) ->
  (is_ok (parse_collection len (ca_min a) (ca_max a) v) <-> check_length mn mx None (len v) 0 = true).
Proof.
  intros a mn mx A len v ps H1 H2 P D. cbn in H1, H2. injection H1 as <-. injection H2 as <-.
  destruct (PropAttr.C08_length_exact A len ps _ _ v P D) as (X & _). rewrite check_length_spec.
  unfold at_least, at_most. unfold len_in_bounds in X. rewrite all_none. split.
  - intros [w W]. apply X in W. tauto.
  - intros W. exists v. apply X. tauto.
Qed.

(** C97, line and text: an accepted text passes the length check of the repository's tests; without control characters that is
    all there is to it. *)
Definition utf8_gen (k : line_kind) (a : utf8_attr) : expansion cid := match k with Line => GLine a | Text => GText a end.
Definition utf8_name (byte : bool) (w : list N) : list N := (if byte then bs "V_BYTE_LENGTH_" else bs "V_CHAR_LENGTH_") ++ w.
Theorem C97_lines : forall k (a : utf8_attr) byte min tmin max s lead m trail,
  const (utf8_gen k a) (utf8_name byte (bs "MIN")) = Some (CLen min) ->
  const (utf8_gen k a) (utf8_name byte (bs "TRIMMED_MIN")) = Some (CLen tmin) ->
  const (utf8_gen k a) (utf8_name byte (bs "MAX")) = Some (CLen max) ->
  trims s lead m trail ->
  (is_ok (line_parse_str k (ta_length a) s) -> check_length min max tmin (len byte s) (len byte m) = true) /\
  (Forall (fun c => ~ forbidden k c) s ->
   (is_ok (line_parse_str k (ta_length a) s) <-> check_length min max tmin (len byte s) (len byte m) = true)).
Proof.
  intros k a byte min tmin max s lead m trail H1 H2 H3 T.
  assert (E : byte = a_byte (ta_length a) /\ min = a_min (ta_length a) /\ tmin = a_tmin (ta_length a) /\ max = a_max (ta_length a)).
  { destruct a as [[[b l]|] o].
    - destruct k, byte, b; vm_compute in H1, H2, H3; try discriminate; injection H1 as <-; injection H2 as <-; injection H3 as <-; auto.
    - destruct k, byte; vm_compute in H1, H2, H3; try discriminate; injection H1 as <-; injection H2 as <-; injection H3 as <-; auto. }
  destruct E as (-> & -> & -> & ->). clear H1 H2 H3. rewrite check_length_spec.
  destruct (a_tmin (ta_length a)) as [t|] eqn:Et.
  - assert (X : is_ok (line_parse_str k (ta_length a) s) <->
      Forall (fun c => ~ forbidden k c) (m ++ trail) /\ at_least (a_min (ta_length a)) (len (a_byte (ta_length a)) s) /\
      at_most (a_max (ta_length a)) (len (a_byte (ta_length a)) s) /\ t <= len (a_byte (ta_length a)) m).
    { split.
      - intros [r R]. apply (PropLine.C12_trimmed_min_exact k _ t s r Et) in R as (_ & l' & m' & b' & T' & R).
        destruct (proj2 (PropLine.C12_trimming_unique s) _ _ _ _ _ _ T T') as (_ & -> & ->). exact R.
      - intros R. exists s. apply (PropLine.C12_trimmed_min_exact k _ t s s Et). split; [reflexivity|]. exists lead, m, trail. tauto. }
    unfold at_least at 2. unfold at_least at 3. rewrite X, all_some. split; [tauto|]. intros Fs.
    assert (Forall (fun c => ~ forbidden k c) (m ++ trail)). { destruct T as [-> _]. now apply Forall_app in Fs. }
    tauto.
  - assert (X : is_ok (line_parse_str k (ta_length a) s) <->
      Forall (fun c => ~ forbidden k c) s /\ at_least (a_min (ta_length a)) (len (a_byte (ta_length a)) s) /\
      at_most (a_max (ta_length a)) (len (a_byte (ta_length a)) s)).
    { split.
      - intros [r R]. apply (PropLine.C11_no_trimmed_min_exact k _ s r Et) in R as (_ & R). exact R.
      - intros R. exists s. apply (PropLine.C11_no_trimmed_min_exact k _ s s Et). tauto. }
    unfold at_least at 2. unfold at_least at 3. rewrite X, all_none. tauto.
Qed.

(** C97, base32, base64 and the decoded forms: the padded text of a value by [V_PADDING.allow()], the text without its padding
    by [!V_PADDING.must()]. *)
Theorem C97_padding : forall v (a : base_attr) p f d,
  const (GBase v a) (bs "V_PADDING") = Some (CTri p) -> bytes d -> encode f d <> encode_pad f d ->
  (is_ok (base_parse_str f (ba_padding a) (encode_pad f d)) <-> t_allow p = true) /\
  (is_ok (base_parse_str f (ba_padding a) (encode f d)) <-> t_must p = false) /\
  (is_ok (dec_parse_str f (ba_padding a) (encode_pad f d)) <-> t_allow p = true) /\
  (is_ok (dec_parse_str f (ba_padding a) (encode f d)) <-> t_must p = false).
Proof.
  intros v a p f d H B E. cbn in H. injection H as <-.
  assert (Hd : d <> []). { intros ->. apply E. destruct f; reflexivity. }
  rewrite <- !(PropRelB.C76_canonical_in_both f (ba_padding a) _ d B) by auto.
  assert (X1 : is_ok (base_parse_str f (ba_padding a) (encode_pad f d)) <-> t_allow (ba_padding a) = true).
  { rewrite PropBase.C19_base_language. split.
    - intros S. destruct (ba_padding a) eqn:P; [reflexivity|reflexivity|]. exfalso.
      destruct (PropBase.C20_padding_policy f (encode_pad f d)) as [_ Q]. apply PropBase.C19_base_language, Q in S. apply S.
      unfold encode_pad in *. destruct (pad_len f (List.length (encode f d))) as [|n]; [now rewrite app_nil_r in E|].
      apply in_app_iff. right. now left.
    - intros P. apply (CodecProofs.shape_encode f _ d Hd). intros Q. now rewrite Q in P. }
  assert (X2 : is_ok (base_parse_str f (ba_padding a) (encode f d)) <-> t_must (ba_padding a) = false).
  { rewrite PropBase.C19_base_language. split.
    - intros S. destruct (ba_padding a) eqn:P; [|reflexivity|reflexivity]. exfalso.
      destruct (PropBase.C20_padding_policy f (encode f d)) as [Q _]. apply PropBase.C19_base_language, Q in S. apply E.
      rewrite <- (CodecProofs.encode_pad_of f d 0 Hd); [cbn [repeat]; now rewrite app_nil_r|destruct f; cbn; lia|].
      rewrite Nat.add_0_r. exact S.
    - intros P. apply (CodecProofs.shape_encode f _ d Hd). intros Q. now rewrite Q in P. }
  tauto.
Qed.

(** C97, mac_address and uuid: hexadecimal digits in groups with a separator [c] between all of them, or without any. *)
Theorem C97_separators : forall (uuid : bool) (a : hex_attr) case sep v digits,
  let g := if uuid then GUuid a else GMac a in
  let sizes := if uuid then uuid_sizes else mac_sizes in
  let parse := if uuid then uuid_parse_str else mac_parse_str in
  const g (bs "V_CASE") = Some (CCase case) -> const g (bs "V_SEPARATOR") = Some (CSep sep) ->
  (forall c, s_allow sep = Some c -> ~ hex_char c) -> hex_text digits ->
  (forall c, ~ hex_char c -> grouped (SepMust c) sizes v digits ->
     (is_ok (parse (xa_case a) (xa_sep a) v) <-> s_allow sep = Some c /\ s_disallow sep = false /\ hex_case_ok case digits)) /\
  (grouped SepDisallow sizes v digits ->
     (is_ok (parse (xa_case a) (xa_sep a) v) <-> s_must sep = None /\ hex_case_ok case digits)).
Proof.
  intros uuid a case sep v digits g sizes parse H1 H2 S T.
  assert (E : case = xa_case a /\ sep = xa_sep a).
  { subst g. destruct uuid; cbn in H1, H2; injection H1 as <-; injection H2 as <-; auto. }
  destruct E as [-> ->]. subst sizes parse.
  assert (Dis : forall c, s_allow (xa_sep a) = Some c <-> s_allow (xa_sep a) = Some c /\ s_disallow (xa_sep a) = false).
  { intros c. destruct (xa_sep a); cbn; intuition congruence. }
  enough (X : (forall c, ~ hex_char c -> grouped (SepMust c) (if uuid then uuid_sizes else mac_sizes) v digits ->
     (is_ok ((if uuid then uuid_parse_str else mac_parse_str) (xa_case a) (xa_sep a) v) <->
      s_allow (xa_sep a) = Some c /\ hex_case_ok (xa_case a) digits)) /\
    (grouped SepDisallow (if uuid then uuid_sizes else mac_sizes) v digits ->
     (is_ok ((if uuid then uuid_parse_str else mac_parse_str) (xa_case a) (xa_sep a) v) <->
      s_must (xa_sep a) = None /\ hex_case_ok (xa_case a) digits))).
  { destruct X as [X Y]. split; [|exact Y]. intros c Hc G. rewrite (X c Hc G). specialize (Dis c). tauto. }
  destruct uuid.
  - apply (grouped_reads uuid_parse_str 8 4 [4; 4; 12]%nat PropMac.C28_uuid_accepts_exactly); assumption.
  - apply (grouped_reads mac_parse_str 2 2 [2; 2; 2; 2]%nat PropMac.C25_mac_accepts_exactly); assumption.
Qed.

(** C97, ip, ipv4 and ipv6. *)
Theorem C97_ip : forall v (a : ip_attr) local port s, valid_str s ->
  const (GIp v a) (bs "V_LOCAL") = Some (CTri local) -> const (GIp v a) (bs "V_PORT") = Some (CTri port) ->
  (forall x p, ipv4_parse_str (ia_port a) (ia_local a) s = Ok (x, p) <->
     v4_form s x p /\ told port (p <> None) /\ told local (v4_local x)) /\
  (forall x p, ipv6_parse_str (ia_port a) (ia_local a) s = Ok (x, p) <->
     v6_form s x p /\ told port (p <> None) /\ told local (v6_local x)) /\
  (forall x p, ip_parse_str (ia_port a) (ia_local a) s = Ok (x, p) <->
     match x with V4 x => v4_form s x p /\ told local (v4_local x) | V6 x => v6_form s x p /\ told local (v6_local x) end /\
     told port (p <> None)).
Proof.
  intros v a local port s Hs H1 H2. cbn in H1, H2. injection H1 as <-. injection H2 as <-.
  assert (P : forall p, told (ia_port a) (p <> None) <-> port_ok (ia_port a) p).
  { intros p. rewrite told_tri by (destruct p; [left; discriminate|right; tauto]). unfold port_ok.
    destruct (ia_port a); [reflexivity|reflexivity|]. destruct p; split; intros X; try tauto; try discriminate. now destruct X. }
  assert (L4 : forall x p, v4_form s x p -> told (ia_local a) (v4_local x) <-> local_ok (ia_local a) (v4_local x)).
  { intros x p F. apply told_tri. pose proof (LocalProofs.is_local_ipv4_spec x (HostProofs.v4_addr_of _ _ _ F)) as L.
    destruct (is_local_ipv4 x); [left; now apply L|right; rewrite <- L; discriminate]. }
  assert (L6 : forall x p, v6_form s x p -> told (ia_local a) (v6_local x) <-> local_ok (ia_local a) (v6_local x)).
  { intros x p F. apply told_tri. pose proof (LocalProofs.is_local_ipv6_spec x (HostProofs.v6_addr_of _ _ _ F)) as L.
    destruct (is_local_ipv6 x); [left; now apply L|right; rewrite <- L; discriminate]. }
  split; [|split].
  - intros x p. rewrite PropIp.C31_ipv4_accepts_exactly by exact Hs. specialize (P p). specialize (L4 x p). tauto.
  - intros x p. rewrite PropIp.C31_ipv6_accepts_exactly by exact Hs. specialize (P p). specialize (L6 x p). tauto.
  - intros x p. rewrite PropIp.C31_ip_accepts_exactly by exact Hs. specialize (P p).
    destruct x as [x|x]; [specialize (L4 x p)|specialize (L6 x p)]; tauto.
Qed.
(** C97, host and domain: of an accepted host or domain, if the IDNA mapping does not produce IPv4 addresses from other texts
    (without that the policies do not hold either, C36 and C39).  A local name is exempt from [V_AT_LEAST_TWO_LABELS]; an address
    counts as having many labels. *)
Theorem C97_host : forall idna (a : host_attr) local port two s v, idna_no_new_ipv4 idna -> valid_str s ->
  const (GHost a) (bs "V_LOCAL") = Some (CTri local) -> const (GHost a) (bs "V_PORT") = Some (CTri port) ->
  const (GHost a) (bs "V_AT_LEAST_TWO_LABELS") = Some (CTri two) ->
  host_parse_str idna (host_cfg_of a) s = Ok v ->
  told port (hv_port v <> None) /\ told local (host_local (hv_host v)) /\
  match hv_host v with
  | HDomain d => domain_local d \/ told two (two_labels d)
  | HIPv4 _ | HIPv6 _ => t_allow two = true
  end /\
  (hv_is_local v <> None <-> t_allow local = true /\ t_must local = false /\ (t_must two = true \/ t_disallow two = true)).
Proof.
  intros idna a local port two s v I Hs H1 H2 H3 P. cbn in H1, H2, H3. injection H1 as <-. injection H2 as <-. injection H3 as <-.
  destruct (PropHost.C39_host_policies_partial _ _ _ _ I Hs P) as (A & B & C & D). cbn in A, B, C, D.
  split; [now apply told_port|]. split; [now apply told_of|]. split.
  - destruct (hv_host v); cbn in C.
    + unfold two_ok in C. destruct (ha_two a); [destruct C; auto| |destruct C; auto]; right; apply told_of; cbn; tauto.
    + destruct (ha_two a); [reflexivity|reflexivity|congruence].
    + destruct (ha_two a); [reflexivity|reflexivity|congruence].
  - unfold host_field, host_cfg_of in D. cbn in D.
    destruct (hv_is_local v); cbn in D; destruct (ha_local a), (ha_two a); cbn; intuition congruence.
Qed.
Theorem C97_domain : forall idna (a : domain_attr) ipv4 local port two s v, idna_no_new_ipv4 idna -> valid_str s ->
  const (GDomain a) (bs "V_IPV4") = Some (CTri ipv4) -> const (GDomain a) (bs "V_LOCAL") = Some (CTri local) ->
  const (GDomain a) (bs "V_PORT") = Some (CTri port) -> const (GDomain a) (bs "V_AT_LEAST_TWO_LABELS") = Some (CTri two) ->
  domain_parse_str idna (domain_cfg_of a) s = Ok v ->
  exists name dom, split_port s name (dv_port v) /\
    (((exists x, v4_dotted name x) /\ dom = name /\ dv_domain v = s) \/ (idna name = Some dom /\ dv_domain v = dom)) /\
    told port (dv_port v <> None) /\ told ipv4 (exists x, v4_dotted dom x) /\ told local (domain_local dom) /\
    (domain_local dom \/ told two (two_labels dom)).
Proof.
  intros idna a ipv4 local port two s v I Hs H1 H2 H3 H4 P. cbn in H1, H2, H3, H4.
  injection H1 as <-. injection H2 as <-. injection H3 as <-. injection H4 as <-.
  destruct (PropDomain.C36_domain_policies_partial _ _ _ _ I Hs P) as (name & dom & A & B & C & D & E & F & _). cbn in C, D, E, F.
  exists name, dom. split; [exact A|]. split; [exact B|]. split; [now apply told_port|]. split; [now apply told_of|].
  split; [now apply told_of|]. unfold two_ok in F.
  destruct (da_two a); [destruct F; auto| |destruct F; auto]; right; apply told_of; cbn; tauto.
Qed.

(** C97, email: of an accepted address.  [V_NON_ASCII] is about the local part. *)
Theorem C97_email : forall idna prof (a : email_attr) comment ip local two s v, valid_str s ->
  const (GEmail a) (bs "V_COMMENT") = Some (CTri comment) -> const (GEmail a) (bs "V_IP") = Some (CTri ip) ->
  const (GEmail a) (bs "V_LOCAL") = Some (CTri local) -> const (GEmail a) (bs "V_AT_LEAST_TWO_LABELS") = Some (CTri two) ->
  email_parse_str idna prof (email_cfg_of a) s = Ok v ->
  told comment (~ (ev_c1 v = None /\ ev_c2 v = None /\ ev_c3 v = None /\ ev_c4 v = None)) /\
  told ip (forall d, ev_domain v <> HDomain d) /\ told local (literal_local (ev_domain v)) /\
  match ev_domain v with
  | HDomain d => localhost d \/ told two (two_labels d)
  | HIPv4 _ | HIPv6 _ => t_allow two = true
  end.
Proof.
  intros idna prof a comment ip local two s v Hs H1 H2 H3 H4 P. cbn in H1, H2, H3, H4.
  injection H1 as <-. injection H2 as <-. injection H3 as <-. injection H4 as <-.
  destruct (PropEmail.C47_email_policies _ _ _ _ _ Hs P) as (A & B & C & D & _). cbn in A, B, C, D.
  split; [|split; [|split; [now apply told_of|]]].
  - unfold allow_const. destruct (ea_comment a); apply told_of; cbn; [exact Logic.I|]. intros X. apply X. now apply D.
  - apply told_of. destruct (ea_ip a), (ev_domain v); cbn in *; try tauto; try discriminate. intros X. now apply (X d).
  - destruct (ev_domain v); cbn in C.
    + unfold two_ok in C. destruct (ea_two a); [destruct C; auto| |destruct C; auto]; right; apply told_of; cbn; tauto.
    + destruct (ea_two a); [reflexivity|reflexivity|congruence].
    + destruct (ea_two a); [reflexivity|reflexivity|congruence].
Qed.

(** C97, http_url and http_ftp_url. *)
Theorem C97_http : forall v (a : http_attr) local url parse host s, HttpSpec.host_typed host ->
  const (GHttp v a) (bs "V_LOCAL") = Some (CTri local) ->
  (forall u https, HttpModel.http_parse_str url parse host (ua_local a) s = Ok (u, https) <->
     HttpSpec.has_scheme (if https then bs "https" else bs "http") s /\ parse s = Some u /\
     (t_allow local = true /\ t_must local = false \/ exists h, host u = Some h /\ told local (HttpSpec.host_local h))) /\
  (forall u p, HttpModel.http_ftp_parse_str url parse host (ua_local a) s = Ok (u, p) <->
     HttpSpec.has_scheme
       (match p with HttpModel.HTTP => bs "http" | HttpModel.HTTPS => bs "https" | HttpModel.FTP => bs "ftp" end) s /\
     parse s = Some u /\
     (t_allow local = true /\ t_must local = false \/ exists h, host u = Some h /\ told local (HttpSpec.host_local h))).
Proof.
  intros v a local url parse host s T H. cbn in H. injection H as <-.
  assert (X : forall u, (ua_local a = Allow \/ exists h, host u = Some h /\ local_ok (ua_local a) (HttpSpec.host_local h)) <->
    (t_allow (ua_local a) = true /\ t_must (ua_local a) = false \/
     exists h, host u = Some h /\ told (ua_local a) (HttpSpec.host_local h))).
  { intros u. split.
    - intros [->|(h & E & L)]; [now left|]. right. exists h. split; [exact E|]. now apply told_of.
    - intros [[L M]|(h & E & L)]; [left; now destruct (ua_local a)|].
      right. exists h. split; [exact E|]. apply told_tri in L; [exact L|].
      specialize (T u). rewrite E in T. destruct h as [d|x|x]; cbn.
      + pose proof (localhost_spec d) as L'. destruct (is_local_domain d); [left; now apply L'|right; rewrite <- L'; discriminate].
      + pose proof (LocalProofs.is_local_ipv4_spec x T) as L'. destruct (is_local_ipv4 x); [left; now apply L'|right; rewrite <- L'; discriminate].
      + pose proof (LocalProofs.is_local_ipv6_spec x T) as L'. destruct (is_local_ipv6 x); [left; now apply L'|right; rewrite <- L'; discriminate]. }
  split.
  - intros u https. rewrite PropHttp.C54_http_accepts_exactly by exact T. rewrite X. reflexivity.
  - intros u q. rewrite PropHttp.C54_http_ftp_accepts_exactly by exact T. rewrite X. reflexivity.
Qed.

(** C97, phone: a number of any country if [V_COUNTRIES] is empty, and otherwise one that all the countries in it can read and
    that is a valid number of one of them. *)
Theorem C97_countries : forall (a : phone_attr cid) l eqb phone perr parse country valid s,
  (forall x y, eqb x y = true <-> x = y) -> (forall x, Permutation (order x) x) -> NoDup (pa_countries a) ->
  const (GPhone a) (bs "V_COUNTRIES") = Some (CCountries l) ->
  (is_ok (phone_parse_str cid eqb phone perr parse country valid (pa_countries a) s) <->
   (l = [] /\ exists p, parse None s = inl p /\ valid p = true) \/
   (l <> [] /\ (forall c, In c l -> exists p, parse (Some c) s = inl p) /\
    exists c p, In c l /\ parse (Some c) s = inl p /\ country p = Some c /\ valid p = true)).
Proof.
  intros a l eqb phone perr parse country valid s E O D H. cbn in H. injection H as <-.
  pose proof (O (pa_countries a)) as P. set (l := order (pa_countries a)) in *. clearbody l.
  assert (I : forall c, In c l <-> In c (pa_countries a)).
  { intros c. split; apply Permutation_in; [exact P|now apply Permutation_sym]. }
  destruct (pa_countries a) as [|c1 [|c2 cs]] eqn:Q.
  - apply Permutation_sym, Permutation_nil in P. subst l. split.
    + intros [v V]. apply PropPhone.C51_any_country in V as (p & _ & V). left. split; [reflexivity|]. exists p. exact V.
    + intros [[_ (p & V)]|[X _]]; [|congruence]. exists (POne p). apply PropPhone.C51_any_country. eauto.
  - apply Permutation_sym, Permutation_length_1_inv in P. subst l. split.
    + intros [v V]. apply PropPhone.C51_one_country in V as (p & _ & V1 & V2 & V3); [|exact E]. right.
      split; [discriminate|]. split; [intros c [<-|[]]; eauto|]. exists c1, p. repeat split; auto. now left.
    + intros [[X _]|(_ & _ & c & p & [<-|[]] & V)]; [discriminate|]. exists (POne p). apply PropPhone.C51_one_country; eauto.
  - destruct (PropPhone.C51_several_countries cid eqb phone perr parse country valid E (c1 :: c2 :: cs) s) as [_ X];
      [cbn; lia|exact D|]. rewrite X. split.
    + intros (A & c & p & B). right. split.
      * intros ->. apply Permutation_nil in P. discriminate.
      * split; [intros d Hd; apply A; now apply I|]. exists c, p. rewrite I. exact B.
    + intros [[-> _]|(_ & A & c & p & B)]; [apply Permutation_nil in P; discriminate|].
      split; [intros d Hd; apply A; now apply I|]. exists c, p. rewrite I in B. exact B.
Qed.

(** C97, all validators: two structs of the same validator with the same constants have the same configuration; what the
    constants leave out are the options for other crates, [conflict], and the field type of the numeric structs, and the
    expression of a regex. *)
Definition same_behaviour (g h : expansion cid) : Prop :=
  match g, h with
  | GBasic v _, GBasic w _ => v = w
  | GBase v a, GBase w b => v = w /\ ba_padding a = ba_padding b
  | GHttp v a, GHttp w b => v = w /\ ua_local a = ua_local b
  | GIp v a, GIp w b => v = w /\ ia_local a = ia_local b /\ ia_port a = ia_port b
  | GHost a, GHost b => host_cfg_of a = host_cfg_of b
  | GDomain a, GDomain b => domain_cfg_of a = domain_cfg_of b
  | GEmail a, GEmail b => email_cfg_of a = email_cfg_of b
  | GMac a, GMac b | GUuid a, GUuid b => xa_case a = xa_case b /\ xa_sep a = xa_sep b
  | GInt sg _ a, GInt sh _ b => sg = sh /\ ra_range a = ra_range b
  | GNumber _ a, GNumber _ b => na_nan a = na_nan b /\ na_range a = na_range b
  | GBit a, GBit b => bi_range a = bi_range b
  | GByte a, GByte b => by_range a = by_range b /\ by_ignore_case a = by_ignore_case b
  | GPhone a, GPhone b => Permutation (pa_countries a) (pa_countries b)
  | GLength a, GLength b => ca_min a = ca_min b /\ ca_max a = ca_max b
  | GLine a, GLine b => forall s, line_parse_str Line (ta_length a) s = line_parse_str Line (ta_length b) s
  | GText a, GText b => forall s, line_parse_str Text (ta_length a) s = line_parse_str Text (ta_length b) s
  | _, _ => False
  end.
Lemma utf8_consts_inj k (a b : utf8_attr) : @utf8_consts cid a = utf8_consts b ->
  forall s, line_parse_str k (ta_length a) s = line_parse_str k (ta_length b) s.
Proof.
  intros H s. destruct a as [[[[] [mn tm mx]]|] o], b as [[[[] [mn' tm' mx']]|] o']; cbn [utf8_consts ta_length l_min l_tmin l_max] in H;
    try (apply (f_equal (List.map fst)) in H; vm_compute in H; discriminate); try reflexivity; injection H; intros; subst; reflexivity.
Qed.
Theorem C97_determines : forall g h, (forall l, Permutation (order l) l) -> generated g = generated h -> generated g <> Vregex ->
  constants order g = constants order h -> same_behaviour g h.
Proof.
  assert (U : forall (a : utf8_attr), exists byte : bool, List.map fst (@utf8_consts cid a) =
     List.map (utf8_name byte) [bs "MIN"; bs "TRIMMED_MIN"; bs "MAX"]).
  { intros [[[[] l]|] o]; [exists true|exists false|exists false]; reflexivity. }
  intros g h O V R C.
  destruct g, h; cbn [generated same_behaviour] in *; try discriminate;
    try (now destruct R); cbn [constants] in C;
    try (exfalso; apply (f_equal (List.map fst)) in C;
      match type of C with
      | context [utf8_consts ?a] => destruct (U a) as [[] Ea]; rewrite Ea in C
      | _ => idtac
      end; vm_compute in C; discriminate);
    try (now apply utf8_consts_inj);
    try (injection C; clear C; intros; subst; cbn).
  all: try (repeat split; congruence).
  all: try match goal with
    | H : range_const ?a = range_const ?b |- _ =>
        assert (a = b) by (destruct a, b; cbn in H; congruence)
    end; try tauto.
  all: try match goal with
    | a : host_attr, b : host_attr |- _ => unfold host_cfg_of; congruence
    | a : domain_attr, b : domain_attr |- _ => unfold domain_cfg_of; congruence
    end.
  - unfold email_cfg_of. destruct (ea_non_ascii a), (ea_non_ascii a0), (ea_comment a), (ea_comment a0); cbn in *; congruence.
  - destruct sg, sg0; try discriminate; auto.
  - destruct (bi_range a), (bi_range a0); cbn in *; congruence.
  - destruct (by_range a), (by_range a0); cbn in *; split; congruence.
  - match goal with H : order ?x = order ?y |- _ => pose proof (O x) as P; rewrite H in P end.
    apply Permutation_sym in P. exact (Permutation_trans P (O _)).
Qed.

(** C97, the constants are what the attribute says, or the defaults. *)
Theorem C97_written : forall f m,
  (forall v a t, base_attribute f m = Ok a -> const (GBase v a) (bs "V_PADDING") = Some (CTri t) ->
     exists ms, MetaSpec.arguments m ms /\ MetaSpec.value ms (bs "padding") MetaSpec.tri_written Allow t) /\
  (forall v a t, http_attribute f m = Ok a -> const (GHttp v a) (bs "V_LOCAL") = Some (CTri t) ->
     exists ms, MetaSpec.arguments m ms /\ MetaSpec.value ms (bs "local") MetaSpec.tri_written Allow t) /\
  (forall v a t p, ip_attribute f m = Ok a -> const (GIp v a) (bs "V_LOCAL") = Some (CTri t) ->
     const (GIp v a) (bs "V_PORT") = Some (CTri p) ->
     exists ms, MetaSpec.arguments m ms /\ MetaSpec.value ms (bs "local") MetaSpec.tri_written Allow t /\
       MetaSpec.value ms (bs "port") MetaSpec.tri_written Allow p) /\
  (forall a t p w, host_attribute f m = Ok a -> const (GHost a) (bs "V_LOCAL") = Some (CTri t) ->
     const (GHost a) (bs "V_PORT") = Some (CTri p) -> const (GHost a) (bs "V_AT_LEAST_TWO_LABELS") = Some (CTri w) ->
     exists ms, MetaSpec.arguments m ms /\ MetaSpec.value ms (bs "local") MetaSpec.tri_written Allow t /\
       MetaSpec.value ms (bs "port") MetaSpec.tri_written Allow p /\
       MetaSpec.value ms (bs "at_least_two_labels") MetaSpec.tri_written Allow w) /\
  (forall a i t p w, domain_attribute f m = Ok a -> const (GDomain a) (bs "V_IPV4") = Some (CTri i) ->
     const (GDomain a) (bs "V_LOCAL") = Some (CTri t) ->
     const (GDomain a) (bs "V_PORT") = Some (CTri p) -> const (GDomain a) (bs "V_AT_LEAST_TWO_LABELS") = Some (CTri w) ->
     exists ms, MetaSpec.arguments m ms /\ MetaSpec.value ms (bs "ipv4") MetaSpec.tri_written Allow i /\
       MetaSpec.value ms (bs "local") MetaSpec.tri_written Allow t /\
       MetaSpec.value ms (bs "port") MetaSpec.tri_written Allow p /\
       MetaSpec.value ms (bs "at_least_two_labels") MetaSpec.tri_written Allow w) /\
  (forall a c i t w n, email_attribute f m = Ok a -> const (GEmail a) (bs "V_COMMENT") = Some (CTri c) ->
     const (GEmail a) (bs "V_IP") = Some (CTri i) -> const (GEmail a) (bs "V_LOCAL") = Some (CTri t) ->
     const (GEmail a) (bs "V_AT_LEAST_TWO_LABELS") = Some (CTri w) -> const (GEmail a) (bs "V_NON_ASCII") = Some (CTri n) ->
     exists ms, MetaSpec.arguments m ms /\
       MetaSpec.value ms (bs "comment") (fun m c => c <> Must /\ MetaSpec.tri_written m c) Allow c /\
       MetaSpec.value ms (bs "ip") MetaSpec.tri_written Allow i /\ MetaSpec.value ms (bs "local") MetaSpec.tri_written Allow t /\
       MetaSpec.value ms (bs "at_least_two_labels") MetaSpec.tri_written Allow w /\
       MetaSpec.value ms (bs "non_ascii") (fun m c => c <> Must /\ MetaSpec.tri_written m c) Allow n) /\
  (forall c a x y, hex_attribute c f m = Ok a ->
     const (GMac a) (bs "V_CASE") = Some (CCase x) /\ const (GMac a) (bs "V_SEPARATOR") = Some (CSep y) \/
     const (GUuid a) (bs "V_CASE") = Some (CCase x) /\ const (GUuid a) (bs "V_SEPARATOR") = Some (CSep y) ->
     exists ms, MetaSpec.arguments m ms /\ MetaSpec.value ms (bs "case") MetaSpec.case_written AnyCase x /\
       MetaSpec.value ms (bs "separator") MetaSpec.sep_written (SepAllow c) y) /\
  (forall from_str ltb leb sg t a r, range_attribute from_str ltb leb f m = Ok a ->
     const (GInt sg t a) (bs "V_RANGE") = Some (CInts r) ->
     exists ms, MetaSpec.arguments m ms /\
       MetaSpec.value ms (bs "range") (MetaSpec.range_option_written from_str ltb leb (f_full f)) Unlimited r).
Proof.
  assert (W : forall ms n b, MetaSpec.value ms n MetaSpec.allow_written true b ->
    MetaSpec.value ms n (fun m c => c <> Must /\ MetaSpec.tri_written m c) Allow (allow_const b)).
  { intros ms n b [(q & I & N & Q)|[I ->]]; [left|right; auto]. exists q. split; [exact I|]. split; [exact N|].
    destruct b; split; try discriminate; exact Q. }
  intros f m. repeat split.
  - intros v a t A H. cbn in H. injection H as <-. apply PropMeta.C66_base in A as (ms & A1 & _ & A2 & _). eauto.
  - intros v a t A H. cbn in H. injection H as <-. apply PropMeta.C66_http in A as (ms & A1 & _ & A2 & _). eauto.
  - intros v a t p A H1 H2. cbn in H1, H2. injection H1 as <-. injection H2 as <-.
    apply PropMeta.C66_ip in A as (ms & A1 & _ & A2 & A3 & _). eauto.
  - intros a t p w A H1 H2 H3. cbn in H1, H2, H3. injection H1 as <-. injection H2 as <-. injection H3 as <-.
    apply PropMeta.C66_host in A as (ms & A1 & _ & A2 & A3 & A4 & _). eauto 6.
  - intros a i t p w A H0 H1 H2 H3. cbn in H0, H1, H2, H3.
    injection H0 as <-. injection H1 as <-. injection H2 as <-. injection H3 as <-.
    apply PropMeta.C66_domain in A as (ms & A1 & _ & A2 & A3 & A4 & A5 & _). eauto 7.
  - intros a c i t w n A H0 H1 H2 H3 H4. cbn in H0, H1, H2, H3, H4.
    injection H0 as <-. injection H1 as <-. injection H2 as <-. injection H3 as <-. injection H4 as <-.
    apply PropMeta.C66_email in A as (ms & A1 & _ & A2 & A3 & A4 & A5 & A6 & _). eauto 9.
  - intros c a x y A H. apply PropMeta.C66_mac_uuid in A as (ms & A1 & _ & A2 & A3 & _). exists ms.
    destruct H as [[H1 H2]|[H1 H2]]; cbn in H1, H2; injection H1 as <-; injection H2 as <-; auto.
  - intros from_str ltb leb sg t a r A H. cbn in H. injection H as <-.
    apply PropMeta.C66_integer in A as (ms & A1 & _ & A2 & _). exists ms. split; [exact A1|].
    replace (range_const (ra_range a)) with (ra_range a) by (now destruct (ra_range a)). exact A2.
Qed.
(** ... of number, byte, length and phone. *)
Theorem C97_written_values : forall f m,
  (forall from_str ltb leb t a n r, number_attribute from_str ltb leb f m = Ok a ->
     const (GNumber t a) (bs "V_NAN") = Some (CTri n) -> const (GNumber t a) (bs "V_RANGE") = Some (CFloats r) ->
     exists ms, MetaSpec.arguments m ms /\ MetaSpec.value ms (bs "nan") MetaSpec.tri_written Allow n /\
       MetaSpec.value ms (bs "range") (MetaSpec.range_option_written from_str ltb leb (f_full f)) Unlimited r) /\
  (forall from_str ltb leb a i, byte_attribute from_str ltb leb f m = Ok a ->
     const (GByte a) (bs "V_IGNORE_CASE") = Some (CBool i) ->
     exists ms, MetaSpec.arguments m ms /\ MetaSpec.value ms (bs "ignore_case") MetaSpec.bool_written true i) /\
  (forall a x y, coll_meta f m = Ok a ->
     const (GLength a) (bs "V_LENGTH_MIN") = Some (CLen x) -> const (GLength a) (bs "V_LENGTH_MAX") = Some (CLen y) ->
     exists ms, MetaSpec.arguments m ms /\ MetaSpec.value ms (bs "min") MetaSpec.usize_written None x /\
       MetaSpec.value ms (bs "max") MetaSpec.usize_written None y) /\
  (forall id_from_str cid_eqb a l, (forall x y, cid_eqb x y = true <-> x = y) -> (forall x, Permutation (order x) x) ->
     phone_attribute id_from_str cid_eqb f m = Ok a ->
     const (GPhone a) (bs "V_COUNTRIES") = Some (CCountries l) ->
     exists ms l', MetaSpec.arguments m ms /\ Permutation l l' /\
       MetaSpec.value ms (bs "countries") (MetaSpec.countries_written id_from_str) [] l').
Proof.
  intros f m. repeat split.
  - intros from_str ltb leb t a n r A H1 H2. cbn in H1, H2. injection H1 as <-. injection H2 as <-.
    apply PropMeta.C66_number in A as (ms & A1 & _ & A2 & A3 & _). exists ms. split; [exact A1|]. split; [exact A3|].
    replace (range_const (na_range a)) with (na_range a) by (now destruct (na_range a)). exact A2.
  - intros from_str ltb leb a i A H. cbn in H. injection H as <-. apply PropMeta.C66_byte in A as (ms & A1 & _ & _ & A2 & _). eauto.
  - intros a x y A H1 H2. cbn in H1, H2. injection H1 as <-. injection H2 as <-.
    apply PropMeta.C66_length in A as (ms & A1 & _ & A2 & A3 & _). eauto.
  - intros id_from_str cid_eqb a l E O A H. cbn in H. injection H as <-.
    apply PropMeta.C66_phone in A as (ms & A1 & _ & A2 & _); [|exact E]. exists ms, (pa_countries a). auto.
Qed.
(** The constants that a test may name, with the types of their values; those of line and text are of bytes or of characters as the
    attribute says. *)
Inductive ctype := TyTri | TyCase | TySep | TyBool | TyLen | TyInts | TySizes | TyFloats | TyCountries.
Definition has_type (n : list N) (ty : ctype) (g : expansion cid) : Prop :=
  match ty with
  | TyTri => exists x, const g n = Some (CTri x)
  | TyCase => exists x, const g n = Some (CCase x)
  | TySep => exists x, const g n = Some (CSep x)
  | TyBool => exists x, const g n = Some (CBool x)
  | TyLen => exists x, const g n = Some (CLen x)
  | TyInts => exists x, const g n = Some (CInts x)
  | TySizes => exists x, const g n = Some (CSizes x)
  | TyFloats => exists x, const g n = Some (CFloats x)
  | TyCountries => exists x, const g n = Some (CCountries x)
  end.
Definition lengths_of (a : utf8_attr) (g : expansion cid) : Prop :=
  let byte := match ta_length a with Some (true, _) => true | _ => false end in
  (forall w, In w [bs "MIN"; bs "TRIMMED_MIN"; bs "MAX"] ->
     has_type (utf8_name byte w) TyLen g /\ const g (utf8_name (negb byte) w) = None).
Theorem C97_present :
  (forall v a, has_type (bs "V_PADDING") TyTri (GBase v a)) /\
  (forall v a, has_type (bs "V_LOCAL") TyTri (GHttp v a)) /\
  (forall v a, has_type (bs "V_LOCAL") TyTri (GIp v a) /\ has_type (bs "V_PORT") TyTri (GIp v a)) /\
  (forall a n, In n [bs "V_LOCAL"; bs "V_PORT"; bs "V_AT_LEAST_TWO_LABELS"] -> has_type n TyTri (GHost a)) /\
  (forall a n, In n [bs "V_IPV4"; bs "V_LOCAL"; bs "V_PORT"; bs "V_AT_LEAST_TWO_LABELS"] -> has_type n TyTri (GDomain a)) /\
  (forall a n, In n [bs "V_COMMENT"; bs "V_IP"; bs "V_LOCAL"; bs "V_AT_LEAST_TWO_LABELS"; bs "V_NON_ASCII"] ->
     has_type n TyTri (GEmail a)) /\
  (forall a g, g = GMac a \/ g = GUuid a -> has_type (bs "V_CASE") TyCase g /\ has_type (bs "V_SEPARATOR") TySep g) /\
  (forall sg t a, has_type (bs "V_RANGE") TyInts (GInt sg t a)) /\
  (forall t a, has_type (bs "V_NAN") TyTri (GNumber t a) /\ has_type (bs "V_RANGE") TyFloats (GNumber t a)) /\
  (forall a, has_type (bs "V_RANGE") TySizes (GBit a)) /\
  (forall a, has_type (bs "V_RANGE") TySizes (GByte a) /\ has_type (bs "V_IGNORE_CASE") TyBool (GByte a)) /\
  (forall a, has_type (bs "V_COUNTRIES") TyCountries (GPhone a)) /\
  (forall a, has_type (bs "V_LENGTH_MIN") TyLen (GLength a) /\ has_type (bs "V_LENGTH_MAX") TyLen (GLength a)) /\
  (forall a, lengths_of a (GLine a) /\ lengths_of a (GText a)).
Proof.
  repeat match goal with |- _ /\ _ => split end.
  1: intros v a; eexists; reflexivity.
  1: intros v a; eexists; reflexivity.
  1: intros v a; split; eexists; reflexivity.
  1-3: intros a n H; cbn [In] in H; repeat (destruct H as [<-|H]; [eexists; reflexivity|]); destruct H.
  1: intros a g [-> | ->]; split; eexists; reflexivity.
  1: intros sg t a; eexists; reflexivity.
  1: intros t a; split; eexists; reflexivity.
  1: intros a; eexists; reflexivity.
  1: intros a; split; eexists; reflexivity.
  1: intros a; eexists; reflexivity.
  1: intros a; split; eexists; reflexivity.
  intros a. destruct a as [[[[] l]|] o]; split; intros w H; cbn [In] in H;
    repeat (destruct H as [<-|H]; [split; [eexists|]; reflexivity|]); destruct H.
Qed.

(** The methods of the constants answer consistently, and [any] says that letters of both cases are accepted. *)
Theorem C97_methods :
  (forall t, (t_must t = true -> t_allow t = true) /\ (t_disallow t = true <-> t_allow t = false)) /\
  (forall s, (forall c, s_must s = Some c -> s_allow s = Some c) /\ (s_disallow s = true <-> s_allow s = None)) /\
  (forall (a : hex_attr) case g, g = GMac a \/ g = GUuid a -> const g (bs "V_CASE") = Some (CCase case) ->
     (c_any case = true <->
      is_ok (mac_parse_str (xa_case a) SepDisallow (bs "0000000000aB")) /\
      is_ok (uuid_parse_str (xa_case a) SepDisallow (bs "000000000000000000000000000000aB"))) /\
     (c_upper case = true <->
      is_ok (mac_parse_str (xa_case a) SepDisallow (bs "0000000000AB")) /\
      is_ok (uuid_parse_str (xa_case a) SepDisallow (bs "000000000000000000000000000000AB"))) /\
     (c_lower case = true <->
      is_ok (mac_parse_str (xa_case a) SepDisallow (bs "0000000000ab")) /\
      is_ok (uuid_parse_str (xa_case a) SepDisallow (bs "000000000000000000000000000000ab")))).
Proof.
  split; [|split].
  - intros []; cbn; intuition discriminate.
  - intros []; cbn; intuition congruence.
  - intros a case g G H.
    assert (case = xa_case a) as -> by (destruct G as [-> | ->]; cbn in H; now injection H).
    destruct (xa_case a); (split; [|split]); (split; [intros X; try discriminate X; split; eexists; vm_compute; reflexivity|]);
      intros [(x & X) _]; try reflexivity; vm_compute in X; discriminate X.
Qed.
End Constants.
Print Assumptions C97_present.
Print Assumptions C97_methods.
Print Assumptions C97_written_values.
Print Assumptions C97_integers.
Print Assumptions C97_integer_texts.
Print Assumptions C97_sizes.
Print Assumptions C97_numbers.
Print Assumptions C97_collections.
Print Assumptions C97_lines.
Print Assumptions C97_padding.
Print Assumptions C97_separators.
Print Assumptions C97_ip.
Print Assumptions C97_host.
Print Assumptions C97_domain.
Print Assumptions C97_email.
Print Assumptions C97_http.
Print Assumptions C97_countries.
Print Assumptions C97_determines.
Print Assumptions C97_written.

(** The tests of /repo/validators/tests/mac_address.rs and line.rs in small: with [separator(Must(hyphen))] the bare digits are
    refused, as [V_SEPARATOR.must()] says. *)
Example C97_example :
  let no := opts0 in
  let a := mk_hex_attr UpperCase (SepMust 45) no in
  const_of (bs "V_SEPARATOR") (constants (fun l : list N => l) (GMac a)) = Some (CSep (SepMust 45)) /\
  hex_text (bs "080027B46A2B") /\ grouped SepDisallow mac_sizes (bs "080027B46A2B") (bs "080027B46A2B") /\
  s_must (SepMust 45) <> None /\ (forall x, mac_parse_str UpperCase (SepMust 45) (bs "080027B46A2B") <> Ok x) /\
  mac_parse_str UpperCase (SepMust 45) (bs "08-00-27-B4-6A-2B") = Ok 8796759157291 /\
  const_of (bs "V_BYTE_LENGTH_MIN") (constants (fun l : list N => l)
    (GLine (mk_utf8_attr (Some (false, {| l_min := Some 3; l_tmin := None; l_max := None |})) no))) = None /\
  check_range Z.ltb Z.leb 5%Z (Outside (Some 3%Z) (Some 5%Z) true) = false /\
  check_range Z.ltb Z.leb 5%Z (Outside (Some 3%Z) (Some 5%Z) false) = true.
Proof.
  cbv zeta. split; [reflexivity|]. split.
  { apply Forall_forall. intros c H. vm_compute in H. unfold hex_char. repeat (destruct H as [<-|H]; [lia|]). destruct H. }
  split.
  - change (bs "080027B46A2B") with (bs "08" ++ [] ++ bs "00" ++ [] ++ bs "27" ++ [] ++ bs "B4" ++ [] ++ bs "6A" ++ [] ++ bs "2B") at 1.
    change (bs "080027B46A2B") with (bs "08" ++ bs "00" ++ bs "27" ++ bs "B4" ++ bs "6A" ++ bs "2B").
    do 5 (apply (grouped_cons SepDisallow (_ :: _ :: nil) []); [reflexivity|]). apply (grouped_last SepDisallow (bs "2B")).
  - vm_compute. repeat split; discriminate.
Qed.
