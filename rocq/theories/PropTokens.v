(** C82: every range that the derive macro accepts can be written into the generated program. *)
From Verif Require Import Base RangeModel NumberModel NumberSpec MetaModel TokensModel FloatModel FloatSpec FloatWrites PropFloat.
From Verif Require IntModel IntSpec IntProofs.
From Coq Require Import Floats.SpecFloat.
Local Open Scope Z_scope.

(** [b] is one of the bounds of the range. *)
Definition a_bound {T} (r : range_option T) (b : T) : Prop :=
  match r with
  | Inside min max _ | Outside min max _ => min = Some b \/ max = Some b
  | Unlimited => False
  end.

(** A float that a Rust literal can denote. *)
Definition finite_float (f : spec_float) : Prop := exists x, xval f = Some (Fin x).

Lemma float_literal_cases f : (finite_float f /\ float_literal f = Ok f) \/ (~ finite_float f /\ float_literal f = Panic).
Proof.
  destruct f as [s|s| |s m e]; cbn [float_literal].
  - left. split; [|reflexivity]. eexists. reflexivity.
  - right. split; [|reflexivity]. intros [x H]. destruct s; discriminate H.
  - right. split; [|reflexivity]. intros [x H]. discriminate H.
  - left. split; [|reflexivity]. eexists. reflexivity.
Qed.

(** C82, signed_integer and unsigned_integer (whatever the integer type): every accepted attribute is expanded. *)
Theorem C82_integer_expands : forall T (from_str : list N -> option T) ltb leb eqb inc f m a,
  range_attribute from_str ltb leb f m = Ok a -> exists t, integer_expand from_str ltb leb eqb inc f m = Ok t.
Proof.
  intros T from_str ltb leb eqb inc f m a H. unfold integer_expand. rewrite H. cbn [obind].
  destruct (ra_range a) as [[x|] [y|] i|[x|] [y|] i|]; eexists; reflexivity.
Qed.
Print Assumptions C82_integer_expands.

(** C82, number: an accepted attribute is expanded exactly when its bounds are finite; otherwise the macro panics. *)
Theorem C82_number_expands_exactly : forall from_str f m a, number_attribute from_str SFltb SFleb f m = Ok a ->
  ((exists t, number_expand from_str f m = Ok t) <-> forall b, a_bound (na_range a) b -> finite_float b) /\
  (number_expand from_str f m = Panic <-> exists b, a_bound (na_range a) b /\ ~ finite_float b).
Proof.
  intros from_str f m a H. unfold number_expand. rewrite H. cbn [obind].
  destruct (na_range a) as [min max i|min max i|]; cbn [write_range a_bound].
  3:{ split; split.
      - intros _ b [].
      - intros _. eexists. reflexivity.
      - discriminate.
      - intros (b & [] & _). }
  all: destruct min as [x|]; cbn [bound_literal obind];
    [destruct (float_literal_cases x) as [[Fx Ex]|[Fx Ex]]; rewrite Ex; cbn [obind]|];
    (destruct max as [y|]; cbn [bound_literal obind];
    [destruct (float_literal_cases y) as [[Fy Ey]|[Fy Ey]]; rewrite ?Ey; cbn [obind]|]).
  all: split; split;
    first [ discriminate
          | intros [t Ht]; discriminate Ht
          | intros (b & Hb & Nb); exfalso; apply Nb; destruct Hb as [Hb|Hb]; first [discriminate Hb | injection Hb as <-; assumption]
          | intros (b & Hb & Nb); reflexivity
          | intros _; eexists; reflexivity
          | intros _ b Hb; destruct Hb as [Hb|Hb]; first [discriminate Hb | injection Hb as <-; assumption]
          | intros Hb; exfalso; apply Fx, Hb; left; reflexivity
          | intros Hb; exfalso; apply Fy, Hb; right; reflexivity
          | intros _; exists x; split; [left; reflexivity|assumption]
          | intros _; exists y; split; [right; reflexivity|assumption] ].
Qed.
Print Assumptions C82_number_expands_exactly.

(** C82: what is written is the range of the attribute, so the check compiled from it decides as the validator of C01 and C05 does. *)
Theorem C82_written : forall f m,
  (forall sg pw t from_str tk, integer_expand from_str Z.ltb Z.leb Z.eqb (IntModel.int_inc sg pw t) f m = Ok tk ->
     exists a, range_attribute from_str Z.ltb Z.leb f m = Ok a /\ forall i, ~ IntSpec.gap sg pw t (ra_range a) ->
       IntModel.v_parse_i sg pw t (ra_range a) i = IntModel.handle_range tk i) /\
  (forall from_str tk, number_expand from_str f m = Ok tk ->
     exists a, number_attribute from_str SFltb SFleb f m = Ok a /\ forall nan v,
       v_parse_f (na_range a) nan v = match num_handle_range tk v with Ok _ => handle_nan nan v | Err e => Err e | Panic => Panic end).
Proof.
  intros f m. split.
  - intros sg pw t from_str tk H. unfold integer_expand in H.
    destruct (range_attribute from_str Z.ltb Z.leb f m) as [a|e|]; cbn [obind] in H; try discriminate.
    exists a. split; [reflexivity|]. intros i G. apply IntProofs.builds_spec in G. unfold IntModel.v_parse_i. rewrite G.
    destruct (ra_range a) as [[x|] [y|] incl|[x|] [y|] incl|]; cbn in H; injection H as <-; reflexivity.
  - intros from_str tk H. unfold number_expand in H.
    destruct (number_attribute from_str SFltb SFleb f m) as [a|e|]; cbn [obind] in H; try discriminate.
    exists a. split; [reflexivity|]. intros nan v. unfold v_parse_f.
    assert (X : write_range float_literal (to_tokens spec_float SFeqb float_inc true) (na_range a) = Ok tk ->
      tk = to_tokens spec_float SFeqb float_inc true (na_range a)).
    { destruct (na_range a) as [mn mx incl|mn mx incl|]; cbn [write_range]; [| |congruence];
        (destruct (bound_literal float_literal mn); cbn [obind]; [|discriminate|discriminate]);
        (destruct (bound_literal float_literal mx); cbn [obind]; [|discriminate|discriminate]); congruence. }
    rewrite (X H). destruct (num_handle_range _ v); cbn [obind]; [|reflexivity|reflexivity].
    destruct (handle_nan nan v) as [[]|e|]; reflexivity.
Qed.
Print Assumptions C82_written.

(** C82, which literals give a bound that is not finite: those that overflow the type of the field. *)
Theorem C82_literal_finite : forall t g sg r m k p q f, sign_text g sg -> decimal_text r m k -> is_fraction m k p q ->
  readable (g ++ r) ->
  float_of_text t (g ++ r) = Some f -> (finite_float f <-> ~ overflows t p q).
Proof.
  intros t g sg r m k p q f Hg Hd Hf HL Ht.
  assert (exists f', rounds_nearest t sg p q f') as [f' R].
  { exists (round_decimal t sg m k). apply round_decimal_spec; [exact (decimal_nonneg _ _ _ Hd)|exact Hf]. }
  assert (W : writes t (g ++ r) f').
  { exists g, sg, r. split; [reflexivity|]. split; [exact Hg|]. left. exists m, k, p, q. auto. }
  apply (float_of_text_spec t _ _ HL) in W. rewrite W in Ht. injection Ht as ->.
  destruct R as (_ & _ & Ro & Rn). split.
  - intros [x Hx] O. rewrite (Ro O) in Hx. destruct sg; discriminate Hx.
  - intros O. destruct (Rn O) as (z & Hz & _). exists z. exact Hz.
Qed.
Print Assumptions C82_literal_finite.

(** The attribute [number(range(Inside(max = 1e39)))]. *)
Definition max_1e39 : meta :=
  MList [bs "number"] [IMeta (MList [bs "range"] [IMeta (MList [bs "Inside"]
    [IMeta (MNameValue [bs "max"] (ELit (LitFloat (bs "1e39"))))] false)] false)] false.

(** C82 is false: on an [f32] field the attribute [number(range(Inside(max = 1e39)))] is accepted and the macro panics. *)
Theorem C82_number_expands_refuted : exists f m a,
  number_attribute (float_of_text F32) SFltb SFleb f m = Ok a /\ number_expand (float_of_text F32) f m = Panic.
Proof.
  exists {| f_serde := true; f_rocket := false; f_full := false |}, max_1e39.
  eexists. split; vm_compute; reflexivity.
Qed.
Print Assumptions C82_number_expands_refuted.

Example C82_example :
  (exists t, number_expand (float_of_text F64) {| f_serde := true; f_rocket := false; f_full := false |} max_1e39 = Ok t) /\
  (exists t, integer_expand (fun s => match float_of_text F64 s with Some _ => Some 5 | None => None end) Z.ltb Z.leb Z.eqb (fun z => Some (z + 1))
    {| f_serde := true; f_rocket := false; f_full := false |} max_1e39 = Ok t) /\
  decimal_text (bs "1e39") 1 39 /\ overflows F32 (10 ^ 39) 1 /\ ~ overflows F64 (10 ^ 39) 1.
Proof.
  split; [eexists; vm_compute; reflexivity|]. split; [eexists; vm_compute; reflexivity|]. split.
  - apply (dec_int (bs "1") (bs "e39") 1 39).
    + discriminate.
    + exact (run_snoc [] 49%N 0 run_nil ltac:(lia)).
    + apply (exp_some 101%N [] false (bs "39") 39); [left; reflexivity|constructor|discriminate|].
      exact (run_snoc (bs "3") 57%N 3 (run_snoc [] 51%N 0 run_nil ltac:(lia)) ltac:(lia)).
  - split; [vm_compute; discriminate|]. intros H. vm_compute in H. apply H. reflexivity.
Qed.
