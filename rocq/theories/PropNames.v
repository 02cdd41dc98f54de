(** C90: the check generated for an integer range mentions only names that are in scope. *)
From Verif Require Import Base RangeModel IntStr IntModel IntSpec IntProofs LengthModel MetaModel MacroModel MacroProofs PropConst.
Local Open Scope Z_scope.

(** The generated check for the range [r] compares the number under the name that its function gives it. *)
Definition reads_only_parameter (sg : bool) (pw : ptr_width) (t : ity) (r : range_option Z) : Prop :=
  forall x, In x (names_read sg (to_tokens Z Z.eqb (int_inc sg pw t) false r)) -> x = int_param sg.

Lemma reads_builds : forall sg pw t r, reads_only_parameter sg pw t r <-> int_builds sg pw t r = true.
Proof.
  intros sg pw t r. unfold reads_only_parameter, int_builds. rewrite forallb_forall.
  split; intros H x I; specialize (H x I); [rewrite H; destruct sg; reflexivity|].
  destruct x, sg; try reflexivity; discriminate H.
Qed.

(** C90: every signed_integer validator reads only its parameter, and an unsigned_integer validator does so exactly when its range is not
    the outside of two bounds with more or less than one number between them. *)
Theorem C90_integer_names : forall cid (id_from_str : list N -> option cid) cid_eqb compiles float_lit pw on f d sg t a,
  derive id_from_str cid_eqb compiles float_lit pw on f d = Ok (GInt sg t a) ->
  (sg = true -> reads_only_parameter sg pw t (ra_range a)) /\
  (sg = false ->
     (reads_only_parameter sg pw t (ra_range a) <->
      forall mn mx incl, ra_range a = Outside (Some mn) (Some mx) incl ->
        forall i, (if incl then mn <= i <= mx else mn <= i < mx) <-> i = mn)).
Proof.
  intros cid ifs ceq comp fl pw on f d sg t a H. rewrite reads_builds, builds_spec. split.
  - intros -> [G _]. discriminate.
  - intros ->. split.
    + intros G mn mx incl E i.
      assert (Bx : ~ above_type false pw t mx).
      { rewrite above_iff. assert (F : IntSpec.fits false pw t mx).
        { eapply derived_int; [exact H|]. rewrite E. right. reflexivity. }
        apply IntProofs.fits_iff in F. lia. }
      assert (K : if incl then mx = mn else mx = mn + 1).
      { destruct incl; [destruct (Z.eq_dec mx mn) as [K|K]|destruct (Z.eq_dec mx (mn + 1)) as [K|K]]; try exact K;
          exfalso; apply G; split; [reflexivity| |reflexivity|]; do 3 eexists; (split; [exact E|]); cbn; tauto. }
      destruct incl; lia.
    + intros K (_ & mn & mx & incl & E & N). apply N. specialize (K mn mx incl E).
      pose proof (K mn) as K0. pose proof (K mx) as K1. pose proof (K (mn + 1)) as K2.
      assert (F : IntSpec.fits false pw t mx).
      { eapply derived_int; [exact H|]. rewrite E. right. reflexivity. }
      apply IntProofs.fits_iff in F. destruct incl; [lia|]. split; [lia|]. rewrite above_iff. lia.
Qed.
Print Assumptions C90_integer_names.

(** C90: and when it does not, nothing is accepted through any integer entry point (there is no program). *)
Theorem C90_unreadable_accepts_nothing : forall sg pw t r, ~ reads_only_parameter sg pw t r ->
  (forall i v, v_parse_i sg pw t r i <> Ok v) /\ (forall s v, int_parse_str sg pw t r s <> Ok v).
Proof.
  intros sg pw t r N. assert (B : int_builds sg pw t r = false).
  { destruct (int_builds sg pw t r) eqn:E; [|reflexivity]. exfalso. apply N, reads_builds, E. }
  assert (V : forall i, v_parse_i sg pw t r i = Panic) by (intros i; unfold v_parse_i; rewrite B; reflexivity).
  split; [intros i v; rewrite V; discriminate|].
  intros s v. unfold int_parse_str, v_parse_str.
  match goal with |- context [int_from_str ?a ?b ?c] => destruct (int_from_str a b c) end; cbn; rewrite ?V; cbn; discriminate.
Qed.
Print Assumptions C90_unreadable_accepts_nothing.

(** C90 is false of unsigned_integer: the macro accepts [unsigned_integer(range(Outside(min = 3, max = 5)))] on a [u8] field, and the check that it
    writes for [v_parse_u(u)] reads [i]. *)
Theorem C90_unsigned_outside_refuted : exists d a,
  @derive unit (fun _ => None) (fun _ _ => true) (fun _ => true) (fun _ _ => None) W64 (fun _ => true)
    {| f_serde := false; f_rocket := false; f_full := false |} d = Ok (GInt false I8 a) /\
  In Var_i (names_read false (to_tokens Z Z.eqb (int_inc false W64 I8) false (ra_range a))) /\ int_param false = Var_u /\
  allowed (ra_range a) 7 /\ int_parse false W64 I8 (ra_range a) I8 7 = Panic.
Proof.
  exists {| di_attrs := [MList [bs "validator"] [IMeta (MList [bs "unsigned_integer"] [IMeta (MList [bs "range"]
         [IMeta (MList [bs "Outside"] [IMeta (MNameValue [bs "min"] (ELit (LitInt (bs "3"))));
            IMeta (MNameValue [bs "max"] (ELit (LitInt (bs "5"))))] false)] false)] false)] false];
       di_data := DataStruct (FUnnamed [bs "u8"]); di_params := 0%nat |}.
  eexists. split; [vm_compute; reflexivity|].
  split; [left; reflexivity|]. split; [reflexivity|]. split; [|reflexivity].
  intros [_ H]. specialize (H 5 eq_refl). cbn in H. lia.
Qed.
Print Assumptions C90_unsigned_outside_refuted.

(** C90: the same range on [i8] compiles and works, as does leaving out one number of [u8]. *)
Example C90_example :
  (exists a, @derive unit (fun _ => None) (fun _ _ => true) (fun _ => true) (fun _ _ => None) W64 (fun _ => true)
    {| f_serde := false; f_rocket := false; f_full := false |}
    {| di_attrs := [MList [bs "validator"] [IMeta (MList [bs "signed_integer"] [IMeta (MList [bs "range"]
         [IMeta (MList [bs "Outside"] [IMeta (MNameValue [bs "min"] (ELit (LitInt (bs "3"))));
            IMeta (MNameValue [bs "max"] (ELit (LitInt (bs "5"))))] false)] false)] false)] false];
       di_data := DataStruct (FUnnamed [bs "i8"]); di_params := 0%nat |} = Ok (GInt true I8 a) /\
    reads_only_parameter true W64 I8 (ra_range a) /\
    names_read true (to_tokens Z Z.eqb (int_inc true W64 I8) false (ra_range a)) = [Var_i] /\
    int_parse true W64 I8 (ra_range a) I8 7 = Ok 7 /\ int_parse true W64 I8 (ra_range a) I8 4 = Err Forbidden) /\
  reads_only_parameter false W64 I8 (Outside (Some 3) (Some 4) false) /\
  int_parse false W64 I8 (Outside (Some 3) (Some 4) false) I8 4 = Ok 4 /\
  int_parse false W64 I8 (Outside (Some 3) (Some 4) false) I8 3 = Err Forbidden.
Proof.
  split.
  - eexists. split; [vm_compute; reflexivity|]. split; [|repeat split]. intros x [<-|[]]. reflexivity.
  - split; [intros x [<-|[]]; reflexivity|]. split; reflexivity.
Qed.
