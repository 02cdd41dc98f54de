(** C87: the traits that the documentation lists for each validator are those the generated code implements. *)
From Verif Require Import Base RangeModel IntModel NumberModel MetaModel MacroModel MacroSpec PropMacro FeatureModel PropFeature.

(** The lines "* Traits: .." of /repo/validators/src/lib.rs:58,78,98,118,138,158,179,208,228,257,294,319,343,368,392,415,439,468,487,508,
    527,556,597,643,663,682,709,730,750,771,789. *)
Definition documented_traits (v : validator) : list trait :=
  match v with
  | Vbase32 | Vbase64 | Vbase64_url => [TValidateString; TValidateBytes]
  | Vbase32_decoded | Vbase64_decoded | Vbase64_url_decoded => [TValidateString; TValidateBytes; TCollectionLength]
  | Vbit | Vbyte => [TValidateString; TValidateUnsignedInteger]
  | Vboolean => [TValidateString; TValidateChar; TValidateSignedInteger; TValidateUnsignedInteger; TValidateBoolean]
  | Vdomain => [TValidateString; TQualifyDomain; TToUriAuthorityString]
  | Vemail => [TValidateString; TToEmailString]
  | Vhost | Vip | Vipv4 | Vipv6 => [TValidateString; TToUriAuthorityString]
  | Vhttp_url | Vhttp_ftp_url => [TValidateString]
  | Vjson => [TValidateString; TValidateSignedInteger; TValidateUnsignedInteger; TValidateNumber; TValidateBoolean; TValidateJsonValue]
  | Vlength => [TValidateLength; TCollectionLength]
  | Vline | Vtext => [TValidateLength]
  | Vmac_address => [TValidateString; TToMacAddressString]
  | Vnumber => [TValidateString; TValidateNumber]
  | Vphone | Vregex | Vsemver | Vsemver_req | Vurl => [TValidateString]
  | Vsigned_integer => [TValidateString; TValidateSignedInteger]
  | Vunsigned_integer => [TValidateString; TValidateUnsignedInteger]
  | Vuuid => [TValidateString; TToUuidString]
  end.

Ltac list_in := repeat first [left; reflexivity|right].

(** Every documented trait is implemented, but for length, line and text. *)
Theorem C87_documented_implemented_partial : forall v t,
  v <> Vlength -> v <> Vline -> v <> Vtext -> In t (documented_traits v) -> In t (implements v).
Proof.
  intros v t A B C I. destruct v; cbn in *; try congruence; repeat (destruct I as [<-|I]); try contradiction; list_in.
Qed.
Print Assumptions C87_documented_implemented_partial.

(** Nothing else is implemented, but for what line, text and json implement. *)
Theorem C87_implemented_documented_partial : forall v t,
  v <> Vline -> v <> Vtext -> In t (implements v) -> In t (documented_traits v) \/ v = Vjson /\ t = TToJsonString.
Proof.
  intros v t A B I. destruct v; cbn in *; try congruence; repeat (destruct I as [<-|I]); try contradiction;
  first [right; split; reflexivity|left; list_in].
Qed.
Print Assumptions C87_implemented_documented_partial.

(** No trait is implemented twice (rustc would refuse the second impl). *)
Theorem C87_implemented_once : forall v, NoDup (implements v).
Proof.
  intros v. destruct v; cbn; repeat (constructor; [cbn; intros H; repeat destruct H as [H|H]; try discriminate H; exact H|]); constructor.
Qed.
Print Assumptions C87_implemented_once.

(** Every validator can be used through [ValidateString], but length. *)
Theorem C87_strings : forall v, In TValidateString (implements v) <-> v <> Vlength.
Proof.
  intros v. split.
  - intros I -> . cbn in I. destruct I as [I|[]]. discriminate I.
  - intros N. destruct v; cbn; try congruence; left; reflexivity.
Qed.
Print Assumptions C87_strings.

(** length: documented as implementing [CollectionLength], it does not. *)
Theorem C87_length_refuted : exists t, In t (documented_traits Vlength) /\ ~ In t (implements Vlength).
Proof. exists TCollectionLength. split; [right; left; reflexivity|]. intros [H|[]]. discriminate H. Qed.
Print Assumptions C87_length_refuted.
(** line and text: documented as [ValidateLength], they implement [ValidateString]. *)
Theorem C87_text_refuted : forall v, v = Vline \/ v = Vtext -> exists t u,
  In t (documented_traits v) /\ ~ In t (implements v) /\ In u (implements v) /\ ~ In u (documented_traits v).
Proof.
  intros v [-> | ->]; exists TValidateLength, TValidateString; cbn;
  (split; [left; reflexivity|]); (split; [intros [H|[]]; discriminate H|]); (split; [left; reflexivity|]); intros [H|[]]; discriminate H.
Qed.
Print Assumptions C87_text_refuted.
(** json: [ToJsonString] is implemented but not documented. *)
Theorem C87_json_refuted : exists t, In t (implements Vjson) /\ ~ In t (documented_traits Vjson).
Proof.
  exists TToJsonString. split; [cbn; list_in|]. cbn. intros H. repeat destruct H as [H|H]; try discriminate H; exact H.
Qed.
Print Assumptions C87_json_refuted.

(** What a user who followed the documentation can call: on an accepted struct, every documented trait of its validator is implemented and
    in scope after [use validators::prelude::*]. *)
Theorem C87_callable_partial :
  forall S cid (id_from_str : list N -> option cid) cid_eqb compiles float_lit pw on f d g t,
  (forall v, on v = true -> handed S (DV v)) -> (f_serde f = true -> handed S Dserde) -> (f_rocket f = true -> handed S Drocket) ->
  derive id_from_str cid_eqb compiles float_lit pw on f d = Ok g ->
  generated g <> Vlength -> generated g <> Vline -> generated g <> Vtext ->
  In t (documented_traits (generated g)) -> In t (implements (generated g)) /\ exported S (Itrait t).
Proof.
  intros S cid ifs ceq comp fl pw on f d g t Kon Ks Kr E A B C I.
  pose proof (C87_documented_implemented_partial _ _ A B C I) as J. split; [exact J|].
  apply (C86_expansion_resolves S cid ifs ceq comp fl pw on f d g None (Itrait t) Kon Ks Kr E); try discriminate; [|exact Logic.I].
  unfold mentions. apply in_or_app. left. apply in_map_iff. exists t. split; [reflexivity|exact J].
Qed.
Print Assumptions C87_callable_partial.

(** A struct that meets the hypotheses. *)
Example C87_example :
  let S := asks [Fderive; V Vboolean] in
  let on v := match v with Vboolean => true | _ => false end in
  let f := {| f_serde := false; f_rocket := false; f_full := false |} in
  let d := {| di_attrs := [attr (MPath [bs "boolean"])]; di_data := DataStruct (FUnnamed [bs "bool"]); di_params := 0 |} in
  (forall v, on v = true -> handed S (DV v)) /\
  derive no_countries unit_eqb (fun _ => true) (fun _ _ => None) W64 on f d = Ok (GBasic Vboolean opts0) /\
  In TValidateChar (documented_traits Vboolean) /\ exported S (Itrait TValidateChar) /\ ~ enabled S Fstd.
Proof.
  cbn zeta. split; [|split; [vm_compute; reflexivity|split; [cbn; list_in|split]]].
  - intros v H. destruct v; try discriminate H. split; [apply asked; left; reflexivity|]. exists (V Vboolean).
    split; [apply asked; right; left; reflexivity|left; reflexivity].
  - repeat split.
  - intros H. apply (enabled_within _ [Fderive; V Vboolean]) in H.
    + cbn in H. repeat destruct H as [H|H]; try discriminate H; exact H.
    + intros g I. exact I.
    + intros g h I J. cbn in I. repeat destruct I as [<-|I]; cbn in J; contradiction.
Qed.
