(** C107: functions that the user writes for the struct do not change what the generated code does. *)
From Coq Require Import List ZArith NArith Bool Floats SpecFloat.
From Verif Require Import Base StrFacts RangeModel IntStr Serde MetaModel MacroModel LocalProofs.
From Verif Require Import IntModel NumberModel DomainModel FeatureModel CallModel.
Import ListNotations.

Lemma among x l : existsb (eqbs x) l = true <-> In x l.
Proof.
  rewrite existsb_exists. split.
  - intros (y & I & E). apply eqbs_eq in E. subst. exact I.
  - intros I. exists x. split; [exact I|apply eqbs_eq; reflexivity].
Qed.

Lemma helper_call user v x : In x (helpers v) -> reach user v (OnSelf x) = ToHelper x.
Proof. intros I. cbn [reach]. apply among in I. rewrite I. reflexivity. Qed.
Lemma bare_helper sh v x : In x (bare_calls sh v) -> ~ In x (helpers v).
Proof.
  intros I J. apply among in J. revert J.
  destruct v; cbn [bare_calls] in I; try (destruct I; fail).
  - destruct (sh_port sh); cbn [In] in I; try (destruct I; fail); destruct I as [<- | []]; vm_compute; discriminate.
  - destruct (sh_float sh); cbn [In] in I; try (destruct I; fail). destruct I as [<- | [<- | []]]; vm_compute; discriminate.
  - destruct (sh_int sh); cbn [In] in I; try (destruct I; fail); destruct I as [<- | [<- | []]]; vm_compute; discriminate.
  - destruct (sh_int sh); cbn [In] in I; try (destruct I; fail); destruct I as [<- | [<- | []]]; vm_compute; discriminate.
Qed.

(** Which declarations call nothing on the struct that the user could hide: all but those of domains that may lack a port, of [f32]
    numbers, and of integers narrower than 128 bits. *)
Definition guarded (sh : shape) (v : validator) : Prop :=
  match v with
  | Vdomain => sh_port sh = Must
  | Vnumber => sh_float sh = F64
  | Vsigned_integer | Vunsigned_integer => sh_int sh = I128
  | _ => True
  end.

(** Every call of the generated code reaches a function of the macro or of a trait of the crate, whatever the struct's other functions
    are called, as long as the program compiles. *)
Theorem C107_as_meant_partial : forall user sh v c x,
  guarded sh v -> In c (calls sh v) -> reach user v c <> ToUser x.
Proof.
  intros user sh v c x G I E. unfold calls in I. rewrite !in_app_iff, !in_map_iff in I. destruct I as [(y & <- & I)|[(y & <- & I)|(p & <- & I)]].
  - rewrite (helper_call user v y I) in E. discriminate E.
  - destruct v; cbn [guarded bare_calls] in *; try rewrite G in I; destruct I.
  - discriminate E.
Qed.

(** In the other declarations the same holds if none of the user's functions has one of these few names. *)
Definition hideable (sh : shape) (v : validator) : list (list N) :=
  match v with
  | Vdomain => [bs "get_domain_non_fully_qualified"]
  | Vnumber => [bs "parse_f32"; bs "validate_f32"]
  | Vsigned_integer => [bs "parse_i" ++ ity_name (sh_int sh); bs "validate_i" ++ ity_name (sh_int sh)]
  | Vunsigned_integer => [bs "parse_u" ++ ity_name (sh_int sh); bs "validate_u" ++ ity_name (sh_int sh)]
  | _ => []
  end.
Theorem C107_names : forall user sh v c x,
  (forall y, In y (hideable sh v) -> ~ In y user) -> In c (calls sh v) -> reach user v c <> ToUser x.
Proof.
  intros user sh v c x G I E. unfold calls in I. rewrite !in_app_iff, !in_map_iff in I. destruct I as [(y & <- & I)|[(y & <- & I)|(p & <- & I)]].
  - rewrite (helper_call user v y I) in E. discriminate E.
  - assert (J : In y (hideable sh v)).
    { destruct v; cbn [bare_calls hideable] in *; try (destruct I; fail).
      - destruct (sh_port sh); [destruct I|exact I|exact I].
      - destruct (sh_float sh); [exact I|destruct I].
      - destruct (sh_int sh); try exact I. destruct I.
      - destruct (sh_int sh); try exact I. destruct I. }
    apply G in J. assert (N : existsb (eqbs y) user = false). { destruct (existsb (eqbs y) user) eqn:F; [|reflexivity]. apply among in F. contradiction. }
    cbn [reach] in E. rewrite N in E. destruct (existsb (eqbs y) (helpers v)); discriminate E.
  - discriminate E.
Qed.

(** And each of them is needed: a struct that has the function compiles, and the generated code calls that one. *)
Theorem C107_names_refuted : forall sh v y, ~ guarded sh v -> In y (hideable sh v) ->
  call_ok [y] v = true /\ exists c, In c (calls sh v) /\ reach [y] v c = ToUser y.
Proof.
  intros sh v y G I.
  assert (J : In y (bare_calls sh v)).
  { destruct v; cbn [bare_calls hideable guarded] in *; try (destruct I; fail).
    - destruct (sh_port sh); [elim G; reflexivity|exact I|exact I].
    - destruct (sh_float sh); [exact I|elim G; reflexivity].
    - destruct (sh_int sh); try exact I. elim G; reflexivity.
    - destruct (sh_int sh); try exact I. elim G; reflexivity. }
  assert (N := bare_helper sh v y J). split.
  - unfold call_ok. apply forallb_forall. intros x X. cbn [existsb]. destruct (eqbs x y) eqn:E; [|reflexivity].
    apply eqbs_eq in E. subst. contradiction.
  - exists (OnSelf y). split.
    + unfold calls. rewrite !in_app_iff. right. left. apply in_map. exact J.
    + cbn [reach]. destruct (existsb (eqbs y) (helpers v)) eqn:E; [apply among in E; contradiction|].
      cbn [existsb]. replace (eqbs y y) with true; [reflexivity|]. symmetry. apply eqbs_eq. reflexivity.
Qed.

(** A function that hides one of the macro's helpers is refused by the compiler, so nothing changes silently. *)
Theorem C107_helpers : forall user sh v x, In (OnSelf x) (calls sh v) -> ~ In x (hideable sh v) ->
  In x user -> call_ok user v = false.
Proof.
  intros user sh v x I H U. unfold calls in I. rewrite !in_app_iff, !in_map_iff in I. destruct I as [(y & E & I)|[(y & E & I)|(p & E & I)]].
  - injection E as ->. unfold call_ok. destruct (forallb _ (helpers v)) eqn:F; [|reflexivity].
    assert (K := proj1 (forallb_forall _ _) F x I). cbn in K. apply among in U. rewrite U in K. discriminate K.
  - injection E as ->. elim H. clear - I. destruct v; cbn [bare_calls hideable] in *; try (destruct I; fail).
    + destruct (sh_port sh); [destruct I|exact I|exact I].
    + destruct (sh_float sh); [exact I|destruct I].
    + destruct (sh_int sh); try exact I. destruct I.
    + destruct (sh_int sh); try exact I. destruct I.
  - discriminate E.
Qed.

(** The integers, method by method: only a function named after the type of the field can matter, and never for the method of that
    very type. *)
Theorem C107_integers : forall sg pw t r m i,
  (forall user, user t = None \/ t = I128 \/ m = t -> int_parse_beside user sg pw t r m i = int_parse sg pw t r m i) /\
  (forall user, user t = None \/ t = I128 \/ m = t -> int_validate_beside user sg pw t r m i = int_validate sg pw t r m i).
Proof.
  intros sg pw t r m i. split; intros user [H|[-> | ->]].
  - unfold int_parse_beside, int_parse, call_fuel. destruct t, m, pw; cbn [call_beside call own_parse default_parse resolve]; rewrite ?H; reflexivity.
  - unfold int_parse_beside, int_parse, call_fuel. destruct m, pw; reflexivity.
  - unfold int_parse_beside, int_parse, call_fuel. destruct t, pw; reflexivity.
  - unfold int_validate_beside, int_validate, call_fuel. destruct t, m, pw; cbn [call_beside call own_validate default_validate resolve]; rewrite ?H; reflexivity.
  - unfold int_validate_beside, int_validate, call_fuel. destruct m, pw; reflexivity.
  - unfold int_validate_beside, int_validate, call_fuel. destruct t, pw; reflexivity.
Qed.

(** A struct of [u8] in [1..=9] with a constructor [fn parse_u8(u: u8) -> Result<Self, _> { Ok(Self(u)) }] of its own: [parse_u16], and so
    [Deserialize], then accepts 200, which [parse_str] and the trait's own [parse_u8] refuse. *)
Theorem C107_integers_refuted : exists user t r m i,
  (forall pw, int_parse_beside user false pw t r m i = Ok i) /\
  (forall pw, int_parse false pw t r m i = Err TooLarge) /\
  (forall pw, int_parse_beside user false pw t r t i = Err TooLarge).
Proof.
  exists (fun m => match m with I8 => Some (fun i => Ok i) | _ => None end), I8, (Inside (Some 1%Z) (Some 9%Z) true), I16, 200%Z.
  repeat split; intros []; vm_compute; reflexivity.
Qed.

Theorem C107_numbers : forall r nan f,
  (forall user, num_parse_f64_beside user F64 r nan f = num_parse_f64 F64 r nan f) /\
  (forall user, num_validate_f64_beside user F64 r nan f = num_validate_f64 F64 r nan f) /\
  (forall t, num_parse_f64_beside None t r nan f = num_parse_f64 t r nan f) /\
  (forall t, num_validate_f64_beside None t r nan f = num_validate_f64 t r nan f).
Proof. intros r nan f. repeat split; try intros []; reflexivity. Qed.

Theorem C107_numbers_refuted : exists user r f,
  num_parse_f64_beside user F32 r Disallow f = Ok f /\ num_parse_f64 F32 r Disallow f = Err NaNDisallow.
Proof. exists (Some (fun f => Ok f)), (@Unlimited spec_float), S754_nan. split; vm_compute; reflexivity. Qed.

(** The authority string of a domain with a port, or of one whose struct has no such method. *)
Theorem C107_domain : forall E user x, user = None \/ dv_port x <> None ->
  @authority_beside E user x = domain_authority x /\ @ser_beside E user x = domain_ser x.
Proof.
  intros E user x H. assert (A : @authority_beside E user x = domain_authority x).
  { unfold authority_beside, domain_authority. destruct (dv_port x) as [p|] eqn:P.
    - reflexivity.
    - destruct H as [-> |H]; [|elim H; reflexivity]. destruct (get_domain_non_fully_qualified (dv_domain x)); reflexivity. }
  split; [exact A|]. unfold ser_beside, domain_ser. rewrite A. reflexivity.
Qed.

(** Without a port the user's method decides: any text at all is printed and serialized; with a port, the same struct prints its domain. *)
Theorem C107_domain_refuted : forall (g : domain_val -> list N) x,
  let y p := {| dv_domain := dv_domain x; dv_port := p; dv_is_ipv4 := dv_is_ipv4 x; dv_is_local := dv_is_local x |} in
  (forall E, @authority_beside E (Some g) (y None) = Ok (g (y None))) /\
  (forall E p, @authority_beside E (Some g) (y (Some p)) = domain_authority (y (Some p))).
Proof. intros g x y. split; reflexivity. Qed.

(** A lazily written [get_domain_non_fully_qualified] that keeps the last dot. *)
Example C107_example :
  (let x := {| dv_domain := bs "example.com."; dv_port := None; dv_is_ipv4 := None; dv_is_local := None |} in
   @authority_beside unit (Some dv_domain) x = Ok (bs "example.com.") /\ @domain_authority unit x = Ok (bs "example.com")) /\
  call_ok [bs "parse_str"; bs "new"] Vemail = true /\ call_ok [bs "v_parse_str"] Vemail = false /\
  bare_calls {| sh_pw := W64; sh_int := Isize; sh_float := F64; sh_port := Must |} Vsigned_integer = [bs "parse_isize"; bs "validate_isize"] /\
  reach [bs "parse_isize"] Vsigned_integer (OnSelf (bs "parse_isize")) = ToUser (bs "parse_isize") /\
  reach [bs "parse_str"] Vemail (OnTrait TValidateString (bs "parse_str")) = ToTrait (bs "parse_str").
Proof. vm_compute. repeat split. Qed.

Print Assumptions C107_as_meant_partial.
Print Assumptions C107_names.
Print Assumptions C107_names_refuted.
Print Assumptions C107_helpers.
Print Assumptions C107_integers.
Print Assumptions C107_integers_refuted.
Print Assumptions C107_numbers.
Print Assumptions C107_numbers_refuted.
Print Assumptions C107_domain.
Print Assumptions C107_domain_refuted.
