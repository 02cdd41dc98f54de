(** phone: C51 and C62. The phonenumber library is arbitrary: a type of country identifiers with decidable equality, a type of
    numbers, and arbitrary functions [parse], [country] and [valid]. *)
From Coq Require Import Permutation.
From Verif Require Import Base IntModel Serde PhoneModel PhoneProofs.
Local Open Scope N_scope.

(** C51. With several countries: the text must be readable for every country, and the map lists exactly the countries for which
    it is a valid number, with that number. *)
Theorem C51_several_countries : forall cid eqb phone perr parse country valid,
  (forall a b : cid, eqb a b = true <-> a = b) -> forall cs s, (2 <= List.length cs)%nat -> NoDup cs ->
  (forall v, phone_parse_str cid eqb phone perr parse country valid cs s = Ok v ->
     exists m, v = PMany m /\ m <> [] /\ NoDup (List.map fst m) /\
       forall c p, In (c, p) m <-> In c cs /\ parse (Some c) s = inl p /\ country p = Some c /\ valid p = true) /\
  (is_ok (phone_parse_str cid eqb phone perr parse country valid cs s) <->
     (forall c, In c cs -> exists p, parse (Some c) s = inl p) /\
     exists c p, In c cs /\ parse (Some c) s = inl p /\ country p = Some c /\ valid p = true).
Proof.
  intros cid eqb phone perr parse country valid Heq cs s Hlen Hnd. split.
  - intros v Hv. destruct (proj1 (phone_many cid eqb phone perr parse country valid Heq cs s Hlen Hnd) v Hv) as (_ & m & H).
    exists m. exact H.
  - rewrite (phone_ok_iff cid eqb phone perr parse country valid Heq cs s Hlen Hnd). rewrite Forall_forall. reflexivity.
Qed.
Print Assumptions C51_several_countries.

(** C51. The order in which the macro's hash set lists the countries does not matter: neither for acceptance nor for the value,
    as a map. *)
Theorem C51_order_irrelevant : forall cid eqb phone perr parse country valid,
  (forall a b : cid, eqb a b = true <-> a = b) -> forall cs cs' s, (2 <= List.length cs)%nat -> NoDup cs ->
  Permutation cs cs' ->
  (is_ok (phone_parse_str cid eqb phone perr parse country valid cs s) <->
   is_ok (phone_parse_str cid eqb phone perr parse country valid cs' s)) /\
  (forall m m', phone_parse_str cid eqb phone perr parse country valid cs s = Ok (PMany m) ->
                phone_parse_str cid eqb phone perr parse country valid cs' s = Ok (PMany m') -> Permutation m m').
Proof. intros. apply phone_permute; assumption. Qed.
Print Assumptions C51_order_irrelevant.

(** C51. With one country and without countries. *)
Theorem C51_one_country : forall cid eqb phone perr parse country valid,
  (forall a b : cid, eqb a b = true <-> a = b) -> forall c s v,
  phone_parse_str cid eqb phone perr parse country valid [c] s = Ok v <->
  exists p, v = POne p /\ parse (Some c) s = inl p /\ country p = Some c /\ valid p = true.
Proof. intros. apply phone_one. assumption. Qed.
Print Assumptions C51_one_country.

Theorem C51_any_country : forall cid eqb phone perr parse country valid s v,
  phone_parse_str cid eqb phone perr parse country valid [] s = Ok v <->
  exists p, v = POne p /\ parse None s = inl p /\ valid p = true.
Proof. intros. apply phone_any. Qed.
Print Assumptions C51_any_country.

(** C51. No panic, and the entry points agree. *)
Theorem C51_entry_points : forall cid eqb phone perr parse country valid,
  (forall a b : cid, eqb a b = true <-> a = b) -> forall cs s, NoDup cs ->
  let parse_str := phone_parse_str cid eqb phone perr parse country valid in
  parse_str cs s <> Panic /\
  phone_parse_string cid eqb phone perr parse country valid cs s = parse_str cs s /\
  phone_validate_str cid eqb phone perr parse country valid cs s = omap (fun _ => tt) (parse_str cs s).
Proof.
  intros. split; [apply phone_no_panic; assumption|]. split; [reflexivity|].
  unfold parse_str, phone_validate_str, phone_parse_str.
  destruct (phone_v_parse_str cid eqb phone perr parse country valid cs s); reflexivity.
Qed.
Print Assumptions C51_entry_points.

(** C51. The attribute [countries(..)]: accepted exactly when every identifier is a country and none is repeated. *)
Theorem C51_countries_attribute : forall cid eqb from_str,
  (forall a b : cid, eqb a b = true <-> a = b) -> forall idents cs,
  meta_2_countries cid eqb from_str [] idents = Some cs <->
  List.map from_str idents = List.map Some cs /\ NoDup cs.
Proof.
  intros cid eqb from_str Heq idents cs. rewrite (countries_spec cid eqb Heq from_str idents [] cs (NoDup_nil _)). cbn [app]. split.
  - intros (new & -> & H). exact H.
  - intros H. exists cs. auto.
Qed.
Print Assumptions C51_countries_attribute.

(** A library for the examples: numbers are "country digit, then the rest"; country 7 wants at least three characters and calls
    anything shorter an error. *)
Definition toy_number (c : option N) (s : list N) : (N * list N) + unit :=
  match s with
  | [] => inr tt
  | d :: r => if match c with Some c => c =? 7 | None => false end
              then if (3 <=? List.length s)%nat then inl (d - 48, r) else inr tt
              else inl (d - 48, r)
  end.
Definition toy_country (p : N * list N) : option N := Some (fst p).
Definition toy_valid (p : N * list N) : bool := (1 <=? List.length (snd p))%nat.

Example C51_example :
  NoDup [1; 2; 7] /\
  phone_parse_str N N.eqb _ _ toy_number toy_country toy_valid [1; 2; 7] (bs "234") = Ok (PMany [(2, (2, bs "34"))]) /\
  phone_parse_str N N.eqb _ _ toy_number toy_country toy_valid [1; 2; 7] (bs "3456") = Err PInvalid /\
  phone_parse_str N N.eqb _ _ toy_number toy_country toy_valid [2] (bs "23") = Ok (POne (2, bs "3")) /\
  phone_parse_str N N.eqb _ _ toy_number toy_country toy_valid [] (bs "93") = Ok (POne (9, bs "3")) /\
  meta_2_countries N N.eqb (fun i => match i with [c] => Some c | _ => None end) [] [[5]; [6]; [5]] = None.
Proof. split; [repeat constructor; cbn; intuition discriminate|repeat split]. Qed.

(** C51 is false in this: a text that is a valid number of a listed country, and is accepted when that country is listed alone, is
    rejected because the library cannot read it for another listed country. *)
Theorem C51_valid_for_one_refuted : exists cid eqb phone perr parse country valid cs s c p,
  (forall a b : cid, eqb a b = true <-> a = b) /\ NoDup cs /\ In c cs /\
  (parse (Some c) s = inl p /\ country p = Some c /\ valid p = true) /\
  phone_parse_str cid eqb phone perr parse country valid [c] s = Ok (POne p) /\
  exists e, phone_parse_str cid eqb phone perr parse country valid cs s = Err e.
Proof.
  exists N, N.eqb, (N * list N)%type, unit, toy_number, toy_country, toy_valid, [1; 7], (bs "12"), 1, (1, bs "2").
  split; [intros; apply N.eqb_eq|]. split; [repeat constructor; cbn; intuition discriminate|]. split; [left; reflexivity|].
  repeat split. exists (PParseError tt). reflexivity.
Qed.
Print Assumptions C51_valid_for_one_refuted.

(** C62. phone values do not come back from serialisation: a number is serialised as a struct and several numbers as a map (both
    are JSON objects), whatever the members are, but only strings are deserialised. *)
Theorem C62_phone_round_trip_refuted : exists cid eqb phone perr parse country valid cs s v,
  (forall a b : cid, eqb a b = true <-> a = b) /\ NoDup cs /\
  phone_parse_str cid eqb phone perr parse country valid cs s = Ok v /\
  forall members, visit (phone_visitor cid eqb phone perr parse country valid cs) (json_call (JObj members)) = Err DType.
Proof.
  exists N, N.eqb, (N * list N)%type, unit, toy_number, toy_country, toy_valid, [2], (bs "23"), (POne (2, bs "3")).
  split; [intros; apply N.eqb_eq|]. split; [repeat constructor; cbn; intuition discriminate|]. split; reflexivity.
Qed.
Print Assumptions C62_phone_round_trip_refuted.

(** ... in fact never, for any library and any countries ... *)
Theorem C62_phone_objects_refused_partial : forall cid eqb phone perr parse country valid cs members,
  visit (phone_visitor cid eqb phone perr parse country valid cs) (json_call (JObj members)) = Err DType.
Proof. reflexivity. Qed.
Print Assumptions C62_phone_objects_refused_partial.

(** ... whereas strings are deserialised as [parse_str] does. *)
Theorem C62_phone_strings_partial : forall cid eqb phone perr parse country valid cs s,
  visit (phone_visitor cid eqb phone perr parse country valid cs) (json_call (JStr s)) =
  omap_err DCustom (phone_parse_str cid eqb phone perr parse country valid cs s).
Proof. reflexivity. Qed.
Print Assumptions C62_phone_strings_partial.

Example C62_example :
  visit (phone_visitor N N.eqb _ _ toy_number toy_country toy_valid [2]) (json_call (JStr (bs "23"))) = Ok (POne (2, bs "3")).
Proof. reflexivity. Qed.
