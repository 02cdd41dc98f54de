(** The phone validator, /repo/validators-derive/src/validator_handlers/phone/mod.rs, and its attribute,
    phone_attribute.rs in the same directory. *)
From Verif Require Import Base IntModel Serde.
Local Open Scope N_scope.

Section WithPhonenumber.
(** [phonenumber::country::Id] and its equality, [PhoneNumber], [ParseError] (external crate phonenumber: arbitrary). *)
Variable cid : Type.
Variable cid_eqb : cid -> cid -> bool.
Variable phone : Type.
Variable perr : Type.
(** [phonenumber::parse], [PhoneNumber::country().id()] and [PhoneNumber::is_valid]. *)
Variable pn_parse : option cid -> list N -> phone + perr.
Variable pn_country : phone -> option cid.
Variable pn_valid : phone -> bool.

(** Models [PhoneError], /repo/validators/src/errors/phone.rs:5-12 ([Failure] is [PParseError]). *)
Inductive phone_err := PParseError (e : perr) | PInvalid.

(** Models [phonenumber::parse(..)?].
    (/repo/validators-derive/src/validator_handlers/phone/mod.rs:57, 76, 104.) *)
Definition p_parse (c : option cid) (s : list N) : outcome phone_err phone :=
  match pn_parse c s with inl p => Ok p | inr e => Err (PParseError e) end.

(** Models [v_parse_str] without countries, /repo/validators-derive/src/validator_handlers/phone/mod.rs:54-68. *)
Definition phone_v_any (s : list N) : outcome phone_err phone :=
  let? p := p_parse None s in
  if pn_valid p then Ok p else Err PInvalid.

(** Models the test [if let Some(id) = phonenumber.country().id() { if id == c && phonenumber.is_valid() ..],
    /repo/validators-derive/src/validator_handlers/phone/mod.rs:78-80 and 106-108. *)
Definition p_matches (c : cid) (p : phone) : bool :=
  match pn_country p with
  | Some id => cid_eqb id c && pn_valid p
  | None => false
  end.

(** Models [v_parse_str] for one country, /repo/validators-derive/src/validator_handlers/phone/mod.rs:69-90. *)
Definition phone_v_one (c : cid) (s : list N) : outcome phone_err phone :=
  let? p := p_parse (Some c) s in
  if p_matches c p then Ok p else Err PInvalid.

(** Models [HashMap::insert]; the map is its list of entries.
    (/repo/validators-derive/src/validator_handlers/phone/mod.rs:108.) *)
Definition map_insert (c : cid) (p : phone) (m : list (cid * phone)) : list (cid * phone) :=
  (c, p) :: filter (fun e => negb (cid_eqb (fst e) c)) m.

(** Models the repeated block of [v_parse_str] for several countries, /repo/validators-derive/src/validator_handlers/phone/mod.rs:103-112; [cs] is the order in which the
    macro iterates over its hash set. *)
Fixpoint phone_v_loop (cs : list cid) (s : list N) (m : list (cid * phone)) : outcome phone_err (list (cid * phone)) :=
  match cs with
  | [] => Ok m
  | c :: cs =>
      let? p := p_parse (Some c) s in
      phone_v_loop cs s (if p_matches c p then map_insert c p m else m)
  end.

(** Models [v_parse_str] for several countries, /repo/validators-derive/src/validator_handlers/phone/mod.rs:91-121. *)
Definition phone_v_many (cs : list cid) (s : list N) : outcome phone_err (list (cid * phone)) :=
  let? m := phone_v_loop cs s [] in
  match m with [] => Err PInvalid | _ => Ok m end.

(** The value of the generated struct: a number, or a map from countries to numbers (/repo/validators-derive/src/validator_handlers/phone/mod.rs:54-121 chooses the field type
    that fits by the number of countries). *)
Inductive phone_val := POne (p : phone) | PMany (m : list (cid * phone)).

(** Models the choice made by the macro, /repo/validators-derive/src/validator_handlers/phone/mod.rs:53-121. *)
Definition phone_v_parse_str (cs : list cid) (s : list N) : outcome phone_err phone_val :=
  match cs with
  | [] => omap POne (phone_v_any s)
  | [c] => omap POne (phone_v_one c s)
  | _ => omap PMany (phone_v_many cs s)
  end.

(** Models [parse_string], [parse_str] and [validate_str], /repo/validators-derive/src/validator_handlers/phone/mod.rs:124-145. *)
Definition phone_parse_string (cs : list cid) (s : list N) : outcome phone_err phone_val :=
  let? v := phone_v_parse_str cs s in Ok v.
Definition phone_parse_str (cs : list cid) (s : list N) : outcome phone_err phone_val :=
  let? v := phone_v_parse_str cs s in Ok v.
Definition phone_validate_str (cs : list cid) (s : list N) : outcome phone_err unit :=
  let? _ := phone_v_parse_str cs s in Ok tt.

(** Models [MyVisitor], /repo/validators-derive/src/validator_handlers/phone/mod.rs:180-203. *)
Definition phone_visitor (cs : list cid) : visitor phone_err phone_val := fun c =>
  match c with DStr s => Some (phone_parse_str cs s) | _ => None end.

(** [Id::from_str] (external crate phonenumber: arbitrary). *)
Variable cid_from_str : list N -> option cid.

(** Models the loop of [meta_2_countries] over the identifiers of [countries(..)], phone_attribute.rs:108-123: [None] is a
    compile error. The set is the list of the elements inserted so far.
    (/repo/validators-derive/src/validator_handlers/phone/phone_attribute.rs.) *)
Fixpoint meta_2_countries (set : list cid) (idents : list (list N)) : option (list cid) :=
  match idents with
  | [] => Some set
  | i :: idents =>
      match cid_from_str i with
      | None => None
      | Some c => if existsb (cid_eqb c) set then None else meta_2_countries (set ++ [c]) idents
      end
  end.
End WithPhonenumber.

Arguments PParseError {perr} e.
Arguments PInvalid {perr}.
Arguments POne {cid phone} p.
Arguments PMany {cid phone} m.
