(** The functions that the generated code calls on the struct itself, and which function each call reaches.

    [Self::f(..)] and [self.f()] are looked up first among the inherent functions of the struct and only then among the traits it
    implements; [<T as Trait>::f(..)] and [Trait::f(..)] reach the trait's function whatever else there is; two inherent functions of one
    name are an error (Rust's lookup, trusted). Inside the declaration of a trait [Self::f(..)] sees the functions of the trait only.
    Simplified: a function that the user writes has the parameters of the one it hides ([&self] for the method of domain); the user's own
    traits, and the constants of the feature [test], are left out. *)
From Coq Require Import List ZArith NArith Floats SpecFloat.
From Verif Require Import Base RangeModel IntStr Serde MetaModel MacroModel FeatureModel.
From Verif Require IntModel NumberModel DomainModel.
Import ListNotations.

(** A call on the struct: without a trait, e.g. /repo/validators-derive/src/validator_handlers/signed_integer/mod.rs:269, or with one,
    e.g. domain/mod.rs:947. *)
Inductive callee := OnSelf (x : list N) | OnTrait (t : trait) (x : list N).

(** The function a call reaches: one that the macro wrote ([v_parse_str] and the like), one that the user wrote, or the one of the trait;
    e.g. /repo/validators-derive/src/validator_handlers/number/mod.rs:213,223,285. *)
Inductive target := ToHelper (x : list N) | ToUser (x : list N) | ToTrait (x : list N).

(** The parts of the declaration on which the calls depend: the width of pointers, the type of the field of an integer, that of a
    number, and the parameter [port] of domain; /repo/validators-derive/src/validator_handlers/signed_integer/mod.rs:236-505,
    number/mod.rs:256-308, domain/mod.rs:938-981. *)
Record shape := { sh_pw : IntModel.ptr_width; sh_int : IntModel.ity; sh_float : NumberModel.fty; sh_port : tri }.

(** The inherent functions that the macro writes: the [fn v_..] of /repo/validators-derive/src/validator_handlers/*/mod.rs, e.g.
    base32/mod.rs:82,86; base32_decoded/mod.rs:107-124; bit/mod.rs:95,103; boolean/mod.rs:36,183,192,201,210; byte/mod.rs:99,107;
    json/mod.rs:37-84; length/mod.rs:130; mac_address/mod.rs:231,246; number/mod.rs:213,223; signed_integer/mod.rs:194,204;
    unsigned_integer/mod.rs:194,204; uuid/mod.rs:219,234; the others have one, e.g. url/mod.rs:36. *)
Definition helpers (v : validator) : list (list N) :=
  match v with
  | Vbase32 | Vbase64 | Vbase64_url => [bs "v_parse_str"; bs "v_parse_u8_slice"]
  | Vbase32_decoded | Vbase64_decoded | Vbase64_url_decoded =>
      [bs "v_parse_str"; bs "v_parse_u8_slice"; bs "v_validate_str"; bs "v_validate_u8_slice"]
  | Vbit | Vbyte => [bs "v_parse_str"; bs "v_parse_v"]
  | Vboolean => [bs "v_parse_str"; bs "v_parse_char"; bs "v_parse_i128"; bs "v_parse_u128"; bs "v_parse_bool"]
  | Vjson => [bs "v_parse_str"; bs "v_parse_i128"; bs "v_parse_i64"; bs "v_parse_u128"; bs "v_parse_u64"; bs "v_parse_f64";
              bs "v_parse_bool"; bs "v_parse_json_value"]
  | Vlength => [bs "v_parse_v"]
  | Vmac_address | Vuuid => [bs "v_parse_str"; bs "v_validate_str"]
  | Vnumber => [bs "v_parse_str"; bs "v_parse_f"]
  | Vsigned_integer => [bs "v_parse_str"; bs "v_parse_i"]
  | Vunsigned_integer => [bs "v_parse_str"; bs "v_parse_u"]
  | Vdomain | Vemail | Vhost | Vhttp_url | Vhttp_ftp_url | Vip | Vipv4 | Vipv6 | Vline | Vphone | Vregex | Vsemver | Vsemver_req | Vtext
  | Vurl => [bs "v_parse_str"]
  end.

(** The name of an integer type, after the letter: /repo/validators/src/traits/validate_signed_integer.rs:5-83 and
    validate_unsigned_integer.rs:5-83. *)
Definition ity_name (t : IntModel.ity) : list N :=
  match t with
  | IntModel.I8 => bs "8" | IntModel.I16 => bs "16" | IntModel.I32 => bs "32" | IntModel.I64 => bs "64" | IntModel.I128 => bs "128"
  | IntModel.Isize => bs "size"
  end.

(** The functions of a trait that the impl calls on [Self] without naming the trait:
    /repo/validators-derive/src/validator_handlers/signed_integer/mod.rs:269,280,312,323,355,366,398,409,442,454 (and 474-502, for the
    one with the width of pointers), unsigned_integer/mod.rs:267,276,306,315,345,354,384,393,424,434 (and 455-485): the one of the type of the
    field, if that is not the widest; number/mod.rs:285,290; domain/mod.rs:951,975. *)
Definition bare_calls (sh : shape) (v : validator) : list (list N) :=
  let int c := match sh_int sh with
               | IntModel.I128 => []
               | t => [bs "parse_" ++ c ++ ity_name t; bs "validate_" ++ c ++ ity_name t]
               end in
  match v with
  | Vsigned_integer => int (bs "i")
  | Vunsigned_integer => int (bs "u")
  | Vnumber => match sh_float sh with NumberModel.F32 => [bs "parse_f32"; bs "validate_f32"] | NumberModel.F64 => [] end
  | Vdomain => match sh_port sh with Must => [] | _ => [bs "get_domain_non_fully_qualified"] end
  | _ => []
  end.

(** The calls that name the trait: visitors, [serialize], rocket and [to_uri_authority_string], e.g.
    /repo/validators-derive/src/validator_handlers/base32/mod.rs:245-266, domain/mod.rs:910-991, email/mod.rs:1688, json/mod.rs:238,
    mac_address/mod.rs:343, boolean/mod.rs:342-392, number/mod.rs:413-434, signed_integer/mod.rs:601-642, unsigned_integer/mod.rs:584-625,
    byte/mod.rs:219-225, uuid/mod.rs:363; /repo/validators-derive/src/common/rocket.rs:10,28. *)
Definition path_calls (v : validator) : list (trait * list N) :=
  (match v with Vlength => [] | _ => [(TValidateString, bs "parse_str"); (TValidateString, bs "parse_string")] end) ++
  match v with
  | Vbase32 | Vbase64 | Vbase64_url | Vbase32_decoded | Vbase64_decoded | Vbase64_url_decoded =>
      [(TValidateBytes, bs "parse_u8_slice"); (TValidateBytes, bs "parse_vec_u8")]
  | Vboolean => [(TValidateChar, bs "parse_char"); (TValidateSignedInteger, bs "parse_i64"); (TValidateSignedInteger, bs "parse_i128");
                 (TValidateUnsignedInteger, bs "parse_u64"); (TValidateUnsignedInteger, bs "parse_u128")]
  | Vbyte => [(TValidateUnsignedInteger, bs "parse_u128")]
  | Vdomain => [(TQualifyDomain, bs "is_fully_qualified"); (TQualifyDomain, bs "get_domain_non_fully_qualified");
                (TToUriAuthorityString, bs "to_uri_authority_string")]
  | Vhost | Vip | Vipv4 | Vipv6 => [(TToUriAuthorityString, bs "to_uri_authority_string")]
  | Vemail => [(TToEmailString, bs "to_email_string")]
  | Vjson => [(TToJsonString, bs "to_minified_json_string")]
  | Vmac_address => [(TToMacAddressString, bs "to_mac_address_string")]
  | Vuuid => [(TToUuidString, bs "to_uuid_string")]
  | Vnumber => [(TValidateNumber, bs "parse_f32"); (TValidateNumber, bs "parse_f64")]
  | Vsigned_integer => List.map (fun t => (TValidateSignedInteger, bs "parse_i" ++ ity_name t))
                         [IntModel.I8; IntModel.I16; IntModel.I32; IntModel.I64; IntModel.I128]
  | Vunsigned_integer => List.map (fun t => (TValidateUnsignedInteger, bs "parse_u" ++ ity_name t))
                         [IntModel.I8; IntModel.I16; IntModel.I32; IntModel.I64; IntModel.I128]
  | _ => []
  end.

(** Every call on the struct in the code generated for [v]; each helper is called somewhere, e.g.
    /repo/validators-derive/src/validator_handlers/base32/mod.rs:83,149-194, boolean/mod.rs:222-296, length/mod.rs:144,152. *)
Definition calls (sh : shape) (v : validator) : list callee :=
  List.map OnSelf (helpers v) ++ List.map OnSelf (bare_calls sh v) ++ List.map (fun p => OnTrait (fst p) (snd p)) (path_calls v).

(** Whether the declaration compiles beside the user's inherent functions [user]: no helper has one of their names,
    /repo/validators-derive/src/validator_handlers/*/mod.rs, e.g. base32/mod.rs:80-90. *)
Definition call_ok (user : list (list N)) (v : validator) : bool := forallb (fun x => negb (existsb (eqbs x) user)) (helpers v).

(** The function that a call reaches (Rust's lookup), for the calls of /repo/validators-derive/src/validator_handlers/*/mod.rs, e.g.
    domain/mod.rs:945-951. *)
Definition reach (user : list (list N)) (v : validator) (c : callee) : target :=
  match c with
  | OnTrait _ x => ToTrait x
  | OnSelf x => if existsb (eqbs x) (helpers v) then ToHelper x else if existsb (eqbs x) user then ToUser x else ToTrait x
  end.

(** [<V as ValidateSignedInteger>::parse_X(i)] and the like for a struct with inherent functions of its own: [user m] is the one called
    [parse_X], if there is one. The impl's own bodies call [Self::parse_X], which reaches the user's function first; the bodies of the
    trait do not see it. /repo/validators-derive/src/validator_handlers/signed_integer/mod.rs:236-505, unsigned_integer/mod.rs:236-487,
    /repo/validators/src/traits/validate_signed_integer.rs:9-83. *)
Fixpoint call_beside {A : Type} (sg : bool) (pw : IntModel.ptr_width) (t : IntModel.ity) (own dflt : IntModel.ity -> option IntModel.body)
    (final : Z -> outcome IntModel.int_err A) (user : IntModel.ity -> option (Z -> outcome IntModel.int_err A)) (fuel : nat)
    (m : IntModel.ity) (i : Z) : outcome IntModel.int_err A :=
  match fuel with
  | O => Panic
  | S fuel =>
      let next m' := match user m' with Some g => g (IntModel.cast sg pw m' i)
                     | None => call_beside sg pw t own dflt final user fuel m' (IntModel.cast sg pw m' i) end in
      match own m with
      | Some IntModel.Direct => final i
      | Some (IntModel.LimitThen m') =>
          if (IntModel.int_max sg pw t <? i)%Z then Err IntModel.TooLarge
          else if (sg && (i <? IntModel.int_min sg pw t)%Z)%bool then Err IntModel.TooSmall
          else next m'
      | Some (IntModel.Forward m') => next m'
      | None => match dflt m with
                | Some (IntModel.Forward m') => call_beside sg pw t own dflt final user fuel m' (IntModel.cast sg pw m' i)
                | _ => Panic
                end
      end
  end.

(** The methods [parse_X] and [validate_X]: lines as for [call_beside];
    /repo/validators-derive/src/validator_handlers/signed_integer/mod.rs:236-505. *)
Definition int_parse_beside (user : IntModel.ity -> option (Z -> outcome IntModel.int_err Z)) (sg : bool) (pw : IntModel.ptr_width)
    (t : IntModel.ity) (r : range_option Z) (m : IntModel.ity) (i : Z) : outcome IntModel.int_err Z :=
  call_beside sg pw t (IntModel.own_parse pw t) (IntModel.default_parse pw) (fun i => let? _ := IntModel.v_parse_i sg pw t r i in Ok i) user
    IntModel.call_fuel m i.
Definition int_validate_beside (user : IntModel.ity -> option (Z -> outcome IntModel.int_err unit)) (sg : bool) (pw : IntModel.ptr_width)
    (t : IntModel.ity) (r : range_option Z) (m : IntModel.ity) (i : Z) : outcome IntModel.int_err unit :=
  call_beside sg pw t (IntModel.own_validate pw t) (IntModel.default_validate pw) (fun i => let? _ := IntModel.v_parse_i sg pw t r i in Ok tt) user
    IntModel.call_fuel m i.

(** [<V as ValidateNumber>::parse_f64(f)] beside an inherent [parse_f32] of the user's, and [validate_f64] beside [validate_f32]:
    /repo/validators-derive/src/validator_handlers/number/mod.rs:263-274,284-291. *)
Definition num_parse_f64_beside (user : option (spec_float -> outcome NumberModel.num_err spec_float)) (t : NumberModel.fty)
    (r : range_option spec_float) (nan : tri) (f : spec_float) : outcome NumberModel.num_err spec_float :=
  match t, user with
  | NumberModel.F32, Some g => g (NumberModel.fcast NumberModel.F32 f)
  | _, _ => NumberModel.num_parse_f64 t r nan f
  end.
Definition num_validate_f64_beside (user : option (spec_float -> outcome NumberModel.num_err unit)) (t : NumberModel.fty)
    (r : range_option spec_float) (nan : tri) (f : spec_float) : outcome NumberModel.num_err unit :=
  match t, user with
  | NumberModel.F32, Some g => g (NumberModel.fcast NumberModel.F32 f)
  | _, _ => NumberModel.num_validate_f64 t r nan f
  end.

(** [to_uri_authority_string] beside an inherent [get_domain_non_fully_qualified] of the user's: the branches without a port call it,
    /repo/validators-derive/src/validator_handlers/domain/mod.rs:951,975; those with a port name the trait, 947,962. *)
Definition authority_beside {E} (user : option (DomainModel.domain_val -> list N)) (x : DomainModel.domain_val) : outcome E (list N) :=
  match DomainModel.dv_port x, user with
  | None, Some g => Ok (g x)
  | Some p, _ => let? d := DomainModel.get_domain_non_fully_qualified (DomainModel.dv_domain x) in Ok (d ++ [58%N] ++ dec_of_N p)
  | None, None => DomainModel.get_domain_non_fully_qualified (DomainModel.dv_domain x)
  end.

(** [Serialize] of domain, /repo/validators-derive/src/validator_handlers/domain/mod.rs:985-995. *)
Definition ser_beside {E} (user : option (DomainModel.domain_val -> list N)) (x : DomainModel.domain_val) : outcome E ser_call :=
  omap SStr (authority_beside user x).
