(** The [Deserialize] impls of all validators, and those of [validators::Result], as functions of the parse methods of the
    validated type. *)
From Verif Require Import Base IntModel NumberModel Utf8 Serde.
Local Open Scope N_scope.

(** The validators, /repo/validators-derive/src/validator_handlers (one directory each). *)
Inductive kind :=
| Base32 | Base32Decoded | Base64 | Base64Decoded | Base64Url | Base64UrlDecoded | Bit | Boolean | Byte | Domain | Email
| Host | HttpUrl | HttpFtpUrl | Ip | Ipv4 | Ipv6 | Json | Length | Line | MacAddress | Number | Phone | Regex | Semver
| SemverReq | SignedInteger | Text | UnsignedInteger | Url | Uuid.

(** The parse methods of the traits in /repo/validators/src/traits/validate_*.rs (a type implements some of them; the tables
    below only call those). *)
Record methods (E A : Type) := {
  parse_str : list N -> outcome E A;
  parse_string : list N -> outcome E A;
  parse_u8_slice : list N -> outcome E A;
  parse_vec_u8 : list N -> outcome E A;
  parse_bool : bool -> outcome E A;
  parse_char : N -> outcome E A;
  parse_int : bool -> ity -> Z -> outcome E A;
  parse_f32 : spec_float -> outcome E A;
  parse_f64 : spec_float -> outcome E A;
  parse_json_value : json -> outcome E A;
  tuple_bool : bool -> outcome E A (* not a method: [Ok(Name(b))], the constructor of a boolean validator *)
}.
Arguments parse_str {E A}.
Arguments parse_string {E A}.
Arguments parse_u8_slice {E A}.
Arguments parse_vec_u8 {E A}.
Arguments parse_bool {E A}.
Arguments parse_char {E A}.
Arguments parse_int {E A}.
Arguments parse_f32 {E A}.
Arguments parse_f64 {E A}.
Arguments parse_json_value {E A}.
Arguments tuple_bool {E A}.

(** The [Deserializer] method that an impl calls (external crate serde).
    (called at the end of each [deserialize], e.g. /repo/validators-derive/src/validator_handlers/boolean/mod.rs:318-396.) *)
Inductive hint := HAny | HStr | HString | HU128.

(** What a format does with one input: whether it is human readable, and the visitor method it calls for each hint ([None]: it
    reports an error of its own).
    (the [D: Deserializer] argument, e.g. /repo/validators-derive/src/validator_handlers/boolean/mod.rs:318-396.) *)
Record input := { human : bool; present : hint -> option de_call }.

(** A call of the deserialiser with a hint and a visitor.
    (e.g. /repo/validators-derive/src/validator_handlers/boolean/mod.rs:318-396.) *)
Definition de {E A} (h : hint) (v : visitor E A) (i : input) : outcome (de_err E) A :=
  match present i h with Some c => visit v c | None => Err DType end.

(** A JSON document read by serde_json: [deserialize_str] and [deserialize_string] accept only JSON strings; [deserialize_u128]
    only integers in range.
    (external; the [D] of /repo/validators/src/result/serde_traits.rs.) *)
Definition json_input (j : json) : input := {|
  human := true;
  present := fun h =>
    match h with
    | HAny => Some (json_call j)
    | HStr | HString => match j with JStr s => Some (DStr s) | _ => None end
    | HU128 => match j with
               | JInt z => if ((0 <=? z) && (z <? 2 ^ 128))%Z then Some (DInt false I128 z) else None
               | _ => None
               end
    end |}.

(** A self-describing binary format: it presents what was written, whatever the hint.
    (external; the [D] of /repo/validators/src/result/serde_traits.rs.) *)
Definition binary_input (c : de_call) : input := {| human := false; present := fun _ => Some c |}.

(** A binary format that stores no types (bincode, postcard): it reads what the hint asks for, so it has nothing to offer for [deserialize_any];
    a text is presented as borrowed or as [owned]; if the hint is not what was written, it reads the bytes as something else, or reports an
    error ([other]).
    (external; the [D] of /repo/validators/src/result/serde_traits.rs.) *)
Definition schema_input (owned : bool) (other : hint -> option de_call) (c : ser_call) : input := {|
  human := false;
  present := fun h =>
    match h, c with
    | HAny, _ => None
    | (HStr | HString), SStr s => Some (if owned then DString s else DStr s)
    | HU128, SInt false I128 z => Some (DInt false I128 z)
    | h, _ => other h
    end |}.

(** The [MyVisitor] types generated by the macro:
    /repo/validators-derive/src/validator_handlers/base32/mod.rs:232-270 (and the five files like it), boolean/mod.rs:331-396, byte/mod.rs:206-228, domain/mod.rs:1077-1101,
    email/mod.rs:1740-1757, host/mod.rs:812-829, http_ftp_url/mod.rs:186-203, http_url/mod.rs:185-202, ip/mod.rs:513-530,
    ipv4/mod.rs:401-418, ipv6/mod.rs:433-450, line/mod.rs:812-836, mac_address/mod.rs:392-409, number/mod.rs:400-438,
    phone/mod.rs:186-203, regex/mod.rs:103-127, signed_integer/mod.rs:588-646, text/mod.rs:812-836,
    unsigned_integer/mod.rs:571-629, uuid/mod.rs:412-429. The kinds without one ([Bit], [Json], [Length], [Semver], [SemverReq],
    [Url]) have no method here. *)
Definition own_visitor {E A} (k : kind) (m : methods E A) : visitor E A := fun c =>
  match k with
  | Base32 | Base32Decoded | Base64 | Base64Decoded | Base64Url | Base64UrlDecoded =>
      match c with
      | DStr s => Some (parse_str m s)
      | DString s => Some (parse_string m s)
      | DBytes l => Some (parse_u8_slice m l)
      | DByteBuf l => Some (parse_vec_u8 m l)
      | _ => None
      end
  | Boolean =>
      match c with
      | DStr s => Some (parse_str m s)
      | DString s => Some (parse_string m s)
      | DBool b => Some (tuple_bool m b) (* boolean/mod.rs:352-356 *)
      | DChar x => Some (parse_char m x)
      | DInt sg I64 z => Some (parse_int m sg I64 z)
      | DInt sg I128 z => Some (parse_int m sg I128 z)
      | _ => None
      end
  | Byte =>
      match c with
      | DStr s => Some (parse_str m s)
      | DInt false I128 z => Some (parse_int m false I128 z)
      | _ => None
      end
  | Domain | Line | Regex | Text =>
      match c with
      | DStr s => Some (parse_str m s)
      | DString s => Some (parse_string m s)
      | _ => None
      end
  | Email | Host | HttpFtpUrl | HttpUrl | Ip | Ipv4 | Ipv6 | MacAddress | Phone | Uuid =>
      match c with
      | DStr s => Some (parse_str m s)
      | _ => None
      end
  | Number =>
      match c with
      | DStr s => Some (parse_str m s)
      | DString s => Some (parse_string m s)
      | DF64 f => Some (parse_f64 m f)
      | DF32 f => Some (parse_f32 m f)
      | _ => None
      end
  | SignedInteger =>
      match c with
      | DStr s => Some (parse_str m s)
      | DString s => Some (parse_string m s)
      | DInt true ((I8 | I16 | I32 | I64 | I128) as w) z => Some (parse_int m true w z)
      | _ => None
      end
  | UnsignedInteger =>
      match c with
      | DStr s => Some (parse_str m s)
      | DString s => Some (parse_string m s)
      | DInt false ((I8 | I16 | I32 | I64 | I128) as w) z => Some (parse_int m false w z)
      | _ => None
      end
  | Bit | Json | Length | Semver | SemverReq | Url => None
  end.

(** The hint used with it (same files, the last line of each range).
    (under /repo/validators-derive/src/validator_handlers/.) *)
Definition own_hint (k : kind) (is_human : bool) : hint :=
  match k with
  | Base32 | Base32Decoded | Base64 | Base64Decoded | Base64Url | Base64UrlDecoded
  | Boolean | Domain | Number | SignedInteger | UnsignedInteger => HAny
  | Line | Regex | Text => HString
  | Byte => if is_human then HStr else HU128
  | _ => HStr
  end.

(** Models [Deserialize::deserialize] of the validators that have a visitor.
    (files as for [own_visitor], under /repo/validators-derive/src/validator_handlers/.) *)
Definition own_de {E A} (k : kind) (m : methods E A) (i : input) : outcome (de_err E) A :=
  de (own_hint k (human i)) (own_visitor k m) i.

(** Models [validators::Result], /repo/validators/src/result/mod.rs:14. *)
Inductive res (E A : Type) := ROk (a : A) | RErr (e : E).
Arguments ROk {E A} a.
Arguments RErr {E A} e.

(** Models [Ok(Result::new(T::parse_x(v)))], /repo/validators/src/result/mod.rs:17-21 and serde_traits.rs. *)
Definition new_ok {E A} (r : outcome E A) : outcome E (res E A) :=
  match r with Ok a => Ok (ROk a) | Err e => Ok (RErr e) | Panic => Panic end.

(** The [MyVisitor] types of /repo/validators/src/result/serde_traits.rs (one per error type, hence per kind; the ranges end
    with the call of the deserialiser): base32 17-66, base32_decoded 70-121, base64 125-174, base64_decoded 178-229, base64_url
    233-282, base64_url_decoded 286-340, boolean 364-452, domain 476-509, email 513-537, host 541-565, http_url 569-595,
    http_ftp_url 599-625, ip 629-653, ipv4 657-681, ipv6 685-709, line 747-778, mac_address 782-808, number 812-861, phone
    865-889, regex 893-924, semver and semver_req 928-954, signed_integer 958-1033, text 1037-1068, unsigned_integer 1072-1148,
    url 1152-1176, uuid 1180-1204. *)
Definition wrap_visitor {E A} (k : kind) (m : methods E A) : visitor E (res E A) := fun c =>
  match k with
  | Base32 | Base32Decoded | Base64 | Base64Decoded | Base64Url | Base64UrlDecoded =>
      match c with
      | DStr s => Some (new_ok (parse_str m s))
      | DString s => Some (new_ok (parse_string m s))
      | DBytes l => Some (new_ok (parse_u8_slice m l))
      | DByteBuf l => Some (new_ok (parse_vec_u8 m l))
      | _ => None
      end
  | Boolean =>
      match c with
      | DBool b => Some (new_ok (parse_bool m b))
      | DInt true I64 z => Some (new_ok (parse_int m true I64 z))
      | DInt true I128 z => Some (new_ok (parse_int m true I128 z))
      | DInt false I64 z => Some (new_ok (parse_int m false I64 z))
      | DInt false I128 z => Some (new_ok (parse_int m false I128 z))
      | DChar x => Some (new_ok (parse_char m x))
      | DStr s => Some (new_ok (parse_str m s))
      | DString s => Some (new_ok (parse_string m s))
      | _ => None
      end
  | Domain | Line | Regex | Text =>
      match c with
      | DStr s => Some (new_ok (parse_str m s))
      | DString s => Some (new_ok (parse_string m s))
      | _ => None
      end
  | Email | Host | HttpUrl | HttpFtpUrl | Ip | Ipv4 | Ipv6 | MacAddress | Phone | Semver | SemverReq | Url | Uuid =>
      match c with
      | DStr s => Some (new_ok (parse_str m s))
      | _ => None
      end
  | Number =>
      match c with
      | DStr s => Some (new_ok (parse_str m s))
      | DString s => Some (new_ok (parse_string m s))
      | DF32 f => Some (new_ok (parse_f32 m f))
      | DF64 f => Some (new_ok (parse_f64 m f))
      | _ => None
      end
  | SignedInteger =>
      match c with
      | DStr s => Some (new_ok (parse_str m s))
      | DString s => Some (new_ok (parse_string m s))
      | DInt true I8 z => Some (new_ok (parse_int m true I8 z))
      | DInt true I16 z => Some (new_ok (parse_int m true I16 z))
      | DInt true I32 z => Some (new_ok (parse_int m true I32 z))
      | DInt true I64 z => Some (new_ok (parse_int m true I64 z))
      | DInt true I128 z => Some (new_ok (parse_int m true I128 z))
      | _ => None
      end
  | UnsignedInteger =>
      match c with
      | DStr s => Some (new_ok (parse_str m s))
      | DString s => Some (new_ok (parse_string m s))
      | DInt false I8 z => Some (new_ok (parse_int m false I8 z))
      | DInt false I16 z => Some (new_ok (parse_int m false I16 z))
      | DInt false I32 z => Some (new_ok (parse_int m false I32 z))
      | DInt false I64 z => Some (new_ok (parse_int m false I64 z))
      | DInt false I128 z => Some (new_ok (parse_int m false I128 z))
      | _ => None
      end
  | Bit | Byte | Json | Length => None
  end.

(** The hint used with it (same lines).
    (/repo/validators/src/result/serde_traits.rs.) *)
Definition wrap_hint (k : kind) : hint :=
  match k with
  | Base32 | Base32Decoded | Base64 | Base64Decoded | Base64Url | Base64UrlDecoded
  | Boolean | Domain | Number | SignedInteger | UnsignedInteger => HAny
  | Line | Regex | Text => HString
  | _ => HStr
  end.

(** [String]'s own visitor (external crate serde): strings. (It also takes bytes that are UTF-8; no human-readable format presents
    bytes for [deserialize_string], so that is left out.)
    (used by /repo/validators/src/result/serde_traits.rs:344-362.) *)
Definition string_visitor {E} : visitor E (list N) := fun c =>
  match c with
  | DStr s | DString s => Some (Ok s)
  | _ => None
  end.

(** [u128]'s own visitor (external crate serde): unsigned integers of any width, and signed ones that are not negative.
    (used by /repo/validators/src/result/serde_traits.rs:344-362.) *)
Definition u128_visitor {E} : visitor E Z := fun c =>
  match c with
  | DInt _ _ z => if (0 <=? z)%Z then Some (Ok z) else None
  | _ => None
  end.

(** Models [Deserialize::deserialize] of [validators::Result]; the kinds without a visitor are [Bit] (/repo/validators/src/result/serde_traits.rs:344-362)
    and [Byte] (456-474); [Length] is modelled below and [Json] in JsonModel.v. *)
Definition wrap_de {E A} (k : kind) (m : methods E A) (i : input) : outcome (de_err E) (res E A) :=
  match k with
  | Bit | Byte =>
      if human i then
        let? s := de HString string_visitor i in omap_err DCustom (new_ok (parse_string m s))
      else
        let? z := de HU128 u128_visitor i in omap_err DCustom (new_ok (parse_int m false I128 z))
  | _ => de (wrap_hint k) (wrap_visitor k m) i
  end.

(** Models [Deserialize] of a length validator (/repo/validators-derive/src/validator_handlers/length/mod.rs:176-189) and of its [Result] (serde_traits.rs:735-745); [value] is
    what the collection's own [deserialize] returns, [parse_collection] is [ValidateLength::parse_collection]. *)
Definition length_own_de {E C A} (parse_collection : C -> outcome E A) (value : outcome (de_err E) C) : outcome (de_err E) A :=
  let? v := value in omap_err DCustom (parse_collection v).
Definition length_wrap_de {E C A} (parse_collection : C -> outcome E A) (value : outcome (de_err E) C)
  : outcome (de_err E) (res E A) :=
  let? v := value in omap_err DCustom (new_ok (parse_collection v)).

(** Models [Deserialize] of a bit validator (/repo/validators-derive/src/validator_handlers/bit/mod.rs:191-206): the library's own [Deserialize] of [byte_unit::Bit] ([value]),
    then [v_parse_v] ([check]). *)
Definition bit_own_de {E A} (check : A -> outcome E unit) (value : outcome (de_err E) A) : outcome (de_err E) A :=
  let? v := value in let? _ := omap_err DCustom (check v) in Ok v.

(** The [Deserialize] impls of url, semver and semver_req (/repo/validators-derive/src/validator_handlers/url/mod.rs:80-91; semver and semver_req: same lines): the body is one call,
    [Deserialize::deserialize(deserializer)], in tail position of a function returning [Result<Self, _>]; the impl that is called
    is therefore the one for [Self]. *)
Inductive de_impl := ImplSelf | ImplInner.
Definition tail_call (k : kind) : de_impl :=
  match k with
  | Url | Semver | SemverReq => ImplSelf
  | _ => ImplInner
  end.

(** One step of a run that has called an impl: the wrapped library type's impl returns [lib]; the validator's own makes its call.
    (/repo/validators-derive/src/validator_handlers/url/mod.rs:80-91.) *)
Inductive de_state A := Calling (i : de_impl) | Returned (r : A).
Arguments Calling {A} i.
Arguments Returned {A} r.
Definition de_step {A} (body : de_impl) (lib : A) (st : de_state A) : de_state A :=
  match st with
  | Calling ImplSelf => Calling body
  | Calling ImplInner => Returned lib
  | Returned r => Returned r
  end.
(** The state after [n] steps of a call of the validator's own impl.
    (/repo/validators-derive/src/validator_handlers/url/mod.rs:80-91.) *)
Fixpoint de_run {A} (body : de_impl) (lib : A) (n : nat) : de_state A :=
  match n with O => Calling ImplSelf | S n => de_step body lib (de_run body lib n) end.

(** The conversions into [validators::Result], /repo/validators/src/result/built_in_traits.rs:50-205: their arguments. *)
Inductive from_arg :=
| FString (s : list N) | FStr (s : list N) | FBool (b : bool) | FVec (l : list N) | FSlice (l : list N) | FChar (c : N)
| FJson (j : json) | FF32 (f : spec_float) | FF64 (f : spec_float) | FInt (sg : bool) (w : ity) (z : Z).

(** Models [Self::new(T::parse_x(value))].
    (/repo/validators/src/result/built_in_traits.rs:50-205.) *)
Definition new_res {E A} (r : outcome E A) : outcome E (res E A) :=
  match r with Ok a => Ok (ROk a) | Err e => Ok (RErr e) | Panic => Panic end.

(** Models the [From] impls: String 59-64, &str 66-71, bool 73-78, Vec<u8> 80-85, &[u8] 87-92, char 94-99, Value 102-107, f32
    109-114, f64 116-121, i8 .. isize 123-163, u8 .. usize 165-205.
    (/repo/validators/src/result/built_in_traits.rs.) *)
Definition wrap_from {E A} (m : methods E A) (x : from_arg) : outcome E (res E A) :=
  match x with
  | FString s => new_res (parse_string m s)
  | FStr s => new_res (parse_str m s)
  | FBool b => new_res (parse_bool m b)
  | FVec l => new_res (parse_vec_u8 m l)
  | FSlice l => new_res (parse_u8_slice m l)
  | FChar c => new_res (parse_char m c)
  | FJson j => new_res (parse_json_value m j)
  | FF32 f => new_res (parse_f32 m f)
  | FF64 f => new_res (parse_f64 m f)
  | FInt true I8 z => new_res (parse_int m true I8 z)
  | FInt true I16 z => new_res (parse_int m true I16 z)
  | FInt true I32 z => new_res (parse_int m true I32 z)
  | FInt true I64 z => new_res (parse_int m true I64 z)
  | FInt true I128 z => new_res (parse_int m true I128 z)
  | FInt true Isize z => new_res (parse_int m true Isize z)
  | FInt false I8 z => new_res (parse_int m false I8 z)
  | FInt false I16 z => new_res (parse_int m false I16 z)
  | FInt false I32 z => new_res (parse_int m false I32 z)
  | FInt false I64 z => new_res (parse_int m false I64 z)
  | FInt false I128 z => new_res (parse_int m false I128 z)
  | FInt false Isize z => new_res (parse_int m false Isize z)
  end.

(** Models [FromStr], /repo/validators/src/result/built_in_traits.rs:50-57. *)
Definition wrap_from_str {E A} (m : methods E A) (s : list N) : outcome E (res E A) := new_res (parse_str m s).

(** Models rocket's [FromParam] and [FromFormField] of a validator (/repo/validators-derive/src/common/rocket.rs:5-31), and
    [FromFormField] of its [Result] (/repo/validators/src/result/rocket_traits.rs:10-19). A form error wraps the error. *)
Definition from_param {E A} (m : methods E A) (s : list N) : outcome E A := parse_str m s.
Definition from_form {E A} (m : methods E A) (s : list N) : outcome (de_err E) A := omap_err DCustom (parse_str m s).
Definition wrap_from_form {E A} (m : methods E A) (s : list N) : outcome (de_err E) (res E A) :=
  omap_err DCustom (new_res (from_param m s)).

(** Models [into_std_result] (/repo/validators/src/result/mod.rs:23-27), likewise [as_std_result] (29-33), the [From] impl into
    [core::result::Result] (built_in_traits.rs:25-30) and [Deref] (32-39). *)
Definition into_std_result {E A} (r : res E A) : outcome E A := match r with ROk a => Ok a | RErr e => Err e end.
