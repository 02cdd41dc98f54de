(** serde impls of the validators whose visitors are in DeModel.v: their parse methods, as models of the handlers define them, and what
    they serialise. *)
From Verif Require Import Base RangeModel IntModel NumberModel BooleanModel SizeModel Utf8 Serde.
From Verif Require LineModel BaseModel BaseSerde CodecModel MacModel MacSerde.
From Verif Require Export DeModel.
Local Open Scope N_scope.

(** A method that the type does not have.
    (i.e. a trait of /repo/validators/src/traits that is not implemented.) *)
Definition absent {B E A} (_ : B) : outcome E A := Panic.

(** The methods of a signed_integer/unsigned_integer validator (IntModel.v).
    (/repo/validators-derive/src/validator_handlers/signed_integer/mod.rs, unsigned_integer/mod.rs.) *)
Definition int_methods (sg : bool) (pw : ptr_width) (t : ity) (r : range_option Z) : methods int_err Z := {|
  parse_str := int_parse_str sg pw t r;
  parse_string := int_parse_string sg pw t r;
  parse_u8_slice := absent; parse_vec_u8 := absent; parse_bool := absent; parse_char := absent;
  parse_int := fun sg' m z => if Bool.eqb sg sg' then int_parse sg pw t r m z else Panic;
  parse_f32 := absent; parse_f64 := absent; parse_json_value := absent; tuple_bool := absent |}.

(** Models [Serialize], /repo/validators-derive/src/validator_handlers/signed_integer/mod.rs:512-521 and unsigned_integer/mod.rs:495-504: that of the integer itself ([isize] and
    [usize] are serialised as 64-bit integers, external crate serde). *)
Definition int_ser (sg : bool) (t : ity) (v : Z) : ser_call := SInt sg (match t with Isize => I64 | _ => t end) v.

(** The [kind] of an integer validator.
    (/repo/validators-derive/src/validator_handlers/signed_integer, unsigned_integer.) *)
Definition int_kind (sg : bool) : kind := if sg then SignedInteger else UnsignedInteger.

(** The methods of a number validator (NumberModel.v); [from_str] is the standard library's float parser.
    (/repo/validators-derive/src/validator_handlers/number/mod.rs.) *)
Definition num_methods (from_str : list N -> option spec_float) (t : fty) (r : range_option spec_float) (nan : tri)
  : methods num_err spec_float := {|
  parse_str := num_parse_str from_str r nan;
  parse_string := num_parse_string from_str r nan;
  parse_u8_slice := absent; parse_vec_u8 := absent; parse_bool := absent; parse_char := absent;
  parse_int := fun _ _ _ => Panic;
  parse_f32 := num_parse_f32 t r nan;
  parse_f64 := num_parse_f64 t r nan;
  parse_json_value := absent; tuple_bool := absent |}.

(** Models [Serialize], /repo/validators-derive/src/validator_handlers/number/mod.rs:314-323: that of the float itself. *)
Definition num_ser (t : fty) (f : spec_float) : ser_call := match t with F32 => SF32 f | F64 => SF64 f end.

(** The methods of a boolean validator (BooleanModel.v).
    (/repo/validators-derive/src/validator_handlers/boolean/mod.rs:217-301.) *)
Definition bool_methods (pw : ptr_width) : methods bool_err bool := {|
  parse_str := bool_parse_str;
  parse_string := bool_parse_string;
  parse_u8_slice := absent; parse_vec_u8 := absent;
  parse_bool := bool_parse_bool;
  parse_char := bool_parse_char;
  parse_int := fun sg t z => bool_parse_int sg pw t z;
  parse_f32 := absent; parse_f64 := absent; parse_json_value := absent;
  tuple_bool := Ok |}.

(** Models [Serialize], /repo/validators-derive/src/validator_handlers/boolean/mod.rs:306-315: [serialize_bool]. *)
Definition bool_ser (b : bool) : ser_call := SBool b.

(** The methods of a byte validator (SizeModel.v).
    (/repo/validators-derive/src/validator_handlers/byte/mod.rs.) *)
Definition size_methods (from_str : list N -> option N) (cap : N) (r : range N) : methods size_err N := {|
  parse_str := size_parse_str from_str r;
  parse_string := size_parse_string from_str r;
  parse_u8_slice := absent; parse_vec_u8 := absent; parse_bool := absent; parse_char := absent;
  parse_int := fun sg t z => if sg then Panic else match t with
                                                   | I128 => size_parse_u128 cap r (Z.to_N z)
                                                   | _ => size_parse_u64 r (Z.to_N z)
                                                   end;
  parse_f32 := absent; parse_f64 := absent; parse_json_value := absent; tuple_bool := absent |}.

(** The methods of a line/text validator (LineModel.v; a string is the list of its characters there and here).
    (/repo/validators-derive/src/validator_handlers/line/mod.rs, text/mod.rs.) *)
Definition line_methods (k : LineModel.line_kind) (a : LineModel.line_attr) : methods LineModel.line_err (list N) := {|
  parse_str := LineModel.line_parse_str k a;
  parse_string := LineModel.line_parse_string k a;
  parse_u8_slice := absent; parse_vec_u8 := absent; parse_bool := absent; parse_char := absent;
  parse_int := fun _ _ _ => Panic;
  parse_f32 := absent; parse_f64 := absent; parse_json_value := absent; tuple_bool := absent |}.
Definition line_kind_of (k : LineModel.line_kind) : kind := match k with LineModel.Line => Line | LineModel.Text => Text end.

(** The error and the parse functions of a regex validator, /repo/validators/src/errors/regex.rs:8 and regex/mod.rs:31-76;
    [is_match] is the regular expression (external crate regex). *)
Inductive regex_err := RegexError.
Definition regex_v_parse_str (is_match : list N -> bool) (s : list N) : outcome regex_err unit :=
  if is_match s then Ok tt else Err RegexError.
Definition regex_parse_string (is_match : list N -> bool) (s : list N) : outcome regex_err (list N) :=
  let? _ := regex_v_parse_str is_match s in Ok s.
Definition regex_parse_str (is_match : list N -> bool) (s : list N) : outcome regex_err (list N) :=
  let? _ := regex_v_parse_str is_match s in Ok s.
Definition regex_validate_str (is_match : list N -> bool) (s : list N) : outcome regex_err unit :=
  let? _ := regex_v_parse_str is_match s in Ok tt.
Definition regex_methods (is_match : list N -> bool) : methods regex_err (list N) := {|
  parse_str := regex_parse_str is_match;
  parse_string := regex_parse_string is_match;
  parse_u8_slice := absent; parse_vec_u8 := absent; parse_bool := absent; parse_char := absent;
  parse_int := fun _ _ _ => Panic;
  parse_f32 := absent; parse_f64 := absent; parse_json_value := absent; tuple_bool := absent |}.

(** Models [Serialize] of /repo/validators-derive/src/validator_handlers/line/mod.rs:766-775, text/mod.rs:766-775 and regex/mod.rs:81-90: [serialize_str]. *)
Definition text_ser (s : list N) : ser_call := SStr s.

(** The methods of the base32/base64 validators and the decoded ones (BaseModel.v, CodecModel.v).
    (/repo/validators-derive/src/validator_handlers/base32/mod.rs and siblings.) *)
Definition base_methods (f : BaseModel.flavour) (padding : tri) : methods BaseModel.base_err (list N) := {|
  parse_str := BaseModel.base_parse_str f padding;
  parse_string := BaseModel.base_parse_string f padding;
  parse_u8_slice := BaseModel.base_parse_u8_slice f padding;
  parse_vec_u8 := BaseModel.base_parse_vec_u8 f padding;
  parse_bool := absent; parse_char := absent; parse_int := fun _ _ _ => Panic;
  parse_f32 := absent; parse_f64 := absent; parse_json_value := absent; tuple_bool := absent |}.
Definition dec_methods (f : BaseModel.flavour) (padding : tri) : methods BaseModel.base_err (list N) := {|
  parse_str := CodecModel.dec_parse_str f padding;
  parse_string := CodecModel.dec_parse_string f padding;
  parse_u8_slice := CodecModel.dec_parse_u8_slice f padding;
  parse_vec_u8 := CodecModel.dec_parse_vec_u8 f padding;
  parse_bool := absent; parse_char := absent; parse_int := fun _ _ _ => Panic;
  parse_f32 := absent; parse_f64 := absent; parse_json_value := absent; tuple_bool := absent |}.

(** The methods of a validator that only has the string methods.
    (/repo/validators/src/traits/validate_string.rs.) *)
Definition str_methods {E A} (parse : list N -> outcome E A) : methods E A := {|
  parse_str := parse;
  parse_string := parse;
  parse_u8_slice := absent; parse_vec_u8 := absent; parse_bool := absent; parse_char := absent;
  parse_int := fun _ _ _ => Panic;
  parse_f32 := absent; parse_f64 := absent; parse_json_value := absent; tuple_bool := absent |}.
