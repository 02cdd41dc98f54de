(** The json validator. The wrapped type is arbitrary; its [Serialize] and [Deserialize] are seen through the serde_json functions
    that the generated code calls. *)
From Verif Require Import Base IntModel NumberModel Serde.
From Verif Require Import DeModel.
Local Open Scope N_scope.

(** Models [JsonError], /repo/validators/src/errors/json.rs:4-9. *)
Inductive json_err := SerdeJsonError | InvalidJsonValueError.

(** [serde_json::to_value] of an integer (external crate serde_json): a JSON value holds the integers from i64::MIN to u64::MAX;
    others are an error ("number out of range").
    (external crate serde_json, called from /repo/validators-derive/src/validator_handlers/json/mod.rs.) *)
Definition to_value_int (z : Z) : option json :=
  if ((- 2 ^ 63 <=? z) && (z <? 2 ^ 64))%Z then Some (JInt z) else None.

(** [serde_json::to_value] of a double: [null] when it is not finite.
    (external crate serde_json, called from /repo/validators-derive/src/validator_handlers/json/mod.rs.) *)
Definition to_value_f64 (f : spec_float) : json :=
  match f with S754_nan | S754_infinity _ => JNull | _ => JFloat f end.

Section JsonValidator.
Variable A : Type.
(** [serde_json::from_value::<A>], [serde_json::from_str::<A>] and [serde_json::to_string(&A)], [to_string_pretty]. *)
Variable from_value : json -> option A.
Variable from_str : list N -> option A.
Variable to_string to_string_pretty : A -> option (list N).

(** The [?] on a serde_json result, /repo/validators/src/errors/json.rs:11-16. *)
Definition serde_json_result {B} (x : option B) : outcome json_err B :=
  match x with Some a => Ok a | None => Err SerdeJsonError end.

(** Models [v_parse_str], /repo/validators-derive/src/validator_handlers/json/mod.rs:36-38. *)
Definition json_v_parse_str (s : list N) : outcome json_err A := serde_json_result (from_str s).
(** Models [v_parse_i128] and [v_parse_u128], /repo/validators-derive/src/validator_handlers/json/mod.rs:40-45 and 54-59. *)
Definition json_v_parse_128 (z : Z) : outcome json_err A :=
  let? v := serde_json_result (to_value_int z) in serde_json_result (from_value v).
(** Models [v_parse_i64] and [v_parse_u64], /repo/validators-derive/src/validator_handlers/json/mod.rs:47-52 and 61-66. *)
Definition json_v_parse_64 (z : Z) : outcome json_err A :=
  let? v := serde_json_result (to_value_int z) in serde_json_result (from_value v).
(** Models [v_parse_f64], /repo/validators-derive/src/validator_handlers/json/mod.rs:68-73. *)
Definition json_v_parse_f64 (f : spec_float) : outcome json_err A := serde_json_result (from_value (to_value_f64 f)).
(** Models [v_parse_bool], /repo/validators-derive/src/validator_handlers/json/mod.rs:75-80. *)
Definition json_v_parse_bool (b : bool) : outcome json_err A := serde_json_result (from_value (JBool b)).
(** Models [v_parse_json_value], /repo/validators-derive/src/validator_handlers/json/mod.rs:82-85. *)
Definition json_v_parse_json_value (j : json) : outcome json_err A := serde_json_result (from_value j).

(** Models the entry points on them, /repo/validators-derive/src/validator_handlers/json/mod.rs:89-214. *)
Definition json_parse_string (s : list N) : outcome json_err A := let? v := json_v_parse_str s in Ok v.
Definition json_parse_str (s : list N) : outcome json_err A := let? v := json_v_parse_str s in Ok v.
Definition json_validate_str (s : list N) : outcome json_err unit := let? _ := json_v_parse_str s in Ok tt.
Definition json_parse_f64 (f : spec_float) : outcome json_err A := let? v := json_v_parse_f64 f in Ok v.
Definition json_validate_f64 (f : spec_float) : outcome json_err unit := let? _ := json_v_parse_f64 f in Ok tt.
Definition json_parse_bool (b : bool) : outcome json_err A := let? v := json_v_parse_bool b in Ok v.
Definition json_validate_bool (b : bool) : outcome json_err unit := let? _ := json_v_parse_bool b in Ok tt.
Definition json_parse_json_value (j : json) : outcome json_err A := let? v := json_v_parse_json_value j in Ok v.
Definition json_validate_json_value (j : json) : outcome json_err unit := let? _ := json_v_parse_json_value j in Ok tt.

(** The default [parse_f32]/[validate_f32], /repo/validators/src/traits/validate_number.rs:9-17. *)
Definition json_parse_f32 (f : spec_float) : outcome json_err A := json_parse_f64 (fcast F64 f).
Definition json_validate_f32 (f : spec_float) : outcome json_err unit := json_validate_f64 (fcast F64 f).

(** Models the integer entry points: the validator overrides the 64 and 128 bit ones (json/mod.rs:110-164); the others are the
    forwarding defaults, /repo/validators/src/traits/validate_signed_integer.rs:9-45 and validate_unsigned_integer.rs:9-45. *)
Definition json_int {B} (p64 p128 : Z -> outcome json_err B) (sg : bool) (pw : ptr_width) (t : ity) (z : Z)
  : outcome json_err B :=
  let p32 z := p64 (cast sg pw I64 z) in
  let p16 z := p32 (cast sg pw I32 z) in
  let p8 z := p16 (cast sg pw I16 z) in
  match t with
  | I8 => p8 z
  | I16 => p16 z
  | I32 => p32 z
  | I64 => p64 z
  | I128 => p128 z
  | Isize => match pw with
             | W64 => p64 (cast sg pw I64 z)
             | W32 => p32 (cast sg pw I32 z)
             | W16 => p16 (cast sg pw I16 z)
             end
  end.
Definition json_parse_int : bool -> ptr_width -> ity -> Z -> outcome json_err A :=
  json_int (fun z => let? v := json_v_parse_64 z in Ok v) (fun z => let? v := json_v_parse_128 z in Ok v).
Definition json_validate_int : bool -> ptr_width -> ity -> Z -> outcome json_err unit :=
  json_int (fun z => let? _ := json_v_parse_64 z in Ok tt) (fun z => let? _ := json_v_parse_128 z in Ok tt).

(** Models [ToJsonString], /repo/validators-derive/src/validator_handlers/json/mod.rs:217-227: an error of the serialiser is a panic ([unwrap]). *)
Definition to_minified_json_string (a : A) : outcome json_err (list N) :=
  match to_string a with Some s => Ok s | None => Panic end.
Definition to_beautified_json_string (a : A) : outcome json_err (list N) :=
  match to_string_pretty a with Some s => Ok s | None => Panic end.

(** Models [Serialize], /repo/validators-derive/src/validator_handlers/json/mod.rs:232-241: a string holding the JSON text. *)
Definition json_ser (a : A) : outcome json_err ser_call := let? s := to_minified_json_string a in Ok (SStr s).

(** Models [Deserialize], /repo/validators-derive/src/validator_handlers/json/mod.rs:246-256: the format's value itself ([value], what [Value::deserialize] returns on the input),
    not a string holding its text. *)
Definition json_own_de (value : outcome (de_err json_err) json) : outcome (de_err json_err) A :=
  let? j := value in omap_err DCustom (serde_json_result (from_value j)).

(** Models [Deserialize] of [validators::Result], /repo/validators/src/result/serde_traits.rs:724-732. *)
Definition json_wrap_de (value : outcome (de_err json_err) json) : outcome (de_err json_err) (res json_err A) :=
  match value with
  | Ok j => omap_err DCustom (new_ok (json_parse_json_value j))
  | Err _ => Ok (RErr InvalidJsonValueError)
  | Panic => Panic
  end.
End JsonValidator.
