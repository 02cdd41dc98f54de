(** The serde data model, as far as the generated [Serialize]/[Deserialize] impls use it, and the
    way serde_json presents values to a visitor.

    serde and serde_json are not part of /repo; this file models their documented behaviour. The
    text layer of JSON (escapes, digits) is not modelled: a JSON document is a [json] value. *)
From Coq Require Export SpecFloat.
From Verif Require Import Base IntModel NumberModel Utf8.
Local Open Scope N_scope.

(** A call of a [Visitor] method (external crate serde, [serde::de::Visitor]); [DInt sg w] is
    [visit_i8] .. [visit_i128] and [visit_u8] .. [visit_u128]. No visitor in /repo implements
    [visit_seq] or [visit_map], so these carry nothing.
    (external crate serde; the visitors are those of /repo/validators-derive/src/validator_handlers.) *)
Inductive de_call :=
| DBool (b : bool)
| DInt (sg : bool) (w : ity) (z : Z)
| DF32 (f : spec_float)
| DF64 (f : spec_float)
| DChar (c : N)
| DStr (s : list N)
| DString (s : list N)
| DBytes (l : list N)
| DByteBuf (l : list N)
| DUnit
| DSeq
| DMap.

(** Errors of [deserialize]: the visitor does not accept this kind of value ([invalid_type]), or a
    validator error wrapped by [de::Error::custom].
    (raised in the visitors, e.g. /repo/validators-derive/src/validator_handlers/boolean/mod.rs:318-396.) *)
Inductive de_err (E : Type) := DType | DCustom (e : E).
Arguments DType {E}.
Arguments DCustom {E} e.

(** The default body of a [Visitor] method, when it forwards to another (external crate serde:
    the narrow integer methods call the 64-bit one, [visit_f32] calls [visit_f64], [visit_char] and
    [visit_string] call [visit_str], [visit_byte_buf] calls [visit_bytes]).
    (it is what a visitor of /repo has where it overrides nothing.)
    (external crate serde; the visitors are those of /repo/validators-derive/src/validator_handlers.) *)
Definition default_visit (c : de_call) : option de_call :=
  match c with
  | DInt sg (I8 | I16 | I32) z => Some (DInt sg I64 z)
  | DF32 f => Some (DF64 (fcast F64 f))
  | DChar c => Some (DStr (utf8_char c))
  | DString s => Some (DStr s)
  | DByteBuf l => Some (DBytes l)
  | _ => None
  end.

(** A visitor: the methods it overrides.
    (e.g. [MyVisitor], /repo/validators-derive/src/validator_handlers/boolean/mod.rs:318-396.) *)
Definition visitor (E A : Type) := de_call -> option (outcome E A).

(** A call on a visitor: its own method, or the default.
    (e.g. of [MyVisitor], /repo/validators-derive/src/validator_handlers/boolean/mod.rs:318-396.) *)
Definition visit {E A} (v : visitor E A) (c : de_call) : outcome (de_err E) A :=
  match v c with
  | Some r => omap_err DCustom r
  | None =>
      match default_visit c with
      | Some c' => match v c' with
                   | Some r => omap_err DCustom r
                   | None => Err DType
                   end
      | None => Err DType
      end
  end.

(** A JSON document (external crate serde_json). Integers are unbounded because the text is.
    (in /repo it appears as [serde_json::Value], /repo/validators/src/traits/validate_json_value.rs.) *)
Inductive json :=
| JNull
| JBool (b : bool)
| JInt (z : Z)
| JFloat (f : spec_float)
| JStr (s : list N)
| JArr (l : list json)
| JObj (l : list (list N * json)).

(** The visitor call made by serde_json's [deserialize_any]: non-negative integers up to u64::MAX are
    presented by [visit_u64], negative ones down to i64::MIN by [visit_i64], others as floats.
    (the visitors are those of /repo/validators-derive/src/validator_handlers/.) *)
Definition json_call (j : json) : de_call :=
  match j with
  | JNull => DUnit
  | JBool b => DBool b
  | JInt z =>
      if ((0 <=? z) && (z <? 2 ^ 64))%Z then DInt false I64 z
      else if ((- 2 ^ 63 <=? z) && (z <? 0))%Z then DInt true I64 z
      else DF64 (binary_normalize 53 1024 z 0 false)
  | JFloat f => DF64 f
  | JStr s => DStr s
  | JArr _ => DSeq
  | JObj _ => DMap
  end.

(** A call of a [Serializer] method (external crate serde).
    (made by the [Serialize] impls under /repo/validators-derive/src/validator_handlers/.) *)
Inductive ser_call :=
| SBool (b : bool)
| SInt (sg : bool) (w : ity) (z : Z)
| SF32 (f : spec_float)
| SF64 (f : spec_float)
| SStr (s : list N)
| SBytes (l : list N).

(** What serde_json writes: byte strings become arrays of numbers, floats that are not finite become
    [null]. A single is widened (this is what [to_value] does; the text that [to_string] writes for it is the shortest decimal of
    a single, which is read as a double that may differ from the widened one: theorems about singles quantify over that double).
    (for the [Serialize] impls under /repo/validators-derive/src/validator_handlers/.) *)
Definition json_of (c : ser_call) : json :=
  match c with
  | SBool b => JBool b
  | SInt _ _ z => JInt z
  | SF32 f => match f with
              | S754_nan | S754_infinity _ => JNull
              | _ => JFloat (fcast F64 f)
              end
  | SF64 f => match f with
              | S754_nan | S754_infinity _ => JNull
              | _ => JFloat f
              end
  | SStr s => JStr s
  | SBytes l => JArr (List.map (fun b => JInt (Z.of_N b)) l)
  end.

(** What a self-describing binary format (CBOR, MessagePack, ...) writes and presents again: the
    value itself, byte strings as byte strings.
    (for the [Serialize] impls under /repo/validators-derive/src/validator_handlers/.) *)
Definition binary_call (c : ser_call) : de_call :=
  match c with
  | SBool b => DBool b
  | SInt sg w z => DInt sg w z
  | SF32 f => DF32 f
  | SF64 f => DF64 f
  | SStr s => DStr s
  | SBytes l => DBytes l
  end.
