(** The number validator (f32 and f64), with floats as the specification floats of the
    standard library: f32 is precision 24 with emax 128, f64 precision 53 with emax 1024;
    NaN payloads are not distinguished. *)
From Verif Require Import Base RangeModel.
From Coq Require Import Floats.SpecFloat.
Local Open Scope Z_scope.

(** Models [NumberType], /repo/validators-derive/src/validator_handlers/number/mod.rs:15-21. *)
Inductive fty := F32 | F64.

(** IEEE 754 parameters of the two types (Rust reference).
    (the field types of /repo/validators-derive/src/validator_handlers/number/mod.rs.) *)
Definition fprec (t : fty) : Z := match t with F32 => 24 | F64 => 53 end.
Definition femax (t : fty) : Z := match t with F32 => 128 | F64 => 1024 end.

(** Models [f32::is_nan]/[f64::is_nan].
    (/repo/validators-derive/src/validator_handlers/number/mod.rs:196, 203.) *)
Definition is_nan (f : spec_float) : bool := match f with S754_nan => true | _ => false end.

(** Models the cast [f as T] between float types: round to nearest, ties to even.
    (/repo/validators-derive/src/validator_handlers/number/mod.rs:285, 290 and /repo/validators/src/traits/validate_number.rs:11, 16.) *)
Definition fcast (t : fty) (f : spec_float) : spec_float :=
  match f with
  | S754_finite s m e => binary_normalize (fprec t) (femax t) (cond_Zopp s (Zpos m)) e s
  | _ => f
  end.

(** Models [RangedNumber::inc] for floats (never consulted: [range_equal] returns before),
    /repo/validators-derive/src/common/range.rs:42-44. *)
Definition float_inc (f : spec_float) : option spec_float := Some f.

(** Models [NumberError], /repo/validators/src/errors/number.rs. *)
Inductive num_err := NParseFloat | NTooLarge | NTooSmall | NForbidden | NaNMust | NaNDisallow.

(** Models the code generated for [handle_range],
    /repo/validators-derive/src/validator_handlers/number/mod.rs:80-189. *)
Definition num_handle_range (r : range_tokens spec_float) (f : spec_float) : outcome num_err unit :=
  match r with
  | TInside min max inclusive equal =>
      if equal then
        match min with
        | Some min => match SFcompare f min with
                      | Some Eq | None => Ok tt
                      | Some Lt => Err NTooSmall
                      | Some Gt => Err NTooLarge
                      end
        | None => Panic
        end
      else
        let? _ := match min with
                  | Some min => if SFltb f min then Err NTooSmall else Ok tt
                  | None => Ok tt
                  end in
        match max with
        | Some max => if inclusive
                      then if SFltb max f then Err NTooLarge else Ok tt
                      else if SFleb max f then Err NTooLarge else Ok tt
        | None => Ok tt
        end
  | TOutside min max inclusive equal =>
      if equal then
        match min with
        | Some min => if SFeqb f min then Err NForbidden else Ok tt
        | None => Panic
        end
      else
        match min with
        | Some min =>
            match max with
            | Some max =>
                if inclusive
                then if (SFleb min f && SFleb f max)%bool then Err NForbidden else Ok tt
                else if (SFleb min f && SFltb f max)%bool then Err NForbidden else Ok tt
            | None => if SFleb min f then Err NForbidden else Ok tt
            end
        | None =>
            match max with
            | Some max => if inclusive
                          then if SFleb f max then Err NForbidden else Ok tt
                          else if SFltb f max then Err NForbidden else Ok tt
            | None => Ok tt
            end
        end
  | TUnlimited => Ok tt
  end.

(** Models [handle_nan], /repo/validators-derive/src/validator_handlers/number/mod.rs:191-209. *)
Definition handle_nan (nan : tri) (f : spec_float) : outcome num_err unit :=
  match nan with
  | Allow => Ok tt
  | Must => if negb (is_nan f) then Err NaNMust else Ok tt
  | Disallow => if is_nan f then Err NaNDisallow else Ok tt
  end.

(** Models [v_parse_f], /repo/validators-derive/src/validator_handlers/number/mod.rs:223-229. *)
Definition v_parse_f (r : range_option spec_float) (nan : tri) (f : spec_float) : outcome num_err unit :=
  let? _ := num_handle_range (to_tokens spec_float SFeqb float_inc true r) f in
  let? _ := handle_nan nan f in
  Ok tt.

(** Models the conflict check of the macro, [true] = refused,
    /repo/validators-derive/src/validator_handlers/number/mod.rs:51-59. *)
Definition number_conflict (r : range_option spec_float) (nan : tri) (conflict_allow : bool) : bool :=
  (is_must nan && (match r with Inside _ _ _ => true | _ => false end) && negb conflict_allow)%bool.

Section Number.
(** Core's [f32::from_str]/[f64::from_str] for the field type (not modelled: any function). *)
Variable float_from_str : list N -> option spec_float.

(** Models [v_parse_str] and the string entry points,
    /repo/validators-derive/src/validator_handlers/number/mod.rs:213-254. *)
Definition num_v_parse_str (r : range_option spec_float) (nan : tri) (s : list N) : outcome num_err spec_float :=
  match float_from_str s with
  | None => Err NParseFloat
  | Some f => let? _ := v_parse_f r nan f in Ok f
  end.
Definition num_parse_str (r : range_option spec_float) (nan : tri) (s : list N) : outcome num_err spec_float :=
  let? f := num_v_parse_str r nan s in Ok f.
Definition num_parse_string (r : range_option spec_float) (nan : tri) (s : list N) : outcome num_err spec_float :=
  let? f := num_v_parse_str r nan s in Ok f.
Definition num_validate_str (r : range_option spec_float) (nan : tri) (s : list N) : outcome num_err unit :=
  let? _ := num_v_parse_str r nan s in Ok tt.
End Number.

(** Models [parse_f64] for the two field types,
    /repo/validators-derive/src/validator_handlers/number/mod.rs:263-267 (F64) and 284-286 (F32). *)
Definition num_parse_f64 (t : fty) (r : range_option spec_float) (nan : tri) (f : spec_float)
  : outcome num_err spec_float :=
  match t with
  | F64 => let? _ := v_parse_f r nan f in Ok f
  | F32 => let f := fcast F32 f in let? _ := v_parse_f r nan f in Ok f
  end.

(** Models [parse_f32]: /repo/validators-derive/src/validator_handlers/number/mod.rs:294-298 (F32)
    and the trait default /repo/validators/src/traits/validate_number.rs:10-12 (F64). *)
Definition num_parse_f32 (t : fty) (r : range_option spec_float) (nan : tri) (f : spec_float)
  : outcome num_err spec_float :=
  match t with
  | F32 => let? _ := v_parse_f r nan f in Ok f
  | F64 => num_parse_f64 F64 r nan (fcast F64 f)
  end.

(** Models [validate_f64], /repo/validators-derive/src/validator_handlers/number/mod.rs:270-274,289-291. *)
Definition num_validate_f64 (t : fty) (r : range_option spec_float) (nan : tri) (f : spec_float)
  : outcome num_err unit :=
  match t with
  | F64 => let? _ := v_parse_f r nan f in Ok tt
  | F32 => let f := fcast F32 f in let? _ := v_parse_f r nan f in Ok tt
  end.

(** Models [validate_f32], /repo/validators-derive/src/validator_handlers/number/mod.rs:301-305 and
    /repo/validators/src/traits/validate_number.rs:15-17. *)
Definition num_validate_f32 (t : fty) (r : range_option spec_float) (nan : tri) (f : spec_float)
  : outcome num_err unit :=
  match t with
  | F32 => let? _ := v_parse_f r nan f in Ok tt
  | F64 => num_validate_f64 F64 r nan (fcast F64 f)
  end.
