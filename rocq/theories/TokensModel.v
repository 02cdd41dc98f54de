(** Writing the bounds of a range into the generated program: [into_token_stream] of the bounds. *)
From Verif Require Import Base RangeModel MetaModel NumberModel.
From Coq Require Import Floats.SpecFloat.

(** Models [into_token_stream] of an [f32] or [f64] (quote's [Literal::f64_suffixed], which asserts that the value is finite),
    called in /repo/validators-derive/src/common/range_option.rs:110-111 and 120-121. *)
Definition float_literal (f : spec_float) : outcome macro_err spec_float :=
  match f with
  | S754_zero _ | S754_finite _ _ _ => Ok f
  | S754_infinity _ | S754_nan => Panic
  end.

(** Models [into_token_stream] of an integer (quote's [Literal::i64_suffixed] and the like),
    called in /repo/validators-derive/src/common/range_option.rs:110-111 and 120-121. *)
Definition int_literal {T} (x : T) : outcome macro_err T := Ok x.

(** Models [min.map(|a| a.into_token_stream())], /repo/validators-derive/src/common/range_option.rs:110-111. *)
Definition bound_literal {T} (lit : T -> outcome macro_err T) (b : option T) : outcome macro_err (option T) :=
  match b with Some x => let? y := lit x in Ok (Some y) | None => Ok None end.

(** Models [From<RangeOption<T>> for RangeTokenStream] with the panics of the literals,
    /repo/validators-derive/src/common/range_option.rs:99-128. *)
Definition write_range {T} (lit : T -> outcome macro_err T) (tokens : range_option T -> range_tokens T) (r : range_option T)
  : outcome macro_err (range_tokens T) :=
  match r with
  | Inside min max _ | Outside min max _ =>
      let? _ := bound_literal lit min in
      let? _ := bound_literal lit max in Ok (tokens r)
  | Unlimited => Ok (tokens r)
  end.

(** The number attribute up to the literals of its bounds,
    /repo/validators-derive/src/validator_handlers/number/number_attribute.rs:54-66. Simplified: in /repo the literals are written
    right after the [range] argument has been read, so an error in a later argument is not reported when a literal panics. *)
Definition number_expand (from_str : list N -> option spec_float) (f : features) (m : meta) : outcome macro_err (range_tokens spec_float) :=
  let? a := number_attribute from_str SFltb SFleb f m in
  write_range float_literal (to_tokens spec_float SFeqb float_inc true) (na_range a).

(** The attribute of signed_integer and unsigned_integer up to the literals of its bounds,
    /repo/validators-derive/src/common/attributes/range_attribute.rs:47-58. *)
Definition integer_expand {T} (from_str : list N -> option T) (ltb leb eqb : T -> T -> bool) (inc : T -> option T) (f : features) (m : meta)
  : outcome macro_err (range_tokens T) :=
  let? a := range_attribute from_str ltb leb f m in
  write_range int_literal (to_tokens T eqb inc false) (ra_range a).
