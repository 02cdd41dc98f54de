(** What a user of a number validator expects, in terms of the numbers that floats denote. *)
From Verif Require Import Base RangeModel NumberModel.
From Coq Require Import Floats.SpecFloat.
Local Open Scope Z_scope.

(** The extended number line.  A finite float of either type is an integer multiple of
    2^-1074, so a number is written as that integer. *)
Inductive xnum := NegInf | Fin (z : Z) | PosInf.

(** The number a float denotes; NaN denotes none; both zeros denote 0. *)
Definition xval (f : spec_float) : option xnum :=
  match f with
  | S754_nan => None
  | S754_zero _ => Some (Fin 0)
  | S754_infinity s => Some (if s then NegInf else PosInf)
  | S754_finite s m e => Some (Fin ((if s then -1 else 1) * Zpos m * 2 ^ (e + 1074)))
  end.

Definition xle (a b : xnum) : Prop :=
  match a, b with
  | NegInf, _ => True
  | _, PosInf => True
  | Fin x, Fin y => x <= y
  | _, _ => False
  end.
Definition xlt (a b : xnum) : Prop :=
  match a, b with
  | NegInf, (Fin _ | PosInf) => True
  | Fin _, PosInf => True
  | Fin x, Fin y => x < y
  | _, _ => False
  end.

(** A float that the type [t] has: IEEE 754 canonical form. *)
Definition is_float_of (t : fty) (f : spec_float) : Prop := valid_binary (fprec t) (femax t) f = true.

(** The bounds of an attribute are floats of the type and are not NaN. *)
Definition good_bound (t : fty) (b : option spec_float) : Prop :=
  forall f, b = Some f -> is_float_of t f /\ xval f <> None.
Definition good_range (t : fty) (r : range_option spec_float) : Prop :=
  match r with
  | Inside a b _ | Outside a b _ => good_bound t a /\ good_bound t b
  | Unlimited => True
  end.

(** [x] lies between the bounds that are present. *)
Definition x_in_bounds (min max : option spec_float) (inclusive : bool) (x : xnum) : Prop :=
  (forall m y, min = Some m -> xval m = Some y -> xle y x) /\
  (forall m y, max = Some m -> xval m = Some y -> if inclusive then xle x y else xlt x y).

(** [x] belongs to the set the range option describes. *)
Definition x_allowed (r : range_option spec_float) (x : xnum) : Prop :=
  match r with
  | Inside a b i => x_in_bounds a b i x
  | Outside a b i => ~ x_in_bounds a b i x
  | Unlimited => True
  end.

(** The degenerate attribute, as for integers. *)
Definition x_degenerate (r : range_option spec_float) : Prop := exists i, r = Outside None None i.

(** The entry point that takes the validator's own float type. *)
Definition own_parse_f (t : fty) := match t with F32 => num_parse_f32 F32 | F64 => num_parse_f64 F64 end.
