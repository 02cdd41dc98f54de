(** What a user of an integer validator expects, stated without the model's code. *)
From Verif Require Import Base RangeModel IntModel.
Local Open Scope Z_scope.

(** [i] lies between the bounds that are present. *)
Definition in_bounds (min max : option Z) (inclusive : bool) (i : Z) : Prop :=
  (forall m, min = Some m -> m <= i) /\
  (forall m, max = Some m -> if inclusive then i <= m else i < m).

(** [i] belongs to the set that the range option describes. *)
Definition allowed (r : range_option Z) (i : Z) : Prop :=
  match r with
  | Inside min max incl => in_bounds min max incl i
  | Outside min max incl => ~ in_bounds min max incl i
  | Unlimited => True
  end.

(** [i] is a value of the integer type: written out type by type, independently of
    the model's [bits]. *)
Definition fits (sg : bool) (pw : ptr_width) (t : ity) (i : Z) : Prop :=
  match sg, t, pw with
  | true, I8, _ => -128 <= i <= 127
  | true, I16, _ | true, Isize, W16 => -32768 <= i <= 32767
  | true, I32, _ | true, Isize, W32 => -2147483648 <= i <= 2147483647
  | true, I64, _ | true, Isize, W64 => -9223372036854775808 <= i <= 9223372036854775807
  | true, I128, _ =>
      -170141183460469231731687303715884105728 <= i <= 170141183460469231731687303715884105727
  | false, I8, _ => 0 <= i <= 255
  | false, I16, _ | false, Isize, W16 => 0 <= i <= 65535
  | false, I32, _ | false, Isize, W32 => 0 <= i <= 4294967295
  | false, I64, _ | false, Isize, W64 => 0 <= i <= 18446744073709551615
  | false, I128, _ => 0 <= i <= 340282366920938463463374607431768211455
  end.

(** [i] is below (above) every value of the type. *)
Definition below_type (sg : bool) (pw : ptr_width) (t : ity) (i : Z) : Prop :=
  forall j, fits sg pw t j -> i < j.
Definition above_type (sg : bool) (pw : ptr_width) (t : ity) (i : Z) : Prop :=
  forall j, fits sg pw t j -> j < i.

(** An unsigned integer type whose range leaves out the numbers between two bounds, more than one
    number: the generated check does not compile. *)
Definition gap (sg : bool) (pw : ptr_width) (t : ity) (r : range_option Z) : Prop :=
  sg = false /\ exists mn mx incl, r = Outside (Some mn) (Some mx) incl /\
    ~ (if incl then mx = mn else mx = mn + 1 /\ ~ above_type sg pw t mx).

(** The attributes for which the generated code disagrees with [allowed]: an outside without
    bounds, and those that do not compile. *)
Definition degenerate (sg : bool) (pw : ptr_width) (t : ity) (r : range_option Z) : Prop :=
  (exists incl, r = Outside None None incl) \/ gap sg pw t r.
