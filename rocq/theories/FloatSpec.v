(** What a user expects of a float written as text: the grammar of numbers, and the float that
    is nearest to the number written. *)
From Verif Require Import Base NumberModel NumberSpec.
From Coq Require Import Floats.SpecFloat.
Local Open Scope Z_scope.

(** A run of decimal digits, and the integer it writes. *)
Inductive digit_run : list N -> Z -> Prop :=
| run_nil : digit_run [] 0
| run_snoc : forall ds c v, digit_run ds v -> (48 <= c <= 57)%N -> digit_run (ds ++ [c]) (10 * v + Z.of_N (c - 48)).

(** An optional sign, [true] for minus. *)
Inductive sign_text : list N -> bool -> Prop :=
| sign_none : sign_text [] false
| sign_plus : sign_text (bs "+") false
| sign_minus : sign_text (bs "-") true.

(** An optional exponent part, and the exponent. *)
Inductive exponent_text : list N -> Z -> Prop :=
| exp_none : exponent_text [] 0
| exp_some : forall c g sg ds v, c = 101%N \/ c = 69%N -> sign_text g sg -> ds <> [] -> digit_run ds v ->
    exponent_text (c :: g ++ ds) (if sg then - v else v).

(** Digits with an optional point somewhere (at least one digit), then an optional exponent:
    the text writes m * 10^k. *)
Inductive decimal_text : list N -> Z -> Z -> Prop :=
| dec_int : forall ints x m e, ints <> [] -> digit_run ints m -> exponent_text x e -> decimal_text (ints ++ x) m e
| dec_point : forall ints fracs x m e, ints ++ fracs <> [] -> digit_run (ints ++ fracs) m -> exponent_text x e ->
    decimal_text (ints ++ [46%N] ++ fracs ++ x) m (e - Z.of_nat (List.length fracs)).

(** The number m * 10^k as a fraction p/q. *)
Definition is_fraction (m k p q : Z) : Prop :=
  0 < q /\ ((0 <= k /\ p = m * 10 ^ k * q) \/ (k < 0 /\ p * 10 ^ (- k) = m * q)).

(** How far the float with value [z] (in units of 2^-1074) is from p/q, in units of
    2^-1074 / q. *)
Definition distance (p q z : Z) : Z := Z.abs (p * 2 ^ 1074 - z * q).

(** p/q is at or above the point halfway between the largest float and the power of two
    that follows it: too large to be written as a float. *)
Definition overflows (t : fty) (p q : Z) : Prop :=
  (2 ^ (fprec t + 1) - 1) * 2 ^ (femax t - fprec t) * q <= 2 * p.

Definition sign_of (f : spec_float) : option bool :=
  match f with
  | S754_zero s | S754_infinity s | S754_finite s _ _ => Some s
  | S754_nan => None
  end.

(** The last bit of the significand is 0. *)
Definition even_float (f : spec_float) : Prop :=
  match f with S754_finite _ m _ => Z.even (Zpos m) = true | _ => True end.

(** [f] is the IEEE 754 rounding, nearest with ties to even, of the number ±p/q, p/q >= 0:
    infinite when that overflows, and otherwise no float is nearer, and if another float is as
    near, the last bit of [f] is 0. *)
Definition rounds_nearest (t : fty) (sg : bool) (p q : Z) (f : spec_float) : Prop :=
  is_float_of t f /\ sign_of f = Some sg /\
  (overflows t p q -> f = S754_infinity sg) /\
  (~ overflows t p q -> exists z, xval f = Some (Fin z) /\
     forall g y, is_float_of t g -> xval g = Some (Fin y) ->
       let x := if sg then - p else p in
       distance x q z <= distance x q y /\ (y <> z -> distance x q z = distance x q y -> even_float f)).

(** The text of infinity or NaN in any case of letters. *)
Definition case_text (w s : list N) : Prop := List.map lower s = w.

(** The text [s] writes the float [f] of type [t]. *)
Definition writes (t : fty) (s : list N) (f : spec_float) : Prop :=
  exists g sg r, s = g ++ r /\ sign_text g sg /\
    ((exists m k p q, decimal_text r m k /\ is_fraction m k p q /\ rounds_nearest t sg p q f) \/
     ((case_text (bs "inf") r \/ case_text (bs "infinity") r) /\ f = S754_infinity sg) \/
     (case_text (bs "nan") r /\ f = S754_nan)).

(** The number behind the [e], if there is one, is below 2^16. *)
Definition small_exponent (s : list N) : Prop := forall u c g sg ds v, s = u ++ c :: g ++ ds ->
  (c = 101 \/ c = 69)%N -> sign_text g sg -> digit_run ds v -> v < 65536.

(** The texts on which core's [from_str] keeps its promise: it drops the last digits of an exponent of 2^16 or more,
    which makes no difference unless the text is long enough to make up for such an exponent. *)
Definition readable (s : list N) : Prop := Z.of_nat (List.length s) <= 65000 \/ small_exponent s.
