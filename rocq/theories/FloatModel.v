(** Reading a float from text: core's [f32::from_str] and [f64::from_str], which
    the number validator calls
    (/repo/validators-derive/src/validator_handlers/number/mod.rs:213-221).

    Core is not part of /repo.  The scanner follows core's [dec2flt]; the conversion of the
    decimal is modelled by core's documented contract, the nearest float, ties to even,
    computed with exact integers instead of core's fast algorithms. *)
From Verif Require Import Base NumberModel.
From Coq Require Import Floats.SpecFloat.
Local Open Scope Z_scope.

(** Models [u8::is_ascii_digit], called by [f64::from_str]
    (/repo/validators-derive/src/validator_handlers/number/mod.rs:216). *)
Definition fdigit (c : N) : bool := ((48 <=? c) && (c <=? 57))%N%bool.

(** Models core's [parse_digits]: the longest run of digits, and the rest
    (/repo/validators-derive/src/validator_handlers/number/mod.rs:216). *)
Fixpoint span_digits (s : list N) : list N * list N :=
  match s with
  | [] => ([], [])
  | c :: r => if fdigit c then let '(d, q) := span_digits r in (c :: d, q) else ([], s)
  end.

(** The number written by a run of digits
    (core's [parse_partial_number], /repo/validators-derive/src/validator_handlers/number/mod.rs:216). *)
Definition digits_number (ds : list N) : Z := fold_left (fun a c => 10 * a + (Z.of_N c - 48)) ds 0.

(** Models core's [parse_scientific]: digits are dropped once the exponent has reached 2^16
    (/repo/validators-derive/src/validator_handlers/number/mod.rs:216). *)
Definition sat_number (ds : list N) : Z :=
  fold_left (fun a c => if a <? 65536 then 10 * a + (Z.of_N c - 48) else a) ds 0.

(** An optional sign: [true] for minus
    (core's [dec2flt] and [parse_scientific], /repo/validators-derive/src/validator_handlers/number/mod.rs:216). *)
Definition take_sign (s : list N) : bool * list N :=
  match s with
  | c :: r => if (c =? 45)%N then (true, r) else if (c =? 43)%N then (false, r) else (false, s)
  | [] => (false, [])
  end.

(** The optional exponent part at the end of a number
    (core's [parse_partial_number], /repo/validators-derive/src/validator_handlers/number/mod.rs:216). *)
Definition read_exponent (s : list N) : option Z :=
  match s with
  | [] => Some 0
  | c :: r =>
      if ((c =? 101) || (c =? 69))%N%bool then
        let '(neg, r1) := take_sign r in
        match span_digits r1 with
        | (d :: ds, []) => Some (if neg then - sat_number (d :: ds) else sat_number (d :: ds))
        | _ => None
        end
      else None
  end.

(** Models core's [parse_number]: the digits as one integer and the power of ten
    (/repo/validators-derive/src/validator_handlers/number/mod.rs:216). *)
Definition read_decimal (s : list N) : option (Z * Z) :=
  let '(ints, r1) := span_digits s in
  let '(fracs, r2) := match r1 with
                      | c :: r => if (c =? 46)%N then span_digits r else ([], r1)
                      | [] => ([], [])
                      end in
  match ints ++ fracs with
  | [] => None
  | ds => match read_exponent r2 with
          | Some x => Some (digits_number ds, x - Z.of_nat (List.length fracs))
          | None => None
          end
  end.

(** A positive number p/q cut at 2^-1075, with one more bit that tells whether something was
    cut.  Every float and every number halfway between two floats is a multiple of 2^-1075.
    (The conversion in /repo/validators-derive/src/validator_handlers/number/mod.rs:216.) *)
Definition to_odd (p q : Z) : Z :=
  2 * ((p * 2 ^ 1075) / q) + (if (p * 2 ^ 1075) mod q =? 0 then 0 else 1).

(** The float nearest to p/q, ties to even
    (the conversion in /repo/validators-derive/src/validator_handlers/number/mod.rs:216). *)
Definition round_ratio (t : fty) (sg : bool) (p q : Z) : spec_float :=
  match to_odd p q with
  | Zpos m => binary_round (fprec t) (femax t) sg m (-1076)
  | _ => S754_zero sg
  end.

(** The float nearest to m * 10^k
    (the conversion in /repo/validators-derive/src/validator_handlers/number/mod.rs:216). *)
Definition round_decimal (t : fty) (sg : bool) (m k : Z) : spec_float :=
  if 0 <=? k then round_ratio t sg (m * 10 ^ k) 1 else round_ratio t sg m (10 ^ (- k)).

(** Models core's [dec2flt]
    (/repo/validators-derive/src/validator_handlers/number/mod.rs:216). *)
Definition float_of_text (t : fty) (s : list N) : option spec_float :=
  let '(sg, r) := take_sign s in
  match read_decimal r with
  | Some (m, k) => Some (round_decimal t sg m k)
  | None =>
      if (eq_ignore_case r (bs "inf") || eq_ignore_case r (bs "infinity"))%bool then Some (S754_infinity sg)
      else if eq_ignore_case r (bs "nan") then Some S754_nan
      else None
  end.
