(** Model of the integer [FromStr] and [Display] implementations of Rust's core
    library, which the integer, ip, domain and host validators call
    (e.g. /repo/validators-derive/src/validator_handlers/signed_integer/mod.rs:197). *)
From Verif Require Import Base.
Local Open Scope Z_scope.

(** Models [core::num::IntErrorKind] (the kinds integer parsing can give). *)
Inductive int_error := IEmpty | IInvalidDigit | IPosOverflow | INegOverflow.

(** Models [char::to_digit(10)] on one byte.
    (core, called from e.g. /repo/validators-derive/src/validator_handlers/signed_integer/mod.rs and ip/mod.rs:200.) *)
Definition digit (b : N) : option Z :=
  if ((48 <=? b) && (b <=? 57))%N%bool then Some (Z.of_N b - 48) else None.

(** Models the accumulation loop of [from_ascii_radix] for a non-negative number:
    checked multiplication, digit test, checked addition, in that order of report.
    (core, called from e.g. /repo/validators-derive/src/validator_handlers/signed_integer/mod.rs and ip/mod.rs:200.) *)
Fixpoint acc_pos (hi : Z) (ds : list N) (r : Z) : outcome int_error Z :=
  match ds with
  | [] => Ok r
  | c :: ds =>
      match digit c with
      | None => Err IInvalidDigit
      | Some d =>
          if hi <? r * 10 then Err IPosOverflow
          else if hi <? r * 10 + d then Err IPosOverflow
          else acc_pos hi ds (r * 10 + d)
      end
  end.

(** Models the accumulation loop of [from_ascii_radix] for a negative number.
    (core, called from e.g. /repo/validators-derive/src/validator_handlers/signed_integer/mod.rs and ip/mod.rs:200.) *)
Fixpoint acc_neg (lo : Z) (ds : list N) (r : Z) : outcome int_error Z :=
  match ds with
  | [] => Ok r
  | c :: ds =>
      match digit c with
      | None => Err IInvalidDigit
      | Some d =>
          if r * 10 <? lo then Err INegOverflow
          else if r * 10 - d <? lo then Err INegOverflow
          else acc_neg lo ds (r * 10 - d)
      end
  end.

(** Models [<int>::from_str] for the integer type with values [lo..=hi];
    the type is signed exactly when [lo < 0].
    (core, called from e.g. /repo/validators-derive/src/validator_handlers/signed_integer/mod.rs and ip/mod.rs:200.) *)
Definition int_from_str (lo hi : Z) (s : list N) : outcome int_error Z :=
  match s with
  | [] => Err IEmpty
  | [c] => if ((c =? 43) || (c =? 45))%N%bool then Err IInvalidDigit else acc_pos hi s 0
  | c :: rest =>
      if (c =? 43)%N then acc_pos hi rest 0
      else if ((c =? 45)%N && (lo <? 0))%bool then acc_neg lo rest 0
      else acc_pos hi s 0
  end.

(** Models the digit loop of integer [Display] ([fuel] bounds the number of digits).
    (core, called from e.g. /repo/validators-derive/src/validator_handlers/signed_integer/mod.rs and ip/mod.rs:200.) *)
Fixpoint dec_digits (fuel : nat) (n : N) (acc : list N) : list N :=
  match fuel with
  | O => acc
  | S fuel =>
      let acc := (48 + n mod 10)%N :: acc in
      if (n <? 10)%N then acc else dec_digits fuel (n / 10)%N acc
  end.

(** Models [Display] of an unsigned integer.
    (core, called from e.g. /repo/validators-derive/src/validator_handlers/signed_integer/mod.rs and ip/mod.rs:200.) *)
Definition dec_of_N (n : N) : list N := dec_digits (S (N.size_nat n)) n [].

(** Models [Display] of a signed integer.
    (core, called from e.g. /repo/validators-derive/src/validator_handlers/signed_integer/mod.rs and ip/mod.rs:200.) *)
Definition dec_of_Z (z : Z) : list N :=
  if z <? 0 then 45%N :: dec_of_N (Z.to_N (- z)) else dec_of_N (Z.to_N z).
