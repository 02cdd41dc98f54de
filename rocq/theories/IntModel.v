(** The signed_integer and unsigned_integer validators.

    The generated code for the two families is the same text up to the letter
    of the types, the [TooSmall] type check and the name of the number ([i] or [u]), so one
    model takes [sg : bool] (true = signed_integer, false = unsigned_integer).  The names that
    the generated check reads are modelled, because in one shape unsigned_integer reads a name
    that is not in scope. *)
From Verif Require Import Base RangeModel IntStr.
Local Open Scope Z_scope.

(** Models [cfg(target_pointer_width = ..)]
    (/repo/validators/src/traits/validate_signed_integer.rs:9-25). *)
Inductive ptr_width := W16 | W32 | W64.

(** An integer type name up to signedness: u8/i8 ... u128/i128, usize/isize.  Models
    [SignedIntegerType] (/repo/validators-derive/src/validator_handlers/signed_integer/mod.rs:15-24)
    and [UnsignedIntegerType]; also names the method families
    [parse_i8 .. parse_i128, parse_isize]
    (/repo/validators/src/traits/validate_signed_integer.rs). *)
Inductive ity := I8 | I16 | I32 | I64 | I128 | Isize.

(** Number of bits of the type (Rust reference).
    (the types of /repo/validators/src/traits/validate_signed_integer.rs and validate_unsigned_integer.rs.) *)
Definition bits (pw : ptr_width) (t : ity) : Z :=
  match t with
  | I8 => 8 | I16 => 16 | I32 => 32 | I64 => 64 | I128 => 128
  | Isize => match pw with W16 => 16 | W32 => 32 | W64 => 64 end
  end.

(** Models [<T>::MIN] and [<T>::MAX].
    (used at /repo/validators-derive/src/validator_handlers/signed_integer/mod.rs:264-451.) *)
Definition int_min (sg : bool) (pw : ptr_width) (t : ity) : Z :=
  if sg then - 2 ^ (bits pw t - 1) else 0.
Definition int_max (sg : bool) (pw : ptr_width) (t : ity) : Z :=
  if sg then 2 ^ (bits pw t - 1) - 1 else 2 ^ bits pw t - 1.

(** Models the cast [i as T] between integers of the same signedness: wraps.
    (/repo/validators/src/traits/validate_signed_integer.rs:9-83.) *)
Definition cast (sg : bool) (pw : ptr_width) (t : ity) (i : Z) : Z :=
  if sg then (i + 2 ^ (bits pw t - 1)) mod 2 ^ bits pw t - 2 ^ (bits pw t - 1)
  else i mod 2 ^ bits pw t.

(** Models [checked_add(1)] on the field type
    (/repo/validators-derive/src/common/range.rs:27-29).  Simplified: for
    isize/usize the macro runs on the host, the model uses the target's width. *)
Definition int_inc (sg : bool) (pw : ptr_width) (t : ity) (i : Z) : option Z :=
  if i + 1 <=? int_max sg pw t then Some (i + 1) else None.

(** Models [SignedIntegerError] and [UnsignedIntegerError],
    /repo/validators/src/errors/signed_integer.rs, unsigned_integer.rs. *)
Inductive int_err := ParseInt (e : int_error) | TooLarge | TooSmall | Forbidden.

(** Models the code generated for [handle_range],
    /repo/validators-derive/src/validator_handlers/signed_integer/mod.rs:81-190 and
    /repo/validators-derive/src/validator_handlers/unsigned_integer/mod.rs:81-190.
    [equal] without a [min] would generate code that does not compile; the model
    gives [Panic] there (proved unreachable). *)
Definition handle_range (r : range_tokens Z) (i : Z) : outcome int_err unit :=
  match r with
  | TInside min max inclusive equal =>
      if equal then
        match min with
        | Some min => match i ?= min with
                      | Eq => Ok tt
                      | Lt => Err TooSmall
                      | Gt => Err TooLarge
                      end
        | None => Panic
        end
      else
        let? _ := match min with
                  | Some min => if i <? min then Err TooSmall else Ok tt
                  | None => Ok tt
                  end in
        match max with
        | Some max => if inclusive
                      then if max <? i then Err TooLarge else Ok tt
                      else if max <=? i then Err TooLarge else Ok tt
        | None => Ok tt
        end
  | TOutside min max inclusive equal =>
      if equal then
        match min with
        | Some min => if i =? min then Err Forbidden else Ok tt
        | None => Panic
        end
      else
        match min with
        | Some min =>
            match max with
            | Some max =>
                if inclusive
                then if ((min <=? i) && (i <=? max))%bool then Err Forbidden else Ok tt
                else if ((min <=? i) && (i <? max))%bool then Err Forbidden else Ok tt
            | None => if min <=? i then Err Forbidden else Ok tt
            end
        | None =>
            match max with
            | Some max => if inclusive
                          then if i <=? max then Err Forbidden else Ok tt
                          else if i <? max then Err Forbidden else Ok tt
            | None => Ok tt
            end
        end
  | TUnlimited => Ok tt
  end.

(** The names that the generated code gives to the number
    (/repo/validators-derive/src/validator_handlers/signed_integer/mod.rs:81-208 and
    /repo/validators-derive/src/validator_handlers/unsigned_integer/mod.rs:81-208). *)
Inductive var := Var_i | Var_u.

(** The name of the parameter of [v_parse_i],
    /repo/validators-derive/src/validator_handlers/signed_integer/mod.rs:204, and of [v_parse_u],
    /repo/validators-derive/src/validator_handlers/unsigned_integer/mod.rs:204. *)
Definition int_param (sg : bool) : var := if sg then Var_i else Var_u.

(** The names that the code generated for [handle_range] reads:
    /repo/validators-derive/src/validator_handlers/signed_integer/mod.rs:91, 102, 111, 117, 135,
    145, 151, 159, 169, 175 (all [i]) and
    /repo/validators-derive/src/validator_handlers/unsigned_integer/mod.rs:91, 102, 111, 117, 135
    (all [u]), 145, 151 (both [i]), 159, 169, 175 (all [u]). *)
Definition names_read (sg : bool) (r : range_tokens Z) : list var :=
  let own := if sg then Var_i else Var_u in
  match r with
  | TInside min max _ equal =>
      if equal then [own]
      else match min with Some _ => [own] | None => [] end
           ++ match max with Some _ => [own] | None => [] end
  | TOutside min max _ equal =>
      if equal then [own]
      else match min, max with
           | Some _, Some _ => [Var_i]
           | Some _, None => [own]
           | None, Some _ => [own]
           | None, None => []
           end
  | TUnlimited => []
  end.

(** Equality of names (identifiers of
    /repo/validators-derive/src/validator_handlers/signed_integer/mod.rs and
    unsigned_integer/mod.rs). *)
Definition var_eqb (x y : var) : bool :=
  match x, y with Var_i, Var_i => true | Var_u, Var_u => true | _, _ => false end.

(** Whether rustc finds every name of the check in scope: the parameter is the only local variable
    of [v_parse_i]/[v_parse_u] (/repo/validators-derive/src/validator_handlers/signed_integer/mod.rs:204-208,
    unsigned_integer/mod.rs:204-208).  Simplified: a constant or static called [i] or [u] in the user's
    module would be found as well. *)
Definition int_builds (sg : bool) (pw : ptr_width) (t : ity) (r : range_option Z) : bool :=
  forallb (fun x => var_eqb x (int_param sg))
    (names_read sg (to_tokens Z Z.eqb (int_inc sg pw t) false r)).

(** Models [v_parse_i]/[v_parse_u] of the validator with range option [r],
    /repo/validators-derive/src/validator_handlers/signed_integer/mod.rs:204-208 and
    /repo/validators-derive/src/validator_handlers/unsigned_integer/mod.rs:204-208.
    [Panic] stands for a function that rustc refuses. *)
Definition v_parse_i (sg : bool) (pw : ptr_width) (t : ity) (r : range_option Z) (i : Z)
  : outcome int_err unit :=
  if int_builds sg pw t r then handle_range (to_tokens Z Z.eqb (int_inc sg pw t) false r) i else Panic.

(** Models [v_parse_str],
    /repo/validators-derive/src/validator_handlers/signed_integer/mod.rs:194-202 and
    /repo/validators-derive/src/validator_handlers/unsigned_integer/mod.rs:194-202. *)
Definition v_parse_str (sg : bool) (pw : ptr_width) (t : ity) (r : range_option Z) (s : list N)
  : outcome int_err Z :=
  let? i := omap_err ParseInt (int_from_str (int_min sg pw t) (int_max sg pw t) s) in
  let? _ := v_parse_i sg pw t r i in
  Ok i.

(** Models [ValidateString::parse_string], [parse_str] and [validate_str],
    /repo/validators-derive/src/validator_handlers/signed_integer/mod.rs:213-232 and
    /repo/validators-derive/src/validator_handlers/unsigned_integer/mod.rs:213-232. *)
Definition int_parse_string (sg : bool) (pw : ptr_width) (t : ity) (r : range_option Z) (s : list N)
  : outcome int_err Z := let? v := v_parse_str sg pw t r s in Ok v.
Definition int_parse_str (sg : bool) (pw : ptr_width) (t : ity) (r : range_option Z) (s : list N)
  : outcome int_err Z := let? v := v_parse_str sg pw t r s in Ok v.
Definition int_validate_str (sg : bool) (pw : ptr_width) (t : ity) (r : range_option Z) (s : list N)
  : outcome int_err unit := let? _ := v_parse_str sg pw t r s in Ok tt.

(** What the body of one trait method does: check the value directly; check the field
    type's limits and call method [m] with a cast; call method [m] with a cast.
    (/repo/validators/src/traits/validate_signed_integer.rs:9-83.) *)
Inductive body := Direct | LimitThen (m : ity) | Forward (m : ity).

(** Models the default methods [parse_*] of the trait,
    /repo/validators/src/traits/validate_signed_integer.rs:9-45 and
    /repo/validators/src/traits/validate_unsigned_integer.rs:9-45.
    [parse_i128] has no default ([None]). *)
Definition default_parse (pw : ptr_width) (m : ity) : option body :=
  match m with
  | I8 => Some (Forward I16)
  | I16 => Some (Forward I32)
  | I32 => Some (Forward I64)
  | I64 => Some (Forward I128)
  | I128 => None
  | Isize => Some (Forward (match pw with W16 => I16 | W32 => I32 | W64 => I64 end))
  end.

(** Models the default methods [validate_*] of the trait,
    /repo/validators/src/traits/validate_signed_integer.rs:47-83 and
    /repo/validators/src/traits/validate_unsigned_integer.rs:47-83. *)
Definition default_validate (pw : ptr_width) (m : ity) : option body :=
  match m with
  | I8 => Some (Forward I16)
  | I16 => Some (Forward I32)
  | I32 => Some (Forward I64)
  | I64 => Some (Forward I128)
  | I128 => None
  | Isize => Some (Forward (match pw with W16 => I16 | W32 => I32 | W64 => I64 end))
  end.

(** Models the [parse_*] methods of the generated impl for field type [t]:
    /repo/validators-derive/src/validator_handlers/signed_integer/mod.rs
    I128 238-253, I64 259-297, I32 302-340, I16 345-383, I8 388-426, Isize 431-505;
    /repo/validators-derive/src/validator_handlers/unsigned_integer/mod.rs
    U128 238-254, U64 258-294, U32 297-333, U16 336-372, U8 375-411, Usize 415-487. *)
Definition own_parse (pw : ptr_width) (t m : ity) : option body :=
  match t, m with
  | I128, I128 => Some Direct
  | I64, I128 => Some (LimitThen I64)
  | I64, I64 => Some Direct
  | I32, I128 => Some (LimitThen I32)
  | I32, I32 => Some Direct
  | I16, I128 => Some (LimitThen I16)
  | I16, I16 => Some Direct
  | I8, I128 => Some (LimitThen I8)
  | I8, I8 => Some Direct
  | Isize, I128 => Some (LimitThen Isize)
  | Isize, Isize => Some Direct
  | Isize, I16 => match pw with W16 => Some (Forward Isize) | _ => None end
  | Isize, I32 => match pw with W32 => Some (Forward Isize) | _ => None end
  | Isize, I64 => match pw with W64 => Some (Forward Isize) | _ => None end
  | _, _ => None
  end.

(** Models the [validate_*] methods of the generated impl (same line ranges).
    (/repo/validators-derive/src/validator_handlers/signed_integer/mod.rs, unsigned_integer/mod.rs.) *)
Definition own_validate (pw : ptr_width) (t m : ity) : option body :=
  match t, m with
  | I128, I128 => Some Direct
  | I64, I128 => Some (LimitThen I64)
  | I64, I64 => Some Direct
  | I32, I128 => Some (LimitThen I32)
  | I32, I32 => Some Direct
  | I16, I128 => Some (LimitThen I16)
  | I16, I16 => Some Direct
  | I8, I128 => Some (LimitThen I8)
  | I8, I8 => Some Direct
  | Isize, I128 => Some (LimitThen Isize)
  | Isize, Isize => Some Direct
  | Isize, I16 => match pw with W16 => Some (Forward Isize) | _ => None end
  | Isize, I32 => match pw with W32 => Some (Forward Isize) | _ => None end
  | Isize, I64 => match pw with W64 => Some (Forward Isize) | _ => None end
  | _, _ => None
  end.

(** Models Rust's method resolution: the impl's own method, otherwise the trait default.
    (for the traits of /repo/validators/src/traits.) *)
Definition resolve (own : option body) (dflt : option body) : option body :=
  match own with Some b => Some b | None => dflt end.

(** Models a call of method [m] with argument [i]; [final] is what a [Direct] body does with
    the checked value.  [fuel] bounds the depth of the calls: running out models unbounded
    recursion and is a [Panic].
    (/repo/validators/src/traits/validate_signed_integer.rs:9-83.) *)
Fixpoint call {A : Type} (sg : bool) (pw : ptr_width) (t : ity)
    (table : ity -> option body) (final : Z -> outcome int_err A)
    (fuel : nat) (m : ity) (i : Z) : outcome int_err A :=
  match fuel with
  | O => Panic
  | S fuel =>
      match table m with
      | None => Panic
      | Some Direct => final i
      | Some (LimitThen m') =>
          if int_max sg pw t <? i then Err TooLarge
          else if (sg && (i <? int_min sg pw t))%bool then Err TooSmall
          else call sg pw t table final fuel m' (cast sg pw m' i)
      | Some (Forward m') => call sg pw t table final fuel m' (cast sg pw m' i)
      end
  end.

(** Depth bound used to run the model: there are six methods.
    (/repo/validators/src/traits/validate_signed_integer.rs has six methods of each sort.) *)
Definition call_fuel : nat := 8.

(** Models [<V as ValidateSignedInteger>::parse_X(i)] / [ValidateUnsignedInteger]
    for the method named by [m] (files and lines as [own_parse]).
    (/repo/validators/src/traits/validate_signed_integer.rs.) *)
Definition int_parse (sg : bool) (pw : ptr_width) (t : ity) (r : range_option Z) (m : ity) (i : Z)
  : outcome int_err Z :=
  call sg pw t (fun m => resolve (own_parse pw t m) (default_parse pw m))
    (fun i => let? _ := v_parse_i sg pw t r i in Ok i) call_fuel m i.

(** Models [<V as ValidateSignedInteger>::validate_X(i)] / [ValidateUnsignedInteger]
    (files and lines as [own_validate]).
    (/repo/validators/src/traits/validate_signed_integer.rs.) *)
Definition int_validate (sg : bool) (pw : ptr_width) (t : ity) (r : range_option Z) (m : ity) (i : Z)
  : outcome int_err unit :=
  call sg pw t (fun m => resolve (own_validate pw t m) (default_validate pw m))
    (fun i => let? _ := v_parse_i sg pw t r i in Ok tt) call_fuel m i.
