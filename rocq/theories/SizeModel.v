(** The bit and byte validators (one model: the generated code is the same up to names,
    and the [ignore_case] flag that is handed to the size parser). *)
From Verif Require Import Base RangeModel.
Local Open Scope N_scope.

(** Models [BitError]/[ByteError], /repo/validators/src/errors/bit.rs, byte.rs. *)
Inductive size_err := SParse | STooLarge | STooSmall.

(** Models [checked_add(1)] on u128, /repo/validators-derive/src/common/range.rs:27-29. *)
Definition u128_inc (n : N) : option N := if n + 1 <? 2 ^ 128 then Some (n + 1) else None.

(** Models the code generated for [handle_range],
    /repo/validators-derive/src/validator_handlers/bit/mod.rs:46-91 and
    /repo/validators-derive/src/validator_handlers/byte/mod.rs:48-93.  [unwrap] of a missing
    min is a panic of the macro, modelled as [Panic] (proved unreachable). *)
Definition size_v_parse_v (r : range N) (v : N) : outcome size_err unit :=
  if range_equal N N.eqb u128_inc false (r_min r) (r_max r) (r_incl r) then
    match r_min r with
    | None => Panic
    | Some min => match v ?= min with
                  | Eq => Ok tt
                  | Lt => Err STooSmall
                  | Gt => Err STooLarge
                  end
    end
  else
    let? _ := match r_min r with
              | Some min => if v <? min then Err STooSmall else Ok tt
              | None => Ok tt
              end in
    match r_max r with
    | Some max => if r_incl r
                  then if max <? v then Err STooLarge else Ok tt
                  else if max <=? v then Err STooLarge else Ok tt
    | None => Ok tt
    end.

(** The default range of a bit/byte attribute, [Range::new()],
    /repo/validators-derive/src/common/range.rs:69-73 and
    /repo/validators-derive/src/validator_handlers/bit/bit_attribute.rs:20. *)
Definition size_default {T} : range T := mk_range None None false.

Section Size.
(** byte_unit's [Bit::parse_str]/[Byte::parse_str] ([ignore_case] already applied). *)
Variable size_from_str : list N -> option N.
(** byte_unit's largest representable size; [from_u128] returns [None] above it
    ([from_u64] is total and exact). *)
Variable size_cap : N.

(** Models [v_parse_str] and the three string entry points,
    /repo/validators-derive/src/validator_handlers/bit/mod.rs:95-131. *)
Definition size_v_parse_str (r : range N) (s : list N) : outcome size_err N :=
  match size_from_str s with
  | None => Err SParse
  | Some v => let? _ := size_v_parse_v r v in Ok v
  end.
Definition size_parse_str (r : range N) (s : list N) : outcome size_err N :=
  let? v := size_v_parse_str r s in Ok v.
Definition size_parse_string (r : range N) (s : list N) : outcome size_err N :=
  let? v := size_v_parse_str r s in Ok v.
Definition size_validate_str (r : range N) (s : list N) : outcome size_err unit :=
  let? _ := size_v_parse_str r s in Ok tt.

(** Models [Bit::from_u128].
    (external crate byte_unit, called at /repo/validators-derive/src/validator_handlers/bit/mod.rs:140, 149.) *)
Definition size_from_u128 (u : N) : option N := if u <=? size_cap then Some u else None.

(** Models [parse_u128]/[validate_u128],
    /repo/validators-derive/src/validator_handlers/bit/mod.rs:138-154. *)
Definition size_parse_u128 (r : range N) (u : N) : outcome size_err N :=
  match size_from_u128 u with
  | None => Err STooLarge
  | Some v => let? _ := size_v_parse_v r v in Ok v
  end.
Definition size_validate_u128 (r : range N) (u : N) : outcome size_err unit :=
  match size_from_u128 u with
  | None => Err STooLarge
  | Some v => let? _ := size_v_parse_v r v in Ok tt
  end.

(** Models [parse_u64]/[validate_u64] (and, through the trait defaults, the narrower widths),
    /repo/validators-derive/src/validator_handlers/bit/mod.rs:156-172. *)
Definition size_parse_u64 (r : range N) (u : N) : outcome size_err N :=
  let? _ := size_v_parse_v r u in Ok u.
Definition size_validate_u64 (r : range N) (u : N) : outcome size_err unit :=
  let? _ := size_v_parse_v r u in Ok tt.
End Size.
