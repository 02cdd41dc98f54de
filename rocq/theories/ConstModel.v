(** The numeric constants that the handlers write into the generated program, and when the Rust compiler takes them:
    a literal has to be a value of its type (lint [overflowing_literals]) and a sum of constants must not overflow
    (lint [arithmetic_overflow]); both are errors by default. *)
From Verif Require Import Base RangeModel IntModel LengthModel SizeModel MetaModel MacroModel.
Local Open Scope Z_scope.

(** A constant expression: a literal, or [#n + 1].
    (/repo/validators-derive/src/validator_handlers/line/mod.rs:173.) *)
Inductive cexpr := CNum (v : Z) | CPlusOne (v : Z).

(** The type of a constant: an integer type of the validators, or [u128] for the bounds of bit and byte.
    (/repo/validators-derive/src/validator_handlers/signed_integer/mod.rs:40-61, bit/mod.rs:53-90.) *)
Inductive cty := CInt (sg : bool) (t : ity) | CU128.

(** The bounds that [handle_range] writes: with [equal] the first only.
    (/repo/validators-derive/src/validator_handlers/signed_integer/mod.rs:81-190 and unsigned_integer/mod.rs:81-190.) *)
Definition opt_list {A} (o : option A) : list A := match o with Some x => [x] | None => [] end.
Definition range_consts (r : range_tokens Z) : list Z :=
  match r with
  | TInside min max _ equal | TOutside min max _ equal =>
      if equal then opt_list min else opt_list min ++ opt_list max
  | TUnlimited => []
  end.

(** The bounds that bit and byte write.
    (/repo/validators-derive/src/validator_handlers/bit/mod.rs:46-92 and byte/mod.rs:48-94.) *)
Definition size_consts (r : range N) : list N :=
  if range_equal N N.eqb u128_inc false (r_min r) (r_max r) (r_incl r)
  then opt_list (r_min r) else opt_list (r_min r) ++ opt_list (r_max r).

(** The bounds that the length validator writes.
    (/repo/validators-derive/src/validator_handlers/length/mod.rs:74-124.) *)
Definition stmt_consts (c : lstmt) : list N :=
  match c with LetLength => [] | MatchCmp n | IfLess n | IfGreater n => [n] end.

(** The bounds that line and text write: the shapes with [char_length] and a maximum have [s.chars().take(#max + 1)], those with
    [byte_length] have not.
    (/repo/validators-derive/src/validator_handlers/line/mod.rs:73-722, [take] at 173, 246, 356, 427, and the same lines of text/mod.rs.) *)
Definition utf8_consts (l : option (bool * len_attr)) : list cexpr :=
  match l with
  | Some (byte, l) =>
      match l_max l with
      | Some max => (if byte then [] else [CPlusOne (Z.of_N max)]) ++ [CNum (Z.of_N max)]
      | None => []
      end ++ List.map (fun n => CNum (Z.of_N n)) (opt_list (l_min l) ++ opt_list (l_tmin l))
  | None => []
  end.

(** The constants of the generated program, by validator; [pw]: the pointer width of the machine the macro runs on. The other validators
    write no integer constants that come from the attribute. (/repo/validators-derive/src/lib.rs:53-197.) *)
Definition consts {cid} (pw : ptr_width) (g : expansion cid) : list (cty * cexpr) :=
  match g with
  | GInt sg t a => List.map (fun z => (CInt sg t, CNum z)) (range_consts (to_tokens Z Z.eqb (int_inc sg pw t) false (ra_range a)))
  | GBit a => List.map (fun n => (CU128, CNum (Z.of_N n))) (size_consts (bi_range a))
  | GByte a => List.map (fun n => (CU128, CNum (Z.of_N n))) (size_consts (by_range a))
  | GLength a => List.map (fun n => (CInt false Isize, CNum (Z.of_N n))) (flat_map stmt_consts (gen_length (ca_min a) (ca_max a)))
  | GLine a | GText a => List.map (fun e => (CInt false Isize, e)) (utf8_consts (ta_length a))
  | _ => []
  end.
