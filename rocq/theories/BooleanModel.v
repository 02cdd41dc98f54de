(** The boolean validator,
    /repo/validators-derive/src/validator_handlers/boolean/mod.rs. *)
From Verif Require Import Base IntModel Utf8.
Local Open Scope N_scope.

(** Models [BooleanError], /repo/validators/src/errors/boolean.rs. *)
Inductive bool_err := BooleanError.

(** A pattern [b'y' | b'Y']: the byte or its upper case.
    (e.g. /repo/validators-derive/src/validator_handlers/boolean/mod.rs:43.) *)
Definition letter (c : N) (e : N) : bool := (e =? c) || (e =? c - 32).

(** The continuation [if iter.next().is_none() { return Ok(b) }], otherwise the final [Err].
    (e.g. /repo/validators-derive/src/validator_handlers/boolean/mod.rs:50.) *)
Definition at_end (b : bool) (iter : list N) : outcome bool_err bool :=
  match iter with [] => Ok b | _ => Err BooleanError end.

(** Models [v_parse_str], /repo/validators-derive/src/validator_handlers/boolean/mod.rs:36-180. *)
Definition bool_v_parse_str (s : list N) : outcome bool_err bool :=
  match s with
  | [] => Err BooleanError
  | e :: iter =>
      if letter 121 e then (* y: 44-63 *)
        match iter with
        | [] => Ok true
        | e :: iter =>
            if letter 101 e then
              match iter with
              | [] => Err BooleanError
              | e :: iter => if letter 115 e then at_end true iter else Err BooleanError
              end
            else Err BooleanError
        end
      else if letter 116 e then (* t: 64-92 *)
        match iter with
        | [] => Ok true
        | e :: iter =>
            if letter 114 e then
              match iter with
              | [] => Err BooleanError
              | e :: iter =>
                  if letter 117 e then
                    match iter with
                    | [] => Err BooleanError
                    | e :: iter => if letter 101 e then at_end true iter else Err BooleanError
                    end
                  else Err BooleanError
              end
            else Err BooleanError
        end
      else if e =? 49 then at_end true iter (* 1: 93-97 *)
      else if letter 111 e then (* o: 98-121 *)
        match iter with
        | [] => Err BooleanError
        | e :: iter =>
            if letter 110 e then at_end true iter
            else if letter 102 e then
              match iter with
              | [] => Err BooleanError
              | e :: iter => if letter 102 e then at_end false iter else Err BooleanError
              end
            else Err BooleanError
        end
      else if letter 110 e then (* n: 122-135 *)
        match iter with
        | [] => Ok false
        | e :: iter => if letter 111 e then at_end false iter else Err BooleanError
        end
      else if letter 102 e then (* f: 136-169 *)
        match iter with
        | [] => Ok false
        | e :: iter =>
            if letter 97 e then
              match iter with
              | [] => Err BooleanError
              | e :: iter =>
                  if letter 108 e then
                    match iter with
                    | [] => Err BooleanError
                    | e :: iter =>
                        if letter 115 e then
                          match iter with
                          | [] => Err BooleanError
                          | e :: iter => if letter 101 e then at_end false iter else Err BooleanError
                          end
                        else Err BooleanError
                    end
                  else Err BooleanError
              end
            else Err BooleanError
        end
      else if e =? 48 then at_end false iter (* 0: 170-174 *)
      else Err BooleanError
  end.

(** Models [v_parse_char], /repo/validators-derive/src/validator_handlers/boolean/mod.rs:183-189. *)
Definition bool_v_parse_char (c : N) : outcome bool_err bool :=
  if (c =? 116) || (c =? 84) || (c =? 49) || (c =? 121) || (c =? 89) then Ok true
  else if (c =? 102) || (c =? 70) || (c =? 48) || (c =? 110) || (c =? 78) then Ok false
  else Err BooleanError.

(** Models [v_parse_i128] and [v_parse_u128], /repo/validators-derive/src/validator_handlers/boolean/mod.rs:192-207. *)
Definition bool_v_parse_int (i : Z) : outcome bool_err bool :=
  if (i =? 1)%Z then Ok true else if (i =? 0)%Z then Ok false else Err BooleanError.

(** Models [v_parse_bool], /repo/validators-derive/src/validator_handlers/boolean/mod.rs:210-212. *)
Definition bool_v_parse_bool (b : bool) : outcome bool_err bool := Ok b.

(** Models the entry points, /repo/validators-derive/src/validator_handlers/boolean/mod.rs:217-301. *)
Definition bool_parse_string (s : list N) : outcome bool_err bool := let? b := bool_v_parse_str s in Ok b.
Definition bool_parse_str (s : list N) : outcome bool_err bool := let? b := bool_v_parse_str s in Ok b.
Definition bool_validate_str (s : list N) : outcome bool_err unit := let? _ := bool_v_parse_str s in Ok tt.
Definition bool_parse_char (c : N) : outcome bool_err bool := let? b := bool_v_parse_char c in Ok b.
Definition bool_validate_char (c : N) : outcome bool_err unit := let? _ := bool_v_parse_char c in Ok tt.
Definition bool_parse_bool (b : bool) : outcome bool_err bool := let? b := bool_v_parse_bool b in Ok b.
Definition bool_validate_bool (b : bool) : outcome bool_err unit := let? _ := bool_v_parse_bool b in Ok tt.

(** Models the integer entry points: [parse_i128]/[parse_u128] of the validator
    (boolean/mod.rs:258-282) under the forwarding defaults of the traits,
    /repo/validators/src/traits/validate_signed_integer.rs:9-45 and
    /repo/validators/src/traits/validate_unsigned_integer.rs:9-45 ([sg]: signed). *)
Definition bool_parse_128 (i : Z) : outcome bool_err bool := let? b := bool_v_parse_int i in Ok b.
Definition bool_parse_64 (sg : bool) (pw : ptr_width) (i : Z) := bool_parse_128 (cast sg pw I128 i).
Definition bool_parse_32 (sg : bool) (pw : ptr_width) (i : Z) := bool_parse_64 sg pw (cast sg pw I64 i).
Definition bool_parse_16 (sg : bool) (pw : ptr_width) (i : Z) := bool_parse_32 sg pw (cast sg pw I32 i).
Definition bool_parse_8 (sg : bool) (pw : ptr_width) (i : Z) := bool_parse_16 sg pw (cast sg pw I16 i).
Definition bool_parse_size (sg : bool) (pw : ptr_width) (i : Z) :=
  match pw with
  | W64 => bool_parse_64 sg pw (cast sg pw I64 i)
  | W32 => bool_parse_32 sg pw (cast sg pw I32 i)
  | W16 => bool_parse_16 sg pw (cast sg pw I16 i)
  end.
(** The entry point named after a type.
    (/repo/validators/src/traits/validate_signed_integer.rs, validate_unsigned_integer.rs.) *)
Definition bool_parse_int (sg : bool) (pw : ptr_width) (t : ity) (i : Z) : outcome bool_err bool :=
  match t with
  | I8 => bool_parse_8 sg pw i
  | I16 => bool_parse_16 sg pw i
  | I32 => bool_parse_32 sg pw i
  | I64 => bool_parse_64 sg pw i
  | I128 => bool_parse_128 i
  | Isize => bool_parse_size sg pw i
  end.

(** The same for [validate_*], /repo/validators/src/traits/validate_signed_integer.rs:47-83,
    /repo/validators/src/traits/validate_unsigned_integer.rs:47-83. *)
Definition bool_validate_128 (i : Z) : outcome bool_err unit := let? _ := bool_v_parse_int i in Ok tt.
Definition bool_validate_64 (sg : bool) (pw : ptr_width) (i : Z) := bool_validate_128 (cast sg pw I128 i).
Definition bool_validate_32 (sg : bool) (pw : ptr_width) (i : Z) := bool_validate_64 sg pw (cast sg pw I64 i).
Definition bool_validate_16 (sg : bool) (pw : ptr_width) (i : Z) := bool_validate_32 sg pw (cast sg pw I32 i).
Definition bool_validate_8 (sg : bool) (pw : ptr_width) (i : Z) := bool_validate_16 sg pw (cast sg pw I16 i).
Definition bool_validate_size (sg : bool) (pw : ptr_width) (i : Z) :=
  match pw with
  | W64 => bool_validate_64 sg pw (cast sg pw I64 i)
  | W32 => bool_validate_32 sg pw (cast sg pw I32 i)
  | W16 => bool_validate_16 sg pw (cast sg pw I16 i)
  end.
Definition bool_validate_int (sg : bool) (pw : ptr_width) (t : ity) (i : Z) : outcome bool_err unit :=
  match t with
  | I8 => bool_validate_8 sg pw i
  | I16 => bool_validate_16 sg pw i
  | I32 => bool_validate_32 sg pw i
  | I64 => bool_validate_64 sg pw i
  | I128 => bool_validate_128 i
  | Isize => bool_validate_size sg pw i
  end.
