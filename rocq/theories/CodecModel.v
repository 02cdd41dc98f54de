(** The base32_decoded, base64_decoded and base64_url_decoded validators,
    /repo/validators-derive/src/validator_handlers/{base32,base64,base64_url}_decoded/mod.rs,
    with the decoders of the data-encoding crate they call.

    data-encoding is not part of /repo. [decode_nopad] and [decode_pad] below model the documented
    behaviour of [BASE64_NOPAD.decode], [BASE64.decode] and their base32/base64url counterparts
    (version 2: RFC 4648 alphabets, [check_trailing_bits: true], most significant bit first;
    a padded decoder accepts every block to carry its own padding). *)
From Verif Require Import Base BaseModel.
Local Open Scope N_scope.

(** Bits per character (the [bit_width] of the encoding, external crate).
    (external crate data-encoding, called from /repo/validators-derive/src/validator_handlers/base64_decoded/mod.rs and siblings.) *)
Definition bit_width (f : flavour) : nat := match f with B32 => 5 | _ => 6 end.

(** Value of a character (the [values] table of the encoding, external crate).
    (external crate data-encoding, called from /repo/validators-derive/src/validator_handlers/base64_decoded/mod.rs and siblings.) *)
Definition char_value (f : flavour) (e : N) : option N :=
  match f with
  | B32 => if (65 <=? e) && (e <=? 90) then Some (e - 65)
           else if (50 <=? e) && (e <=? 55) then Some (e - 50 + 26) else None
  | _ => if (65 <=? e) && (e <=? 90) then Some (e - 65)
         else if (97 <=? e) && (e <=? 122) then Some (e - 97 + 26)
         else if (48 <=? e) && (e <=? 57) then Some (e - 48 + 52)
         else match f with
              | B64 => if e =? 43 then Some 62 else if e =? 47 then Some 63 else None
              | _ => if e =? 45 then Some 62 else if e =? 95 then Some 63 else None
              end
  end.

(** The [n] low bits of a number, most significant first.
    (external crate data-encoding, called from /repo/validators-derive/src/validator_handlers/base64_decoded/mod.rs and siblings.) *)
Fixpoint bits (n : nat) (x : N) : list bool :=
  match n with
  | O => []
  | S n' => N.testbit x (N.of_nat n') :: bits n' x
  end.

(** The number written by a list of bits, most significant first.
    (external crate data-encoding, called from /repo/validators-derive/src/validator_handlers/base64_decoded/mod.rs and siblings.) *)
Definition bits_value (l : list bool) : N := fold_left (fun a (b : bool) => 2 * a + (if b then 1 else 0)) l 0.

(** All the bits of a text; [None] if a character is not in the alphabet (external crate,
    [DecodeKind::Symbol]).
    (external crate data-encoding, called from /repo/validators-derive/src/validator_handlers/base64_decoded/mod.rs and siblings.) *)
Fixpoint text_bits (f : flavour) (v : list N) : option (list bool) :=
  match v with
  | [] => Some []
  | e :: r =>
      match char_value f e, text_bits f r with
      | Some x, Some l => Some (bits (bit_width f) x ++ l)
      | _, _ => None
      end
  end.

(** Whole bytes of a bit string, and the bits left over.
    (external crate data-encoding, called from /repo/validators-derive/src/validator_handlers/base64_decoded/mod.rs and siblings.) *)
Fixpoint take_bytes (l : list bool) : list N * list bool :=
  match l with
  | b7 :: b6 :: b5 :: b4 :: b3 :: b2 :: b1 :: b0 :: r =>
      let '(bytes, rest) := take_bytes r in
      (bits_value [b7; b6; b5; b4; b3; b2; b1; b0] :: bytes, rest)
  | _ => ([], l)
  end.

(** Models [BASE64_NOPAD.decode] (external crate): every character in the alphabet, fewer left-over
    bits than one character ([DecodeKind::Length]), and these all zero ([DecodeKind::Trailing]).
    (external crate data-encoding, called from /repo/validators-derive/src/validator_handlers/base64_decoded/mod.rs and siblings.) *)
Definition decode_nopad (f : flavour) (v : list N) : option (list N) :=
  match text_bits f v with
  | None => None
  | Some l =>
      let '(bytes, rest) := take_bytes l in
      if (List.length rest <? bit_width f)%nat && forallb negb rest then Some bytes else None
  end.

(** Removes the trailing ['='] of a block (external crate, [check_pad]).
    (external crate data-encoding, called from /repo/validators-derive/src/validator_handlers/base64_decoded/mod.rs and siblings.) *)
Fixpoint strip_pad (l : list N) : list N :=
  match l with
  | [] => []
  | x :: r => match strip_pad r with
              | [] => if x =? 61 then [] else [x]
              | r' => x :: r'
              end
  end.

(** One block of a padded decoder (external crate, [decode_pad_mut] and [check_pad]).
    (external crate data-encoding, called from /repo/validators-derive/src/validator_handlers/base64_decoded/mod.rs and siblings.) *)
Definition decode_block (f : flavour) (b : list N) : option (list N) :=
  match strip_pad b with
  | [] => None
  | b' => decode_nopad f b'
  end.

(** Models [BASE64.decode] (external crate): blocks of whole length ([DecodeKind::Length]), each of
    which may be padded. The fuel is the length of the text.
    (external crate data-encoding, called from /repo/validators-derive/src/validator_handlers/base64_decoded/mod.rs and siblings.) *)
Fixpoint decode_blocks (fuel : nat) (f : flavour) (v : list N) : option (list N) :=
  match v with
  | [] => Some []
  | _ =>
      match fuel with
      | O => None
      | S fuel' =>
          if (List.length v <? block f)%nat then None
          else match decode_block f (firstn (block f) v), decode_blocks fuel' f (skipn (block f) v) with
               | Some a, Some b => Some (a ++ b)
               | _, _ => None
               end
      end
  end.
Definition decode_pad (f : flavour) (v : list N) : option (list N) := decode_blocks (List.length v) f v.

(** [.map_err(|_| Decode)], /repo/validators-derive/src/validator_handlers/base64_decoded/mod.rs:86,88,94,99. *)
Definition or_decode {A} (x : option A) : outcome base_err A :=
  match x with Some a => Ok a | None => Err BDecode end.

(** Models [v_parse_u8_slice], /repo/validators-derive/src/validator_handlers/base64_decoded/mod.rs:111-117 with [decode] from 82-102. *)
Definition dec_v_parse_u8_slice (f : flavour) (padding : tri) (v : list N) : outcome base_err (list N) :=
  match v with
  | [] => Err BInvalid
  | _ =>
      match padding with
      | Allow =>
          let? e := idx v (List.length v - 1) in
          if e =? 61 then or_decode (decode_pad f v) else or_decode (decode_nopad f v)
      | Must => or_decode (decode_pad f v)
      | Disallow => or_decode (decode_nopad f v)
      end
  end.

(** Models [v_parse_str], /repo/validators-derive/src/validator_handlers/base64_decoded/mod.rs:107-109. *)
Definition dec_v_parse_str (f : flavour) (padding : tri) (s : list N) : outcome base_err (list N) :=
  dec_v_parse_u8_slice f padding s.

(** Models [v_validate_u8_slice], /repo/validators-derive/src/validator_handlers/base64_decoded/mod.rs:124-178: the text of [v_parse_u8_slice] of
    base64/mod.rs:86-139. *)
Definition dec_v_validate_u8_slice (f : flavour) (padding : tri) (v : list N) : outcome base_err unit :=
  base_v_parse_u8_slice f padding v.

(** Models [v_validate_str], /repo/validators-derive/src/validator_handlers/base64_decoded/mod.rs:120-122. *)
Definition dec_v_validate_str (f : flavour) (padding : tri) (s : list N) : outcome base_err unit :=
  dec_v_validate_u8_slice f padding s.

(** Models [parse_string], [parse_str] and [validate_str], /repo/validators-derive/src/validator_handlers/base64_decoded/mod.rs:184-198. *)
Definition dec_parse_string (f : flavour) (padding : tri) (s : list N) : outcome base_err (list N) :=
  let? d := dec_v_parse_str f padding s in Ok d.
Definition dec_parse_str (f : flavour) (padding : tri) (s : list N) : outcome base_err (list N) :=
  let? d := dec_v_parse_str f padding s in Ok d.
Definition dec_validate_str (f : flavour) (padding : tri) (s : list N) : outcome base_err unit :=
  let? _ := dec_v_validate_str f padding s in Ok tt.

(** Models [parse_vec_u8], [parse_u8_slice] and [validate_u8_slice], /repo/validators-derive/src/validator_handlers/base64_decoded/mod.rs:205-219. *)
Definition dec_parse_vec_u8 (f : flavour) (padding : tri) (v : list N) : outcome base_err (list N) :=
  let? d := dec_v_parse_u8_slice f padding v in Ok d.
Definition dec_parse_u8_slice (f : flavour) (padding : tri) (v : list N) : outcome base_err (list N) :=
  let? d := dec_v_parse_u8_slice f padding v in Ok d.
Definition dec_validate_u8_slice (f : flavour) (padding : tri) (v : list N) : outcome base_err unit :=
  let? _ := dec_v_validate_u8_slice f padding v in Ok tt.
