(** The base32, base64 and base64_url validators,
    /repo/validators-derive/src/validator_handlers/{base32,base64,base64_url}/mod.rs.

    The three handlers are the same text up to the block length, the alphabet and the
    positions at which padding may begin; they are modelled once, with these three as
    functions of the flavour. Line numbers are those of base64/mod.rs and base32/mod.rs;
    base64_url/mod.rs is one line further down. *)
From Verif Require Import Base.
Local Open Scope N_scope.

(** Which of the three handlers generated the validator.
    (/repo/validators-derive/src/validator_handlers/base32, base64, base64_url.) *)
Inductive flavour := B32 | B64 | B64Url.

(** Models [Base32Error], [Base64Error] and [Base64UrlError], /repo/validators/src/errors/base32.rs,
    base64.rs, base64_url.rs; [BDecode] only occurs in the [*DecodedError] types,
    /repo/validators/src/errors/base64_decoded.rs. *)
Inductive base_err := BInvalid | BPaddingMust | BPaddingDisallow | BDecode.

(** The constants 4 and 8, /repo/validators-derive/src/validator_handlers/base64/mod.rs:45,61,97,105 and base32/mod.rs:45,61,97,105. *)
Definition block (f : flavour) : nat := match f with B32 => 8 | _ => 4 end.

(** The masks [0b11] and [0b111], /repo/validators-derive/src/validator_handlers/base64/mod.rs:94 and base32/mod.rs:94. *)
Definition block_mask (f : flavour) : nat := match f with B32 => 7 | _ => 3 end.

(** The alphabet pattern: /repo/validators-derive/src/validator_handlers/base64/mod.rs:108,128, base64_url/mod.rs:109,129, base32/mod.rs:108,128. *)
Definition in_alphabet (f : flavour) (e : N) : bool :=
  match f with
  | B32 => ((65 <=? e) && (e <=? 90)) || ((50 <=? e) && (e <=? 55))
  | B64 => ((65 <=? e) && (e <=? 90)) || ((97 <=? e) && (e <=? 122)) || ((48 <=? e) && (e <=? 57))
           || (e =? 43) || (e =? 47)
  | B64Url => ((65 <=? e) && (e <=? 90)) || ((97 <=? e) && (e <=? 122)) || ((48 <=? e) && (e <=? 57))
           || (e =? 45) || (e =? 95)
  end.

(** The pattern on [p]: /repo/validators-derive/src/validator_handlers/base64/mod.rs:60 and base32/mod.rs:60. *)
Definition pad_pos (f : flavour) (p : nat) : bool :=
  match f, p with
  | B32, (2 | 4 | 5 | 7)%nat => true
  | (B64 | B64Url), (2 | 3)%nat => true
  | _, _ => false
  end.

(** Models [handle_padding], /repo/validators-derive/src/validator_handlers/base64/mod.rs:53-77. *)
Definition handle_padding (f : flavour) (padding : tri) (last_length : nat) (last_bytes : list N) (p : nat)
  : outcome base_err unit :=
  if is_disallow padding then Err BPaddingDisallow
  else if pad_pos f p then
    if negb (Nat.eqb last_length (block f)) then Err BInvalid
    else
      let? rest := slice_from last_bytes (p + 1) in
      if forallb (fun e => e =? 61) rest then Ok tt else Err BInvalid
  else Err BInvalid.

(** Models the [loop], /repo/validators-derive/src/validator_handlers/base64/mod.rs:119-137; [rem] is [last_length - p]. *)
Fixpoint base_loop (f : flavour) (padding : tri) (last_length : nat) (last_bytes : list N) (p rem : nat)
  : outcome base_err unit :=
  match rem with
  | O => Ok tt
  | S rem' =>
      let? e := idx last_bytes p in
      if in_alphabet f e then base_loop f padding last_length last_bytes (p + 1) rem'
      else if e =? 61 then handle_padding f padding last_length last_bytes p
      else Err BInvalid
  end.

(** Models [v_parse_u8_slice], /repo/validators-derive/src/validator_handlers/base64/mod.rs:86-139, and the identical [v_validate_u8_slice],
    base64_decoded/mod.rs:123-178. *)
Definition base_v_parse_u8_slice (f : flavour) (padding : tri) (v : list N) : outcome base_err unit :=
  let length := List.length v in
  if Nat.eqb length 0 then Err BInvalid
  else
    let l := Nat.land length (block_mask f) in
    let last_length := if Nat.eqb l 0 then block f else l in
    if is_must padding && negb (Nat.eqb last_length (block f)) then Err BPaddingMust
    else
      let? last_bytes :=
        if (block f <? length)%nat then
          if forallb (in_alphabet f) (firstn (length - last_length) v)
          then slice_from v (length - last_length)
          else Err BInvalid
        else Ok v in
      base_loop f padding last_length last_bytes 0 last_length.

(** Models [v_parse_str], /repo/validators-derive/src/validator_handlers/base64/mod.rs:82-84. *)
Definition base_v_parse_str (f : flavour) (padding : tri) (s : list N) : outcome base_err unit :=
  base_v_parse_u8_slice f padding s.

(** Models [parse_string], /repo/validators-derive/src/validator_handlers/base64/mod.rs:146-152; the value is the stored [String]. *)
Definition base_parse_string (f : flavour) (padding : tri) (s : list N) : outcome base_err (list N) :=
  let? _ := base_v_parse_str f padding s in Ok s.

(** Models [parse_str], /repo/validators-derive/src/validator_handlers/base64/mod.rs:155-161. *)
Definition base_parse_str (f : flavour) (padding : tri) (s : list N) : outcome base_err (list N) :=
  let? _ := base_v_parse_str f padding s in Ok s.

(** Models [validate_str], /repo/validators-derive/src/validator_handlers/base64/mod.rs:164-168. *)
Definition base_validate_str (f : flavour) (padding : tri) (s : list N) : outcome base_err unit :=
  let? _ := base_v_parse_str f padding s in Ok tt.

(** Models [parse_vec_u8], /repo/validators-derive/src/validator_handlers/base64/mod.rs:175-181; [from_utf8_unchecked] keeps the bytes as they are. *)
Definition base_parse_vec_u8 (f : flavour) (padding : tri) (v : list N) : outcome base_err (list N) :=
  let? _ := base_v_parse_u8_slice f padding v in Ok v.

(** Models [parse_u8_slice], /repo/validators-derive/src/validator_handlers/base64/mod.rs:184-190. *)
Definition base_parse_u8_slice (f : flavour) (padding : tri) (v : list N) : outcome base_err (list N) :=
  let? _ := base_v_parse_u8_slice f padding v in Ok v.

(** Models [validate_u8_slice], /repo/validators-derive/src/validator_handlers/base64/mod.rs:193-197. *)
Definition base_validate_u8_slice (f : flavour) (padding : tri) (v : list N) : outcome base_err unit :=
  let? _ := base_v_parse_u8_slice f padding v in Ok tt.
