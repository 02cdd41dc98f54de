(** The mac_address and uuid validators,
    /repo/validators-derive/src/validator_handlers/mac_address/mod.rs and
    /repo/validators-derive/src/validator_handlers/uuid/mod.rs.
    The macro attribute parsers (mac_address_attribute.rs, uuid_attribute.rs) are covered by AttrModel's
    parameter loop; here a validator is given by its case and separator options. *)
From Verif Require Import Base IntStr.
Local Open Scope N_scope.

(** Models [CaseOption], /repo/validators-derive/src/common/case_option.rs:5-10. *)
Inductive case_option := AnyCase | UpperCase | LowerCase.

(** Models [CaseOption::upper], /repo/validators-derive/src/common/case_option.rs:23-29. *)
Definition case_upper (c : case_option) : bool :=
  match c with AnyCase => true | UpperCase => true | LowerCase => false end.

(** Models [SeparatorOption], /repo/validators-derive/src/common/separator_option.rs:5-10. *)
Inductive sep_option := SepMust (c : N) | SepAllow (c : N) | SepDisallow.

(** Models [SeparatorOption::allow], /repo/validators-derive/src/common/separator_option.rs:13-19. *)
Definition sep_allow (s : sep_option) : option N :=
  match s with SepMust c | SepAllow c => Some c | SepDisallow => None end.

(** Models [MacAddressError] and [UuidError], /repo/validators/src/errors/mac_address.rs and uuid.rs. *)
Inductive hex_err := HInvalid | HSeparatorMust | HSeparatorDisallow.

(** The digit patterns of [handle_decode] and [handle_check]: /repo/validators-derive/src/validator_handlers/mac_address/mod.rs:135-227,
    uuid/mod.rs:123-215. The value is [e - b'0'], [e - (b'a' - 10)] or [e - (b'A' - 10)]. *)
Definition hex_digit (case : case_option) (e : N) : option N :=
  if (48 <=? e) && (e <=? 57) then Some (e - 48)
  else match case with
       | AnyCase => if (97 <=? e) && (e <=? 102) then Some (e - (97 - 10))
                    else if (65 <=? e) && (e <=? 70) then Some (e - (65 - 10)) else None
       | UpperCase => if (65 <=? e) && (e <=? 70) then Some (e - (65 - 10)) else None
       | LowerCase => if (97 <=? e) && (e <=? 102) then Some (e - (97 - 10)) else None
       end.

(** Models [handle_decode], /repo/validators-derive/src/validator_handlers/mac_address/mod.rs:135-192 ([width] = 64) and uuid/mod.rs:123-180
    ([width] = 128): [<<= 4] drops what leaves the word. *)
Fixpoint handle_decode (width : N) (case : case_option) (iter : list N) (acc : N) : outcome hex_err N :=
  match iter with
  | [] => Ok acc
  | e :: iter =>
      let acc := N.shiftl acc 4 mod 2 ^ width in
      match hex_digit case e with
      | Some d => handle_decode width case iter (N.lor acc d)
      | None => Err HInvalid
      end
  end.

(** Models [handle_check], /repo/validators-derive/src/validator_handlers/mac_address/mod.rs:194-227, uuid/mod.rs:182-215. *)
Fixpoint handle_check (case : case_option) (iter : list N) : outcome hex_err unit :=
  match iter with
  | [] => Ok tt
  | e :: iter => match hex_digit case e with Some _ => handle_check case iter | None => Err HInvalid end
  end.

(** Models [handle_iter] of /repo/validators-derive/src/validator_handlers/mac_address/mod.rs:49-133; the result is the chained iterator.
    In the [Allow] arm, [nc] is [no_colon_counter]. *)
Definition mac_iter (sep : sep_option) (bytes : list N) : outcome hex_err (list N) :=
  let length := List.length bytes in
  match sep with
  | SepAllow separator =>
      if negb ((12 <=? length) && (length <=? 17))%nat then Err HInvalid
      else
        let? first := slice bytes 0 2 in
        let? e := idx bytes 2 in
        let nc := (if negb (e =? separator)%N then 1 else 0)%nat in
        let? second := slice bytes (3 - nc) (5 - nc) in
        let? e := idx bytes (5 - nc) in
        let nc := (if negb (e =? separator)%N then nc + 1 else nc)%nat in
        let? third := slice bytes (6 - nc) (8 - nc) in
        let? e := idx bytes (8 - nc) in
        let nc := (if negb (e =? separator)%N then nc + 1 else nc)%nat in
        let? forth := slice bytes (9 - nc) (11 - nc) in
        let? e := idx bytes (11 - nc) in
        let nc := (if negb (e =? separator)%N then nc + 1 else nc)%nat in
        let? fifth := slice bytes (12 - nc) (14 - nc) in
        let? e := idx bytes (14 - nc) in
        let nc := (if negb (e =? separator)%N then nc + 1 else nc)%nat in
        let? sixth := slice_from bytes (15 - nc) in
        if negb (Nat.eqb (List.length sixth) 2) then Err HInvalid
        else Ok (first ++ second ++ third ++ forth ++ fifth ++ sixth)
  | SepMust separator =>
      if negb (Nat.eqb length 17) then Err HSeparatorMust
      else
        let? e2 := idx bytes 2 in
        let? e5 := idx bytes 5 in
        let? e8 := idx bytes 8 in
        let? e11 := idx bytes 11 in
        let? e14 := idx bytes 14 in
        if negb (e2 =? separator) || negb (e5 =? separator) || negb (e8 =? separator)
           || negb (e11 =? separator) || negb (e14 =? separator) then Err HInvalid
        else
          let? first := slice bytes 0 2 in
          let? second := slice bytes 3 5 in
          let? third := slice bytes 6 8 in
          let? forth := slice bytes 9 11 in
          let? fifth := slice bytes 12 14 in
          let? sixth := slice_from bytes 15 in
          Ok (first ++ second ++ third ++ forth ++ fifth ++ sixth)
  | SepDisallow =>
      if negb (Nat.eqb length 12) then Err HSeparatorDisallow else Ok bytes
  end.

(** Models [v_parse_str], /repo/validators-derive/src/validator_handlers/mac_address/mod.rs:231-244. *)
Definition mac_v_parse_str (case : case_option) (sep : sep_option) (s : list N) : outcome hex_err N :=
  let? iter := mac_iter sep s in handle_decode 64 case iter 0.

(** Models [v_validate_str], /repo/validators-derive/src/validator_handlers/mac_address/mod.rs:246-257. *)
Definition mac_v_validate_str (case : case_option) (sep : sep_option) (s : list N) : outcome hex_err unit :=
  let? iter := mac_iter sep s in
  let? _ := handle_check case iter in Ok tt.

(** Models [parse_string], [parse_str] and [validate_str], /repo/validators-derive/src/validator_handlers/mac_address/mod.rs:266-280. *)
Definition mac_parse_string (case : case_option) (sep : sep_option) (s : list N) : outcome hex_err N :=
  let? x := mac_v_parse_str case sep s in Ok x.
Definition mac_parse_str (case : case_option) (sep : sep_option) (s : list N) : outcome hex_err N :=
  let? x := mac_v_parse_str case sep s in Ok x.
Definition mac_validate_str (case : case_option) (sep : sep_option) (s : list N) : outcome hex_err unit :=
  let? _ := mac_v_validate_str case sep s in Ok tt.

(** Models [handle_iter] of /repo/validators-derive/src/validator_handlers/uuid/mod.rs:48-121; [nh] is [no_hyphen_counter]. *)
Definition uuid_iter (sep : sep_option) (bytes : list N) : outcome hex_err (list N) :=
  let length := List.length bytes in
  match sep with
  | SepAllow separator =>
      if negb ((32 <=? length) && (length <=? 36))%nat then Err HInvalid
      else
        let? time_low := slice bytes 0 8 in
        let? e := idx bytes 8 in
        let nh := (if negb (e =? separator)%N then 1 else 0)%nat in
        let? time_mid := slice bytes (9 - nh) (13 - nh) in
        let? e := idx bytes (13 - nh) in
        let nh := (if negb (e =? separator)%N then nh + 1 else nh)%nat in
        let? time_high_and_version := slice bytes (14 - nh) (18 - nh) in
        let? e := idx bytes (18 - nh) in
        let nh := (if negb (e =? separator)%N then nh + 1 else nh)%nat in
        let? clock_seq := slice bytes (19 - nh) (23 - nh) in
        let? e := idx bytes (23 - nh) in
        let nh := (if negb (e =? separator)%N then nh + 1 else nh)%nat in
        let? node := slice_from bytes (24 - nh) in
        if negb (Nat.eqb (List.length node) 12) then Err HInvalid
        else Ok (time_low ++ time_mid ++ time_high_and_version ++ clock_seq ++ node)
  | SepMust separator =>
      if negb (Nat.eqb length 36) then Err HSeparatorMust
      else
        let? e8 := idx bytes 8 in
        let? e13 := idx bytes 13 in
        let? e18 := idx bytes 18 in
        let? e23 := idx bytes 23 in
        if negb (e8 =? separator) || negb (e13 =? separator) || negb (e18 =? separator)
           || negb (e23 =? separator) then Err HInvalid
        else
          let? time_low := slice bytes 0 8 in
          let? time_mid := slice bytes 9 13 in
          let? time_high_and_version := slice bytes 14 18 in
          let? clock_seq := slice bytes 19 23 in
          let? node := slice_from bytes 24 in
          Ok (time_low ++ time_mid ++ time_high_and_version ++ clock_seq ++ node)
  | SepDisallow =>
      if negb (Nat.eqb length 32) then Err HSeparatorDisallow else Ok bytes
  end.

(** Models [v_parse_str] and [v_validate_str], /repo/validators-derive/src/validator_handlers/uuid/mod.rs:219-246. *)
Definition uuid_v_parse_str (case : case_option) (sep : sep_option) (s : list N) : outcome hex_err N :=
  let? iter := uuid_iter sep s in handle_decode 128 case iter 0.
Definition uuid_v_validate_str (case : case_option) (sep : sep_option) (s : list N) : outcome hex_err unit :=
  let? iter := uuid_iter sep s in
  let? _ := handle_check case iter in Ok tt.

(** Models [parse_string], [parse_str] and [validate_str], /repo/validators-derive/src/validator_handlers/uuid/mod.rs:254-268. *)
Definition uuid_parse_string (case : case_option) (sep : sep_option) (s : list N) : outcome hex_err N :=
  let? x := uuid_v_parse_str case sep s in Ok x.
Definition uuid_parse_str (case : case_option) (sep : sep_option) (s : list N) : outcome hex_err N :=
  let? x := uuid_v_parse_str case sep s in Ok x.
Definition uuid_validate_str (case : case_option) (sep : sep_option) (s : list N) : outcome hex_err unit :=
  let? _ := uuid_v_validate_str case sep s in Ok tt.

(** One hexadecimal digit of [{:X}] or [{:x}] (core library). *)
Definition hex_char (upper : bool) (d : N) : N :=
  if d <? 10 then 48 + d else if upper then 65 + (d - 10) else 97 + (d - 10).

(** Models the digit loop of [UpperHex]/[LowerHex] (core library); 32 digits are enough for u128. *)
Fixpoint hex_loop (fuel : nat) (upper : bool) (x : N) : list N :=
  match fuel with
  | O => []
  | S fuel' => if x / 16 =? 0 then [hex_char upper (x mod 16)]
               else hex_loop fuel' upper (x / 16) ++ [hex_char upper (x mod 16)]
  end.

(** Models [{:0wX}] and [{:0wx}]: the digits, with zeros in front up to the width (core library). *)
Definition hex_fmt (width : nat) (upper : bool) (x : N) : list N :=
  let d := hex_loop 32 upper x in repeat 48 (width - List.length d) ++ d.

(** Models [to_le_bytes()[i]] (core library). *)
Definition le_byte (x : N) (i : N) : N := (x / 256 ^ i) mod 256.

(** Models [to_mac_address_string], /repo/validators-derive/src/validator_handlers/mac_address/mod.rs:284-331. The separator is interpolated as a [u8],
    whose [Display] is decimal. *)
Definition to_mac_address_string (case : case_option) (sep : sep_option) (x : N) : list N :=
  let upper := case_upper case in
  match sep_allow sep with
  | Some separator =>
      let s := dec_of_N separator in
      let b i := hex_fmt 2 upper (le_byte x i) in
      b 5 ++ s ++ b 4 ++ s ++ b 3 ++ s ++ b 2 ++ s ++ b 1 ++ s ++ b 0
  | None => hex_fmt 12 upper x
  end.

(** Models [to_uuid_string], /repo/validators-derive/src/validator_handlers/uuid/mod.rs:272-352. *)
Definition to_uuid_string (case : case_option) (sep : sep_option) (x : N) : list N :=
  let upper := case_upper case in
  match sep_allow sep with
  | Some separator =>
      let s := dec_of_N separator in
      let b i := hex_fmt 2 upper (le_byte x i) in
      b 15 ++ b 14 ++ b 13 ++ b 12 ++ s ++ b 11 ++ b 10 ++ s ++ b 9 ++ b 8 ++ s ++ b 7 ++ b 6 ++ s
      ++ b 5 ++ b 4 ++ b 3 ++ b 2 ++ b 1 ++ b 0
  | None => hex_fmt 32 upper x
  end.
