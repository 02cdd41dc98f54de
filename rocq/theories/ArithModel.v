(** The same generated code with the arithmetic of the machine: every [+], [-] and [+=] on [usize], [isize] or [u8]
    yields a value of its type, panics in a debug build when the result does not fit and wraps in a release build.
    The other model files compute with unbounded numbers; PropArith.v proves that this makes no difference.
    Each definition below is the one of the same name without [_chk], with its arithmetic replaced. *)
From Verif Require Import Base IntStr NetModel IpModel DomainModel HostModel EmailModel LengthModel Utf8 LineModel
  BaseModel CodecModel MacModel.
From Verif Require IntModel.
Local Open Scope N_scope.

(** An arithmetic operator of Rust on an integer type whose values are [lo..=hi], with the exact result [z]
    (Rust reference, "Overflow"; core library, not in /repo). *)
Definition mach {E} (prof : profile) (lo hi z : Z) : outcome E Z :=
  if ((lo <=? z) && (z <=? hi))%Z then Ok z
  else match prof with Debug => Panic | Release => Ok (lo + (z - lo) mod (hi - lo + 1))%Z end.

Section Machine.
(** The width of a pointer on the target, and the build profile. *)
Variables (pw : IntModel.ptr_width) (prof : profile).

(** [usize::MAX] and [isize::MAX] (core library). *)
Definition umax : Z := IntModel.int_max false pw IntModel.Isize.
Definition imax : Z := IntModel.int_max true pw IntModel.Isize.

(** [a + b] and [a - b] on [usize], with operands given as [nat] or [N]; on [isize]; on [u8] (core library). *)
Definition uadd {E} (a b : nat) : outcome E nat := omap Z.to_nat (mach prof 0 umax (Z.of_nat a + Z.of_nat b)).
Definition usub {E} (a b : nat) : outcome E nat := omap Z.to_nat (mach prof 0 umax (Z.of_nat a - Z.of_nat b)).
Definition naddc {E} (a b : N) : outcome E N := omap Z.to_N (mach prof 0 umax (Z.of_N a + Z.of_N b)).
Definition iadd {E} (a b : Z) : outcome E Z := mach prof (- imax - 1) imax (a + b).
Definition isub {E} (a b : Z) : outcome E Z := mach prof (- imax - 1) imax (a - b).
Definition bsub {E} (a b : N) : outcome E N := omap Z.to_N (mach prof 0 255 (Z.of_N a - Z.of_N b)).

(** [a as isize] and [a as usize]: casts wrap in every profile (core library). *)
Definition as_isize (a : nat) : Z := ((Z.of_nat a + imax + 1) mod (umax + 1) - imax - 1)%Z.
Definition as_usize (a : Z) : nat := Z.to_nat (a mod (umax + 1))%Z.

(** [handle_padding], /repo/validators-derive/src/validator_handlers/base64/mod.rs:53-77: [p + 1] at l.66. *)
Definition handle_padding_chk (f : flavour) (padding : tri) (last_length : nat) (last_bytes : list N) (p : nat)
  : outcome base_err unit :=
  if is_disallow padding then Err BPaddingDisallow
  else if pad_pos f p then
    if negb (Nat.eqb last_length (block f)) then Err BInvalid
    else
      let? i := uadd p 1 in
      let? rest := slice_from last_bytes i in
      if forallb (fun e => e =? 61) rest then Ok tt else Err BInvalid
  else Err BInvalid.

(** The [loop], /repo/validators-derive/src/validator_handlers/base64/mod.rs:119-137: [p += 1] at l.135. *)
Fixpoint base_loop_chk (f : flavour) (padding : tri) (last_length : nat) (last_bytes : list N) (p rem : nat)
  : outcome base_err unit :=
  match rem with
  | O => Ok tt
  | S rem' =>
      let? e := idx last_bytes p in
      if in_alphabet f e then let? p := uadd p 1 in base_loop_chk f padding last_length last_bytes p rem'
      else if e =? 61 then handle_padding_chk f padding last_length last_bytes p
      else Err BInvalid
  end.

(** [v_parse_u8_slice], /repo/validators-derive/src/validator_handlers/base64/mod.rs:86-139 (the same in base32 and base64_url and in
    [v_validate_u8_slice] of the three decoded ones): [length - last_length] at l.106 and l.113. *)
Definition base_v_parse_u8_slice_chk (f : flavour) (padding : tri) (v : list N) : outcome base_err unit :=
  let length := List.length v in
  if Nat.eqb length 0 then Err BInvalid
  else
    let l := Nat.land length (block_mask f) in
    let last_length := if Nat.eqb l 0 then block f else l in
    if is_must padding && negb (Nat.eqb last_length (block f)) then Err BPaddingMust
    else
      let? last_bytes :=
        if (block f <? length)%nat then
          let? n := usub length last_length in
          if forallb (in_alphabet f) (firstn n v)
          then let? n := usub length last_length in slice_from v n
          else Err BInvalid
        else Ok v in
      base_loop_chk f padding last_length last_bytes 0 last_length.

(** [v_parse_u8_slice], /repo/validators-derive/src/validator_handlers/base64_decoded/mod.rs:111-117 with [decode] from 82-102:
    [v.len() - 1] at l.85. *)
Definition dec_v_parse_u8_slice_chk (f : flavour) (padding : tri) (v : list N) : outcome base_err (list N) :=
  match v with
  | [] => Err BInvalid
  | _ =>
      match padding with
      | Allow =>
          let? i := usub (List.length v) 1 in
          let? e := idx v i in
          if e =? 61 then or_decode (decode_pad f v) else or_decode (decode_nopad f v)
      | Must => or_decode (decode_pad f v)
      | Disallow => or_decode (decode_nopad f v)
      end
  end.

(** The arms of [handle_decode]: [e - b'0'], [e - (b'a' - 10)] and [e - (b'A' - 10)] on [u8],
    /repo/validators-derive/src/validator_handlers/mac_address/mod.rs:135-192, uuid/mod.rs:123-180. *)
Definition hex_digit_chk (case : case_option) (e : N) : outcome hex_err (option N) :=
  let minus c := let? k := bsub c 10 in let? d := bsub e k in Ok (Some d) in
  if (48 <=? e) && (e <=? 57) then let? d := bsub e 48 in Ok (Some d)
  else match case with
       | AnyCase => if (97 <=? e) && (e <=? 102) then minus 97
                    else if (65 <=? e) && (e <=? 70) then minus 65 else Ok None
       | UpperCase => if (65 <=? e) && (e <=? 70) then minus 65 else Ok None
       | LowerCase => if (97 <=? e) && (e <=? 102) then minus 97 else Ok None
       end.

(** [handle_decode], /repo/validators-derive/src/validator_handlers/mac_address/mod.rs:135-192 and uuid/mod.rs:123-180. [<<= 4] overflows only if the
    distance reaches the width. *)
Fixpoint handle_decode_chk (width : N) (case : case_option) (iter : list N) (acc : N) : outcome hex_err N :=
  match iter with
  | [] => Ok acc
  | e :: iter =>
      let acc := N.shiftl acc 4 mod 2 ^ width in
      let? d := hex_digit_chk case e in
      match d with
      | Some d => handle_decode_chk width case iter (N.lor acc d)
      | None => Err HInvalid
      end
  end.

(** [if bytes[i] != separator { counter += 1; }], /repo/validators-derive/src/validator_handlers/mac_address/mod.rs:67-87, uuid/mod.rs:66-82. *)
Definition count_chk (separator e : N) (nc : nat) : outcome hex_err nat :=
  if negb (e =? separator) then uadd nc 1 else Ok nc.

(** [&bytes[(a - counter)..(b - counter)]] and [bytes[a - counter]], /repo/validators-derive/src/validator_handlers/mac_address/mod.rs:65-89,
    uuid/mod.rs:64-84. *)
Definition slice_back (bytes : list N) (a b nc : nat) : outcome hex_err (list N) :=
  let? i := usub a nc in let? j := usub b nc in slice bytes i j.
Definition idx_back (bytes : list N) (a nc : nat) : outcome hex_err N :=
  let? i := usub a nc in idx bytes i.

(** The [Allow] arm of [handle_iter], /repo/validators-derive/src/validator_handlers/mac_address/mod.rs:51-96. The other arms have no arithmetic. *)
Definition mac_iter_chk (sep : sep_option) (bytes : list N) : outcome hex_err (list N) :=
  let length := List.length bytes in
  match sep with
  | SepAllow separator =>
      if negb ((12 <=? length) && (length <=? 17))%nat then Err HInvalid
      else
        let? first := slice bytes 0 2 in
        let? e := idx bytes 2 in
        let nc := (if negb (e =? separator)%N then 1 else 0)%nat in
        let? second := slice_back bytes 3 5 nc in
        let? e := idx_back bytes 5 nc in
        let? nc := count_chk separator e nc in
        let? third := slice_back bytes 6 8 nc in
        let? e := idx_back bytes 8 nc in
        let? nc := count_chk separator e nc in
        let? forth := slice_back bytes 9 11 nc in
        let? e := idx_back bytes 11 nc in
        let? nc := count_chk separator e nc in
        let? fifth := slice_back bytes 12 14 nc in
        let? e := idx_back bytes 14 nc in
        let? nc := count_chk separator e nc in
        let? i := usub 15 nc in
        let? sixth := slice_from bytes i in
        if negb (Nat.eqb (List.length sixth) 2) then Err HInvalid
        else Ok (first ++ second ++ third ++ forth ++ fifth ++ sixth)
  | _ => mac_iter sep bytes
  end.

(** [v_parse_str], /repo/validators-derive/src/validator_handlers/mac_address/mod.rs:231-244, and [v_validate_str], 246-257. *)
Definition mac_v_parse_str_chk (case : case_option) (sep : sep_option) (s : list N) : outcome hex_err N :=
  let? iter := mac_iter_chk sep s in handle_decode_chk 64 case iter 0.
Definition mac_v_validate_str_chk (case : case_option) (sep : sep_option) (s : list N) : outcome hex_err unit :=
  let? iter := mac_iter_chk sep s in
  let? _ := handle_check case iter in Ok tt.

(** The [Allow] arm of [handle_iter], /repo/validators-derive/src/validator_handlers/uuid/mod.rs:50-90. *)
Definition uuid_iter_chk (sep : sep_option) (bytes : list N) : outcome hex_err (list N) :=
  let length := List.length bytes in
  match sep with
  | SepAllow separator =>
      if negb ((32 <=? length) && (length <=? 36))%nat then Err HInvalid
      else
        let? time_low := slice bytes 0 8 in
        let? e := idx bytes 8 in
        let nh := (if negb (e =? separator)%N then 1 else 0)%nat in
        let? time_mid := slice_back bytes 9 13 nh in
        let? e := idx_back bytes 13 nh in
        let? nh := count_chk separator e nh in
        let? time_high_and_version := slice_back bytes 14 18 nh in
        let? e := idx_back bytes 18 nh in
        let? nh := count_chk separator e nh in
        let? clock_seq := slice_back bytes 19 23 nh in
        let? e := idx_back bytes 23 nh in
        let? nh := count_chk separator e nh in
        let? i := usub 24 nh in
        let? node := slice_from bytes i in
        if negb (Nat.eqb (List.length node) 12) then Err HInvalid
        else Ok (time_low ++ time_mid ++ time_high_and_version ++ clock_seq ++ node)
  | _ => uuid_iter sep bytes
  end.

(** [v_parse_str] and [v_validate_str], /repo/validators-derive/src/validator_handlers/uuid/mod.rs:219-246. *)
Definition uuid_v_parse_str_chk (case : case_option) (sep : sep_option) (s : list N) : outcome hex_err N :=
  let? iter := uuid_iter_chk sep s in handle_decode_chk 128 case iter 0.
Definition uuid_v_validate_str_chk (case : case_option) (sep : sep_option) (s : list N) : outcome hex_err unit :=
  let? iter := uuid_iter_chk sep s in
  let? _ := handle_check case iter in Ok tt.

(** [handle_ipv6_with_port], /repo/validators-derive/src/validator_handlers/ip/mod.rs:184-219 and ipv6/mod.rs:163-198: [colon_index - 1] twice and
    [colon_index + 1]. *)
Definition ipv6_with_port_chk (port local : tri) (s : list N) : outcome ip_err (list N * option N * bool) :=
  match port with
  | Disallow => Err IpPortDisallow
  | _ =>
      match rposition 58 s with
      | Some colon_index =>
          let? ok := (if (2 <? colon_index)%nat
                      then let? i := usub colon_index 1 in let? b := idx s i in Ok (b =? 93) else Ok false) in
          if (ok : bool) then
            let? i := usub colon_index 1 in
            let? ip_str := str_slice s 1 i in
            match ipv6_from_str ip_str with
            | Some ip =>
                let? i := uadd colon_index 1 in
                let? port_str := str_slice_from s i in
                match parse_u16 port_str with
                | Some p => finish local (is_local_ipv6 ip) ip (Some p)
                | None => Err IpInvalid
                end
            | None => Err IpInvalid
            end
          else Err IpInvalid
      | None => Err IpInvalid
      end
  end.

(** The bracketed branch of [v_parse_str], /repo/validators-derive/src/validator_handlers/ip/mod.rs:312-319 and ipv6/mod.rs:250-257: [bytes.len() - 1]. *)
Definition ipv6_bracket_chk (port local : tri) (s : list N) : outcome ip_err (list N * option N * bool) :=
  let? last_index := usub (List.length s) 1 in
  let? b := idx s last_index in
  if b =? 93 then ipv6_without_port port local s last_index else ipv6_with_port_chk port local s.

(** [handle_ipv4_with_port], /repo/validators-derive/src/validator_handlers/ip/mod.rs:249-299 and ipv4/mod.rs:163-213: [colon_index + 1]. *)
Definition ipv4_rest_chk (port local : tri) (s : list N) : outcome ip_err (list N * option N * bool) :=
  match rposition 58 s with
  | Some colon_index =>
      match port with
      | Disallow => Err IpPortDisallow
      | _ =>
          let? ip_str := str_slice s 0 colon_index in
          match ipv4_from_str ip_str with
          | Some ip =>
              let? i := uadd colon_index 1 in
              let? port_str := str_slice_from s i in
              match parse_u16 port_str with
              | Some p => finish local (is_local_ipv4 ip) ip (Some p)
              | None => Err IpInvalid
              end
          | None => Err IpInvalid
          end
      end
  | None =>
      match port with
      | Must => Err IpPortMust
      | _ => match ipv4_from_str s with
             | Some ip => finish local (is_local_ipv4 ip) ip None
             | None => Err IpInvalid
             end
      end
  end.

(** [v_parse_str], /repo/validators-derive/src/validator_handlers/ip/mod.rs:301-335, ipv4/mod.rs:215-234 and ipv6/mod.rs:239-266. *)
Definition ip_v_parse_str_chk (port local : tri) (s : list N) : outcome ip_err (ip_addr * option N * bool) :=
  match s with
  | [] => Err IpInvalid
  | first :: _ =>
      if first =? 91 then omap (wrap V6) (ipv6_bracket_chk port local s)
      else match ipv6_from_str s with
           | Some ip => omap (wrap V6) (ipv6_non_bracket port local ip)
           | None => omap (wrap V4) (ipv4_rest_chk port local s)
           end
  end.
Definition ipv4_v_parse_str_chk (port local : tri) (s : list N) : outcome ip_err (list N * option N * bool) :=
  match s with
  | [] => Err IpInvalid
  | _ => ipv4_rest_chk port local s
  end.
Definition ipv6_v_parse_str_chk (port local : tri) (s : list N) : outcome ip_err (list N * option N * bool) :=
  match s with
  | [] => Err IpInvalid
  | first :: _ =>
      if first =? 91 then ipv6_bracket_chk port local s
      else match ipv6_from_str s with
           | Some ip => ipv6_non_bracket port local ip
           | None => Err IpInvalid
           end
  end.

(** [handle_ipv6_with_port], /repo/validators-derive/src/validator_handlers/host/mod.rs:312-347. *)
Definition h_ipv6_with_port_chk (c : host_cfg) (s : list N) : outcome host_err (host * option N * bool) :=
  match h_port c with
  | Disallow => Err HoPortDisallow
  | _ =>
      match rposition 58 s with
      | Some colon_index =>
          let? ok := (if (2 <? colon_index)%nat
                      then let? i := usub colon_index 1 in let? b := idx s i in Ok (b =? 93) else Ok false) in
          if (ok : bool) then
            let? i := usub colon_index 1 in
            let? ip_str := str_slice s 1 i in
            match ipv6_from_str ip_str with
            | Some ip =>
                let? i := uadd colon_index 1 in
                let? port_str := str_slice_from s i in
                match parse_u16 port_str with
                | Some p => h_finish c (is_local_ipv6 ip) (HIPv6 ip) (Some p)
                | None => Err HoInvalid
                end
            | None => Err HoInvalid
            end
          else Err HoInvalid
      | None => Err HoInvalid
      end
  end.

(** [handle_ipv6_bracket], /repo/validators-derive/src/validator_handlers/host/mod.rs:349-363. *)
Definition h_ipv6_bracket_chk (c : host_cfg) (s : list N) : outcome host_err (host * option N * bool) :=
  if is_disallow (h_two c) then Err HoTwoLabelsDisallow
  else
    let? last_index := usub (List.length s) 1 in
    let? b := idx s last_index in
    if b =? 93 then h_ipv6_without_port c s last_index else h_ipv6_with_port_chk c s.

(** [handle_domain_and_port], /repo/validators-derive/src/validator_handlers/host/mod.rs:389-414 and 539-544: [colon_index + 1] at l.400. *)
Definition h_split_chk (c : host_cfg) (s : list N) : outcome host_err (list N * option (list N)) :=
  match rposition 58 s with
  | Some colon_index =>
      match h_port c with
      | Disallow => Err HoPortDisallow
      | _ => let? domain_str := str_slice s 0 colon_index in
             let? i := uadd colon_index 1 in
             let? port_str := str_slice_from s i in
             Ok (domain_str, Some port_str)
      end
  | None => match h_port c with Must => Err HoPortMust | _ => Ok (s, None) end
  end.

(** [handle_domain_and_port], /repo/validators-derive/src/validator_handlers/domain/mod.rs:520-545: [colon_index + 1] at l.531. *)
Definition d_split_chk (c : domain_cfg) (s : list N) : outcome domain_err (list N * option (list N)) :=
  match rposition 58 s with
  | Some colon_index =>
      match d_port c with
      | Disallow => Err DPortDisallow
      | _ => let? domain_str := str_slice s 0 colon_index in
             let? i := uadd colon_index 1 in
             let? port_str := str_slice_from s i in
             Ok (domain_str, Some port_str)
      end
  | None => match d_port c with Must => Err DPortMust | _ => Ok (s, None) end
  end.

(** [get_domain_non_fully_qualified], /repo/validators-derive/src/validator_handlers/domain/mod.rs:896-936: [len() - 1] at l.911 and l.929. *)
Definition get_domain_non_fully_qualified_chk {E} (d : list N) : outcome E (list N) :=
  if is_fully_qualified d then let? i := usub (List.length d) 1 in str_slice d 0 i else Ok d.

(** The counting loop, /repo/validators-derive/src/validator_handlers/line/mod.rs:249-256, 430-437, 589-596: [counter += 1]. *)
Fixpoint scan_chars_chk (k : line_kind) (chars : list N) (counter : N) : outcome line_err N :=
  match chars with
  | [] => Ok counter
  | c :: chars => if ctl k c then Err LInvalid else let? counter := naddc counter 1 in scan_chars_chk k chars counter
  end.

(** The inner loop, /repo/validators-derive/src/validator_handlers/line/mod.rs:117-138, 190-204, 306-322, 373-387, 487-503, 536-550, 635-648, 677-690:
    [counter += len], [temp_counter += len] and [trimmed_counter += temp_counter + len].  In the last two shapes
    there is no [counter]; adding it here can only make an overflow more likely. *)
Fixpoint inner_chk (k : line_kind) (byte : bool) (chk : option N) (chars : list N)
    (counter trimmed temp : N) : outcome line_err (N * N) :=
  match chars with
  | [] => Ok (counter, trimmed)
  | c :: chars =>
      if ctl k c then Err LInvalid
      else
        let len := unit_len byte c in
        let? counter := naddc counter len in
        if over chk counter then Err LTooLong
        else if is_whitespace c then let? temp := naddc temp len in inner_chk k byte chk chars counter trimmed temp
        else let? t := naddc temp len in
             let? trimmed := naddc trimmed t in
             inner_chk k byte chk chars counter trimmed 0
  end.

(** The outer loop, /repo/validators-derive/src/validator_handlers/line/mod.rs:97-151, 176-218, 286-336, 359-401, 471-513, 522-560, 623-657, 665-699:
    [counter += len]. *)
Fixpoint outer_chk (k : line_kind) (byte : bool) (chk1 chk2 : option N)
    (fin : N -> N -> outcome line_err unit) (empty : N -> outcome line_err unit)
    (chars : list N) (counter : N) : outcome line_err unit :=
  match chars with
  | [] => empty counter
  | c :: chars =>
      let len := unit_len byte c in
      let? counter := naddc counter len in
      if over chk1 counter then Err LTooLong
      else if negb (is_whitespace c) then
        if ctl k c then Err LInvalid
        else let? ct := inner_chk k byte chk2 chars counter len 0 in fin (fst ct) (snd ct)
      else outer_chk k byte chk1 chk2 fin empty chars counter
  end.

(** [handle_str], /repo/validators-derive/src/validator_handlers/line/mod.rs:73-722, shape by shape: [#max + 1] at l.173, 246, 356 and 427. *)
Definition handle_str_chk (k : line_kind) (byte : bool) (min tmin max : option N) (s : list N)
  : outcome line_err unit :=
  match max with
  | Some max =>
      match min with
      | Some min =>
          match tmin with
          | Some tmin =>
              if byte then
                outer_chk k byte (Some max) (Some max)
                  (fun counter trimmed =>
                     if (tmin <=? trimmed) && (min <=? counter)
                     then if counter <=? max then Ok tt else Err LTooLong
                     else Err LTooShort)
                  (fun counter =>
                     if tmin =? 0 then if counter <? min then Err LTooShort else Ok tt
                     else Err LTooShort)
                  s 0
              else
                let? n := naddc max 1 in
                outer_chk k byte None None
                  (fun counter trimmed =>
                     if (tmin <=? trimmed) && (min <=? counter)
                     then if counter <=? max then Ok tt else Err LTooLong
                     else Err LTooShort)
                  (fun counter =>
                     if tmin =? 0
                     then if counter <? min then Err LTooShort
                          else if max <? counter then Err LTooLong else Ok tt
                     else Err LTooShort)
                  (take n s) 0
          | None =>
              if byte then
                if max <? N.of_nat (List.length (utf8 s)) then Err LTooLong
                else if N.of_nat (List.length (utf8 s)) <? min then Err LTooShort
                else scan_bytes k (utf8 s)
              else
                let? n := naddc max 1 in
                let? counter := scan_chars_chk k (take n s) 0 in
                if counter <? min then Err LTooShort
                else if max <? counter then Err LTooLong else Ok tt
          end
      | None =>
          match tmin with
          | Some tmin =>
              if byte then
                outer_chk k byte (Some max) None
                  (fun counter trimmed =>
                     if tmin <=? trimmed
                     then if counter <=? max then Ok tt else Err LTooLong
                     else Err LTooShort)
                  (fun counter => if tmin =? 0 then Ok tt else Err LTooShort)
                  s 0
              else
                let? n := naddc max 1 in
                outer_chk k byte None None
                  (fun counter trimmed =>
                     if tmin <=? trimmed
                     then if counter <=? max then Ok tt else Err LTooLong
                     else Err LTooShort)
                  (fun counter =>
                     if tmin =? 0 then if counter <=? max then Ok tt else Err LTooLong
                     else Err LTooShort)
                  (take n s) 0
          | None =>
              if byte then
                if max <? N.of_nat (List.length (utf8 s)) then Err LTooLong
                else scan_bytes k (utf8 s)
              else
                let? n := naddc max 1 in
                let? counter := scan_chars_chk k (take n s) 0 in
                if counter <=? max then Ok tt else Err LTooLong
          end
      end
  | None =>
      match min with
      | Some min =>
          match tmin with
          | Some tmin =>
              outer_chk k byte None None
                (fun counter trimmed =>
                   if (tmin <=? trimmed) && (min <=? counter) then Ok tt else Err LTooShort)
                (fun counter =>
                   if tmin =? 0 then if min <=? counter then Ok tt else Err LTooShort
                   else Err LTooShort)
                s 0
          | None =>
              if byte then
                if N.of_nat (List.length (utf8 s)) <? min then Err LTooShort
                else scan_bytes k (utf8 s)
              else
                let? counter := scan_chars_chk k s 0 in
                if min <=? counter then Ok tt else Err LTooShort
          end
      | None =>
          match tmin with
          | Some tmin =>
              outer_chk k byte None None
                (fun counter trimmed => if tmin <=? trimmed then Ok tt else Err LTooShort)
                (fun counter => if tmin =? 0 then Ok tt else Err LTooShort)
                s 0
          | None => scan_bytes k (utf8 s)
          end
      end
  end.

(** [v_parse_str], /repo/validators-derive/src/validator_handlers/line/mod.rs:724-730. *)
Definition line_v_parse_str_chk (k : line_kind) (a : line_attr) (s : list N) : outcome line_err unit :=
  match a with
  | Some (byte, l) => handle_str_chk k byte (l_min l) (l_tmin l) (l_max l) s
  | None => handle_str_chk k false None None None s
  end.

(** [handle_comment_1] and [handle_comment_3], /repo/validators-derive/src/validator_handlers/email/mod.rs:863-891 and 930-958: [index += 1] and
    [index + 1]. *)
Definition e_leading_comment_chk (c : email_cfg) (limit : nat) (s : list N)
  : outcome email_err (nat * option (list N)) :=
  let? b := idx s 0 in
  if b =? 40 then
    if negb (e_comment c) then Err ECommentDisallow
    else if (1 <? List.length s)%nat then
      let? rest := slice_from s 1 in
      match position 41 (firstn limit rest) with
      | Some index =>
          let? index := uadd index 1 in
          let? comment := str_slice s 1 index in
          let? len := uadd index 1 in
          if (len =? List.length s)%nat then Err EInvalid else Ok (len, Some comment)
      | None => Err EInvalid
      end
    else Err EInvalid
  else Ok (O, None).

(** The quoted loop, /repo/validators-derive/src/validator_handlers/email/mod.rs:1042-1138: [p += 1] at l.1136, after the [match]. *)
Fixpoint e_quoted_loop_chk (c : email_cfg) (l : list N) (p : nat) (escaping need_quoted last_dot : bool)
  : outcome email_err (nat * bool) :=
  match l with
  | [] => Err EInvalid
  | e :: r =>
      let next escaping need_quoted last_dot :=
        let? p := uadd p 1 in e_quoted_loop_chk c r p escaping need_quoted last_dot in
      if atext e then
        if (p =? 63)%nat then Err EInvalid else next false need_quoted false
      else if e =? 46 then
        if (p =? 63)%nat then Err EInvalid
        else next false (if last_dot then true else need_quoted) true
      else if e =? 92 then
        if (p =? 63)%nat then Err EInvalid else next (negb escaping) true last_dot
      else if (e =? 32) || (e =? 9) then
        if (p =? 63)%nat then Err EInvalid else next escaping true last_dot
      else if special e then
        if (p =? 63)%nat || negb escaping then Err EInvalid else next false need_quoted last_dot
      else if e =? 34 then
        if escaping then
          if (p =? 63)%nat then Err EInvalid else next false need_quoted last_dot
        else Ok (p, need_quoted)
      else if other_ok c e then next false need_quoted false
      else Err EInvalid
  end.

(** The unquoted loop, /repo/validators-derive/src/validator_handlers/email/mod.rs:1167-1217: [p += 1] at l.1216, after the [match]. *)
Fixpoint e_unquoted_loop_chk (c : email_cfg) (l : list N) (p : nat) (last_dot : bool) : outcome email_err nat :=
  match l with
  | [] => Err EInvalid
  | e :: r =>
      let next last_dot := let? p := uadd p 1 in e_unquoted_loop_chk c r p last_dot in
      if atext e then
        if (p =? 64)%nat then Err EInvalid else next false
      else if e =? 46 then
        if (p =? 64)%nat || last_dot then Err EInvalid else next true
      else if (e =? 64) || (e =? 40) then Ok p
      else if other_ok c e then next false
      else Err EInvalid
  end.

(** The local part, /repo/validators-derive/src/validator_handlers/email/mod.rs:1007-1219: [local_part_length + 1] at l.1009 and l.1164, [p += 1] at l.1040,
    [(local_part_length + 1)..p] and [p + 1] at l.1119-1121. *)
Definition e_local_part_chk (c : email_cfg) (s : list N) (local_part_length : nat)
  : outcome email_err (list N * bool * bool * nat) :=
  let length := List.length s in
  let? b := idx s local_part_length in
  if b =? 34 then
    let? p := uadd local_part_length 1 in
    if (p =? 63)%nat || (p =? length)%nat then Err EInvalid
    else
      let? e := idx s p in
      let? st := e_quoted_first c e in
      let '(escaping, need_quoted, last_dot) := st in
      let? p := uadd p 1 in
      let? r := e_quoted_loop_chk c (skipn p s) p escaping need_quoted last_dot in
      let '(q, need_quoted) := r in
      let? i := uadd local_part_length 1 in
      let? local_part := str_slice s i q in
      let? local_part_length := uadd q 1 in
      if (local_part_length =? length)%nat then Err EInvalid
      else Ok (local_part, need_quoted, true, local_part_length)
  else
    let? e := idx s local_part_length in
    if atext e || other_ok c e then
      let? p := uadd local_part_length 1 in
      let? p := e_unquoted_loop_chk c (skipn p s) p false in
      let? local_part := str_slice s local_part_length p in
      Ok (local_part, false, false, p)
    else Err EInvalid.

(** [handle_comment_2], /repo/validators-derive/src/validator_handlers/email/mod.rs:893-928: [local_part_length += 1], [64 - local_part_length],
    [index += local_part_length], [index + 1]. *)
Definition e_comment2_chk (c : email_cfg) (s : list N) (local_part_length : nat)
  : outcome email_err (nat * option (list N)) :=
  let length := List.length s in
  let? b := idx s local_part_length in
  if b =? 40 then
    if negb (e_comment c) then Err ECommentDisallow
    else
      let? local_part_length := uadd local_part_length 1 in
      if (local_part_length <? length)%nat then
        let? rest := slice_from s local_part_length in
        let? n := usub 64 local_part_length in
        match position 41 (firstn n rest) with
        | Some index =>
            let? index := uadd index local_part_length in
            let? comment := str_slice s local_part_length index in
            let? local_part_length := uadd index 1 in
            if (local_part_length =? length)%nat then Err EInvalid else Ok (local_part_length, Some comment)
        | None => Err EInvalid
        end
      else Err EInvalid
  else Ok (local_part_length, None).

(** [handle_comment_4], /repo/validators-derive/src/validator_handlers/email/mod.rs:960-987: [domain_part_length += 1], [index += domain_part_length]. *)
Definition e_comment4_chk (c : email_cfg) (s : list N) (domain_part_length : nat) : outcome email_err (option (list N)) :=
  let length := List.length s in
  if (domain_part_length <? length)%nat then
    if negb (e_comment c) then Err ECommentDisallow
    else
      let? b := idx s domain_part_length in
      if b =? 40 then
        let? domain_part_length := uadd domain_part_length 1 in
        if (domain_part_length <? length)%nat then
          let? rest := slice_from s domain_part_length in
          match position 41 rest with
          | Some index =>
              let? index := uadd index domain_part_length in
              let? comment := str_slice s domain_part_length index in
              Ok (Some comment)
          | None => Err EInvalid
          end
        else Err EInvalid
      else Err EInvalid
  else Ok None.

(** [handle_ip], /repo/validators-derive/src/validator_handlers/email/mod.rs:682-777, from [offset], the [domain_part_length_offset] so far: the last
    component is the new one. *)
Definition e_handle_ip_chk (c : email_cfg) (s : list N) (domain_part_length : nat) (offset : Z)
  : outcome email_err (host * bool * nat * Z) :=
  let length := List.length s in
  match e_ip c with
  | Disallow => Err EIPDisallow
  | _ =>
      if is_disallow (e_two c) then Err ETwoLabelsDisallow
      else
        let? domain_part_length := uadd domain_part_length 1 in
        if (domain_part_length <? length)%nat then
          let? rest := slice_from s domain_part_length in
          if eqbs (firstn 5 rest) (bs "IPv6:") then
            let? domain_part_length := uadd domain_part_length 5 in
            if (domain_part_length <? length)%nat then
              let? rest := slice_from s domain_part_length in
              match position 93 rest with
              | Some i =>
                  let? closing := uadd i domain_part_length in
                  let? ip_str := str_slice s domain_part_length closing in
                  match ipv6_from_str ip_str with
                  | Some ip =>
                      let? n := uadd closing 1 in
                      let? added := isub (as_isize (List.length (ipv6_display ip))) (as_isize (List.length ip_str)) in
                      let? offset := iadd offset added in
                      Ok (HIPv6 ip, e_flag c (is_local_ipv6 ip), n, offset)
                  | None => Err EInvalid
                  end
              | None => Err EInvalid
              end
            else Err EInvalid
          else
            match position 93 rest with
            | Some i =>
                let? closing := uadd i domain_part_length in
                let? ip_str := str_slice s domain_part_length closing in
                match ipv4_from_str ip_str with
                | Some ip =>
                    let? n := uadd closing 1 in
                    Ok (HIPv4 ip, e_flag c (is_local_ipv4 ip), n, offset)
                | None => Err EInvalid
                end
            | None => Err EInvalid
            end
        else Err EInvalid
  end.

Section WithIdna.
(** [idna::Config::to_ascii] (external crate), as in DomainModel.v; /repo/validators-derive/src/validator_handlers/domain/mod.rs:591-595. *)
Variable idna : list N -> option (list N).

(** [v_parse_str], /repo/validators-derive/src/validator_handlers/domain/mod.rs:726-742. *)
Definition domain_v_parse_str_chk (c : domain_cfg) (s : list N)
  : outcome domain_err (list N * option N * bool * bool) :=
  match s with
  | [] => Err DInvalid
  | _ => let? r := d_split_chk c s in
         let '(domain_str, port_str) := r in
         d_rest idna c s domain_str port_str
  end.

(** The non-IPv6 branch of [v_parse_str], /repo/validators-derive/src/validator_handlers/host/mod.rs:538-555, and [v_parse_str], 524-558. *)
Definition h_rest_chk (c : host_cfg) (s : list N) : outcome host_err (host * option N * bool) :=
  let? r := h_split_chk c s in
  let '(domain_str, port_str) := r in
  if ends_with 46 domain_str then Err HoInvalid
  else
    match ipv4_from_str domain_str with
    | Some ip =>
        if is_disallow (h_two c) then Err HoTwoLabelsDisallow
        else
          let? port := h_parse_port c port_str in
          h_finish c (is_local_ipv4 ip) (HIPv4 ip) port
    | None => h_name idna c domain_str port_str
    end.
Definition host_v_parse_str_chk (c : host_cfg) (s : list N) : outcome host_err (host * option N * bool) :=
  match s with
  | [] => Err HoInvalid
  | first :: _ =>
      if first =? 91 then h_ipv6_bracket_chk c s
      else match ipv6_from_str s with
           | Some ip => h_ipv6_non_bracket c ip
           | None => h_rest_chk c s
           end
  end.

(** [handle_domain], /repo/validators-derive/src/validator_handlers/email/mod.rs:779-853: [open_parenthesis_index += domain_part_length],
    [domain_part_length += domain_str.len()], [domain_part_length_offset += a as isize - b as isize]. *)
Definition e_handle_domain_chk (c : email_cfg) (s : list N) (domain_part_length : nat) (offset : Z)
  : outcome email_err (host * bool * nat * Z) :=
  match e_ip c with
  | Must => Err EIPMust
  | _ =>
      let? rest := slice_from s domain_part_length in
      let? domain_str :=
        (match position 40 rest with
         | Some i => let? i := uadd i domain_part_length in str_slice s domain_part_length i
         | None => str_slice_from s domain_part_length
         end) in
      if ends_with 46 domain_str then Err EInvalid
      else
        match idna domain_str with
        | Some ascii_domain =>
            let? n := uadd domain_part_length (List.length domain_str) in
            let is_local := e_flag c (is_local_domain ascii_domain) in
            let? _ := e_check_two c is_local ascii_domain in
            let? added := isub (as_isize (List.length ascii_domain)) (as_isize (List.length domain_str)) in
            let? offset := iadd offset added in
            Ok (HDomain ascii_domain, is_local, n, offset)
        | None => Err EInvalid
        end
  end.

(** The domain part of [v_parse_str], /repo/validators-derive/src/validator_handlers/email/mod.rs:1232-1285: [length + domain_part_length_offset as usize] at
    l.1264, only if the offset is positive. *)
Definition e_domain_part_chk (c : email_cfg) (s : list N) (quoted_needed : bool)
  : outcome email_err (host * bool * option (list N) * option (list N)) :=
  let length := List.length s in
  if (255 <? length)%nat then Err EInvalid
  else
    let? r3 := e_leading_comment_chk c 253 s in
    let '(domain_part_length, c3) := r3 in
    let offset := (if quoted_needed then -2 else 0)%Z in
    let? b := idx s domain_part_length in
    let? r :=
      (if b =? 40 then Err EInvalid
       else if b =? 91 then e_handle_ip_chk c s domain_part_length offset
       else e_handle_domain_chk c s domain_part_length offset) in
    let '(h, is_local, domain_part_length, offset) := r in
    let? _ := e_check_local c is_local in
    let? long := (if (0 <? offset)%Z
                  then let? n := uadd length (as_usize offset) in Ok (255 <? n)%nat else Ok false) in
    if (long : bool) then Err EInvalid
    else
      let? c4 := e_comment4_chk c s domain_part_length in
      Ok (h, is_local, c3, c4).

(** [v_parse_str], /repo/validators-derive/src/validator_handlers/email/mod.rs:992-1286: [local_part_length + 1] at l.1228 and l.1232. *)
Definition email_v_parse_str_chk (c : email_cfg) (s : list N) : outcome email_err email_raw :=
  let length := List.length s in
  if (length =? 0)%nat || (320 <? length)%nat then Err EInvalid
  else
    let? r1 := e_leading_comment_chk c 62 s in
    let '(local_part_length, c1) := r1 in
    let? rl := e_local_part_chk c s local_part_length in
    let '(local_part, need_quoted, quoted, local_part_length) := rl in
    let? r2 := e_comment2_chk c s local_part_length in
    let '(local_part_length, c2) := r2 in
    let? b := idx s local_part_length in
    let? stop := (if negb (b =? 64) then Ok true
                  else let? n := uadd local_part_length 1 in Ok (n =? length)%nat) in
    if (stop : bool) then Err EInvalid
    else
      let? n := uadd local_part_length 1 in
      let? d := str_slice_from s n in
      let? rd := e_domain_part_chk c d (quoted && need_quoted) in
      let '(h, is_local, c3, c4) := rd in
      Ok {| er_local := local_part; er_need_quoted := need_quoted; er_host := h;
            er_c1 := c1; er_c2 := c2; er_c3 := c3; er_c4 := c4; er_is_local := is_local |}.
End WithIdna.
End Machine.
