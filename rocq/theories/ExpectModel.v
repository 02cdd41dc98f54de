(** The text that each generated visitor gives as what it expects ([Visitor::expecting]); serde puts it in the error of a
    value of the wrong kind.  The texts are built by the macro from the attribute.  Texts are UTF-8 bytes.
    The texts without parameters other than that of byte are in DescrModel.v. *)
From Verif Require Import Base Utf8 IntStr RangeModel LengthModel LineModel BaseModel MacModel DomainModel HostModel EmailModel
  NumberModel.
Local Open Scope N_scope.

(** The end of the texts of ip, ipv4, ipv6, domain and host,
    /repo/validators-derive/src/validator_handlers/ip/mod.rs:463-501, ipv4/mod.rs:351-389, ipv6/mod.rs:383-421,
    domain/mod.rs:1026-1064, host/mod.rs:762-800. *)
Definition expect_net (local port : tri) : list N :=
  match local with
  | Allow => match port with
             | Allow => bs " with an optional port"
             | Must => bs " with a port"
             | Disallow => bs " without ports"
             end
  | Must => bs " which must be local" ++
            match port with
            | Allow => []
            | Must => bs " and with a port"
            | Disallow => bs " and without ports"
            end
  | Disallow => bs " which must not be local" ++
                match port with
                | Allow => []
                | Must => bs " and must be with a port"
                | Disallow => bs " and must be without ports"
                end
  end.

(** Model the texts of ip, ipv4 and ipv6, /repo/validators-derive/src/validator_handlers/ip/mod.rs:460-504,
    ipv4/mod.rs:348-392, ipv6/mod.rs:380-424. *)
Definition ip_expect (port local : tri) : list N := bs "an IP string" ++ expect_net local port.
Definition ipv4_expect (port local : tri) : list N := bs "an IPv4 string" ++ expect_net local port.
Definition ipv6_expect (port local : tri) : list N := bs "an IPv6 string" ++ expect_net local port.

(** Models the text of domain, /repo/validators-derive/src/validator_handlers/domain/mod.rs:998-1067. *)
Definition domain_expect (c : domain_cfg) : list N :=
  bs "a correct " ++
  match d_ipv4 c with
  | Allow => match d_two c with
             | Allow => []
             | Must => bs "at-least-two-labels "
             | Disallow => bs "one-label "
             end ++ bs "domain name"
  | Must => bs "IPv4 string"
  | Disallow => (if is_must (d_two c) then bs "at-least-two-labels and " else []) ++ bs "non-IPv4 domain name"
  end ++ expect_net (d_local c) (d_port c).

(** Models the text of host, /repo/validators-derive/src/validator_handlers/host/mod.rs:747-803. *)
Definition host_expect (c : host_cfg) : list N :=
  bs "a non-fully-qualified " ++
  match h_two c with
  | Allow => []
  | Must => bs "and at-least-two-labels "
  | Disallow => bs "and one-label "
  end ++ bs "domain name or an IP string" ++ expect_net (h_local c) (h_port c).

(** Models the text of email, /repo/validators-derive/src/validator_handlers/email/mod.rs:1695-1734. *)
Definition email_expect (c : email_cfg) : list N :=
  (if e_non_ascii c then bs "an email" else bs "an ASCII email") ++
  match e_ip c with
  | Allow => match e_two c with
             | Allow => []
             | Must => bs " whose domain part must be at-least-two-labels"
             | Disallow => bs " whose domain part must be one-label"
             end
  | Must => bs " whose domain part must be an IP"
  | Disallow => bs " whose domain part must be non-IP" ++
                match e_two c with
                | Allow => []
                | Must => bs " and at-least-two-labels"
                | Disallow => bs " and one-label"
                end
  end.

(** Model the texts of http_url and http_ftp_url, /repo/validators-derive/src/validator_handlers/http_url/mod.rs:162-176,
    http_ftp_url/mod.rs:163-177. *)
Definition expect_local (local : tri) : list N :=
  match local with
  | Allow => []
  | Must => bs " which must be local"
  | Disallow => bs " which must not be local"
  end.
Definition http_expect (local : tri) : list N := bs "a http/https url" ++ expect_local local.
Definition http_ftp_expect (local : tri) : list N := bs "a http/https/ftp url" ++ expect_local local.

(** Models the texts of the base family, /repo/validators-derive/src/validator_handlers/base32/mod.rs:219-223, base64/mod.rs:219-223,
    base64_url/mod.rs:220-224, base32_decoded/mod.rs:246-250, base64_decoded/mod.rs:246-250, base64_url_decoded/mod.rs:246-250. *)
Definition base_expect (f : flavour) (padding : tri) : list N :=
  match f with
  | B32 => bs "a Base32 string or data"
  | B64 => bs "a Base64 string or data"
  | B64Url => bs "a Base64-url string or data"
  end ++
  match padding with
  | Allow => []
  | Must => bs " with padding"
  | Disallow => bs " without padding"
  end.

(** Models [Debug for char] on the characters below 256, as used at
    /repo/validators-derive/src/validator_handlers/mac_address/mod.rs:371 and 378: quotes around the character, the short escapes,
    [\u{..}] for a character that is not printable. *)
Definition char_debug (c : N) : list N :=
  [39] ++
  (if c =? 0 then bs "\0"
   else if c =? 9 then bs "\t"
   else if c =? 10 then bs "\n"
   else if c =? 13 then bs "\r"
   else if c =? 39 then bs "\'"
   else if c =? 92 then bs "\\"
   else if (c <? 32) || ((127 <=? c) && (c <=? 160)) || (c =? 173)
        then bs "\u{" ++ hex_fmt 0 false c ++ bs "}"
        else utf8_char c) ++ [39].

(** Model the texts of mac_address and uuid, /repo/validators-derive/src/validator_handlers/mac_address/mod.rs:352-383,
    uuid/mod.rs:372-403. *)
Definition expect_case (case : case_option) : list N :=
  match case with
  | AnyCase => []
  | UpperCase => bs "upper-case "
  | LowerCase => bs "lower-case "
  end.
Definition expect_sep (sep : sep_option) : list N :=
  match sep with
  | SepMust e => bs " with separators " ++ char_debug e
  | SepAllow e => bs " with optional separators " ++ char_debug e
  | SepDisallow => bs " without separators"
  end.
Definition mac_expect (case : case_option) (sep : sep_option) : list N :=
  bs "a valid " ++ expect_case case ++ bs "MacAddress string" ++ expect_sep sep.
Definition uuid_expect (case : case_option) (sep : sep_option) : list N :=
  bs "a valid " ++ expect_case case ++ bs "UUID string" ++ expect_sep sep.

(** A number written into a text when it is there, /repo/validators-derive/src/validator_handlers/number/mod.rs:341-343. *)
Definition expect_opt {T} (show : T -> list N) (x : option T) : list N :=
  match x with Some v => show v | None => [] end.

(** The range part of the texts of number, signed_integer and unsigned_integer,
    /repo/validators-derive/src/validator_handlers/number/mod.rs:332-376, signed_integer/mod.rs:530-574,
    unsigned_integer/mod.rs:513-557.  [show] is the text of the literal token of a bound. *)
Definition expect_bounds {T} (show : T -> list N) (min max : option T) (inclusive : bool) : list N :=
  expect_opt show min ++ bs ".." ++
  match max with
  | Some m => (if inclusive then bs "=" else []) ++ show m
  | None => []
  end.
Definition expect_range {T} (show : T -> list N) (r : range_tokens T) : list N :=
  match r with
  | TInside min max inclusive _ => bs " in " ++ expect_bounds show min max inclusive
  | TOutside min max inclusive _ => bs " not in " ++ expect_bounds show min max inclusive
  | TUnlimited => []
  end.

(** Model the texts of signed_integer, unsigned_integer and number,
    /repo/validators-derive/src/validator_handlers/signed_integer/mod.rs:527-577, unsigned_integer/mod.rs:510-560,
    number/mod.rs:329-389. *)
Definition int_expect (sg : bool) (show : Z -> list N) (r : range_tokens Z) : list N :=
  (if sg then bs "a signed integer" else bs "a unsigned integer") ++ expect_range show r.
Definition number_expect (show : SpecFloat.spec_float -> list N) (r : range_tokens SpecFloat.spec_float) (nan : tri) : list N :=
  bs "a number" ++ expect_range show r ++
  match nan with
  | Allow => []
  | Must => bs " which must be NaN"
  | Disallow => bs " which must not be NaN"
  end.

(** Models the text of line and text, /repo/validators-derive/src/validator_handlers/line/mod.rs:781-803,
    text/mod.rs:781-803: the two blocks are the same; [k] is the validator.  The limits are those of line/mod.rs:32-44. *)
Definition line_expect (k : line_kind) (a : line_attr) : list N :=
  let l := match a with Some (_, l) => l | None => mk_len None None None end in
  bs "a line" ++
  match l_min l, l_tmin l, l_max l with
  | None, None, None => []
  | min, trimmed_min, max =>
      bs " in " ++ expect_opt dec_of_N min ++
      match trimmed_min with Some t => bs "(" ++ dec_of_N t ++ bs ")" | None => [] end ++ bs ".." ++
      match max with Some m => bs "=" ++ dec_of_N m | None => [] end
  end.

(** Models the text of byte, whatever the range, /repo/validators-derive/src/validator_handlers/byte/mod.rs:196-197
    (bit has no visitor of its own). *)
Definition byte_expect (r : range N) : list N :=
  bs "a string such as ""123"", ""123Kib"", ""50.84 Mb"", or a positive integer".

(** Models the debug text of a [HashSet] (core library), which lists the elements in the order of iteration; [show] is the debug text of an element
    (written at /repo/validators-derive/src/validator_handlers/phone/mod.rs:173). *)
Definition debug_set {T} (show : T -> list N) (l : list T) : list N :=
  bs "{" ++
  match l with
  | [] => []
  | x :: l => show x ++ List.concat (List.map (fun y => bs ", " ++ show y) l)
  end ++ bs "}".

(** Models the text of phone, /repo/validators-derive/src/validator_handlers/phone/mod.rs:165-177; [cs] is the order in which the macro iterates over its
    hash set. *)
Definition phone_expect {T} (show : T -> list N) (cs : list T) : list N :=
  match cs with
  | [] => bs "an international phone number"
  | _ => bs "a phone number in " ++ debug_set show cs
  end.
