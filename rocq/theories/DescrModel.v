(** The descriptions ([Visitor::expecting]) that ExpectModel.v leaves out: the constant ones, and those of [validators::Result]. *)
From Verif Require Import Base DeModel.
Local Open Scope N_scope.

(** Models the text of boolean, /repo/validators-derive/src/validator_handlers/boolean/mod.rs:319-320. *)
Definition boolean_expect : list N :=
  bs "a boolean, a boolean string like ""true"", ""false"", ""0"", ""1"", ""on"", ""off"", ""yes"", ""no"", or a number `0` or `1`".

(** Models the text of regex, /repo/validators-derive/src/validator_handlers/regex/mod.rs:94. *)
Definition regex_expect : list N := bs "a string matched by a regular expression".

(** Models the texts of the visitors of [validators::Result], /repo/validators/src/result/serde_traits.rs:34, 89, 142, 197, 250, 308, 393, 491, 526, 554,
    584, 614, 642, 670, 698, 760, 797, 829, 878, 906, 943, 980, 1050, 1095, 1165, 1193; bit, byte, json and length have none (344-362, 456-474, 711-745). *)
Definition wrap_expect (k : kind) : option (list N) :=
  match k with
  | Base32 => Some (bs "Base32Error")
  | Base32Decoded => Some (bs "Base32DecodedError")
  | Base64 => Some (bs "Base64Error")
  | Base64Decoded => Some (bs "Base64DecodedError")
  | Base64Url => Some (bs "Base64UrlError")
  | Base64UrlDecoded => Some (bs "Base64UrlDecodedError")
  | Boolean => Some (bs "BooleanError")
  | Domain => Some (bs "DomainError")
  | Email => Some (bs "EmailError")
  | Host => Some (bs "HostError")
  | HttpUrl => Some (bs "HttpURLError")
  | HttpFtpUrl => Some (bs "HttpFtpURLError")
  | Ip => Some (bs "IpError")
  | Ipv4 => Some (bs "Ipv4Error")
  | Ipv6 => Some (bs "Ipv6Error")
  | Line => Some (bs "LineError")
  | MacAddress => Some (bs "MacAddressError")
  | Number => Some (bs "NumberError")
  | Phone => Some (bs "PhoneError")
  | Regex => Some (bs "RegexError")
  | Semver | SemverReq => Some (bs "SemverError")
  | SignedInteger => Some (bs "SignedIntegerError")
  | Text => Some (bs "TextError")
  | UnsignedInteger => Some (bs "UnsignedIntegerError")
  | Url => Some (bs "UrlError")
  | Uuid => Some (bs "UuidError")
  | Bit | Byte | Json | Length => None
  end.
