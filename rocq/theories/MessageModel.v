(** The [Display] texts of the error types and the axum responses made of them. The text of an error of another library that an
    error wraps is the function argument [lib]. *)
From Verif Require Import Base IntStr BaseModel BooleanModel DomainModel EmailModel HostModel IntModel IpModel JsonModel LengthModel
  LineModel MacModel NumberModel PhoneModel SizeModel.
From Verif Require HttpModel.
Local Open Scope N_scope.

(** Models [Display for ParseIntError] of core, used by /repo/validators/src/errors/signed_integer.rs:26 and
    /repo/validators/src/errors/unsigned_integer.rs:26. *)
Definition int_error_message (e : int_error) : list N :=
  match e with
  | IEmpty => bs "cannot parse integer from empty string"
  | IInvalidDigit => bs "invalid digit found in string"
  | IPosOverflow => bs "number too large to fit in target type"
  | INegOverflow => bs "number too small to fit in target type"
  end.

(** Models [Display] of the six error types of /repo/validators/src/errors/base32.rs:14-23,
    /repo/validators/src/errors/base32_decoded.rs:16-26, /repo/validators/src/errors/base64.rs:14-23,
    /repo/validators/src/errors/base64_decoded.rs:16-26, /repo/validators/src/errors/base64_url.rs:14-23 and
    /repo/validators/src/errors/base64_url_decoded.rs:16-26 (the texts of a flavour and of its decoded variant are the same). *)
Definition base_message (f : flavour) (e : base_err) : list N :=
  match e with
  | BInvalid => match f with B32 => bs "invalid Base32" | B64 => bs "invalid Base64" | B64Url => bs "invalid Base64-url" end
  | BPaddingMust => bs "padding not found"
  | BPaddingDisallow => bs "padding not allowed"
  | BDecode => bs "decoded incorrectly"
  end.

(** Models [Display for BitError] and [ByteError], /repo/validators/src/errors/bit.rs:20-29 and
    /repo/validators/src/errors/byte.rs:20-29. *)
Definition size_message (lib : list N) (byte : bool) (e : size_err) : list N :=
  match e with
  | SParse => lib
  | STooLarge => if byte then bs "byte is too large" else bs "bit is too large"
  | STooSmall => if byte then bs "byte is too small" else bs "bit is too small"
  end.

(** Models [Display for BooleanError], /repo/validators/src/errors/boolean.rs:7-12. *)
Definition bool_message (e : bool_err) : list N := bs "invalid boolean".

(** Models [Display for DomainError], /repo/validators/src/errors/domain.rs:26-41. *)
Definition domain_message (e : domain_err) : list N :=
  match e with
  | DInvalid => bs "invalid domain"
  | DIPv4Must => bs "must use an IPv4"
  | DIPv4Disallow => bs "must not use an IPv4"
  | DLocalMust => bs "must be local"
  | DLocalDisallow => bs "must not be local"
  | DTwoLabelsMust => bs "must have at least two labels"
  | DTwoLabelsDisallow => bs "must have only one label"
  | DPortMust => bs "port not found"
  | DPortDisallow => bs "port not allowed"
  end.

(** Models [Display for EmailError], /repo/validators/src/errors/email.rs:24-38. *)
Definition email_message (e : email_err) : list N :=
  match e with
  | EInvalid => bs "invalid Email"
  | EIPMust => bs "must use an IP"
  | EIPDisallow => bs "must not use an IP"
  | ELocalMust => bs "must be local"
  | ELocalDisallow => bs "must not be local"
  | ETwoLabelsMust => bs "must have at least two labels"
  | ETwoLabelsDisallow => bs "must have only one label"
  | ECommentDisallow => bs "must not contain comments"
  end.

(** Models [Display for HostError], /repo/validators/src/errors/host.rs:22-35. *)
Definition host_message (e : host_err) : list N :=
  match e with
  | HoInvalid => bs "invalid domain or IP"
  | HoLocalMust => bs "must be local"
  | HoLocalDisallow => bs "must not be local"
  | HoTwoLabelsMust => bs "must have at least two labels"
  | HoTwoLabelsDisallow => bs "must have only one label"
  | HoPortMust => bs "port not found"
  | HoPortDisallow => bs "port not allowed"
  end.

(** Models [Display for HttpURLError] ([ftp = false]) and [HttpFtpURLError] ([ftp = true]),
    /repo/validators/src/errors/http_url.rs:22-32 and /repo/validators/src/errors/http_ftp_url.rs:22-34. *)
Definition http_message (lib : list N) (ftp : bool) (e : HttpModel.http_err) : list N :=
  match e with
  | HttpModel.HParseError => lib
  | HttpModel.HProtocolError =>
      if ftp then bs "need to use `http`, `https` or `ftp` as a protocol" else bs "need to use `http` or `https` as a protocol"
  | HttpModel.HLocalMust => bs "must be local"
  | HttpModel.HLocalDisallow => bs "must not be local"
  end.

(** The three ip validators (/repo/validators/src/errors/ip.rs, ipv4.rs and ipv6.rs). *)
Inductive ip_family := AnyIp | Ip4 | Ip6.

(** Models [Display for IpError], [Ipv4Error] and [Ipv6Error], /repo/validators/src/errors/ip.rs:18-29,
    /repo/validators/src/errors/ipv4.rs:18-29 and /repo/validators/src/errors/ipv6.rs:18-29. *)
Definition ip_message (k : ip_family) (e : ip_err) : list N :=
  match e with
  | IpInvalid => match k with AnyIp => bs "invalid IP" | Ip4 => bs "invalid IPv4" | Ip6 => bs "invalid IPv6" end
  | IpLocalMust => bs "must be local"
  | IpLocalDisallow => bs "must not be local"
  | IpPortMust => bs "port not found"
  | IpPortDisallow => bs "port not allowed"
  end.

(** Models [Display for JsonError], /repo/validators/src/errors/json.rs:18-26. *)
Definition json_message (lib : list N) (e : json_err) : list N :=
  match e with SerdeJsonError => lib | InvalidJsonValueError => bs "invalid json value" end.

(** Models [Display for LengthError], /repo/validators/src/errors/length.rs:10-18 ([Unbound], code that does not compile, has no
    text). *)
Definition length_message (e : length_err) : list N :=
  match e with LTooLarge => bs "collection is too large" | LTooSmall => bs "collection is too small" | Unbound => [] end.

(** Models [Display for LineError] and [TextError], /repo/validators/src/errors/line.rs:13-22 and
    /repo/validators/src/errors/text.rs:13-22. *)
Definition line_message (k : line_kind) (e : line_err) : list N :=
  match k, e with
  | Line, LInvalid => bs "invalid line" | Line, LTooLong => bs "line is too long" | Line, LTooShort => bs "line is too short"
  | Text, LInvalid => bs "invalid text" | Text, LTooLong => bs "text is too long" | Text, LTooShort => bs "text is too short"
  end.

(** Models [Display for MacAddressError] and [UuidError], /repo/validators/src/errors/mac_address.rs:14-23 and
    /repo/validators/src/errors/uuid.rs:14-23. *)
Definition hex_message (mac : bool) (e : hex_err) : list N :=
  match e with
  | HInvalid => if mac then bs "invalid mac address" else bs "invalid uuid"
  | HSeparatorMust => bs "separators not found"
  | HSeparatorDisallow => bs "separators not allowed"
  end.

(** Models [Display for NumberError], /repo/validators/src/errors/number.rs:24-36. *)
Definition number_message (lib : list N) (e : num_err) : list N :=
  match e with
  | NParseFloat => lib
  | NTooLarge => bs "number is too large"
  | NTooSmall => bs "number is too small"
  | NForbidden => bs "number is forbidden"
  | NaNMust => bs "must be NaN"
  | NaNDisallow => bs "must not be NaN"
  end.

(** Models [Display for SignedIntegerError] and [UnsignedIntegerError], /repo/validators/src/errors/signed_integer.rs:22-32 and
    /repo/validators/src/errors/unsigned_integer.rs:22-32. *)
Definition int_message (e : int_err) : list N :=
  match e with
  | ParseInt e => int_error_message e
  | TooLarge => bs "integer is too large"
  | TooSmall => bs "integer is too small"
  | Forbidden => bs "integer is forbidden"
  end.

(** Models [Display for PhoneError], /repo/validators/src/errors/phone.rs:21-29. *)
Definition phone_message {perr} (lib : perr -> list N) (e : phone_err perr) : list N :=
  match e with PParseError e => lib e | PInvalid => bs "invalid phone number" end.

(** Models [Display for RegexError], /repo/validators/src/errors/regex.rs:7-12. *)
Definition regex_message : list N := bs "invalid format".

(** Models [into_response] for every error type, /repo/validators/src/errors/axum_traits.rs:10-62: the status and the body. *)
Definition into_response {E} (message : E -> list N) (e : E) : N * list N := (400, message e).
