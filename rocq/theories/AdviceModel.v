(** The texts of the compile errors of the derive macro that tell the user what to write instead: the lists of
    validators and of parameters, and the words and forms offered for a value. *)
From Verif Require Import Base RangeModel MetaModel MacroModel.
Local Open Scope N_scope.

(** Models [path_to_string], /repo/validators-derive/src/common/mod.rs (the tokens of the path without spaces). A path is
    its segments here, so generic arguments are not shown. *)
Fixpoint path_text (p : path) : list N :=
  match p with
  | [] => []
  | [i] => i
  | i :: r => i ++ bs "::" ++ path_text r
  end.

(** The five bytes that [f.write_str] puts before every entry: a line feed and four spaces.
    (/repo/validators-derive/src/panic.rs:18, 33.) *)
Definition entry_start : list N := 10 :: bs "    ".

(** Models [DisplayStringSlice::fmt], /repo/validators-derive/src/panic.rs:13-25. *)
Fixpoint display_slice (l : list (list N)) : list N :=
  match l with
  | [] => []
  | s :: l => entry_start ++ s ++ display_slice l
  end.

(** Models [Validator::VARIANTS] without its last element [_Nothing], in the order of the declaration; a variant exists
    only if the cargo feature of the same name is on.
    (/repo/validators-derive/src/supported_validators.rs:44-108 and /repo/validators-derive/src/panic.rs:32.) *)
Definition declared_validators : list validator :=
  [Vbase32; Vbase32_decoded; Vbase64; Vbase64_decoded; Vbase64_url; Vbase64_url_decoded; Vbit; Vboolean; Vbyte; Vdomain;
   Vemail; Vhost; Vhttp_url; Vhttp_ftp_url; Vip; Vipv4; Vipv6; Vjson; Vlength; Vline; Vmac_address; Vnumber; Vphone;
   Vregex; Vsemver; Vsemver_req; Vsigned_integer; Vtext; Vunsigned_integer; Vurl; Vuuid].
Definition shown_validators (on : validator -> bool) : list validator := filter on declared_validators.

(** Models the derived [Debug] of the enum: the name of the variant.
    (/repo/validators-derive/src/supported_validators.rs:40-108.) *)
Definition debug_name (v : validator) : list N :=
  match v with
  | Vbase32 => bs "base32" | Vbase32_decoded => bs "base32_decoded" | Vbase64 => bs "base64"
  | Vbase64_decoded => bs "base64_decoded" | Vbase64_url => bs "base64_url"
  | Vbase64_url_decoded => bs "base64_url_decoded" | Vbit => bs "bit" | Vboolean => bs "boolean" | Vbyte => bs "byte"
  | Vdomain => bs "domain" | Vemail => bs "email" | Vhost => bs "host" | Vhttp_url => bs "http_url"
  | Vhttp_ftp_url => bs "http_ftp_url" | Vip => bs "ip" | Vipv4 => bs "ipv4" | Vipv6 => bs "ipv6" | Vjson => bs "json"
  | Vlength => bs "length" | Vline => bs "line" | Vmac_address => bs "mac_address" | Vnumber => bs "number"
  | Vphone => bs "phone" | Vregex => bs "regex" | Vsemver => bs "semver" | Vsemver_req => bs "semver_req"
  | Vsigned_integer => bs "signed_integer" | Vtext => bs "text" | Vunsigned_integer => bs "unsigned_integer"
  | Vurl => bs "url" | Vuuid => bs "uuid"
  end.

(** Models [DisplayValidators::fmt], /repo/validators-derive/src/panic.rs:29-39. *)
Definition display_validators (on : validator -> bool) : list N :=
  display_slice (List.map debug_name (shown_validators on)).

(** Models [unsupported_validator], /repo/validators-derive/src/panic.rs:54-64. *)
Definition unsupported_validator (on : validator -> bool) (name : path) : list N :=
  bs "unsupported validator `" ++ path_text name ++ bs "`, available validators:" ++ display_validators on.

(** Models [parameter_incorrect_format], /repo/validators-derive/src/panic.rs:93-106. *)
Definition unsupported_parameter (name : path) (correct : list (list N)) : list N :=
  bs "unsupported parameter `" ++ path_text name ++ bs "`, available parameters:" ++ display_slice correct.

(** The array [correct_parameters] at the top of each [build_from_meta]:
    /repo/validators-derive/src/common/attributes/base_xx_attribute.rs:18, basic_attribute.rs:17,
    http_xx_url_attribute.rs:18, ip_xx_attribute.rs:19, range_attribute.rs:27, utf8_attribute.rs:18, and
    /repo/validators-derive/src/validator_handlers/bit/bit_attribute.rs:18, byte/byte_attribute.rs:22,
    domain/domain_attribute.rs:25-26, email/email_attribute.rs:26-35, host/host_attribute.rs:20,
    length/length_attribute.rs:17, mac_address/mac_address_attribute.rs:22, number/number_attribute.rs:31,
    phone/phone_attribute.rs:22, regex/regex_attribute.rs:20, uuid/uuid_attribute.rs:22. *)
Definition correct_parameters (v : validator) : list (list N) :=
  match v with
  | Vboolean | Vjson | Vsemver | Vsemver_req | Vurl => [bs "serde"; bs "rocket"]
  | Vbase32 | Vbase32_decoded | Vbase64 | Vbase64_decoded | Vbase64_url | Vbase64_url_decoded =>
      [bs "padding"; bs "serde"; bs "rocket"]
  | Vhttp_url | Vhttp_ftp_url => [bs "local"; bs "serde"; bs "rocket"]
  | Vip | Vipv4 | Vipv6 => [bs "local"; bs "port"; bs "serde"; bs "rocket"]
  | Vsigned_integer | Vunsigned_integer => [bs "range"; bs "serde"; bs "rocket"]
  | Vline | Vtext => [bs "char_length"; bs "byte_length"; bs "serde"; bs "rocket"]
  | Vbit => [bs "range"; bs "serde"; bs "rocket"]
  | Vbyte => [bs "range"; bs "ignore_case"; bs "serde"; bs "rocket"]
  | Vdomain => [bs "ipv4"; bs "local"; bs "port"; bs "at_least_two_labels"; bs "conflict"; bs "serde"; bs "rocket"]
  | Vemail => [bs "comment"; bs "ip"; bs "local"; bs "at_least_two_labels"; bs "non_ascii"; bs "conflict"; bs "serde";
               bs "rocket"]
  | Vhost => [bs "local"; bs "port"; bs "at_least_two_labels"; bs "serde"; bs "rocket"]
  | Vlength => [bs "min"; bs "max"; bs "serde"]
  | Vmac_address | Vuuid => [bs "case"; bs "separator"; bs "serde"; bs "rocket"]
  | Vnumber => [bs "range"; bs "nan"; bs "conflict"; bs "serde"; bs "rocket"]
  | Vphone => [bs "countries"; bs "serde"; bs "rocket"]
  | Vregex => [bs "regex"; bs "serde"; bs "rocket"]
  end.

(** [correct_parameters] of a range and of a length.
    (/repo/validators-derive/src/common/range.rs:116 and common/length.rs:15.) *)
Definition range_parameters : list (list N) := [bs "min"; bs "max"; bs "inclusive"].
Definition length_parameters : list (list N) := [bs "min"; bs "trimmed_min"; bs "max"].

(** The message of the final [Err] of [TriAllow::from_meta], [Allow::from_meta] and [CaseOption::from_meta], with the
    words of the validator written with slashes.
    (/repo/validators-derive/src/common/tri_allow.rs:75-81, allow.rs:62-68, case_option.rs:74-82.) *)
Definition two_forms (name : path) (words : list N) : list N :=
  bs "expected `" ++ path_text name ++ bs " = " ++ words ++ bs "` or `" ++ path_text name ++ bs "(" ++ words ++ bs ")`".
Definition tri_words : list N := bs "Must/Allow/Disallow".
Definition allow_words : list N := bs "Allow/Disallow".
Definition case_words : list N := bs "Any/Upper/Lower".

(** Models the messages of the words: of [from_ident] if there is a word, of [from_meta] otherwise.
    (/repo/validators-derive/src/common/tri_allow.rs:44-82, allow.rs:32-69 and case_option.rs:43-83.) *)
Definition word_message (words : list N) (m : meta) : list N :=
  match m with
  | MNameValue _ (EPath [_]) => bs "expected " ++ words
  | MList _ [IMeta (MPath [_])] false => bs "expected " ++ words
  | _ => two_forms (meta_path m) words
  end.

(** Models the message of [meta_2_flags] for an unknown name, /repo/validators-derive/src/common/flag_options.rs:70-73,
    with the names that /repo/validators-derive/src/common/serde_options.rs:26-32 and rocket_options.rs:26-32 give it. *)
Definition flag_message (first_name second_name : ident) : list N :=
  bs "expected " ++ first_name ++ bs "/" ++ second_name.
Definition serde_flag_message : list N := flag_message (bs "Serialize") (bs "Deserialize").
Definition rocket_flag_message : list N := flag_message (bs "FromFormField") (bs "FromParam").

(** The messages that show the forms of a value: of a number, a boolean, a range option and a separator.
    (/repo/validators-derive/src/common/number.rs:86-91, boolean.rs:32-37, range_option.rs:64-72, separator_option.rs:95-103.) *)
Definition number_forms (p : path) : list N :=
  bs "expected `" ++ path_text p ++ bs " = 0` or `" ++ path_text p ++ bs "(0)`".
Definition bool_forms (p : path) : list N :=
  bs "expected `" ++ path_text p ++ bs " = false` or `" ++ path_text p ++ bs "(false)`".
Definition range_forms (p : path) : list N :=
  bs "expected `" ++ path_text p ++ bs "(Inside(..)/Outside(..)/Unlimited)`".
Definition sep_forms (p : path) : list N :=
  bs "expected `" ++ path_text p ++ bs "(Must(b'-')/Allow(b'-')/Disallow)`".
