(** The examples of the crate documentation, /repo/validators/src/lib.rs:42-790, run on the model: every declaration goes through
    the model of the derive macro, and what is asserted of the declared type is evaluated on the configuration the macro
    returns.  These are tests of the model, not proofs. *)
From Coq Require Import SpecFloat.
From Verif Require Import Base BaseModel CodecModel MacModel IntModel NumberModel LengthModel LineModel SizeModel BooleanModel IpModel
  DomainModel HostModel EmailModel PhoneModel RangeModel FloatModel FloatText MetaModel MacroModel ConformNet.
From Verif Require HttpModel.
Local Open Scope N_scope.

(** [country::Id::from_str] for the two countries of the examples (external crate phonenumber).
    (/repo/validators/src/lib.rs:564-597.) *)
Definition doc_country (s : list N) : option (list N) :=
  if eqbs s (bs "TW") then Some s else if eqbs s (bs "US") then Some s else None.

(** [#\[derive(Validator)\] #\[validator(name(args))\]] on a struct with these fields, with all cargo features on.
    (e.g. /repo/validators/src/lib.rs:48-50.) *)
Definition declare (name : ident) (args : list meta) (fs : syn_fields) : outcome macro_err (expansion (list N)) :=
  derive doc_country eqbs (fun _ => true) float_of_text W64 (fun _ => true) {| f_serde := true; f_rocket := true; f_full := true |}
    {| di_attrs := [MList [bs "validator"]
         [IMeta (match args with [] => MPath [name] | _ => MList [name] (map IMeta args) false end)] false];
       di_data := DataStruct fs; di_params := 0 |}.
(** [name(Word)] and [name = literal] as written in the examples.
    (e.g. /repo/validators/src/lib.rs:49, 215.) *)
Definition word (name w : ident) : meta := MList [name] [IMeta (MPath [w])] false.
Definition value (name : ident) (e : expr) : meta := MNameValue [name] e.
Definition int (digits : list N) : expr := ELit (LitInt digits).

(** [assert!(T::parse_string(text).is_ok())] or [.is_err()], for a list of texts.
    (e.g. /repo/validators/src/lib.rs:52-53.) *)
Definition asserts {E A} (run : list N -> outcome E A) (tests : list (list N * bool)) : bool :=
  forallb (fun t => match accepted (run (fst t)) with Some b => Bool.eqb b (snd t) | None => false end) tests.

(** /repo/validators/src/lib.rs:42-158. *)
Example doc_base :
  match declare (bs "base32") [word (bs "padding") (bs "Must")] (FUnnamed [bs "String"]),
        declare (bs "base32_decoded") [word (bs "padding") (bs "Must")] (FUnnamed [bs "Vec < u8 >"]) with
  | Ok (GBase v a), Ok (GBase w b) =>
      asserts (base_parse_str (flavour_of v) (ba_padding a)) [(bs "GEZDGNBVGY3TQOI=", true); (bs "GEZDGNBVGY3TQOI", false)] = true /\
      base_parse_str (flavour_of v) (ba_padding a) (bs "GEZDGNBVGY3TQOI=") = Ok (bs "GEZDGNBVGY3TQOI=") /\
      asserts (dec_parse_str (flavour_of w) (ba_padding b)) [(bs "GEZDGNBVGY3TQOI=", true); (bs "GEZDGNBVGY3TQOI", false)] = true /\
      dec_parse_str (flavour_of w) (ba_padding b) (bs "GEZDGNBVGY3TQOI=") = Ok (bs "123456789")
  | _, _ => False
  end /\
  match declare (bs "base64") [word (bs "padding") (bs "Must")] (FUnnamed [bs "String"]),
        declare (bs "base64_decoded") [word (bs "padding") (bs "Must")] (FUnnamed [bs "Vec < u8 >"]) with
  | Ok (GBase v a), Ok (GBase w b) =>
      asserts (base_parse_str (flavour_of v) (ba_padding a)) [(bs "MTIzNDU2Nzg5MA==", true); (bs "MTIzNDU2Nzg5MA", false)] = true /\
      asserts (dec_parse_str (flavour_of w) (ba_padding b)) [(bs "MTIzNDU2Nzg5MA==", true); (bs "MTIzNDU2Nzg5MA", false)] = true /\
      dec_parse_str (flavour_of w) (ba_padding b) (bs "MTIzNDU2Nzg5MA==") = Ok (bs "1234567890")
  | _, _ => False
  end /\
  match declare (bs "base64_url") [word (bs "padding") (bs "Disallow")] (FUnnamed [bs "String"]),
        declare (bs "base64_url_decoded") [word (bs "padding") (bs "Disallow")] (FUnnamed [bs "Vec < u8 >"]) with
  | Ok (GBase v a), Ok (GBase w b) =>
      asserts (base_parse_str (flavour_of v) (ba_padding a)) [(bs "5LmN5pqW6YKE5a-S5pmC5YCZ", true); (bs "5LmN5pqW6YKE5a+S5pmC5YCZ", false)] = true /\
      asserts (dec_parse_str (flavour_of w) (ba_padding b)) [(bs "5LmN5pqW6YKE5a-S5pmC5YCZ", true); (bs "5LmN5pqW6YKE5a+S5pmC5YCZ", false)] = true /\
      dec_parse_str (flavour_of w) (ba_padding b) (bs "5LmN5pqW6YKE5a-S5pmC5YCZ")
        = Ok [228; 185; 141; 230; 154; 150; 233; 130; 132; 229; 175; 146; 230; 153; 130; 229; 128; 153]
  | _, _ => False
  end.
Proof. vm_compute. repeat split. Qed.

(** [Bit::parse_str] and [Byte::parse_str] on the texts of the examples (external crate byte-unit).
    (/repo/validators/src/lib.rs:174-176, 219-221.) *)
Definition doc_size (s : list N) : option N :=
  if eqbs s (bs "1kb") || eqbs s (bs "1KB") then Some 1000 else if eqbs s (bs "0b") || eqbs s (bs "0B") then Some 0 else None.

(** /repo/validators/src/lib.rs:162-228. *)
Example doc_sizes_boolean :
  match declare (bs "bit") [MList [bs "range"] [IMeta (value (bs "min") (int (bs "1")))] false] (FUnnamed [bs "Bit"]),
        declare (bs "byte") [MList [bs "range"] [IMeta (value (bs "min") (int (bs "1")))] false;
                             value (bs "ignore_case") (ELit (LitBool false))] (FUnnamed [bs "Byte"]) with
  | Ok (GBit a), Ok (GByte b) =>
      size_parse_str doc_size (bi_range a) (bs "1kb") = Ok 1000 /\ accepted (size_parse_str doc_size (bi_range a) (bs "0b")) = Some false /\
      size_parse_str doc_size (by_range b) (bs "1KB") = Ok 1000 /\ accepted (size_parse_str doc_size (by_range b) (bs "0B")) = Some false /\
      by_ignore_case b = false
  | _, _ => False
  end /\
  match declare (bs "boolean") [] (FUnnamed [bs "bool"]) with
  | Ok (GBasic Vboolean _) =>
      map bool_parse_str [bs "true"; bs "f"; bs "y"; bs "no"; bs "on"; bs "off"; bs "1"]
        = [Ok true; Ok false; Ok true; Ok false; Ok true; Ok false; Ok true] /\
      bool_parse_char 116 = Ok true /\ bool_parse_char 48 = Ok false /\ bool_parse_int true W64 Isize 1 = Ok true
  | _ => False
  end.
Proof. vm_compute. repeat split. Qed.

(** /repo/validators/src/lib.rs:232-257. *)
Example doc_domain :
  let four p := [word (bs "ipv4") (bs "Allow"); word (bs "local") (bs "Allow"); word (bs "port") p;
                 word (bs "at_least_two_labels") (bs "Allow")] in
  match declare (bs "domain") (four (bs "Disallow")) (FUnnamed [bs "String"]),
        declare (bs "domain") (four (bs "Allow")) (FNamed [bs "domain"; bs "port"]) with
  | Ok (GDomain a), Ok (GDomain b) =>
      asserts (domain_parse_str idna_tests (domain_cfg_of a)) [(bs "example.com", true); (bs "example.com.", true)] = true /\
      omap dv_domain (domain_parse_str idna_tests (domain_cfg_of a) [228; 184; 173; 230; 150; 135; 46; 99; 111; 109])
        = Ok (bs "xn--fiq228c.com") /\
      omap dv_port (domain_parse_str idna_tests (domain_cfg_of b) (bs "example.com:8080")) = Ok (Some 8080)
  | _, _ => False
  end.
Proof. vm_compute. repeat split. Qed.

(** /repo/validators/src/lib.rs:261-294. *)
Example doc_email :
  let five p := [word (bs "comment") p; word (bs "ip") (bs "Allow"); word (bs "local") (bs "Allow");
                 word (bs "at_least_two_labels") (bs "Allow"); word (bs "non_ascii") (bs "Allow")] in
  let three := [bs "local_part"; bs "need_quoted"; bs "domain_part"] in
  match declare (bs "email") (five (bs "Allow"))
          (FNamed (three ++ [bs "comment_before_local_part"; bs "comment_after_local_part"; bs "comment_before_domain_part";
                             bs "comment_after_domain_part"])),
        declare (bs "email") (five (bs "Disallow")) (FNamed three) with
  | Ok (GEmail a), Ok (GEmail b) =>
      asserts (email_parse_str idna_tests Debug (email_cfg_of a)) [(bs "(john)joke@example.com", true)] = true /\
      asserts (email_parse_str idna_tests Debug (email_cfg_of b)) [(bs "(john)joke@example.com", false)] = true
  | _, _ => False
  end.
Proof. vm_compute. repeat split. Qed.

(** /repo/validators/src/lib.rs:298-319. *)
Example doc_host :
  match declare (bs "host") [word (bs "local") (bs "Allow"); word (bs "port") (bs "Allow"); word (bs "at_least_two_labels") (bs "Must")]
          (FNamed [bs "host"; bs "port"; bs "is_local"]) with
  | Ok (GHost a) =>
      asserts (host_parse_str idna_tests (host_cfg_of a)) [(bs "example.com:8000", true); (bs "example.com.", false); (bs "example", false)] = true
  | _ => False
  end.
Proof. vm_compute. reflexivity. Qed.

(** [Url::parse] and [Url::host] on the texts of the examples (external crate url): the text itself, and the domain example.org.
    (/repo/validators/src/lib.rs:336-338, 361-363.) *)
Definition doc_url_host (u : list N) : option HttpModel.url_host := Some (HttpModel.HDomain (bs "example.org")).

(** /repo/validators/src/lib.rs:323-368. *)
Example doc_http :
  match declare (bs "http_url") [word (bs "local") (bs "Allow")] (FNamed [bs "url"; bs "is_https"]),
        declare (bs "http_ftp_url") [word (bs "local") (bs "Allow")] (FNamed [bs "url"; bs "protocol"]) with
  | Ok (GHttp Vhttp_url a), Ok (GHttp Vhttp_ftp_url b) =>
      asserts (HttpModel.http_parse_str _ Some doc_url_host (ua_local a))
        [(bs "https://example.org/", true); (bs "http://example.org/", true); (bs "ftp://example.org/", false)] = true /\
      asserts (HttpModel.http_ftp_parse_str _ Some doc_url_host (ua_local b))
        [(bs "https://example.org/", true); (bs "http://example.org/", true); (bs "ftp://example.org/", true)] = true
  | _, _ => False
  end.
Proof. vm_compute. repeat split. Qed.

(** /repo/validators/src/lib.rs:372-439. *)
Example doc_ip :
  let two := [word (bs "local") (bs "Allow"); word (bs "port") (bs "Allow")] in
  match declare (bs "ip") two (FNamed [bs "ip"; bs "port"]), declare (bs "ipv4") two (FNamed [bs "ipv4"; bs "port"]),
        declare (bs "ipv6") two (FNamed [bs "ipv6"; bs "port"]) with
  | Ok (GIp Vip a), Ok (GIp Vipv4 b), Ok (GIp Vipv6 c) =>
      asserts (ip_parse_str (ia_port a) (ia_local a)) [(bs "127.0.0.1", true); (bs "[::ffff:c000:0280]:8000", true)] = true /\
      asserts (ipv4_parse_str (ia_port b) (ia_local b)) [(bs "127.0.0.1", true)] = true /\
      asserts (ipv6_parse_str (ia_port c) (ia_local c)) [(bs "::ffff:c000:0280", true); (bs "[::ffff:c000:0280]", true)] = true
  | _, _, _ => False
  end.
Proof. vm_compute. repeat split. Qed.

(** /repo/validators/src/lib.rs:472-508, 713-730. *)
Example doc_lengths :
  match declare (bs "length") [value (bs "min") (int (bs "1")); value (bs "max") (int (bs "3"))] (FUnnamed [bs "Vec < u8 >"]) with
  | Ok (GLength a) =>
      asserts (parse_collection (fun v => N.of_nat (List.length v)) (ca_min a) (ca_max a)) [([], false); ([0], true); ([0; 1; 2; 3], false)] = true
  | _ => False
  end /\
  let limits := [MList [bs "char_length"] [IMeta (value (bs "trimmed_min") (int (bs "1"))); IMeta (value (bs "min") (int (bs "1")));
                                           IMeta (value (bs "max") (int (bs "1000")))] false] in
  match declare (bs "line") limits (FUnnamed [bs "String"]), declare (bs "text") limits (FUnnamed [bs "String"]) with
  | Ok (GLine a), Ok (GText b) =>
      asserts (line_parse_str Line (ta_length a)) [(bs "123", true); (bs "123" ++ [0], false); (bs "123" ++ [10] ++ bs "456", false); (bs "   ", false)] = true /\
      asserts (line_parse_str Text (ta_length b)) [(bs "123", true); (bs "123" ++ [0], false); (bs "123" ++ [10] ++ bs "456", true); (bs "   ", false)] = true
  | _, _ => False
  end.
Proof. vm_compute. repeat split. Qed.

(** /repo/validators/src/lib.rs:512-527, 775-789. *)
Example doc_hex :
  let sep c := MList [bs "separator"] [IMeta (MList [bs "Allow"] [ILit (LitByte c)] false)] false in
  match declare (bs "mac_address") [word (bs "case") (bs "Upper"); sep 58] (FUnnamed [bs "u64"]),
        declare (bs "uuid") [word (bs "case") (bs "Upper"); sep 45] (FUnnamed [bs "u128"]) with
  | Ok (GMac a), Ok (GUuid b) =>
      asserts (mac_parse_str (xa_case a) (xa_sep a)) [(bs "080027B246C3", true); (bs "08:00:27:B2:46:C3", true)] = true /\
      asserts (uuid_parse_str (xa_case b) (xa_sep b)) [(bs "A866664AF9D34DDE89CB182015FA4F41", true);
                                                       (bs "A866664A-F9D3-4DDE-89CB-182015FA4F41", true)] = true
  | _, _ => False
  end.
Proof. vm_compute. repeat split. Qed.

(** /repo/validators/src/lib.rs:531-556, 823. *)
Example doc_number :
  match declare (bs "number") [word (bs "nan") (bs "Disallow"); word (bs "range") (bs "Unlimited")] (FUnnamed [bs "f64"]),
        declare (bs "number") [word (bs "nan") (bs "Allow");
          MList [bs "range"] [IMeta (MList [bs "Inside"] [IMeta (value (bs "min") (int (bs "0")));
                                                          IMeta (value (bs "max") (ELit (LitFloat (bs "1.0"))))] false)] false] (FUnnamed [bs "f32"]),
        declare (bs "number") [MList [bs "range"] [IMeta (MList [bs "Outside"] [IMeta (value (bs "max") (int (bs "0")))] false)] false] (FUnnamed [bs "f64"]) with
  | Ok (GNumber F64 a), Ok (GNumber F32 b), Ok (GNumber F64 c) =>
      asserts (num_parse_str (float_of_text F64) (na_range a) (na_nan a)) [(bs "123.456", true); (bs "NaN", false)] = true /\
      asserts (num_parse_str (float_of_text F32) (na_range b) (na_nan b)) [(bs "0", true); (bs "1", true); (bs "1.1", false); (bs "NaN", true)] = true /\
      asserts (num_parse_str (float_of_text F64) (na_range c) (na_nan c)) [(bs "1", true); (bs "0", false)] = true
  | _, _, _ => False
  end.
Proof. vm_compute. repeat split. Qed.

(** [phonenumber::parse] on the texts of the examples, as the country of the number (external crate phonenumber).
    (/repo/validators/src/lib.rs:582-592.) *)
Definition doc_phone (c : option (list N)) (s : list N) : list N + unit :=
  if eqbs s (bs "+886912345678") then inl (bs "TW") else if eqbs s (bs "+14155552671") then inl (bs "US")
  else match c with Some c => if eqbs s (bs "0912345678") then inl c else inr tt | None => inr tt end.

(** /repo/validators/src/lib.rs:560-597. *)
Example doc_phones :
  let countries l := [MList [bs "countries"] (map (fun i => IMeta (MPath [i])) l) false] in
  match declare (bs "phone") [] (FUnnamed [bs "PhoneNumber"]), declare (bs "phone") (countries [bs "TW"]) (FUnnamed [bs "PhoneNumber"]),
        declare (bs "phone") (countries [bs "TW"; bs "US"]) (FUnnamed [bs "HashMap"]) with
  | Ok (GPhone a), Ok (GPhone b), Ok (GPhone c) =>
      let run x := phone_parse_str _ eqbs _ unit doc_phone Some (fun _ => true) (pa_countries x) in
      asserts (run a) [(bs "+886912345678", true); (bs "0912345678", false); (bs "+14155552671", true)] = true /\
      asserts (run b) [(bs "+886912345678", true); (bs "0912345678", true); (bs "+14155552671", false)] = true /\
      asserts (run c) [(bs "+886912345678", true); (bs "0912345678", true); (bs "+14155552671", true)] = true
  | _, _, _ => False
  end.
Proof. vm_compute. repeat split. Qed.

(** /repo/validators/src/lib.rs:686-709, 734-750. *)
Example doc_integers :
  let range k lo hi := [MList [bs "range"] [IMeta (MList [k] [IMeta (value (bs "min") lo); IMeta (value (bs "max") hi)] false)] false] in
  match declare (bs "signed_integer") (range (bs "Inside") (ENeg (LitInt (bs "1"))) (int (bs "100"))) (FUnnamed [bs "i8"]),
        declare (bs "signed_integer") (range (bs "Outside") (int (bs "0")) (int (bs "0"))) (FUnnamed [bs "i16"]),
        declare (bs "unsigned_integer") (range (bs "Inside") (int (bs "1")) (int (bs "100"))) (FUnnamed [bs "u8"]) with
  | Ok (GInt true I8 a), Ok (GInt true I16 b), Ok (GInt false U8 c) =>
      asserts (int_parse_str true W64 I8 (ra_range a)) [(bs "0", true); (bs "-2", false)] = true /\
      int_parse true W64 I8 (ra_range a) I8 4 = Ok 4%Z /\
      map (fun z => accepted (int_parse true W64 I16 (ra_range b) I8 z)) [4; -4; 0]%Z = [Some true; Some true; Some false] /\
      asserts (int_parse_str false W64 U8 (ra_range c)) [(bs "5", true); (bs "0", false)] = true /\
      int_parse false W64 U8 (ra_range c) U8 4 = Ok 4%Z
  | _, _, _ => False
  end.
Proof. vm_compute. repeat split. Qed.

(** The declarations whose checks are left to an external crate: json, regex, semver, semver_req and url,
    /repo/validators/src/lib.rs:443-468, 601-682, 754-771. *)
Example doc_external :
  declare (bs "json") [] (FUnnamed [bs "String"]) = Ok (GBasic Vjson opts0) /\
  declare (bs "regex") [MList [bs "regex"] [ILit (LitStr (bs "^[0-9a-fA-F]+$"))] false] (FUnnamed [bs "String"])
    = Ok (GRegex (RePattern (bs "^[0-9a-fA-F]+$")) opts0) /\
  declare (bs "regex") [MList [bs "regex"] [IMeta (MPath [bs "RE_POKER"])] false] (FUnnamed [bs "String"]) = Ok (GRegex ReExpr opts0) /\
  declare (bs "semver") [] (FUnnamed [bs "Version"]) = Ok (GBasic Vsemver opts0) /\
  declare (bs "semver_req") [] (FUnnamed [bs "VersionReq"]) = Ok (GBasic Vsemver_req opts0) /\
  declare (bs "url") [] (FUnnamed [bs "Url"]) = Ok (GBasic Vurl opts0).
Proof. vm_compute. repeat split. Qed.
