(** The derive macro around the attribute: choosing the handler, checking the struct it is put on, and the fields the
    generated code builds and reads. *)
From Coq Require Import SpecFloat.
From Verif Require Import Base IntStr RangeModel IntModel NumberModel LengthModel BaseModel MacModel PhoneModel
  DomainModel HostModel EmailModel MetaModel.
Local Open Scope N_scope.

(** Models [TypeEnum], /repo/validators-derive/src/common/type_enum.rs:4-30 (the variants the handlers use). *)
Inductive type_enum := TString | TVecU8 | TBoolean | TU16 | TU64 | TU128 | TNumber | TSignedInteger | TUnsignedInteger
  | TOptionU16 | TOptionString | TIpAddr | TIpv4Addr | TIpv6Addr | THost | TProtocol | TBit | TByte | TSerde | TVersion
  | TVersionReq | TUrl | TPhoneNumber | THashMapPhoneNumber | TCollectionLength.

(** The fields of a struct with their types: those of an [ITEM] constant printed in the compile error, and those of a
    struct literal of the generated code.
    (/repo/validators-derive/src/common/type_enum.rs:3-31 and the structs above the [ITEM] constants, e.g. /repo/validators-derive/src/validator_handlers/json/mod.rs:16.) *)
Inductive fields_of := Named (fs : list (ident * type_enum)) | Tuple (ts : list type_enum).

(** Models [syn::Fields] as far as the handlers look: the names of named fields, the printed types of unnamed ones.
    (as matched in e.g. /repo/validators-derive/src/validator_handlers/json/mod.rs:21-30.) *)
Inductive syn_fields := FNamed (names : list ident) | FUnnamed (types : list (list N)) | FUnit.

(** Models [syn::Data].
    (as matched in e.g. /repo/validators-derive/src/validator_handlers/json/mod.rs:21-22.) *)
Inductive syn_data := DataStruct (fs : syn_fields) | DataEnum | DataUnion.

(** A field read by the generated code: [self.name] or [self.0].
    (e.g. /repo/validators-derive/src/validator_handlers/domain/mod.rs:896-981.) *)
Inductive access := ReadField (n : ident) | ReadZero.

(** Models [Fields::Unnamed(_) = &data.fields && data.fields.len() == 1], e.g.
    /repo/validators-derive/src/validator_handlers/base32/mod.rs:22-25. *)
Definition tuple1 (fs : syn_fields) : bool := match fs with FUnnamed [_] => true | _ => false end.

(** Models the check of named fields, e.g. /repo/validators-derive/src/validator_handlers/ip/mod.rs:46-72: as many
    fields as names, and every field has one of the names. *)
Definition named_in (names : list ident) (fs : syn_fields) : bool :=
  match fs with
  | FNamed ns => Nat.eqb (List.length ns) (List.length names) && forallb (fun n => existsb (eqbs n) names) ns
  | _ => false
  end.

(** Models the check of the url validators,
    /repo/validators-derive/src/validator_handlers/http_url/mod.rs:30-33 and http_ftp_url/mod.rs:30-33. *)
Definition two_named (fs : syn_fields) : bool := match fs with FNamed [_; _] => true | _ => false end.

(** Models the validators, /repo/validators-derive/src/supported_validators.rs:38-106. *)
Inductive validator := Vbase32 | Vbase32_decoded | Vbase64 | Vbase64_decoded | Vbase64_url | Vbase64_url_decoded | Vbit
  | Vboolean | Vbyte | Vdomain | Vemail | Vhost | Vhttp_url | Vhttp_ftp_url | Vip | Vipv4 | Vipv6 | Vjson | Vlength
  | Vline | Vmac_address | Vnumber | Vphone | Vregex | Vsemver | Vsemver_req | Vsigned_integer | Vtext
  | Vunsigned_integer | Vurl | Vuuid.

(** The arms of [Validator::from_path], /repo/validators-derive/src/supported_validators.rs:115-177. *)
Definition validator_of (s : ident) : option validator :=
  if eqbs s (bs "base32") then Some Vbase32
  else if eqbs s (bs "base32_decoded") then Some Vbase32_decoded
  else if eqbs s (bs "base64") then Some Vbase64
  else if eqbs s (bs "base64_decoded") then Some Vbase64_decoded
  else if eqbs s (bs "base64_url") then Some Vbase64_url
  else if eqbs s (bs "base64_url_decoded") then Some Vbase64_url_decoded
  else if eqbs s (bs "bit") then Some Vbit
  else if eqbs s (bs "boolean") then Some Vboolean
  else if eqbs s (bs "byte") then Some Vbyte
  else if eqbs s (bs "domain") then Some Vdomain
  else if eqbs s (bs "email") then Some Vemail
  else if eqbs s (bs "host") then Some Vhost
  else if eqbs s (bs "http_url") then Some Vhttp_url
  else if eqbs s (bs "http_ftp_url") then Some Vhttp_ftp_url
  else if eqbs s (bs "ip") then Some Vip
  else if eqbs s (bs "ipv4") then Some Vipv4
  else if eqbs s (bs "ipv6") then Some Vipv6
  else if eqbs s (bs "json") then Some Vjson
  else if eqbs s (bs "length") then Some Vlength
  else if eqbs s (bs "line") then Some Vline
  else if eqbs s (bs "mac_address") then Some Vmac_address
  else if eqbs s (bs "number") then Some Vnumber
  else if eqbs s (bs "phone") then Some Vphone
  else if eqbs s (bs "regex") then Some Vregex
  else if eqbs s (bs "semver") then Some Vsemver
  else if eqbs s (bs "semver_req") then Some Vsemver_req
  else if eqbs s (bs "signed_integer") then Some Vsigned_integer
  else if eqbs s (bs "text") then Some Vtext
  else if eqbs s (bs "unsigned_integer") then Some Vunsigned_integer
  else if eqbs s (bs "url") then Some Vurl
  else if eqbs s (bs "uuid") then Some Vuuid
  else None.

(** Models [Validator::from_path], /repo/validators-derive/src/supported_validators.rs:110-180; an arm exists only if
    the cargo feature of the same name is on. *)
Definition from_path (on : validator -> bool) (p : path) : option validator :=
  match get_ident p with
  | Some i => match validator_of i with Some v => if on v then Some v else None | None => None end
  | None => None
  end.

(** ** The structs each handler asks for *)

(** Models the [ITEM] constants of the ip validators, /repo/validators-derive/src/validator_handlers/ip/mod.rs:27-37,
    ipv4/mod.rs:27-37 and ipv6/mod.rs:27-37, as selected by the checks ip/mod.rs:44-112; [n] and [t] are the name and
    type of the address field. *)
Definition ip_item (n : ident) (t : type_enum) (port : tri) : fields_of :=
  match port with
  | Allow => Named [(n, t); (bs "port", TOptionU16)]
  | Must => Named [(n, t); (bs "port", TU16)]
  | Disallow => Tuple [t]
  end.

(** Models the checks, /repo/validators-derive/src/validator_handlers/ip/mod.rs:44-112 (ipv4/mod.rs:44-112,
    ipv6/mod.rs:44-112). *)
Definition ip_shape (n : ident) (port : tri) (fs : syn_fields) : bool :=
  match port with
  | Allow => named_in [n; bs "port"] fs
  | Must => named_in [n; bs "port"] fs
  | Disallow => tuple1 fs
  end.

(** Models [create_instance], /repo/validators-derive/src/validator_handlers/ip/mod.rs:337-361 (ipv4/mod.rs:237-259,
    ipv6/mod.rs:269-291): [port: _port] is an [Option<u16>], [port: _port.unwrap()] a [u16]. *)
Definition ip_builds (n : ident) (t : type_enum) (port : tri) : fields_of :=
  match port with
  | Allow => Named [(n, t); (bs "port", TOptionU16)]
  | Must => Named [(n, t); (bs "port", TU16)]
  | Disallow => Tuple [t]
  end.

(** Models the fields read by [to_uri_authority_string], /repo/validators-derive/src/validator_handlers/ip/mod.rs:389-443
    (ipv4/mod.rs:288-331, ipv6/mod.rs:320-363). *)
Definition ip_reads (n : ident) (port : tri) : list access :=
  match port with Allow | Must => [ReadField n; ReadField (bs "port")] | Disallow => [ReadZero] end.

(** The test [local == Allow && at_least_two_labels != Allow] of the domain, host and email handlers, e.g.
    /repo/validators-derive/src/validator_handlers/host/mod.rs:74-76. *)
Definition tells_local (local two : tri) : bool := is_allow_only local && negb (is_allow_only two).

(** Models the [ITEM] constants of the host validator, /repo/validators-derive/src/validator_handlers/host/mod.rs:45-67,
    as selected by the checks host/mod.rs:74-236. *)
Definition host_item (a : host_attr) : fields_of :=
  if tells_local (ha_local a) (ha_two a) then
    match ha_port a with
    | Allow => Named [(bs "host", THost); (bs "is_local", TBoolean); (bs "port", TOptionU16)]
    | Must => Named [(bs "host", THost); (bs "is_local", TBoolean); (bs "port", TU16)]
    | Disallow => Named [(bs "host", THost); (bs "is_local", TBoolean)]
    end
  else
    match ha_port a with
    | Allow => Named [(bs "host", THost); (bs "port", TOptionU16)]
    | Must => Named [(bs "host", THost); (bs "port", TU16)]
    | Disallow => Tuple [THost]
    end.

(** Models the checks, /repo/validators-derive/src/validator_handlers/host/mod.rs:74-236. *)
Definition host_shape (a : host_attr) (fs : syn_fields) : bool :=
  if tells_local (ha_local a) (ha_two a) then
    match ha_port a with
    | Allow => named_in [bs "host"; bs "is_local"; bs "port"] fs
    | Must => named_in [bs "host"; bs "is_local"; bs "port"] fs
    | Disallow => named_in [bs "host"; bs "is_local"] fs
    end
  else
    match ha_port a with
    | Allow => named_in [bs "host"; bs "port"] fs
    | Must => named_in [bs "host"; bs "port"] fs
    | Disallow => tuple1 fs
    end.

(** Models [create_instance], /repo/validators-derive/src/validator_handlers/host/mod.rs:563-619. *)
Definition host_builds (a : host_attr) : fields_of :=
  if tells_local (ha_local a) (ha_two a) then
    match ha_port a with
    | Allow => Named [(bs "host", THost); (bs "is_local", TBoolean); (bs "port", TOptionU16)]
    | Must => Named [(bs "host", THost); (bs "is_local", TBoolean); (bs "port", TU16)]
    | Disallow => Named [(bs "host", THost); (bs "is_local", TBoolean)]
    end
  else
    match ha_port a with
    | Allow => Named [(bs "host", THost); (bs "port", TOptionU16)]
    | Must => Named [(bs "host", THost); (bs "port", TU16)]
    | Disallow => Tuple [THost]
    end.

(** Models the fields read by [to_uri_authority_string],
    /repo/validators-derive/src/validator_handlers/host/mod.rs:648-729. *)
Definition host_reads (a : host_attr) : list access :=
  if (negb (is_allow_only (ha_local a)) || is_allow_only (ha_two a)) && is_disallow (ha_port a) then [ReadZero]
  else match ha_port a with
       | Allow | Must => [ReadField (bs "host"); ReadField (bs "port")]
       | Disallow => [ReadField (bs "host")]
       end.

(** Models the [ITEM] constants of the domain validator,
    /repo/validators-derive/src/validator_handlers/domain/mod.rs:81-122, as selected by the checks
    domain/mod.rs:142-495. *)
Definition domain_item (a : domain_attr) : fields_of :=
  match da_ipv4 a with
  | Allow =>
      if tells_local (da_local a) (da_two a) then
        match da_port a with
        | Allow => Named [(bs "domain", TString); (bs "is_ipv4", TBoolean); (bs "is_local", TBoolean); (bs "port", TOptionU16)]
        | Must => Named [(bs "domain", TString); (bs "is_ipv4", TBoolean); (bs "is_local", TBoolean); (bs "port", TU16)]
        | Disallow => Named [(bs "domain", TString); (bs "is_ipv4", TBoolean); (bs "is_local", TBoolean)]
        end
      else
        match da_port a with
        | Allow => Named [(bs "domain", TString); (bs "port", TOptionU16)]
        | Must => Named [(bs "domain", TString); (bs "port", TU16)]
        | Disallow => Tuple [TString]
        end
  | _ =>
      if tells_local (da_local a) (da_two a) then
        match da_port a with
        | Allow => Named [(bs "domain", TString); (bs "is_local", TBoolean); (bs "port", TOptionU16)]
        | Must => Named [(bs "domain", TString); (bs "is_local", TBoolean); (bs "port", TU16)]
        | Disallow => Named [(bs "domain", TString); (bs "is_local", TBoolean)]
        end
      else
        match da_port a with
        | Allow => Named [(bs "domain", TString); (bs "port", TOptionU16)]
        | Must => Named [(bs "domain", TString); (bs "port", TU16)]
        | Disallow => Tuple [TString]
        end
  end.

(** Models the checks, /repo/validators-derive/src/validator_handlers/domain/mod.rs:142-495. *)
Definition domain_shape (a : domain_attr) (fs : syn_fields) : bool :=
  match da_ipv4 a with
  | Allow =>
      if tells_local (da_local a) (da_two a) then
        match da_port a with
        | Allow => named_in [bs "domain"; bs "is_ipv4"; bs "is_local"; bs "port"] fs
        | Must => named_in [bs "domain"; bs "is_ipv4"; bs "is_local"; bs "port"] fs
        | Disallow => named_in [bs "domain"; bs "is_ipv4"; bs "is_local"] fs
        end
      else
        match da_port a with
        | Allow => named_in [bs "domain"; bs "port"] fs
        | Must => named_in [bs "domain"; bs "port"] fs
        | Disallow => tuple1 fs
        end
  | _ =>
      if tells_local (da_local a) (da_two a) then
        match da_port a with
        | Allow => named_in [bs "domain"; bs "is_local"; bs "port"] fs
        | Must => named_in [bs "domain"; bs "is_local"; bs "port"] fs
        | Disallow => named_in [bs "domain"; bs "is_local"] fs
        end
      else
        match da_port a with
        | Allow => named_in [bs "domain"; bs "port"] fs
        | Must => named_in [bs "domain"; bs "port"] fs
        | Disallow => tuple1 fs
        end
  end.

(** Models [create_instance], /repo/validators-derive/src/validator_handlers/domain/mod.rs:745-867. *)
Definition domain_builds (a : domain_attr) : fields_of :=
  match da_ipv4 a with
  | Allow =>
      if tells_local (da_local a) (da_two a) then
        match da_port a with
        | Allow => Named [(bs "domain", TString); (bs "is_ipv4", TBoolean); (bs "is_local", TBoolean); (bs "port", TOptionU16)]
        | Must => Named [(bs "domain", TString); (bs "is_ipv4", TBoolean); (bs "is_local", TBoolean); (bs "port", TU16)]
        | Disallow => Named [(bs "domain", TString); (bs "is_ipv4", TBoolean); (bs "is_local", TBoolean)]
        end
      else
        match da_port a with
        | Allow => Named [(bs "domain", TString); (bs "port", TOptionU16)]
        | Must => Named [(bs "domain", TString); (bs "port", TU16)]
        | Disallow => Tuple [TString]
        end
  | _ =>
      if tells_local (da_local a) (da_two a) then
        match da_port a with
        | Allow => Named [(bs "domain", TString); (bs "is_local", TBoolean); (bs "port", TOptionU16)]
        | Must => Named [(bs "domain", TString); (bs "is_local", TBoolean); (bs "port", TU16)]
        | Disallow => Named [(bs "domain", TString); (bs "is_local", TBoolean)]
        end
      else
        match da_port a with
        | Allow => Named [(bs "domain", TString); (bs "port", TOptionU16)]
        | Must => Named [(bs "domain", TString); (bs "port", TU16)]
        | Disallow => Tuple [TString]
        end
  end.

(** Models the fields read by the [QualifyDomain] and [ToUriAuthorityString] impls,
    /repo/validators-derive/src/validator_handlers/domain/mod.rs:895-980. *)
Definition domain_reads (a : domain_attr) : list access :=
  (if is_disallow (da_port a) && (negb (is_allow_only (da_local a)) || is_allow_only (da_two a))
   then [ReadZero] else [ReadField (bs "domain")]) ++
  (match da_port a with Allow | Must => [ReadField (bs "port")] | Disallow => [] end).

(** Models the check of contradicting policies,
    /repo/validators-derive/src/validator_handlers/domain/mod.rs:131-140. *)
Definition domain_conflicts (a : domain_attr) : bool :=
  is_must (da_ipv4 a) && is_disallow (da_two a) && negb (da_conflict a).

(** The four comment fields.
    (/repo/validators-derive/src/validator_handlers/email/mod.rs:1289-1497.) *)
Definition comment_names : list ident :=
  [bs "comment_before_local_part"; bs "comment_after_local_part"; bs "comment_before_domain_part";
   bs "comment_after_domain_part"].

(** Models the [ITEM] constants of the email validator,
    /repo/validators-derive/src/validator_handlers/email/mod.rs:62-164, as selected by the checks email/mod.rs:184-580. *)
Definition email_item (a : email_attr) : fields_of :=
  let base t := [(bs "local_part", TString); (bs "need_quoted", TBoolean); (bs "domain_part", t)] in
  let with_comment t := base t ++ List.map (fun n => (n, TOptionString)) comment_names in
  let is_local := [(bs "is_local", TBoolean)] in
  if ea_comment a then
    match ea_ip a with
    | Allow => if tells_local (ea_local a) (ea_two a) then Named (with_comment THost ++ is_local) else Named (with_comment THost)
    | Must => if tells_local (ea_local a) (ea_two a) then Named (with_comment TIpAddr ++ is_local) else Named (with_comment TIpAddr)
    | Disallow => if tells_local (ea_local a) (ea_two a) then Named (with_comment TString ++ is_local) else Named (with_comment TString)
    end
  else
    match ea_ip a with
    | Allow => if tells_local (ea_local a) (ea_two a) then Named (base THost ++ is_local) else Named (base THost)
    | Must => if tells_local (ea_local a) (ea_two a) then Named (base TIpAddr ++ is_local) else Named (base TIpAddr)
    | Disallow => if tells_local (ea_local a) (ea_two a) then Named (base TString ++ is_local) else Named (base TString)
    end.

(** Models the checks, /repo/validators-derive/src/validator_handlers/email/mod.rs:184-580. *)
Definition email_shape (a : email_attr) (fs : syn_fields) : bool :=
  let base := [bs "local_part"; bs "need_quoted"; bs "domain_part"] in
  if ea_comment a then
    match ea_ip a with
    | Allow => if tells_local (ea_local a) (ea_two a) then named_in (base ++ comment_names ++ [bs "is_local"]) fs
               else named_in (base ++ comment_names) fs
    | Must => if tells_local (ea_local a) (ea_two a) then named_in (base ++ comment_names ++ [bs "is_local"]) fs
              else named_in (base ++ comment_names) fs
    | Disallow => if tells_local (ea_local a) (ea_two a) then named_in (base ++ comment_names ++ [bs "is_local"]) fs
                  else named_in (base ++ comment_names) fs
    end
  else
    match ea_ip a with
    | Allow => if tells_local (ea_local a) (ea_two a) then named_in (base ++ [bs "is_local"]) fs else named_in base fs
    | Must => if tells_local (ea_local a) (ea_two a) then named_in (base ++ [bs "is_local"]) fs else named_in base fs
    | Disallow => if tells_local (ea_local a) (ea_two a) then named_in (base ++ [bs "is_local"]) fs else named_in base fs
    end.

(** Models [create_instance], /repo/validators-derive/src/validator_handlers/email/mod.rs:1288-1498: [domain_part] is
    the parsed [Host] as it is, or its address, or its domain. *)
Definition email_builds (a : email_attr) : fields_of :=
  let base t := [(bs "local_part", TString); (bs "need_quoted", TBoolean); (bs "domain_part", t)] in
  let with_comment t := base t ++ List.map (fun n => (n, TOptionString)) comment_names in
  let is_local := [(bs "is_local", TBoolean)] in
  if ea_comment a then
    match ea_ip a with
    | Allow => if tells_local (ea_local a) (ea_two a) then Named (with_comment THost ++ is_local) else Named (with_comment THost)
    | Must => if tells_local (ea_local a) (ea_two a) then Named (with_comment TIpAddr ++ is_local) else Named (with_comment TIpAddr)
    | Disallow => if tells_local (ea_local a) (ea_two a) then Named (with_comment TString ++ is_local) else Named (with_comment TString)
    end
  else
    match ea_ip a with
    | Allow => if tells_local (ea_local a) (ea_two a) then Named (base THost ++ is_local) else Named (base THost)
    | Must => if tells_local (ea_local a) (ea_two a) then Named (base TIpAddr ++ is_local) else Named (base TIpAddr)
    | Disallow => if tells_local (ea_local a) (ea_two a) then Named (base TString ++ is_local) else Named (base TString)
    end.

(** Models the fields read by [to_email_string],
    /repo/validators-derive/src/validator_handlers/email/mod.rs:1526-1677. *)
Definition email_reads (a : email_attr) : list access :=
  if ea_comment a
  then [ReadField (bs "comment_before_local_part"); ReadField (bs "need_quoted"); ReadField (bs "local_part");
        ReadField (bs "comment_after_local_part"); ReadField (bs "comment_before_domain_part");
        ReadField (bs "comment_after_domain_part"); ReadField (bs "domain_part")]
  else [ReadField (bs "local_part"); ReadField (bs "domain_part")].

(** Models the check of contradicting policies,
    /repo/validators-derive/src/validator_handlers/email/mod.rs:173-182. *)
Definition email_conflicts (a : email_attr) : bool :=
  is_must (ea_ip a) && is_disallow (ea_two a) && negb (ea_conflict a).

(** Models the [ITEM] constant of the validators of a tuple struct and of the url validators: the constant near the
    top of each /repo/validators-derive/src/validator_handlers/*/mod.rs (base32:16, base32_decoded:18, bit:19,
    boolean:16, byte:19, http_url:22-24, http_ftp_url:22-24, json:16, length:16, line:16, mac_address:19, number:19,
    regex:16, semver:16, semver_req:16, signed_integer:19, text:16, unsigned_integer:19, url:16, uuid:19); [phone] has
    two, phone/mod.rs:18-19, chosen at phone/mod.rs:223-227 by the number of countries. The validators with
    policies have their own functions above. *)
Definition simple_item (v : validator) (countries : nat) : fields_of :=
  match v with
  | Vbase32 | Vbase64 | Vbase64_url => Tuple [TString]
  | Vbase32_decoded | Vbase64_decoded | Vbase64_url_decoded => Tuple [TVecU8]
  | Vbit => Tuple [TBit]
  | Vboolean => Tuple [TBoolean]
  | Vbyte => Tuple [TBit]
  | Vhttp_url => Named [(bs "url", TUrl); (bs "is_https", TBoolean)]
  | Vhttp_ftp_url => Named [(bs "url", TUrl); (bs "protocol", TProtocol)]
  | Vjson => Tuple [TSerde]
  | Vlength => Tuple [TCollectionLength]
  | Vline | Vtext | Vregex => Tuple [TString]
  | Vmac_address => Tuple [TU64]
  | Vuuid => Tuple [TU128]
  | Vnumber => Tuple [TNumber]
  | Vphone => if (1 <? countries)%nat then Tuple [THashMapPhoneNumber] else Tuple [TString]
  | Vsemver => Tuple [TVersion]
  | Vsemver_req => Tuple [TVersionReq]
  | Vsigned_integer => Tuple [TSignedInteger]
  | Vunsigned_integer => Tuple [TSignedInteger]
  | Vurl => Tuple [TUrl]
  | Vdomain | Vemail | Vhost | Vip | Vipv4 | Vipv6 => Tuple []
  end.

(** Models what the same validators build: the type of [v] in [Ok(Self(v))], or the struct literal, in the
    [parse_str] of each handler: /repo/validators-derive/src/validator_handlers/base32/mod.rs:155-161, base32_decoded/mod.rs:189-191,
    bit/mod.rs:82-123, boolean/mod.rs:226-228, byte/mod.rs:82-127,
    http_url/mod.rs:127-134, http_ftp_url/mod.rs:127-134, json/mod.rs:100-102, length/mod.rs:140-147,
    line/mod.rs:747-752, mac_address/mod.rs:271-273, number/mod.rs:243-245, phone/mod.rs:52-136,
    regex/mod.rs:60-80, semver/mod.rs:52-54, semver_req/mod.rs:52-54, signed_integer/mod.rs:222-224,
    text/mod.rs:747-752, unsigned_integer/mod.rs:222-224, url/mod.rs:52-54, uuid/mod.rs:259-261. *)
Definition simple_builds (v : validator) (countries : nat) : fields_of :=
  match v with
  | Vbase32 | Vbase64 | Vbase64_url => Tuple [TString]
  | Vbase32_decoded | Vbase64_decoded | Vbase64_url_decoded => Tuple [TVecU8]
  | Vbit => Tuple [TBit]
  | Vboolean => Tuple [TBoolean]
  | Vbyte => Tuple [TByte]
  | Vhttp_url => Named [(bs "url", TUrl); (bs "is_https", TBoolean)]
  | Vhttp_ftp_url => Named [(bs "url", TUrl); (bs "protocol", TProtocol)]
  | Vjson => Tuple [TSerde]
  | Vlength => Tuple [TCollectionLength]
  | Vline | Vtext | Vregex => Tuple [TString]
  | Vmac_address => Tuple [TU64]
  | Vuuid => Tuple [TU128]
  | Vnumber => Tuple [TNumber]
  | Vphone => match countries with O | S O => Tuple [TPhoneNumber] | _ => Tuple [THashMapPhoneNumber] end
  | Vsemver => Tuple [TVersion]
  | Vsemver_req => Tuple [TVersionReq]
  | Vsigned_integer => Tuple [TSignedInteger]
  | Vunsigned_integer => Tuple [TUnsignedInteger]
  | Vurl => Tuple [TUrl]
  | Vdomain | Vemail | Vhost | Vip | Vipv4 | Vipv6 => Tuple []
  end.

(** Models the fields the same validators read: [self.url] in /repo/validators-derive/src/validator_handlers/http_url/mod.rs:155 and http_ftp_url/mod.rs:156, and
    [self.0] everywhere else (e.g. base32/mod.rs:210). *)
Definition simple_reads (v : validator) : list access :=
  match v with
  | Vhttp_url | Vhttp_ftp_url => [ReadField (bs "url")]
  | Vdomain | Vemail | Vhost | Vip | Vipv4 | Vipv6 => []
  | _ => [ReadZero]
  end.

(** ** The handlers *)

(** Models the match on the type of the field, /repo/validators-derive/src/validator_handlers/signed_integer/mod.rs:39-52
    and unsigned_integer/mod.rs:39-52. *)
Definition int_type (sg : bool) (t : list N) : option ity :=
  if sg then
    if eqbs t (bs "isize") then Some Isize else if eqbs t (bs "i8") then Some I8 else if eqbs t (bs "i16") then Some I16
    else if eqbs t (bs "i32") then Some I32 else if eqbs t (bs "i64") then Some I64
    else if eqbs t (bs "i128") then Some I128 else None
  else
    if eqbs t (bs "usize") then Some Isize else if eqbs t (bs "u8") then Some I8 else if eqbs t (bs "u16") then Some I16
    else if eqbs t (bs "u32") then Some I32 else if eqbs t (bs "u64") then Some I64
    else if eqbs t (bs "u128") then Some I128 else None.

(** Models the match on the type of the field, /repo/validators-derive/src/validator_handlers/number/mod.rs:35-43. *)
Definition float_type (t : list N) : option fty :=
  if eqbs t (bs "f32") then Some F32 else if eqbs t (bs "f64") then Some F64 else None.

(** Models [str::parse] of an integer type in [base10_parse], on the machine the macro runs on.
    (/repo/validators-derive/src/common/number.rs:7-20.) *)
Definition int_lit (sg : bool) (pw : ptr_width) (t : ity) (s : list N) : option Z :=
  match int_from_str (int_min sg pw t) (int_max sg pw t) s with Ok v => Some v | _ => None end.

(** Models [str::parse::<u128>] in [base10_parse], for the bounds of bit and byte ranges.
    (/repo/validators-derive/src/common/number.rs:7-20.) *)
Definition u128_lit (s : list N) : option N :=
  match int_from_str 0 (2 ^ 128 - 1) s with Ok v => Some (Z.to_N v) | _ => None end.

(** What a handler leaves to code generation: the validator and its configuration.
    (/repo/validators-derive/src/lib.rs:26-199.) *)
Inductive expansion (cid : Type) :=
| GBasic (v : validator) (a : opts)
| GBase (v : validator) (a : base_attr)
| GHttp (v : validator) (a : http_attr)
| GIp (v : validator) (a : ip_attr)
| GHost (a : host_attr)
| GDomain (a : domain_attr)
| GEmail (a : email_attr)
| GMac (a : hex_attr)
| GUuid (a : hex_attr)
| GInt (sg : bool) (t : ity) (a : range_attr Z)
| GNumber (t : fty) (a : number_attr spec_float)
| GBit (a : bit_attr N)
| GByte (a : byte_attr N)
| GPhone (a : phone_attr cid)
| GRegex (r : regex_expr) (a : opts)
| GLength (a : coll_attr)
| GLine (a : utf8_attr)
| GText (a : utf8_attr).
Arguments GBasic {cid}. Arguments GBase {cid}. Arguments GHttp {cid}. Arguments GIp {cid}. Arguments GHost {cid}.
Arguments GDomain {cid}. Arguments GEmail {cid}. Arguments GMac {cid}. Arguments GUuid {cid}. Arguments GInt {cid}.
Arguments GNumber {cid}. Arguments GBit {cid}. Arguments GByte {cid}. Arguments GPhone {cid}. Arguments GRegex {cid}.
Arguments GLength {cid}. Arguments GLine {cid}. Arguments GText {cid}.

(** Models [syn::Attribute] by its [Meta]; of the generics of the struct only the number of parameters is kept.
    (/repo/validators-derive/src/lib.rs:26-30.) *)
Record derive_input := { di_attrs : list meta; di_data : syn_data; di_params : nat }.

(** The number of generic arguments that the generated [impl .. for #name] headers give to the struct: the headers are written
    without any, and the macro never looks at the generics of the struct
    (e.g. /repo/validators-derive/src/validator_handlers/length/mod.rs:67, 127, 139, /repo/validators-derive/src/common/rocket.rs:7, 23). *)
Definition header_args {cid} (g : expansion cid) : nat := 0.

Section Derive.
Context {cid : Type}.
(** [country::Id::from_str], [==] on country ids (crate phonenumber), [Regex::new(..).is_ok()] (crate regex),
    [str::parse] for the float types (core), and the pointer width of the machine the macro runs on. *)
Variable id_from_str : list N -> option cid.
Variable cid_eqb : cid -> cid -> bool.
Variable compiles : list N -> bool.
Variable float_lit : fty -> list N -> option spec_float.
Variable pw : ptr_width.

(** The check shared by the handlers whose struct does not depend on the configuration.
    (e.g. /repo/validators-derive/src/validator_handlers/json/mod.rs:19-30 and 272-275.) *)
Definition on_struct {A} (ok : syn_fields -> bool) (d : syn_data) (a : A) : outcome macro_err A :=
  match d with DataStruct fs => if ok fs then Ok a else Err XShape | _ => Err XShape end.

(** Models the [meta_handler] of the validators of a tuple struct with one field, up to code generation, e.g.
    /repo/validators-derive/src/validator_handlers/base32/mod.rs:19-25. *)
Definition tuple_handler {A} (build : meta -> outcome macro_err A) (m : meta) (d : syn_data) : outcome macro_err A :=
  let? a := build m in on_struct tuple1 d a.

(** Models the [meta_handler] of the url validators,
    /repo/validators-derive/src/validator_handlers/http_url/mod.rs:27-33. *)
Definition http_handler (f : features) (m : meta) (d : syn_data) : outcome macro_err http_attr :=
  let? a := http_attribute f m in on_struct two_named d a.

(** Models the [meta_handler] of the ip validators, /repo/validators-derive/src/validator_handlers/ip/mod.rs:40-112. *)
Definition ip_handler (n : ident) (f : features) (m : meta) (d : syn_data) : outcome macro_err ip_attr :=
  let? a := ip_attribute f m in on_struct (ip_shape n (ia_port a)) d a.

(** Models [HostHandler::meta_handler], /repo/validators-derive/src/validator_handlers/host/mod.rs:70-236. *)
Definition host_handler (f : features) (m : meta) (d : syn_data) : outcome macro_err host_attr :=
  let? a := host_attribute f m in on_struct (host_shape a) d a.

(** Models [DomainHandler::meta_handler], /repo/validators-derive/src/validator_handlers/domain/mod.rs:125-495. *)
Definition domain_handler (f : features) (m : meta) (d : syn_data) : outcome macro_err domain_attr :=
  let? a := domain_attribute f m in
  match d with
  | DataStruct fs => if domain_conflicts a then Err XConflict else if domain_shape a fs then Ok a else Err XShape
  | _ => Err XShape
  end.

(** Models [EmailHandler::meta_handler], /repo/validators-derive/src/validator_handlers/email/mod.rs:167-580. *)
Definition email_handler (f : features) (m : meta) (d : syn_data) : outcome macro_err email_attr :=
  let? a := email_attribute f m in
  match d with
  | DataStruct fs => if email_conflicts a then Err XConflict else if email_shape a fs then Ok a else Err XShape
  | _ => Err XShape
  end.

(** Models the [meta_handler] of the integer validators,
    /repo/validators-derive/src/validator_handlers/signed_integer/mod.rs:31-61 and unsigned_integer/mod.rs:31-61. *)
Definition int_handler (sg : bool) (f : features) (m : meta) (d : syn_data) : outcome macro_err (ity * range_attr Z) :=
  match d with
  | DataStruct (FUnnamed [ty]) =>
      match int_type sg ty with
      | Some t => let? a := range_attribute (int_lit sg pw t) Z.ltb Z.leb f m in Ok (t, a)
      | None => Err XShape
      end
  | _ => Err XShape
  end.

(** Models [NumberHandler::meta_handler], /repo/validators-derive/src/validator_handlers/number/mod.rs:27-60. *)
Definition number_handler (f : features) (m : meta) (d : syn_data)
  : outcome macro_err (fty * number_attr spec_float) :=
  match d with
  | DataStruct (FUnnamed [ty]) =>
      match float_type ty with
      | Some t =>
          let? a := number_attribute (float_lit t) SFltb SFleb f m in
          if number_conflict (na_range a) (na_nan a) (na_conflict a) then Err XConflict else Ok (t, a)
      | None => Err XShape
      end
  | _ => Err XShape
  end.

(** Models the dispatch, /repo/validators-derive/src/lib.rs:53-197. *)
Definition handler (v : validator) (f : features) (m : meta) (d : syn_data) : outcome macro_err (expansion cid) :=
  match v with
  | Vbase32 | Vbase32_decoded | Vbase64 | Vbase64_decoded | Vbase64_url | Vbase64_url_decoded =>
      omap (GBase v) (tuple_handler (base_attribute f) m d)
  | Vboolean | Vjson | Vsemver | Vsemver_req | Vurl => omap (GBasic v) (tuple_handler (basic_attribute f) m d)
  | Vbit => omap GBit (tuple_handler (bit_attribute u128_lit N.ltb N.leb f) m d)
  | Vbyte => omap GByte (tuple_handler (byte_attribute u128_lit N.ltb N.leb f) m d)
  | Vdomain => omap GDomain (domain_handler f m d)
  | Vemail => omap GEmail (email_handler f m d)
  | Vhost => omap GHost (host_handler f m d)
  | Vhttp_url | Vhttp_ftp_url => omap (GHttp v) (http_handler f m d)
  | Vip => omap (GIp v) (ip_handler (bs "ip") f m d)
  | Vipv4 => omap (GIp v) (ip_handler (bs "ipv4") f m d)
  | Vipv6 => omap (GIp v) (ip_handler (bs "ipv6") f m d)
  | Vlength => omap GLength (tuple_handler (coll_meta f) m d)
  | Vline => omap GLine (tuple_handler (utf8_meta f) m d)
  | Vtext => omap GText (tuple_handler (utf8_meta f) m d)
  | Vmac_address => omap GMac (tuple_handler (mac_attribute f) m d)
  | Vuuid => omap GUuid (tuple_handler (uuid_attribute f) m d)
  | Vnumber => omap (fun p => GNumber (fst p) (snd p)) (number_handler f m d)
  | Vphone => omap GPhone (tuple_handler (phone_attribute id_from_str cid_eqb f) m d)
  | Vregex => omap (fun p => GRegex (fst p) (snd p)) (tuple_handler (regex_attribute compiles f) m d)
  | Vsigned_integer => omap (fun p => GInt true (fst p) (snd p)) (int_handler true f m d)
  | Vunsigned_integer => omap (fun p => GInt false (fst p) (snd p)) (int_handler false f m d)
  end.

(** Models the loop over the attributes, /repo/validators-derive/src/lib.rs:27-51. *)
Fixpoint find_validator (on : validator -> bool) (attrs : list meta) (used : option (validator * meta))
  : outcome macro_err (option (validator * meta)) :=
  match attrs with
  | [] => Ok used
  | at_ :: rest =>
      match get_ident (meta_path at_) with
      | Some i =>
          if eqbs i (bs "validator") then
            match at_ with
            | MList _ items tr =>
                match args_meta items tr with
                | Some m =>
                    match from_path on (meta_path m) with
                    | Some v =>
                        match used with
                        | Some _ => Err XOnlyOne
                        | None => find_validator on rest (Some (v, m))
                        end
                    | None => Err XUnsupported
                    end
                | None => Err XSyntax
                end
            | _ => Err XFormat
            end
          else find_validator on rest used
      | None => find_validator on rest used
      end
  end.

(** Models [derive_input_handler], /repo/validators-derive/src/lib.rs:26-200. *)
Definition derive (on : validator -> bool) (f : features) (d : derive_input) : outcome macro_err (expansion cid) :=
  let? u := find_validator on (di_attrs d) None in
  match u with
  | Some (v, m) => handler v f m (di_data d)
  | None => Err XNotSet
  end.
End Derive.

(** The configurations of the run-time models, from the attributes.
    (/repo/validators-derive/src/validator_handlers/domain/domain_attribute.rs:11-20, host/host_attribute.rs:11-18, email/email_attribute.rs:11-22.) *)
Definition domain_cfg_of (a : domain_attr) : domain_cfg :=
  {| d_ipv4 := da_ipv4 a; d_local := da_local a; d_port := da_port a; d_two := da_two a |}.
Definition host_cfg_of (a : host_attr) : host_cfg :=
  {| h_local := ha_local a; h_port := ha_port a; h_two := ha_two a |}.
Definition email_cfg_of (a : email_attr) : email_cfg :=
  {| e_comment := ea_comment a; e_ip := ea_ip a; e_local := ea_local a; e_two := ea_two a; e_non_ascii := ea_non_ascii a |}.
(** Which alphabet the base validators use: the byte patterns in
    /repo/validators-derive/src/validator_handlers/base32/mod.rs, base64/mod.rs and base64_url/mod.rs:108-129, and the
    decoders named in base32_decoded/mod.rs, base64_decoded/mod.rs and base64_url_decoded/mod.rs:86-99. *)
Definition flavour_of (v : validator) : flavour :=
  match v with
  | Vbase32 | Vbase32_decoded => B32
  | Vbase64 | Vbase64_decoded => B64
  | _ => B64Url
  end.
