(** Cargo features: what is compiled, exported and generated under a set of requested features. *)
From Verif Require Import Base MetaModel MacroModel.

(** The features of the validators crate; [V v] is the feature named after validator [v].
    (/repo/validators/Cargo.toml:32-127.) *)
Inductive feature := V (v : validator) | Fdefault | Fderive | Fstd | Ftest | Ffull | Fbyte_unit_u128 | Fall_validators
| Fdata_encoding | Fidna | Fbyte_unit | Furl_dep | Fstr_utils | Fserde_json | Fphonenumber | Fregex_dep | Fsemver_dep
| Fserde | Frocket | Faxum.

(** All validators, in the order of /repo/validators/Cargo.toml:49-81. *)
Definition validators : list validator :=
  [Vbase32; Vbase32_decoded; Vbase64; Vbase64_decoded; Vbase64_url; Vbase64_url_decoded; Vbit; Vboolean; Vbyte; Vdomain; Vemail; Vhost;
   Vhttp_url; Vhttp_ftp_url; Vip; Vipv4; Vipv6; Vjson; Vlength; Vline; Vmac_address; Vnumber; Vphone; Vregex; Vsemver; Vsemver_req;
   Vsigned_integer; Vtext; Vunsigned_integer; Vurl; Vuuid].

(** The features of the same crate that a feature turns on, /repo/validators/Cargo.toml:33-127. ["byte-unit/bit"] turns on the feature
    [byte-unit], as Cargo does for an optional dependency; the weak forms [dep?/x] turn nothing on here. *)
Definition enables (f : feature) : list feature :=
  match f with
  | Fdefault => [Fstd; Fall_validators; Fderive]
  | Fall_validators => List.map V validators
  | V (Vbase32_decoded | Vbase64_decoded | Vbase64_url_decoded) => [Fdata_encoding]
  | V (Vbit | Vbyte) => [Fbyte_unit]
  | V (Vdomain | Vemail | Vhost) => [Fstd; Fidna]
  | V (Vhttp_url | Vhttp_ftp_url) => [V Vurl; Fstr_utils]
  | V (Vip | Vipv4 | Vipv6) => [Fstd]
  | V Vjson => [Fserde_json]
  | V Vphone => [Fphonenumber]
  | V Vregex => [Fregex_dep]
  | V (Vsemver | Vsemver_req) => [Fsemver_dep]
  | V Vurl => [Furl_dep]
  | Furl_dep | Fphonenumber | Fregex_dep | Frocket => [Fstd]
  | Fserde_json => [Fserde]
  | Faxum => [Fserde; Fstd]
  | _ => []
  end.

(** The features Cargo turns on when [S] are asked for, /repo/validators/Cargo.toml:32-127. *)
Inductive enabled (S : feature -> Prop) : feature -> Prop :=
| asked f : S f -> enabled S f
| implied f g : enabled S f -> In g (enables f) -> enabled S g.

(** The features of validators-derive, /repo/validators-derive/Cargo.toml:29-67. *)
Inductive dfeature := DV (v : validator) | Dstd | Dtest | Dfull | Dserde | Drocket.

(** The weak forms [validators-derive?/x], /repo/validators/Cargo.toml:36-46,83-113,125-126. *)
Definition passes (f : feature) : list dfeature :=
  match f with
  | V v => [DV v]
  | Fstd => [Dstd]
  | Ftest => [Dtest]
  | Ffull => [Dfull]
  | Fserde => [Dserde]
  | Frocket => [Drocket]
  | _ => []
  end.

(** The features with which validators has validators-derive built, /repo/validators/Cargo.toml:16,35-46,83-113,125-126. *)
Definition handed (S : feature -> Prop) (d : dfeature) : Prop := enabled S Fderive /\ exists f, enabled S f /\ In d (passes f).

(** The traits of the crate, and those of serde and rocket that handlers implement.
    (/repo/validators/src/traits/mod.rs:1-66; /repo/validators-derive/src/common/rocket.rs:4-32.) *)
Inductive trait := TValidateString | TValidateBytes | TValidateChar | TValidateBoolean | TValidateNumber | TValidateSignedInteger
| TValidateUnsignedInteger | TValidateLength | TValidateJsonValue | TCollectionLength | TQualifyDomain | TToUriAuthorityString
| TToEmailString | TToJsonString | TToMacAddressString | TToUuidString.

(** What can be named: libraries, types and impls of libraries that need one of their features, the standard library, the traits, error
    types, functions, models and test types of the crate, its impls for [Result] and for axum, its prelude; the names of [alloc] that
    the prelude exports; [String] as a bare name. (/repo/validators/src/lib.rs:935-1028.) *)
Inductive item := Xdata_encoding | Xidna | Xbyte_unit | Xphonenumber | Xregex | Xrocket | Xsemver | Xserde | Xserde_json | Xstr_utils | Xurl
| Xaxum | Xderive | Ibit | Ibyte | Ibyte_unit_serde | Iurl_serde | Isemver_serde | Istd
| Itrait (t : trait) | Ierr (v : validator) | Ifn_ipv4 | Ifn_ipv6 | Ifn_ip | Ifn_domain | Ihost | Iprotocol | Itest
| Ires_built_in | Ires_rocket | Ires_serde (v : validator) | Iaxum (v : validator) | Icollection_length_impls | Iprelude
| Ialloc | Ibare_string.

(** [#[cfg(any(..))]], or none; e.g. /repo/validators/src/functions/mod.rs:1-10. *)
Inductive cfg_any := Always | AnyOf (fs : list feature).

(** semver and semver_req share an error type, /repo/validators/src/errors/mod.rs:129-132. *)
Definition error_of (v : validator) : validator := match v with Vsemver_req => Vsemver | _ => v end.

(** Where the error type of [v] is compiled, /repo/validators/src/errors/mod.rs:4-152. *)
Definition error_cfg (v : validator) : cfg_any :=
  match v with Vsemver | Vsemver_req => AnyOf [V Vsemver; V Vsemver_req] | _ => AnyOf [V v] end.

(** The condition under which an item exists in the crate: /repo/validators/src/lib.rs:938-1028, traits/mod.rs:1-66, errors/mod.rs:1-152,
    functions/mod.rs:1-62, models/mod.rs:1-9, result/mod.rs:1-5; for items of libraries, /repo/validators/Cargo.toml:89,91,125. *)
Definition cfg_of (i : item) : cfg_any :=
  match i with
  | Xdata_encoding => AnyOf [Fdata_encoding]
  | Xidna => AnyOf [Fidna]
  | Xbyte_unit => AnyOf [Fbyte_unit]
  | Xphonenumber => AnyOf [Fphonenumber]
  | Xregex => AnyOf [Fregex_dep]
  | Xrocket | Ires_rocket => AnyOf [Frocket]
  | Xsemver => AnyOf [Fsemver_dep]
  | Xserde => AnyOf [Fserde]
  | Xserde_json => AnyOf [Fserde_json]
  | Xstr_utils => AnyOf [Fstr_utils]
  | Xurl => AnyOf [Furl_dep]
  | Xaxum => AnyOf [Faxum]
  | Xderive => AnyOf [Fderive]
  | Ibit => AnyOf [V Vbit]
  | Ibyte => AnyOf [V Vbyte]
  | Istd => AnyOf [Fstd]
  | Itrait TValidateJsonValue => AnyOf [Fserde_json]
  | Itrait TQualifyDomain => AnyOf [V Vdomain]
  | Itrait TToUriAuthorityString => AnyOf [V Vdomain; V Vhost; V Vip; V Vipv4; V Vipv6]
  | Itrait TToEmailString => AnyOf [V Vemail]
  | Itrait TToJsonString => AnyOf [V Vjson]
  | Itrait TToMacAddressString => AnyOf [V Vmac_address]
  | Itrait TToUuidString => AnyOf [V Vuuid]
  | Itrait _ => Always
  | Ierr v => error_cfg v
  | Ifn_ipv4 => AnyOf [V Vdomain; V Vemail; V Vhost; V Vhttp_url; V Vhttp_ftp_url; V Vip; V Vipv4; V Vipv6]
  | Ifn_ipv6 => AnyOf [V Vemail; V Vhost; V Vhttp_url; V Vhttp_ftp_url; V Vip; V Vipv6]
  | Ifn_ip => AnyOf [V Vip]
  | Ifn_domain => AnyOf [V Vdomain; V Vemail; V Vhost; V Vhttp_url; V Vhttp_ftp_url]
  | Ihost => AnyOf [V Vemail; V Vhost]
  | Iprotocol => AnyOf [V Vhttp_ftp_url]
  | Itest => AnyOf [Ftest]
  | Ires_serde v => error_cfg v
  | Iaxum v => error_cfg v
  (* a library feature: see [present] *)
  | Ibyte_unit_serde | Iurl_serde | Isemver_serde => AnyOf [Fserde]
  | Ires_built_in | Icollection_length_impls | Iprelude | Ialloc => Always
  (* not the crate's to export *)
  | Ibare_string => AnyOf []
  end.

(** A second condition: the module of the impls (/repo/validators/src/errors/mod.rs:1-2, result/mod.rs:4-5), or the library whose feature a
    weak form turns on (/repo/validators/Cargo.toml:125). *)
Definition cfg_too (i : item) : cfg_any :=
  match i with
  | Ires_serde _ => AnyOf [Fserde]
  | Iaxum _ => AnyOf [Faxum]
  | Ibyte_unit_serde => AnyOf [Fbyte_unit]
  | Iurl_serde => AnyOf [Furl_dep]
  | Isemver_serde => AnyOf [Fsemver_dep]
  | _ => Always
  end.

(** A condition under the requested features, /repo/validators/Cargo.toml:32-127. *)
Definition holds (S : feature -> Prop) (c : cfg_any) : Prop :=
  match c with Always => True | AnyOf fs => exists f, In f fs /\ enabled S f end.

(** The item is compiled, /repo/validators/src/lib.rs:938-1028. *)
Definition present (S : feature -> Prop) (i : item) : Prop := holds S (cfg_of i) /\ holds S (cfg_too i).

(** The items that the source of an item names, with the [cfg] on that part of the source: /repo/validators/src/errors/*.rs,
    functions/{ip,ipv6,ipv4}.rs:1-3, models/host.rs:1-3, traits/collection_length.rs:1-75, traits/validate_length.rs:1-4,
    traits/validate_json_value.rs:1-4, result/built_in_traits.rs:1-205, result/rocket_traits.rs:1-19, result/serde_traits.rs:1-1205,
    errors/axum_traits.rs:1-63, lib.rs:991-1028. *)
Definition uses (i : item) : list (cfg_any * item) :=
  match i with
  | Ierr (Vbit | Vbyte) => [(Always, Xbyte_unit)]
  | Ierr (Vhttp_url | Vhttp_ftp_url | Vurl) => [(Always, Xurl)]
  | Ierr Vjson => [(Always, Xserde_json)]
  | Ierr Vphone => [(Always, Xphonenumber)]
  | Ierr (Vsemver | Vsemver_req) => [(Always, Xsemver)]
  | Ifn_ipv4 | Ihost => [(Always, Istd)]
  | Ifn_ipv6 => [(Always, Istd); (Always, Ifn_ipv4)]
  | Ifn_ip => [(Always, Istd); (Always, Ifn_ipv4); (Always, Ifn_ipv6)]
  | Itrait TValidateLength => [(Always, Itrait TCollectionLength)]
  | Itrait TValidateJsonValue => [(Always, Xserde_json)]
  | Icollection_length_impls => [(AnyOf [Fstd], Istd); (AnyOf [Fserde_json], Xserde_json); (Always, Itrait TCollectionLength)]
  | Ires_built_in =>
      [(Always, Itrait TValidateString); (Always, Itrait TValidateBoolean); (Always, Itrait TValidateBytes); (Always, Itrait TValidateChar);
       (AnyOf [Fserde_json], Itrait TValidateJsonValue); (AnyOf [Fserde_json], Xserde_json); (Always, Itrait TValidateNumber);
       (Always, Itrait TValidateSignedInteger); (Always, Itrait TValidateUnsignedInteger)]
  | Ires_rocket => [(Always, Xrocket)]
  | Ires_serde v =>
      [(Always, Xserde); (Always, Ierr (error_of v))] ++
      match v with
      | Vbase32 | Vbase32_decoded | Vbase64 | Vbase64_decoded | Vbase64_url | Vbase64_url_decoded =>
          [(Always, Itrait TValidateString); (Always, Itrait TValidateBytes)]
      | Vbit | Vbyte | Vunsigned_integer => [(Always, Itrait TValidateString); (Always, Itrait TValidateUnsignedInteger)]
      | Vsigned_integer => [(Always, Itrait TValidateString); (Always, Itrait TValidateSignedInteger)]
      | Vboolean => [(Always, Itrait TValidateString); (Always, Itrait TValidateChar); (Always, Itrait TValidateSignedInteger);
                     (Always, Itrait TValidateUnsignedInteger); (Always, Itrait TValidateBoolean)]
      | Vjson => [(Always, Itrait TValidateString); (Always, Itrait TValidateSignedInteger); (Always, Itrait TValidateUnsignedInteger);
                  (Always, Itrait TValidateNumber); (Always, Itrait TValidateBoolean); (Always, Itrait TValidateJsonValue);
                  (Always, Xserde_json)]
      | Vlength => [(Always, Itrait TValidateLength); (Always, Itrait TCollectionLength)]
      | Vnumber => [(Always, Itrait TValidateString); (Always, Itrait TValidateNumber)]
      | _ => [(Always, Itrait TValidateString)]
      end
  | Iaxum v => [(Always, Xaxum); (Always, Ierr (error_of v)); (Always, Istd)]
  | Iprelude =>
      [(AnyOf [Fbyte_unit], Xbyte_unit); (AnyOf [Fdata_encoding], Xdata_encoding); (AnyOf [Fidna], Xidna);
       (AnyOf [Fphonenumber], Xphonenumber); (AnyOf [V Vregex], Xregex); (AnyOf [Frocket], Xrocket); (AnyOf [Fsemver_dep], Xsemver);
       (AnyOf [Fserde], Xserde); (AnyOf [Fserde_json], Xserde_json); (AnyOf [Fstr_utils], Xstr_utils); (AnyOf [Ftest], Itest);
       (AnyOf [V Vurl], Xurl); (AnyOf [Fderive], Xderive)]
  | _ => []
  end.

(** The condition under which [use validators::prelude::*] brings a name into scope, directly or under [validators_prelude]:
    /repo/validators/src/lib.rs:991-1028. Types and impls of a library come with the library. *)
Definition export_cfg (i : item) : cfg_any :=
  match i with
  | Xregex => AnyOf [V Vregex]
  | Xurl => AnyOf [V Vurl]
  | Xaxum | Iaxum _ | Ires_built_in | Ires_rocket | Ires_serde _ | Iprelude | Icollection_length_impls | Istd | Ibare_string => AnyOf []
  | Xderive => AnyOf [Fderive]
  | Ibit | Ibyte | Ibyte_unit_serde => AnyOf [Fbyte_unit]
  | Iurl_serde => AnyOf [V Vurl]
  | Isemver_serde => AnyOf [Fsemver_dep]
  | Xdata_encoding => AnyOf [Fdata_encoding]
  | Xidna => AnyOf [Fidna]
  | Xbyte_unit => AnyOf [Fbyte_unit]
  | Xphonenumber => AnyOf [Fphonenumber]
  | Xrocket => AnyOf [Frocket]
  | Xsemver => AnyOf [Fsemver_dep]
  | Xserde => AnyOf [Fserde]
  | Xserde_json => AnyOf [Fserde_json]
  | Xstr_utils => AnyOf [Fstr_utils]
  | Itest => AnyOf [Ftest]
  | Itrait _ | Ierr _ | Ifn_ipv4 | Ifn_ipv6 | Ifn_ip | Ifn_domain | Ihost | Iprotocol | Ialloc => Always
  end.

(** A name that the generated code can use: it exists and the prelude exports it, /repo/validators/src/lib.rs:991-1028. *)
Definition exported (S : feature -> Prop) (i : item) : Prop := present S i /\ holds S (export_cfg i).

(** The traits of the crate that the handler of [v] implements for the struct, whatever the attribute says: the lines
    [impl .. for #name] of /repo/validators-derive/src/validator_handlers/*/mod.rs, e.g. boolean/mod.rs:216-299,
    domain/mod.rs:869-981 (one of two [QualifyDomain], one of three [ToUriAuthorityString]), json/mod.rs:90-228, length/mod.rs:138-158. *)
Definition implements (v : validator) : list trait :=
  match v with
  | Vbase32 | Vbase64 | Vbase64_url => [TValidateString; TValidateBytes]
  | Vbase32_decoded | Vbase64_decoded | Vbase64_url_decoded => [TValidateString; TValidateBytes; TCollectionLength]
  | Vbit | Vbyte | Vunsigned_integer => [TValidateString; TValidateUnsignedInteger]
  | Vsigned_integer => [TValidateString; TValidateSignedInteger]
  | Vboolean => [TValidateString; TValidateChar; TValidateSignedInteger; TValidateUnsignedInteger; TValidateBoolean]
  | Vdomain => [TValidateString; TQualifyDomain; TToUriAuthorityString]
  | Vemail => [TValidateString; TToEmailString]
  | Vhost | Vip | Vipv4 | Vipv6 => [TValidateString; TToUriAuthorityString]
  | Vjson => [TValidateString; TValidateSignedInteger; TValidateUnsignedInteger; TValidateNumber; TValidateBoolean; TValidateJsonValue;
              TToJsonString]
  | Vlength => [TValidateLength]
  | Vmac_address => [TValidateString; TToMacAddressString]
  | Vuuid => [TValidateString; TToUuidString]
  | Vnumber => [TValidateString; TValidateNumber]
  | Vhttp_url | Vhttp_ftp_url | Vline | Vtext | Vphone | Vregex | Vsemver | Vsemver_req | Vurl => [TValidateString]
  end.

(** The items that the code generated for [v] names under some attribute, with the [cfg] of the macro on that part of the handler
    ([None]: no [cfg]): the [validators_prelude::..] and [::std::..] paths of /repo/validators-derive/src/validator_handlers/*/mod.rs,
    the bare [String] of json/mod.rs:219,223, and /repo/validators-derive/src/common/{rocket,test}.rs. *)
Definition mentions (v : validator) : list (option dfeature * item) :=
  List.map (fun t => (None, Itrait t)) (implements v) ++
  [(None, Ierr (error_of v)); (Some Dserde, Xserde)] ++
  match v with
  | Vlength => []
  | _ => [(None, Ialloc); (Some Drocket, Xrocket); (Some Drocket, Itrait TValidateString)]
  end ++
  match v with
  | Vbase32 | Vbase64 | Vbase64_url => [(Some Dtest, Itest)]
  | Vbase32_decoded | Vbase64_decoded | Vbase64_url_decoded => [(Some Dtest, Itest); (None, Xdata_encoding)]
  | Vbit => [(Some Dtest, Itest); (None, Xbyte_unit); (None, Ibit); (Some Dserde, Ibyte_unit_serde)]
  | Vbyte => [(Some Dtest, Itest); (None, Xbyte_unit); (None, Ibyte); (Some Dserde, Ibyte_unit_serde)]
  | Vdomain => [(Some Dtest, Itest); (None, Xidna); (None, Ifn_domain); (None, Ifn_ipv4)]
  | Vemail | Vhost =>
      [(Some Dtest, Itest); (None, Ihost); (None, Xidna); (None, Ifn_domain); (None, Ifn_ipv4); (None, Ifn_ipv6); (None, Istd)]
  | Vhttp_url =>
      [(Some Dtest, Itest); (None, Xurl); (None, Xstr_utils); (None, Ifn_domain); (None, Ifn_ipv4); (None, Ifn_ipv6); (Some Dserde, Iurl_serde)]
  | Vhttp_ftp_url =>
      [(Some Dtest, Itest); (None, Xurl); (None, Xstr_utils); (None, Ifn_domain); (None, Ifn_ipv4); (None, Ifn_ipv6); (None, Iprotocol);
       (Some Dserde, Iurl_serde)]
  | Vip => [(Some Dtest, Itest); (None, Ifn_ipv4); (None, Ifn_ipv6); (None, Istd)]
  | Vipv4 => [(Some Dtest, Itest); (None, Ifn_ipv4); (None, Istd)]
  | Vipv6 => [(Some Dtest, Itest); (None, Ifn_ipv6); (None, Istd)]
  | Vjson => [(None, Xserde_json); (None, Ibare_string)]
  | Vmac_address | Vuuid | Vnumber | Vsigned_integer | Vunsigned_integer => [(Some Dtest, Itest)]
  | Vphone => [(None, Xphonenumber); (None, Istd)]
  | Vsemver | Vsemver_req => [(None, Xsemver); (Some Dserde, Isemver_serde)]
  | Vurl => [(None, Xurl); (Some Dserde, Iurl_serde)]
  | Vboolean | Vlength | Vline | Vtext | Vregex => []
  end.

(** The modules of validators-derive that are compiled conditionally, and its optional libraries.
    (/repo/validators-derive/src/common/mod.rs:12-100, common/attributes/mod.rs:1-25, validator_handlers/mod.rs:3-95;
    /repo/validators-derive/Cargo.toml:25-27.) *)
Inductive dmod := Mallow | Mboolean | Mcase_option | Mlength | Mnumber | Mrange | Mrange_option | Mseparator_option | Mtri_allow | Mrocket
| Mtest | Mbase_xx | Mbasic | Mhttp_xx | Mip_xx | Mrange_attribute | Mutf8 | Mhandler (v : validator)
| Xeduce | Xdphonenumber | Xdregex.

(** The features any of which compiles a module, /repo/validators-derive/src/common/mod.rs:12-100, common/attributes/mod.rs:1-25,
    validator_handlers/mod.rs:3-95; for libraries, /repo/validators-derive/Cargo.toml:43-57. *)
Definition dcfg (m : dmod) : list dfeature :=
  match m with
  | Mallow => [Dtest; DV Vdomain; DV Vemail; DV Vnumber; DV Vsigned_integer; DV Vunsigned_integer]
  | Mboolean => [Dtest; DV Vbit; DV Vbyte; DV Vnumber; DV Vsigned_integer; DV Vunsigned_integer]
  | Mcase_option | Mseparator_option => [Dtest; DV Vmac_address; DV Vuuid]
  | Mlength => [DV Vline; DV Vtext]
  | Mnumber => [Dtest; DV Vbit; DV Vbyte; DV Vlength; DV Vline; DV Vnumber; DV Vsigned_integer; DV Vunsigned_integer; DV Vtext]
  | Mrange => [Dtest; DV Vbit; DV Vbyte; DV Vnumber; DV Vsigned_integer; DV Vunsigned_integer]
  | Mrange_option => [Dtest; DV Vnumber; DV Vsigned_integer; DV Vunsigned_integer]
  | Mtri_allow => [Dtest; DV Vbase32; DV Vbase32_decoded; DV Vbase64; DV Vbase64_decoded; DV Vbase64_url; DV Vbase64_url_decoded; DV Vdomain;
                   DV Vemail; DV Vhost; DV Vhttp_url; DV Vhttp_ftp_url; DV Vip; DV Vipv4; DV Vipv6; DV Vnumber; DV Vsigned_integer;
                   DV Vunsigned_integer]
  | Mrocket => [Drocket]
  | Mtest => [Dtest]
  | Mbase_xx => [DV Vbase32; DV Vbase32_decoded; DV Vbase64; DV Vbase64_decoded; DV Vbase64_url; DV Vbase64_url_decoded]
  | Mbasic => [DV Vboolean; DV Vjson; DV Vsemver; DV Vsemver_req; DV Vurl]
  | Mhttp_xx => [DV Vhttp_url; DV Vhttp_ftp_url]
  | Mip_xx => [DV Vip; DV Vipv4; DV Vipv6]
  | Mrange_attribute => [DV Vsigned_integer; DV Vunsigned_integer]
  | Mutf8 => [DV Vline; DV Vtext]
  | Mhandler v => [DV v]
  | Xeduce => [DV Vdomain; DV Vemail; DV Vhost; DV Vip; DV Vipv4; DV Vipv6]
  | Xdphonenumber => [DV Vphone]
  | Xdregex => [DV Vregex]
  end.

(** What a module of validators-derive names, with the [cfg] on that part: the [use] lines of /repo/validators-derive/src/common/*.rs,
    common/attributes/*.rs and validator_handlers/*/*.rs. *)
Definition duses (m : dmod) : list (option dfeature * dmod) :=
  match m with
  | Mlength => [(None, Mnumber)]
  | Mrange => [(None, Mboolean); (None, Mnumber)]
  | Mrange_option => [(None, Mrange)]
  | Mtest => [(None, Mallow); (None, Mcase_option); (None, Mrange); (None, Mrange_option); (None, Mseparator_option); (None, Mtri_allow)]
  | Mbase_xx | Mhttp_xx | Mip_xx => [(None, Mtri_allow)]
  | Mrange_attribute => [(None, Mrange); (None, Mrange_option)]
  | Mutf8 => [(None, Mlength)]
  | Mhandler v =>
      match v with
      | Vlength => []
      | _ => [(Some Drocket, Mrocket)]
      end ++
      match v with
      | Vboolean | Vjson | Vregex | Vsemver | Vsemver_req | Vurl | Vphone | Vlength => []
      | _ => [(Some Dtest, Mtest)]
      end ++
      match v with
      | Vbase32 | Vbase32_decoded | Vbase64 | Vbase64_decoded | Vbase64_url | Vbase64_url_decoded => [(None, Mbase_xx); (None, Mtri_allow)]
      | Vbit => [(None, Mrange)]
      | Vbyte => [(None, Mrange); (None, Mboolean)]
      | Vboolean | Vjson | Vsemver | Vsemver_req | Vurl => [(None, Mbasic)]
      | Vdomain | Vemail => [(None, Mallow); (None, Mtri_allow); (None, Xeduce)]
      | Vhost => [(None, Mtri_allow); (None, Xeduce)]
      | Vhttp_url | Vhttp_ftp_url => [(None, Mhttp_xx); (None, Mtri_allow)]
      | Vip | Vipv4 | Vipv6 => [(None, Mip_xx); (None, Mtri_allow); (None, Xeduce)]
      | Vlength => [(None, Mnumber)]
      | Vline | Vtext => [(None, Mutf8); (None, Mlength)]
      | Vmac_address | Vuuid => [(None, Mcase_option); (None, Mseparator_option)]
      | Vnumber => [(None, Mallow); (None, Mrange); (None, Mrange_option); (None, Mtri_allow)]
      | Vphone => [(None, Xdphonenumber)]
      | Vregex => [(None, Xdregex)]
      | Vsigned_integer | Vunsigned_integer => [(None, Mrange_attribute); (None, Mrange_option)]
      end
  | _ => []
  end.

(** The module is compiled, /repo/validators-derive/src/common/mod.rs:12-100. *)
Definition dpresent (D : dfeature -> Prop) (m : dmod) : Prop := exists d, In d (dcfg m) /\ D d.
(** [None]: no [cfg], e.g. /repo/validators-derive/src/validator_handlers/base32/mod.rs:32. *)
Definition dholds (D : dfeature -> Prop) (c : option dfeature) : Prop := match c with None => True | Some d => D d end.

(** The [compile_error!] of /repo/validators-derive/src/supported_validators.rs:1-34. *)
Definition refuses_to_build (D : dfeature -> Prop) : Prop := forall v, ~ D (DV v).
