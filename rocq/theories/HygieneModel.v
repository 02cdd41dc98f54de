(** The names that the generated code writes, and what they stand for where the struct is declared.

    [quote!] gives every identifier the scope of the place where the derive stands, so that an identifier without a path is looked up
    first among the local items and type parameters around it, then in the module of the struct, and only then in what the module
    imports with [use validators::prelude::*] and in the standard prelude (the order of Rust's name resolution, trusted).
    Simplified: one namespace (a type, a function, a variant and a macro of the same name count as one item); names of lifetimes, of
    local variables and of methods are left out, and so is the code of the feature [test]. *)
From Coq Require Import List NArith.
From Verif Require Import Base MetaModel MacroModel FeatureModel.
Import ListNotations.

(** An identifier in the generated code: the name of the struct ([#name]), a name in the type of the field ([#data_type]), or a word
    that stands in the source of the handler; e.g. /repo/validators-derive/src/validator_handlers/length/mod.rs:128-157. *)
Inductive word := WStruct | WField (t : list N) | W (w : list N).

(** An identifier with the names declared around it in the generated code: type parameters and local items, innermost first; e.g.
    /repo/validators-derive/src/validator_handlers/base32/mod.rs:228-247. *)
Record name_use := mk_use { u_word : word; u_inner : list (list N) }.

(** What an identifier stands for: something declared around it in the generated code, an item of the module, or anything further out;
    e.g. [MyVisitor], [#name] and [Result] in /repo/validators-derive/src/validator_handlers/base32/mod.rs:228-234. *)
Inductive meaning := MLocal (x : list N) | MModule (x : list N) | MOutside (x : list N).

(** The text of an identifier; [s] is the name of the struct, /repo/validators-derive/src/validator_handlers/base32/mod.rs:24,37. *)
Definition word_text (s : list N) (w : word) : list N := match w with WStruct => s | WField t => t | W x => x end.

(** Name resolution (Rust's, trusted) of the identifiers that /repo/validators-derive/src/validator_handlers/*/mod.rs emits with
    [quote!], e.g. base32/mod.rs:78-272: [m] says which names the items of the module have; the struct is one of them. *)
Definition resolve (s : list N) (m : list N -> bool) (u : name_use) : meaning :=
  let x := word_text s (u_word u) in
  if existsb (eqbs x) (u_inner u) then MLocal x
  else if eqbs x s || m x then MModule x else MOutside x.

(** The name of a trait of the crate, /repo/validators/src/traits/mod.rs:34-66. *)
Definition trait_name (t : trait) : list N :=
  match t with
  | TValidateString => bs "ValidateString" | TValidateBytes => bs "ValidateBytes" | TValidateChar => bs "ValidateChar"
  | TValidateBoolean => bs "ValidateBoolean" | TValidateNumber => bs "ValidateNumber"
  | TValidateSignedInteger => bs "ValidateSignedInteger" | TValidateUnsignedInteger => bs "ValidateUnsignedInteger"
  | TValidateLength => bs "ValidateLength" | TValidateJsonValue => bs "ValidateJsonValue" | TCollectionLength => bs "CollectionLength"
  | TQualifyDomain => bs "QualifyDomain" | TToUriAuthorityString => bs "ToUriAuthorityString" | TToEmailString => bs "ToEmailString"
  | TToJsonString => bs "ToJsonString" | TToMacAddressString => bs "ToMacAddressString" | TToUuidString => bs "ToUuidString"
  end.

(** The words of [::core]'s prelude, primitive types and macros that the inherent impl and the impls of the crate's traits write, under
    some attribute: the [quote!] blocks before [#[cfg(feature = "serde")]] of
    /repo/validators-derive/src/validator_handlers/*/mod.rs, e.g. base32/mod.rs:78-197, email/mod.rs:617-1676, json/mod.rs:33-227,
    length/mod.rs:39-158. (The type parameters [S] and [V] of [parse_str] and the like hide none of these words; the struct is named
    inside them only as a constructor, regex/mod.rs:57,66, and type parameters hide no constructors.) *)
Definition plain_words (v : validator) : list (list N) :=
  [bs "Result"; bs "Ok"; bs "validators_prelude"] ++
  match v with Vlength => [] | _ => [bs "AsRef"; bs "Into"; bs "str"] end ++
  match v with Vjson | Vsemver | Vsemver_req | Vurl => [] | _ => [bs "Err"] end ++
  match v with
  | Vbase32 | Vbase64 | Vbase64_url => [bs "u8"]
  | Vbase32_decoded | Vbase64_decoded | Vbase64_url_decoded => [bs "u8"; bs "usize"]
  | Vbit | Vbyte => [bs "Some"; bs "None"; bs "u64"; bs "u128"; bs "unreachable"]
  | Vboolean => [bs "Some"; bs "bool"; bs "char"; bs "i128"; bs "u128"]
  | Vdomain | Vhost | Vip | Vipv4 | Vipv6 => [bs "Some"; bs "None"; bs "Option"; bs "bool"; bs "u16"]
  | Vemail => [bs "Some"; bs "None"; bs "Option"; bs "bool"; bs "isize"; bs "usize"; bs "format"; bs "format_args"; bs "unreachable"]
  | Vhttp_url => [bs "Some"; bs "bool"; bs "unreachable"]
  | Vhttp_ftp_url => [bs "Some"; bs "unreachable"]
  | Vjson => [bs "String"; bs "bool"; bs "f64"; bs "i64"; bs "i128"; bs "u64"; bs "u128"]
  | Vline | Vtext => [bs "Some"]
  | Vmac_address => [bs "u8"; bs "u64"]
  | Vuuid => [bs "u8"; bs "u128"]
  | Vnumber => [bs "Some"; bs "None"; bs "f32"; bs "f64"]
  | Vphone => [bs "Some"; bs "None"]
  | Vsigned_integer => [bs "i8"; bs "i16"; bs "i32"; bs "i64"; bs "i128"; bs "isize"]
  | Vunsigned_integer => [bs "u8"; bs "u16"; bs "u32"; bs "u64"; bs "u128"; bs "usize"]
  | Vlength => [bs "CollectionLength"]
  | Vregex | Vsemver | Vsemver_req | Vurl => []
  end.

(** The validators whose [deserialize] has a visitor of its own, [struct MyVisitor;]: e.g.
    /repo/validators-derive/src/validator_handlers/base32/mod.rs:231, domain/mod.rs:1076, regex/mod.rs:102; those without:
    bit/mod.rs:195-204, json/mod.rs:248-256, length/mod.rs:178-187, semver/mod.rs:84-91, semver_req/mod.rs:84-91, url/mod.rs:84-91. *)
Definition has_visitor (v : validator) : bool :=
  match v with Vbit | Vjson | Vlength | Vsemver | Vsemver_req | Vurl => false | _ => true end.

(** The traits whose methods the visitor calls, as [<#name as ..>], e.g.
    /repo/validators-derive/src/validator_handlers/boolean/mod.rs:339-393, byte/mod.rs:216-227, number/mod.rs:410-435,
    signed_integer/mod.rs:598-643; every other visitor calls [ValidateString] only (and [ValidateBytes] for base32/mod.rs:242-268 and
    the like). *)
Definition visitor_traits (v : validator) : list trait :=
  match v with
  | Vbase32 | Vbase64 | Vbase64_url | Vbase32_decoded | Vbase64_decoded | Vbase64_url_decoded => [TValidateString; TValidateBytes]
  | Vboolean => [TValidateString; TValidateChar; TValidateSignedInteger; TValidateUnsignedInteger]
  | Vbyte | Vunsigned_integer => [TValidateString; TValidateUnsignedInteger]
  | Vsigned_integer => [TValidateString; TValidateSignedInteger]
  | Vnumber => [TValidateString; TValidateNumber]
  | _ => [TValidateString]
  end.

(** The primitive types in the signatures of the visitor's methods, e.g.
    /repo/validators-derive/src/validator_handlers/boolean/mod.rs:339-393; the other lines are those of [visitor_traits]. *)
Definition visitor_prims (v : validator) : list (list N) :=
  match v with
  | Vbase32 | Vbase64 | Vbase64_url | Vbase32_decoded | Vbase64_decoded | Vbase64_url_decoded => [bs "str"; bs "u8"]
  | Vboolean => [bs "str"; bs "Ok"; bs "bool"; bs "char"; bs "i64"; bs "u64"; bs "i128"; bs "u128"]
  | Vbyte => [bs "str"; bs "u128"]
  | Vnumber => [bs "str"; bs "f32"; bs "f64"]
  | Vsigned_integer => [bs "str"; bs "i8"; bs "i16"; bs "i32"; bs "i64"; bs "i128"]
  | Vunsigned_integer => [bs "str"; bs "u8"; bs "u16"; bs "u32"; bs "u64"; bs "u128"]
  | _ => [bs "str"]
  end.

(** The trait that [serialize] names bare, if any: /repo/validators-derive/src/validator_handlers/domain/mod.rs:986-1066,
    email/mod.rs:1683-1729, host/mod.rs:735-801, ip/mod.rs:448-502, json/mod.rs:233-241, mac_address/mod.rs:338-381, uuid/mod.rs:358-401. *)
Definition serialize_traits (v : validator) : list trait :=
  match v with
  | Vdomain | Vhost | Vip | Vipv4 | Vipv6 => [TToUriAuthorityString]
  | Vemail => [TToEmailString]
  | Vjson => [TToJsonString]
  | Vmac_address => [TToMacAddressString]
  | Vuuid => [TToUuidString]
  | _ => []
  end.

(** The names declared inside [deserialize]: its type parameter, the visitor, and the type parameter of the visitor's methods, e.g.
    /repo/validators-derive/src/validator_handlers/base32/mod.rs:228,231,242. *)
Definition de_scope : list (list N) := [bs "D"].
Definition visitor_scope : list (list N) := bs "MyVisitor" :: de_scope.
Definition method_scope : list (list N) := bs "E" :: visitor_scope.

(** [impl Serialize for #name { fn serialize<S>(..) .. }], e.g. /repo/validators-derive/src/validator_handlers/base32/mod.rs:205-213. *)
Definition ser_uses (v : validator) : list name_use :=
  mk_use WStruct [] :: List.map (fun x => mk_use (W x) [bs "S"])
    (bs "Result" :: bs "validators_prelude" :: List.map trait_name (serialize_traits v)).

(** [impl<'de> Deserialize<'de> for #name { .. }]. With a visitor, e.g.
    /repo/validators-derive/src/validator_handlers/base32/mod.rs:226-272; without, as for [has_visitor]; length names the type of the
    field, length/mod.rs:181. *)
Definition de_uses (v : validator) (field : list (list N)) : list name_use :=
  mk_use WStruct [] :: mk_use (W (bs "validators_prelude")) [] :: List.map (fun x => mk_use (W x) de_scope) [bs "Result"; bs "validators_prelude"] ++
  (if has_visitor v then
     [mk_use (W (bs "validators_prelude")) visitor_scope; mk_use WStruct visitor_scope; mk_use WStruct method_scope] ++
     List.map (fun x => mk_use (W x) method_scope)
       (bs "Result" :: bs "validators_prelude" :: List.map trait_name (visitor_traits v) ++ visitor_prims v)
   else match v with
        | Vlength => mk_use (W (bs "Ok")) de_scope :: List.map (fun t => mk_use (WField t) de_scope) field
        | Vbit | Vjson => [mk_use (W (bs "Ok")) de_scope]
        | _ => []
        end).

(** [FromFormField] and [FromParam], /repo/validators-derive/src/common/rocket.rs:4-32. *)
Definition form_uses : list name_use :=
  mk_use WStruct [] :: List.map (fun x => mk_use (W x) []) [bs "validators_prelude"; bs "Ok"; bs "ValidateString"].
Definition param_uses : list name_use :=
  mk_use WStruct [] :: List.map (fun x => mk_use (W x) []) [bs "validators_prelude"; bs "Result"; bs "str"; bs "ValidateString"].

(** The inherent impl and the impls of the crate's traits; json and length name the type of the field in signatures,
    /repo/validators-derive/src/validator_handlers/json/mod.rs:37-84, length/mod.rs:130-151. *)
Definition own_uses (v : validator) (field : list (list N)) : list name_use :=
  mk_use WStruct [] :: List.map (fun x => mk_use (W x) []) (plain_words v ++ List.map trait_name (implements v)) ++
  match v with Vjson | Vlength => List.map (fun t => mk_use (WField t) []) field | _ => [] end.

(** Every identifier of the generated code; [field] are the names in the type of the field, [o] the options of the attribute. length has no impls for
    rocket, /repo/validators-derive/src/validator_handlers/length/mod.rs:159-193. *)
Definition uses (f : features) (o : opts) (v : validator) (field : list (list N)) : list name_use :=
  own_uses v field ++
  (if f_serde f && fst (o_serde o) then ser_uses v else []) ++
  (if f_serde f && snd (o_serde o) then de_uses v field else []) ++
  match v with
  | Vlength => []
  | _ => (if f_rocket f && fst (o_rocket o) then form_uses else []) ++ (if f_rocket f && snd (o_rocket o) then param_uses else [])
  end.
