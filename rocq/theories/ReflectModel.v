(** The constants that the macro adds to a struct when the feature [test] is on, and the methods of their types. *)
From Verif Require Import Base RangeModel IntModel NumberModel MacModel LineModel LengthModel MetaModel MacroModel.
From Coq Require Import Floats.SpecFloat.
Local Open Scope N_scope.

(** A constant of one of the types that [validators_prelude] has for the tests, or of a plain type; the range of a size is a
    [RangeOption::Inside] of [u128].
    (/repo/validators/src/test/range_option.rs:1-6, tri_allow.rs:1-6, case_option.rs:1-6, separator_option.rs:1-6.) *)
Inductive cval (cid : Type) :=
| CTri (t : tri)
| CCase (c : case_option)
| CSep (s : sep_option)
| CBool (b : bool)
| CLen (n : option N)
| CSizes (r : range_option N)
| CInts (r : range_option Z)
| CFloats (r : range_option spec_float)
| CCountries (l : list cid).
Arguments CTri {cid}. Arguments CCase {cid}. Arguments CSep {cid}. Arguments CBool {cid}. Arguments CLen {cid}.
Arguments CSizes {cid}. Arguments CInts {cid}. Arguments CFloats {cid}. Arguments CCountries {cid}.

(** Models [TriAllow::allow], [disallow] and [must], /repo/validators/src/test/tri_allow.rs:8-35. *)
Definition t_allow (t : tri) : bool := match t with Must | Allow => true | Disallow => false end.
Definition t_disallow (t : tri) : bool := match t with Must | Allow => false | Disallow => true end.
Definition t_must (t : tri) : bool := match t with Must => true | Allow | Disallow => false end.

(** Models [CaseOption::any], [upper] and [lower], /repo/validators/src/test/case_option.rs:8-35. *)
Definition c_any (c : case_option) : bool := match c with AnyCase => true | UpperCase | LowerCase => false end.
Definition c_upper (c : case_option) : bool := match c with AnyCase | UpperCase => true | LowerCase => false end.
Definition c_lower (c : case_option) : bool := match c with AnyCase | LowerCase => true | UpperCase => false end.

(** Models [SeparatorOption::allow], [disallow] and [must], /repo/validators/src/test/separator_option.rs:8-34. *)
Definition s_allow (s : sep_option) : option N := match s with SepMust c | SepAllow c => Some c | SepDisallow => None end.
Definition s_disallow (s : sep_option) : bool := match s with SepMust _ | SepAllow _ => false | SepDisallow => true end.
Definition s_must (s : sep_option) : option N := match s with SepMust c => Some c | SepAllow _ | SepDisallow => None end.

(** Models [ToTokens for Allow], /repo/validators-derive/src/common/test.rs:39-53: written as a [TriAllow]. *)
Definition allow_const (b : bool) : tri := if b then Allow else Disallow.

(** Models [ToTokens for Range<u128>], /repo/validators-derive/src/common/test.rs:89-104. *)
Definition size_const (r : range N) : range_option N := Inside (r_min r) (r_max r) (r_incl r).

(** Models [ToTokens for RangeTokenStream], /repo/validators-derive/src/common/test.rs:106-147: the bounds as they are. *)
Definition range_const {T} (r : range_option T) : range_option T :=
  match r with
  | Inside min max incl => Inside min max incl
  | Outside min max incl => Outside min max incl
  | Unlimited => Unlimited
  end.

(** Models the constants of line and text, /repo/validators-derive/src/validator_handlers/line/mod.rs:32-71 and
    text/mod.rs:32-71: without an attribute they are those of characters. *)
Definition utf8_consts {cid} (a : utf8_attr) : list (list N * cval cid) :=
  let '(byte, min, tmin, max) :=
    match ta_length a with
    | Some (byte, l) => (byte, l_min l, l_tmin l, l_max l)
    | None => (false, None, None, None)
    end in
  if (byte : bool) then
    [(bs "V_BYTE_LENGTH_MIN", CLen min); (bs "V_BYTE_LENGTH_TRIMMED_MIN", CLen tmin); (bs "V_BYTE_LENGTH_MAX", CLen max)]
  else
    [(bs "V_CHAR_LENGTH_MIN", CLen min); (bs "V_CHAR_LENGTH_TRIMMED_MIN", CLen tmin); (bs "V_CHAR_LENGTH_MAX", CLen max)].

(** Models the blocks under [cfg(feature = "test")] of the handlers; [order] is the order in which the macro iterates the set of
    countries.
    (/repo/validators-derive/src/validator_handlers/base32/mod.rs:32-41, base32_decoded/mod.rs:35-44, bit/mod.rs:35-44,
    byte/mod.rs:35-46, domain/mod.rs:503-518, email/mod.rs:588-605, host/mod.rs:244-257, http_url/mod.rs:41-50,
    http_ftp_url/mod.rs:41-50, ip/mod.rs:120-131, length/mod.rs:34-72, line/mod.rs:46-71, mac_address/mod.rs:36-47,
    number/mod.rs:67-78, phone/mod.rs:35-49, signed_integer/mod.rs:70-79, unsigned_integer/mod.rs:70-79, uuid/mod.rs:35-46.) *)
Definition constants {cid} (order : list cid -> list cid) (g : expansion cid) : list (list N * cval cid) :=
  match g with
  | GBasic _ _ | GRegex _ _ => []
  | GBase _ a => [(bs "V_PADDING", CTri (ba_padding a))]
  | GHttp _ a => [(bs "V_LOCAL", CTri (ua_local a))]
  | GIp _ a => [(bs "V_LOCAL", CTri (ia_local a)); (bs "V_PORT", CTri (ia_port a))]
  | GHost a =>
      [(bs "V_LOCAL", CTri (ha_local a)); (bs "V_PORT", CTri (ha_port a)); (bs "V_AT_LEAST_TWO_LABELS", CTri (ha_two a))]
  | GDomain a =>
      [(bs "V_IPV4", CTri (da_ipv4 a)); (bs "V_LOCAL", CTri (da_local a)); (bs "V_PORT", CTri (da_port a));
       (bs "V_AT_LEAST_TWO_LABELS", CTri (da_two a))]
  | GEmail a =>
      [(bs "V_COMMENT", CTri (allow_const (ea_comment a))); (bs "V_IP", CTri (ea_ip a)); (bs "V_LOCAL", CTri (ea_local a));
       (bs "V_AT_LEAST_TWO_LABELS", CTri (ea_two a)); (bs "V_NON_ASCII", CTri (allow_const (ea_non_ascii a)))]
  | GMac a | GUuid a => [(bs "V_CASE", CCase (xa_case a)); (bs "V_SEPARATOR", CSep (xa_sep a))]
  | GInt _ _ a => [(bs "V_RANGE", CInts (range_const (ra_range a)))]
  | GNumber _ a => [(bs "V_NAN", CTri (na_nan a)); (bs "V_RANGE", CFloats (range_const (na_range a)))]
  | GBit a => [(bs "V_RANGE", CSizes (size_const (bi_range a)))]
  | GByte a => [(bs "V_RANGE", CSizes (size_const (by_range a))); (bs "V_IGNORE_CASE", CBool (by_ignore_case a))]
  | GPhone a => [(bs "V_COUNTRIES", CCountries (order (pa_countries a)))]
  | GLength a => [(bs "V_LENGTH_MIN", CLen (ca_min a)); (bs "V_LENGTH_MAX", CLen (ca_max a))]
  | GLine a | GText a => utf8_consts a
  end.

(** The value of the constant of a name.
    (/repo/validators/tests/domain.rs:15-18: [Validator::V_IPV4].) *)
Fixpoint const_of {cid} (n : list N) (l : list (list N * cval cid)) : option (cval cid) :=
  match l with [] => None | (m, v) :: l => if eqbs n m then Some v else const_of n l end.
