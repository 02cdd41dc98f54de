(** The validators that only call a library: regex, url, semver and semver_req; and the conversions of axum.  The
    libraries are not modelled: their functions are arguments. *)
From Verif Require Import Base MetaModel Serde DeModel ValueSerde.
Local Open Scope N_scope.

Section RegexValidator.
(** The type [Regex] of the crate, [Regex::new] ([None]: it returns an error) and [Regex::is_match]
    (external crate regex; the crate that the macro links and the one the generated code names are the same version
    with the same features, /repo/validators-derive/Cargo.toml:27 and /repo/validators/Cargo.toml:25). *)
Variable re : Type.
Variable regex_new : list N -> option re.
Variable is_match : re -> list N -> bool.
(** [e.is_match(s)] for the expression [e] that the user wrote. *)
Variable user : list N -> bool.

(** Models [#re.is_match(s)], where [#re] is [Regex::new(#s).unwrap()] for a string literal: the matcher is built on every
    call, and [unwrap] panics if that fails.
    (/repo/validators-derive/src/validator_handlers/regex/mod.rs:38 and regex_attribute.rs:119-121.) *)
Definition re_is_match (e : regex_expr) (s : list N) : outcome regex_err bool :=
  match e with
  | RePattern p => match regex_new p with Some r => Ok (is_match r s) | None => Panic end
  | ReExpr => Ok (user s)
  end.

(** Models [v_parse_str], /repo/validators-derive/src/validator_handlers/regex/mod.rs:37-43. *)
Definition re_v_parse_str (e : regex_expr) (s : list N) : outcome regex_err unit :=
  let? b := re_is_match e s in if negb b then Err RegexError else Ok tt.

(** Models [parse_string], [parse_str] and [validate_str], /repo/validators-derive/src/validator_handlers/regex/mod.rs:51-76. *)
Definition re_parse_string (e : regex_expr) (s : list N) : outcome regex_err (list N) := let? _ := re_v_parse_str e s in Ok s.
Definition re_parse_str (e : regex_expr) (s : list N) : outcome regex_err (list N) := let? _ := re_v_parse_str e s in Ok s.
Definition re_validate_str (e : regex_expr) (s : list N) : outcome regex_err unit := let? _ := re_v_parse_str e s in Ok tt.
End RegexValidator.

(** The three validators that return the library's value.
    (/repo/validators-derive/src/validator_handlers/url, semver, semver_req.) *)
Inductive lib_kind := LUrl | LSemver | LSemverReq.

(** The [kind] of it.
    (/repo/validators-derive/src/validator_handlers, one directory each.) *)
Definition lib_kind_of (k : lib_kind) : kind := match k with LUrl => Url | LSemver => Semver | LSemverReq => SemverReq end.

Section LibValidator.
(** [Url::parse], [Version::parse] or [VersionReq::parse] (external crates url and semver), which return the library's error. *)
Variables A E : Type.
Variable lib_parse : list N -> A + E.

(** Models [v_parse_str], [Ok(Lib::parse(s)?)]; [?] wraps the library's error, /repo/validators/src/errors/url.rs:5-14,
    semver.rs:4-12.
    (/repo/validators-derive/src/validator_handlers/url/mod.rs:36-38, semver/mod.rs:36-38, semver_req/mod.rs:36-38.) *)
Definition lib_v_parse_str (s : list N) : outcome E A := match lib_parse s with inl a => Ok a | inr e => Err e end.

(** Models [parse_string], [parse_str] and [validate_str].
    (/repo/validators-derive/src/validator_handlers/url/mod.rs:43-62, semver/mod.rs:43-62, semver_req/mod.rs:43-62.) *)
Definition lib_parse_string (s : list N) : outcome E A := let? a := lib_v_parse_str s in Ok a.
Definition lib_parse_str (s : list N) : outcome E A := let? a := lib_v_parse_str s in Ok a.
Definition lib_validate_str (s : list N) : outcome E unit := let? _ := lib_v_parse_str s in Ok tt.
End LibValidator.
