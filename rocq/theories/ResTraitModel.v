(** The traits of [validators::Result] and of the error types: which impls there are, and what comparison does. *)
From Verif Require Import Base MacroModel DeModel.
Local Open Scope N_scope.

(** The traits derived at /repo/validators/src/result/mod.rs:13, and [Debug], /repo/validators/src/result/built_in_traits.rs:11-16. *)
Inductive std_trait := TCopy | TClone | TPartialEq | TEq | TPartialOrd | TOrd | THash | TDebug.

(** Models the bounds of the impls of [validators::Result<T, E, K>]: a derived impl (/repo/validators/src/result/mod.rs:13) asks for the trait of
    all three parameters; that of [Debug] is written for [K = ()] only
    (/repo/validators/src/result/built_in_traits.rs:11-16). [unit_k] tells whether [K] is [()]. *)
Definition result_impl (t e k : std_trait -> bool) (unit_k : bool) (tr : std_trait) : bool :=
  match tr with
  | TDebug => unit_k && t TDebug && e TDebug
  | _ => t tr && e tr && k tr
  end%bool.

(** The traits of the unit type (external: core), the default of [K], /repo/validators/src/result/mod.rs:14. *)
Definition unit_traits (tr : std_trait) : bool := true.

(** Models the [derive] attributes of the error types: line 4 of /repo/validators/src/errors/json.rs and semver.rs (also for semver_req) and
    line 6 of phone.rs have [Debug] only, all others [Debug] and [Clone] (line 4 of /repo/validators/src/errors/base32.rs,
    base32_decoded.rs, base64.rs, base64_decoded.rs, base64_url.rs, base64_url_decoded.rs, boolean.rs, domain.rs, email.rs, host.rs, ip.rs, ipv4.rs,
    ipv6.rs, length.rs, line.rs, mac_address.rs, regex.rs, text.rs and uuid.rs, line 6 of bit.rs, byte.rs, http_url.rs,
    http_ftp_url.rs and url.rs, line 7 of number.rs, signed_integer.rs and unsigned_integer.rs). *)
Definition error_traits (v : validator) (tr : std_trait) : bool :=
  match tr, v with
  | TDebug, _ => true
  | TClone, (Vjson | Vphone | Vsemver | Vsemver_req) => false
  | TClone, _ => true
  | _, _ => false
  end.

(** Models [derive(PartialOrd, Ord)] of [validators::Result], /repo/validators/src/result/mod.rs:13: the inner [core::result::Result], whose
    variants are [Ok] and then [Err], and a [PhantomData], which is equal to every other. *)
Definition res_cmp {E A} (ca : A -> A -> comparison) (ce : E -> E -> comparison) (x y : res E A) : comparison :=
  match x, y with
  | ROk a, ROk b => ca a b
  | RErr e, RErr f => ce e f
  | ROk _, RErr _ => Lt
  | RErr _, ROk _ => Gt
  end.

(** Models [derive(PartialEq, Eq)] of [validators::Result], /repo/validators/src/result/mod.rs:13. *)
Definition res_eqb {E A} (qa : A -> A -> bool) (qe : E -> E -> bool) (x y : res E A) : bool :=
  match x, y with ROk a, ROk b => qa a b | RErr e, RErr f => qe e f | _, _ => false end.
