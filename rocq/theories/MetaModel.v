(** The attribute [#\[validator(name(param, ...))\]]: the syntax the derive macro receives from syn, the parsers of
    single parameter values, and every [build_from_meta] of the derive crate. *)
From Verif Require Import Base IntStr RangeModel SizeModel LengthModel MacModel PhoneModel.
Local Open Scope N_scope.

(** An identifier (never a Rust keyword), as its text.
    ([syn::Ident], e.g. /repo/validators-derive/src/common/allow.rs:53.) *)
Definition ident := list N.

(** Models [syn::Path] by its segments; a path with generic arguments or a leading [::] is a path of two or more
    segments here, as [get_ident] treats it.
    (e.g. /repo/validators-derive/src/common/range.rs:150.) *)
Definition path := list ident.

(** Models [syn::Path::get_ident] and [is_ident].
    (e.g. /repo/validators-derive/src/common/range.rs:150.) *)
Definition get_ident (p : path) : option ident := match p with [i] => Some i | _ => None end.

(** Models [syn::Lit]; numbers are given by [base10_digits] (no suffix, no underscores; a negative literal token of
    [name(-1)] has a leading minus sign). *)
Inductive lit := LitInt (digits : list N) | LitFloat (digits : list N) | LitBool (b : bool) | LitByte (c : N)
  | LitStr (s : list N) | LitOtherKind.

(** Models [syn::ExprRange] with its bounds: [Some (Some l)] is a literal, [Some None] any other expression.
    (/repo/validators-derive/src/common/range.rs:82-112.) *)
Record range_expr := { re_start : option (option lit); re_end : option (option lit); re_half_open : bool }.

(** Models [syn::Expr] as far as the attribute code looks into it: a literal, a negated literal, an invisible group
    around a literal, a path, a range.
    (/repo/validators-derive/src/common/number.rs:22-63 and common/boolean.rs.) *)
Inductive expr := ELit (l : lit) | ENeg (l : lit) | EGroup (l : lit) | EPath (p : path) | ERange (r : range_expr)
  | EOther.

(** Models [syn::Meta]; the tokens of a list are its comma-separated items and whether a comma follows the last one.
    An item is a nested meta, a literal, a range expression or anything else.
    (/repo/validators-derive/src/common/range.rs:122-143.) *)
Inductive meta :=
| MPath (p : path)
| MNameValue (p : path) (e : expr)
| MList (p : path) (items : list item) (trailing : bool)
with item :=
| IMeta (m : meta)
| ILit (l : lit)
| IRange (r : range_expr)
| IOther.

(** Models [Meta::path].
    (e.g. /repo/validators-derive/src/common/range.rs:124.) *)
Definition meta_path (m : meta) : path := match m with MPath p => p | MNameValue p _ => p | MList p _ _ => p end.

(** Models the kinds of [syn::Error] built by /repo/validators-derive/src/panic.rs:41-106 and by the value parsers
    (messages are not modelled). *)
Inductive macro_err :=
| XFormat      (* attribute_incorrect_format *)
| XReset       (* parameter_reset *)
| XUnknown     (* parameter_incorrect_format *)
| XSyntax      (* syn could not parse the tokens *)
| XValue       (* the value parser refused *)
| XFeature     (* a cargo feature is not enabled *)
| XMissing     (* the regex parameter is not set *)
| XConflict    (* the policies contradict each other *)
| XShape       (* validator_for_specific_item *)
| XOnlyOne     (* validator_only_one_at_a_time *)
| XUnsupported (* unsupported_validator *)
| XNotSet      (* derive_attribute_not_set_up_yet *)
| XAttr (e : attr_error).

(** The cargo features the attribute code looks at.
    (/repo/validators-derive/src/common/range.rs:127,137 and common/flag_options.rs.) *)
Record features := { f_serde : bool; f_rocket : bool; f_full : bool }.

(** Models [list.parse_args_with(Punctuated::<Meta, Token![,]>::parse_terminated)]: metas only, a final comma is
    allowed after at least one.
    (e.g. /repo/validators-derive/src/common/range.rs:142-143.) *)
Fixpoint all_metas (items : list item) : option (list meta) :=
  match items with
  | [] => Some []
  | IMeta m :: r => match all_metas r with Some ms => Some (m :: ms) | None => None end
  | _ :: _ => None
  end.
Definition args_metas (items : list item) (trailing : bool) : option (list meta) :=
  match items, trailing with [], true => None | _, _ => all_metas items end.

(** Models [list.parse_args::<Meta>()].
    (/repo/validators-derive/src/common/range_option.rs:28 and common/separator_option.rs:46.) *)
Definition args_meta (items : list item) (trailing : bool) : option meta :=
  match items, trailing with [IMeta m], false => Some m | _, _ => None end.

(** Models [list.parse_args::<Ident>()].
    (/repo/validators-derive/src/common/tri_allow.rs:66.) *)
Definition args_ident (items : list item) (trailing : bool) : option ident :=
  match args_meta items trailing with Some (MPath p) => get_ident p | _ => None end.

(** Models [list.parse_args_with(Punctuated::<Ident, Token![,]>::parse_separated_nonempty)]: at least one
    identifier, no final comma.
    (/repo/validators-derive/src/common/flag_options.rs:49.) *)
Fixpoint all_idents (items : list item) : option (list ident) :=
  match items with
  | [] => Some []
  | IMeta (MPath p) :: r =>
      match get_ident p, all_idents r with Some i, Some is => Some (i :: is) | _, _ => None end
  | _ :: _ => None
  end.
Definition args_idents (items : list item) (trailing : bool) : option (list ident) :=
  match items, trailing with _ :: _, false => all_idents items | _, _ => None end.

(** Models [list.parse_args::<Lit..>()].
    (/repo/validators-derive/src/common/number.rs:73-78, common/boolean.rs:25.) *)
Definition args_lit (items : list item) (trailing : bool) : option lit :=
  match items, trailing with [ILit l], false => Some l | _, _ => None end.

(** Models [list.parse_args::<ExprRange>()].
    (/repo/validators-derive/src/common/range.rs:138.) *)
Definition args_range (items : list item) (trailing : bool) : option range_expr :=
  match items, trailing with [IRange r], false => Some r | _, _ => None end.

(** The value read by [x = Ident] or [x(Ident)], common to
    /repo/validators-derive/src/common/tri_allow.rs:56-82, allow.rs:43-69 and case_option.rs:55-83. *)
Definition word_from_meta {A} (from_ident : ident -> outcome macro_err A) (m : meta) : outcome macro_err A :=
  match m with
  | MNameValue _ (EPath p) => match get_ident p with Some i => from_ident i | None => Err XValue end
  | MList _ items tr => match args_ident items tr with Some i => from_ident i | None => Err XValue end
  | _ => Err XValue
  end.

(** Models [TriAllow::from_ident] and [from_meta], /repo/validators-derive/src/common/tri_allow.rs:44-82. *)
Definition tri_from_ident (i : ident) : outcome macro_err tri :=
  if eqbs i (bs "Must") then Ok Must
  else if eqbs i (bs "Allow") then Ok Allow
  else if eqbs i (bs "Disallow") then Ok Disallow
  else Err XValue.
Definition tri_from_meta : meta -> outcome macro_err tri := word_from_meta tri_from_ident.

(** Models [Allow::from_ident] and [from_meta], /repo/validators-derive/src/common/allow.rs:32-69; [true] is
    [Allow::Allow]. *)
Definition allow_from_ident (i : ident) : outcome macro_err bool :=
  if eqbs i (bs "Allow") then Ok true else if eqbs i (bs "Disallow") then Ok false else Err XValue.
Definition allow_from_meta : meta -> outcome macro_err bool := word_from_meta allow_from_ident.

(** Models [CaseOption::from_ident] and [from_meta], /repo/validators-derive/src/common/case_option.rs:43-83. *)
Definition case_from_ident (i : ident) : outcome macro_err case_option :=
  if eqbs i (bs "Any") then Ok AnyCase
  else if eqbs i (bs "Upper") then Ok UpperCase
  else if eqbs i (bs "Lower") then Ok LowerCase
  else Err XValue.
Definition case_from_meta : meta -> outcome macro_err case_option := word_from_meta case_from_ident.

(** Models [SeparatorOption::from_meta], /repo/validators-derive/src/common/separator_option.rs:42-104. *)
Definition sep_from_meta (m : meta) : outcome macro_err sep_option :=
  match m with
  | MList _ items tr =>
      match args_meta items tr with
      | None => Err XSyntax
      | Some (MNameValue p e) =>
          match get_ident p, e with
          | Some i, ELit (LitByte c) =>
              if eqbs i (bs "Must") then Ok (SepMust c)
              else if eqbs i (bs "Allow") then Ok (SepAllow c)
              else Err XValue
          | _, _ => Err XValue
          end
      | Some (MList p items tr) =>
          match get_ident p with
          | Some i =>
              if eqbs i (bs "Must")
              then match args_lit items tr with Some (LitByte c) => Ok (SepMust c) | _ => Err XSyntax end
              else if eqbs i (bs "Allow")
              then match args_lit items tr with Some (LitByte c) => Ok (SepAllow c) | _ => Err XSyntax end
              else Err XValue
          | None => Err XValue
          end
      | Some (MPath p) =>
          match get_ident p with
          | Some i => if eqbs i (bs "Disallow") then Ok SepDisallow else Err XValue
          | None => Err XValue
          end
      end
  | _ => Err XValue
  end.

(** Models [meta_2_bool], /repo/validators-derive/src/common/boolean.rs:5-38. *)
Definition meta_2_bool (m : meta) : outcome macro_err bool :=
  match m with
  | MNameValue _ (ELit (LitBool b)) => Ok b
  | MNameValue _ (EGroup (LitBool b)) => Ok b
  | MNameValue _ _ => Err XValue
  | MList _ items tr => match args_lit items tr with Some (LitBool b) => Ok b | _ => Err XSyntax end
  | MPath _ => Err XValue
  end.

Section Number.
Context {T : Type}.
(** [T::from_str], the number parser of the target type. *)
Variable from_str : list N -> option T.

(** Models [base10_parse]: [T::from_str] of the digits.
    (/repo/validators-derive/src/common/number.rs:12,15.) *)
Definition base10_parse (digits : list N) : outcome macro_err T :=
  match from_str digits with Some v => Ok v | None => Err XValue end.

(** Models [expr_lit_2_number], /repo/validators-derive/src/common/number.rs:7-21. *)
Definition lit_2_number (l : lit) : outcome macro_err T :=
  match l with LitInt d => base10_parse d | LitFloat d => base10_parse d | _ => Err XValue end.

(** Models [expr_2_number], /repo/validators-derive/src/common/number.rs:23-63. *)
Definition expr_2_number (e : expr) : outcome macro_err T :=
  match e with
  | ELit l => lit_2_number l
  | ENeg (LitInt d) => base10_parse (45 :: d)
  | ENeg (LitFloat d) => base10_parse (45 :: d)
  | EGroup l => lit_2_number l
  | _ => Err XValue
  end.

(** Models [meta_2_number], /repo/validators-derive/src/common/number.rs:66-92. *)
Definition meta_2_number (m : meta) : outcome macro_err T :=
  match m with
  | MNameValue _ e => expr_2_number e
  | MList _ items tr =>
      match args_lit items tr with
      | Some (LitInt d) => base10_parse d
      | Some (LitFloat d) => base10_parse d
      | _ => Err XSyntax
      end
  | MPath _ => Err XValue
  end.

(** What [meta_2_number] gives to the models of RangeModel.v and LengthModel.v.
    (/repo/validators-derive/src/common/number.rs:65-85.) *)
Definition number_opt (m : meta) : option T := match meta_2_number m with Ok v => Some v | _ => None end.

(** The match on the name of a range parameter, /repo/validators-derive/src/common/range.rs:149-196. *)
Definition rparam_of_meta (m : meta) : rparam T :=
  match get_ident (meta_path m) with
  | Some i =>
      if eqbs i (bs "min") then PMin (number_opt m)
      else if eqbs i (bs "max") then PMax (number_opt m)
      else if eqbs i (bs "inclusive") then PInclusive (match meta_2_bool m with Ok b => Some b | _ => None end)
      else POther
  | None => POther
  end.

(** A bound of a range literal, /repo/validators-derive/src/common/range.rs:87-93 and 95-100. *)
Definition lit_bound_of (b : option (option lit)) : lit_bound T :=
  match b with
  | None => NoBound
  | Some None => NotLit
  | Some (Some l) => LitBound (match lit_2_number l with Ok v => Some v | _ => None end)
  end.
Definition expr_range_of (r : range_expr) : expr_range T :=
  mk_expr_range (lit_bound_of (re_start r)) (lit_bound_of (re_end r)) (re_half_open r).

(** The three syntactic forms of a range, /repo/validators-derive/src/common/range.rs:122-143. *)
Definition rmeta_of (m : meta) : rmeta T :=
  match m with
  | MPath _ => RPath
  | MNameValue _ (ERange r) => RNameValue (Some (expr_range_of r))
  | MNameValue _ _ => RNameValue None
  | MList _ items tr =>
      RList (match args_range items tr with Some r => Some (expr_range_of r) | None => None end)
            (match args_metas items tr with Some ms => Some (List.map rparam_of_meta ms) | None => None end)
  end.

Variables ltb leb : T -> T -> bool.

(** Models [Range::from_meta], /repo/validators-derive/src/common/range.rs:114-232, on the syntax. *)
Definition range_meta (f : features) (m : meta) : outcome macro_err (range T) :=
  omap_err XAttr (range_from_meta T ltb leb (f_full f) (rmeta_of m)).

(** Models [RangeOption::from_meta], /repo/validators-derive/src/common/range_option.rs:24-73, on the syntax.
    The arguments of [Unlimited] are not looked at. *)
Definition range_option_meta (f : features) (m : meta) : outcome macro_err (range_option T) :=
  match m with
  | MList _ items tr =>
      match args_meta items tr with
      | None => Err XSyntax
      | Some m =>
          match get_ident (meta_path m) with
          | Some i =>
              if eqbs i (bs "Inside")
              then omap_err XAttr (range_option_from_meta T ltb leb (f_full f) (OInside (rmeta_of m)))
              else if eqbs i (bs "Outside")
              then omap_err XAttr (range_option_from_meta T ltb leb (f_full f) (OOutside (rmeta_of m)))
              else if eqbs i (bs "Unlimited") then Ok Unlimited
              else Err XValue
          | None => Err XValue
          end
      end
  | _ => Err XValue
  end.
End Number.

(** Models [meta_2_flags], /repo/validators-derive/src/common/flag_options.rs:8-90; the loop over the names. *)
Fixpoint flags_loop (enabled : bool) (first_name second_name : ident) (is : list ident) (first second : bool)
  : outcome macro_err (bool * bool) :=
  match is with
  | [] => Ok (first, second)
  | i :: is =>
      let? s := if eqbs i first_name then if first then Err XReset else Ok (true, second)
                else if eqbs i second_name then if second then Err XReset else Ok (first, true)
                else Err XValue in
      if enabled then flags_loop enabled first_name second_name is (fst s) (snd s) else Err XFeature
  end.
Definition meta_2_flags (enabled : bool) (first_name second_name : ident) (m : meta) : outcome macro_err (bool * bool) :=
  match m with
  | MPath _ => if enabled then Ok (true, true) else Err XFeature
  | MNameValue _ (ELit (LitBool b)) => if b && negb enabled then Err XFeature else Ok (b, b)
  | MNameValue _ _ => Err XValue
  | MList _ items tr =>
      match args_idents items tr with
      | Some is => flags_loop enabled first_name second_name is false false
      | None => Err XSyntax
      end
  end.

(** Models [SerdeOptions::from_meta], /repo/validators-derive/src/common/serde_options.rs:22-37, as the pair
    ([serialize], [deserialize]). *)
Definition serde_from_meta (f : features) : meta -> outcome macro_err (bool * bool) :=
  meta_2_flags (f_serde f) (bs "Serialize") (bs "Deserialize").

(** Models [RocketOptions::from_meta], /repo/validators-derive/src/common/rocket_options.rs:22-37, as the pair
    ([from_form_field], [from_param]). *)
Definition rocket_from_meta (f : features) : meta -> outcome macro_err (bool * bool) :=
  meta_2_flags (f_rocket f) (bs "FromFormField") (bs "FromParam").

(** One arm of the [match] on the parameter name inside a closure [handler], together with the variable it sets:
    its name, how its value is read, and the assignment. [p_get] reads the variable back; it is only used to
    state laws.
    (e.g. /repo/validators-derive/src/common/attributes/ip_xx_attribute.rs:33-90.) *)
Record param (St : Type) := mk_param {
  p_name : ident; p_ty : Type; p_read : meta -> outcome macro_err p_ty;
  p_set : p_ty -> St -> St; p_get : St -> p_ty }.
Arguments mk_param {St}.
Arguments p_name {St}.
Arguments p_ty {St}.
Arguments p_read {St}.
Arguments p_set {St}.
Arguments p_get {St}.

(** Is the [.._is_set] flag of this name already set?
    (e.g. /repo/validators-derive/src/common/range.rs:155.) *)
Definition is_set (flags : list ident) (i : ident) : bool := existsb (eqbs i) flags.

(** Models the closure [handler] and the loop [for p in result] that every [build_from_meta] contains, e.g.
    /repo/validators-derive/src/common/attributes/base_xx_attribute.rs:37-93: the value is read first, then a second
    use of the name is refused. (In phone_attribute.rs:44-54 the test for a second use comes first; both are
    errors.) *)
Fixpoint attr_loop {St} (tbl : list (param St)) (flags : list ident) (st : St) (ms : list meta)
  : outcome macro_err St :=
  match ms with
  | [] => Ok st
  | m :: ms =>
      match get_ident (meta_path m) with
      | None => Err XUnknown
      | Some i =>
          match find (fun p => eqbs i (p_name p)) tbl with
          | None => Err XUnknown
          | Some p =>
              let? v := p_read p m in
              if is_set flags i then Err XReset
              else attr_loop tbl (i :: flags) (p_set p v st) ms
          end
      end
  end.

(** Models the [match meta] of every [build_from_meta], e.g.
    /repo/validators-derive/src/common/attributes/base_xx_attribute.rs:24-101. *)
Definition build_from_meta {St} (tbl : list (param St)) (defaults : St) (m : meta) : outcome macro_err St :=
  match m with
  | MPath _ => Ok defaults
  | MNameValue _ _ => Err XFormat
  | MList _ items tr =>
      match args_metas items tr with
      | Some ms => attr_loop tbl [] defaults ms
      | None => Err XSyntax
      end
  end.

(** Models the fields [serde_options] and [rocket_options] of every attribute struct; the default of all four flags
    is [true], /repo/validators-derive/src/common/serde_options.rs:11-18 and rocket_options.rs:11-18. *)
Record opts := mk_opts { o_serde : bool * bool; o_rocket : bool * bool }.
Definition opts0 : opts := mk_opts (true, true) (true, true).
Definition set_serde (v : bool * bool) (o : opts) : opts := mk_opts v (o_rocket o).
Definition set_rocket (v : bool * bool) (o : opts) : opts := mk_opts (o_serde o) v.

(** The two arms shared by every attribute, e.g.
    /repo/validators-derive/src/common/attributes/base_xx_attribute.rs:53-78. *)
Definition opts_params {St} (f : features) (get : St -> opts) (set : opts -> St -> St) : list (param St) :=
  [ mk_param (bs "serde") (bool * bool) (serde_from_meta f)
      (fun v s => set (set_serde v (get s)) s) (fun s => o_serde (get s));
    mk_param (bs "rocket") (bool * bool) (rocket_from_meta f)
      (fun v s => set (set_rocket v (get s)) s) (fun s => o_rocket (get s)) ].

(** Models [BasicAttribute], /repo/validators-derive/src/common/attributes/basic_attribute.rs:8-86
    (boolean, json, semver, semver_req, url). *)
Definition basic_attribute (f : features) (m : meta) : outcome macro_err opts :=
  build_from_meta (opts_params f (fun s => s) (fun o _ => o)) opts0 m.

(** Models [BaseXXAttribute], /repo/validators-derive/src/common/attributes/base_xx_attribute.rs:8-103. *)
Record base_attr := mk_base_attr { ba_padding : tri; ba_opts : opts }.
Definition base_attribute (f : features) (m : meta) : outcome macro_err base_attr :=
  build_from_meta
    (mk_param (bs "padding") tri tri_from_meta (fun v s => mk_base_attr v (ba_opts s)) ba_padding
     :: opts_params f ba_opts (fun o s => mk_base_attr (ba_padding s) o))
    (mk_base_attr Allow opts0) m.

(** Models [HttpXXUrlAttribute], /repo/validators-derive/src/common/attributes/http_xx_url_attribute.rs:8-103. *)
Record http_attr := mk_http_attr { ua_local : tri; ua_opts : opts }.
Definition http_attribute (f : features) (m : meta) : outcome macro_err http_attr :=
  build_from_meta
    (mk_param (bs "local") tri tri_from_meta (fun v s => mk_http_attr v (ua_opts s)) ua_local
     :: opts_params f ua_opts (fun o s => mk_http_attr (ua_local s) o))
    (mk_http_attr Allow opts0) m.

(** Models [IpXXAttribute], /repo/validators-derive/src/common/attributes/ip_xx_attribute.rs:8-120. *)
Record ip_attr := mk_ip_attr { ia_local : tri; ia_port : tri; ia_opts : opts }.
Definition ip_attribute (f : features) (m : meta) : outcome macro_err ip_attr :=
  build_from_meta
    (mk_param (bs "local") tri tri_from_meta (fun v s => mk_ip_attr v (ia_port s) (ia_opts s)) ia_local
     :: mk_param (bs "port") tri tri_from_meta (fun v s => mk_ip_attr (ia_local s) v (ia_opts s)) ia_port
     :: opts_params f ia_opts (fun o s => mk_ip_attr (ia_local s) (ia_port s) o))
    (mk_ip_attr Allow Allow opts0) m.

(** Models [HostAttribute], /repo/validators-derive/src/validator_handlers/host/host_attribute.rs:8-137. *)
Record host_attr := mk_host_attr { ha_local : tri; ha_port : tri; ha_two : tri; ha_opts : opts }.
Definition host_attribute (f : features) (m : meta) : outcome macro_err host_attr :=
  build_from_meta
    (mk_param (bs "local") tri tri_from_meta
       (fun v s => mk_host_attr v (ha_port s) (ha_two s) (ha_opts s)) ha_local
     :: mk_param (bs "port") tri tri_from_meta
       (fun v s => mk_host_attr (ha_local s) v (ha_two s) (ha_opts s)) ha_port
     :: mk_param (bs "at_least_two_labels") tri tri_from_meta
       (fun v s => mk_host_attr (ha_local s) (ha_port s) v (ha_opts s)) ha_two
     :: opts_params f ha_opts (fun o s => mk_host_attr (ha_local s) (ha_port s) (ha_two s) o))
    (mk_host_attr Allow Allow Allow opts0) m.

(** Models [DomainAttribute], /repo/validators-derive/src/validator_handlers/domain/domain_attribute.rs:11-175;
    [da_conflict] is [true] for [Allow::Allow]. *)
Record domain_attr := mk_domain_attr
  { da_ipv4 : tri; da_local : tri; da_port : tri; da_two : tri; da_conflict : bool; da_opts : opts }.
Definition domain_attribute (f : features) (m : meta) : outcome macro_err domain_attr :=
  build_from_meta
    (mk_param (bs "ipv4") tri tri_from_meta
       (fun v s => mk_domain_attr v (da_local s) (da_port s) (da_two s) (da_conflict s) (da_opts s)) da_ipv4
     :: mk_param (bs "local") tri tri_from_meta
       (fun v s => mk_domain_attr (da_ipv4 s) v (da_port s) (da_two s) (da_conflict s) (da_opts s)) da_local
     :: mk_param (bs "port") tri tri_from_meta
       (fun v s => mk_domain_attr (da_ipv4 s) (da_local s) v (da_two s) (da_conflict s) (da_opts s)) da_port
     :: mk_param (bs "at_least_two_labels") tri tri_from_meta
       (fun v s => mk_domain_attr (da_ipv4 s) (da_local s) (da_port s) v (da_conflict s) (da_opts s)) da_two
     :: mk_param (bs "conflict") bool allow_from_meta
       (fun v s => mk_domain_attr (da_ipv4 s) (da_local s) (da_port s) (da_two s) v (da_opts s)) da_conflict
     :: opts_params f da_opts
          (fun o s => mk_domain_attr (da_ipv4 s) (da_local s) (da_port s) (da_two s) (da_conflict s) o))
    (mk_domain_attr Allow Allow Allow Allow false opts0) m.

(** Models [EmailAttribute], /repo/validators-derive/src/validator_handlers/email/email_attribute.rs:11-200;
    the [Allow] values are [true] for [Allow::Allow]. *)
Record email_attr := mk_email_attr
  { ea_comment : bool; ea_ip : tri; ea_local : tri; ea_two : tri; ea_non_ascii : bool; ea_conflict : bool;
    ea_opts : opts }.
Definition email_attribute (f : features) (m : meta) : outcome macro_err email_attr :=
  build_from_meta
    (mk_param (bs "comment") bool allow_from_meta
       (fun v s => mk_email_attr v (ea_ip s) (ea_local s) (ea_two s) (ea_non_ascii s) (ea_conflict s) (ea_opts s))
       ea_comment
     :: mk_param (bs "ip") tri tri_from_meta
       (fun v s => mk_email_attr (ea_comment s) v (ea_local s) (ea_two s) (ea_non_ascii s) (ea_conflict s) (ea_opts s))
       ea_ip
     :: mk_param (bs "local") tri tri_from_meta
       (fun v s => mk_email_attr (ea_comment s) (ea_ip s) v (ea_two s) (ea_non_ascii s) (ea_conflict s) (ea_opts s))
       ea_local
     :: mk_param (bs "at_least_two_labels") tri tri_from_meta
       (fun v s => mk_email_attr (ea_comment s) (ea_ip s) (ea_local s) v (ea_non_ascii s) (ea_conflict s) (ea_opts s))
       ea_two
     :: mk_param (bs "non_ascii") bool allow_from_meta
       (fun v s => mk_email_attr (ea_comment s) (ea_ip s) (ea_local s) (ea_two s) v (ea_conflict s) (ea_opts s))
       ea_non_ascii
     :: mk_param (bs "conflict") bool allow_from_meta
       (fun v s => mk_email_attr (ea_comment s) (ea_ip s) (ea_local s) (ea_two s) (ea_non_ascii s) v (ea_opts s))
       ea_conflict
     :: opts_params f ea_opts
       (fun o s => mk_email_attr (ea_comment s) (ea_ip s) (ea_local s) (ea_two s) (ea_non_ascii s) (ea_conflict s) o))
    (mk_email_attr true Allow Allow Allow true false opts0) m.

(** Models [MacAddressAttribute] and [UuidAttribute],
    /repo/validators-derive/src/validator_handlers/mac_address/mac_address_attribute.rs:11-123 and
    uuid/uuid_attribute.rs:11-123; they differ in the default separator. *)
Record hex_attr := mk_hex_attr { xa_case : case_option; xa_sep : sep_option; xa_opts : opts }.
Definition hex_attribute (default_sep : N) (f : features) (m : meta) : outcome macro_err hex_attr :=
  build_from_meta
    (mk_param (bs "case") case_option case_from_meta (fun v s => mk_hex_attr v (xa_sep s) (xa_opts s)) xa_case
     :: mk_param (bs "separator") sep_option sep_from_meta (fun v s => mk_hex_attr (xa_case s) v (xa_opts s)) xa_sep
     :: opts_params f xa_opts (fun o s => mk_hex_attr (xa_case s) (xa_sep s) o))
    (mk_hex_attr AnyCase (SepAllow default_sep) opts0) m.
Definition mac_attribute : features -> meta -> outcome macro_err hex_attr := hex_attribute 58.
Definition uuid_attribute : features -> meta -> outcome macro_err hex_attr := hex_attribute 45.

Section Ranges.
Context {T : Type}.
Variable from_str : list N -> option T.
Variables ltb leb : T -> T -> bool.

(** Models [RangeAttribute] (signed_integer, unsigned_integer),
    /repo/validators-derive/src/common/attributes/range_attribute.rs:14-112. *)
Record range_attr := mk_range_attr { ra_range : range_option T; ra_opts : opts }.
Definition range_attribute (f : features) (m : meta) : outcome macro_err range_attr :=
  build_from_meta
    (mk_param (bs "range") (range_option T) (range_option_meta from_str ltb leb f)
       (fun v s => mk_range_attr v (ra_opts s)) ra_range
     :: opts_params f ra_opts (fun o s => mk_range_attr (ra_range s) o))
    (mk_range_attr Unlimited opts0) m.

(** Models [NumberAttribute], /repo/validators-derive/src/validator_handlers/number/number_attribute.rs:16-148. *)
Record number_attr := mk_number_attr { na_range : range_option T; na_nan : tri; na_conflict : bool; na_opts : opts }.
Definition number_attribute (f : features) (m : meta) : outcome macro_err number_attr :=
  build_from_meta
    (mk_param (bs "range") (range_option T) (range_option_meta from_str ltb leb f)
       (fun v s => mk_number_attr v (na_nan s) (na_conflict s) (na_opts s)) na_range
     :: mk_param (bs "nan") tri tri_from_meta
       (fun v s => mk_number_attr (na_range s) v (na_conflict s) (na_opts s)) na_nan
     :: mk_param (bs "conflict") bool allow_from_meta
       (fun v s => mk_number_attr (na_range s) (na_nan s) v (na_opts s)) na_conflict
     :: opts_params f na_opts (fun o s => mk_number_attr (na_range s) (na_nan s) (na_conflict s) o))
    (mk_number_attr Unlimited Allow false opts0) m.

(** Models [BitAttribute], /repo/validators-derive/src/validator_handlers/bit/bit_attribute.rs:8-103; the default
    is [Range::new()], /repo/validators-derive/src/common/range.rs:69-73. *)
Record bit_attr := mk_bit_attr { bi_range : range T; bi_opts : opts }.
Definition bit_attribute (f : features) (m : meta) : outcome macro_err bit_attr :=
  build_from_meta
    (mk_param (bs "range") (range T) (range_meta from_str ltb leb f)
       (fun v s => mk_bit_attr v (bi_opts s)) bi_range
     :: opts_params f bi_opts (fun o s => mk_bit_attr (bi_range s) o))
    (mk_bit_attr size_default opts0) m.

(** Models [ByteAttribute], /repo/validators-derive/src/validator_handlers/byte/byte_attribute.rs:11-123. *)
Record byte_attr := mk_byte_attr { by_range : range T; by_ignore_case : bool; by_opts : opts }.
Definition byte_attribute (f : features) (m : meta) : outcome macro_err byte_attr :=
  build_from_meta
    (mk_param (bs "range") (range T) (range_meta from_str ltb leb f)
       (fun v s => mk_byte_attr v (by_ignore_case s) (by_opts s)) by_range
     :: mk_param (bs "ignore_case") bool meta_2_bool
       (fun v s => mk_byte_attr (by_range s) v (by_opts s)) by_ignore_case
     :: opts_params f by_opts (fun o s => mk_byte_attr (by_range s) (by_ignore_case s) o))
    (mk_byte_attr size_default true opts0) m.
End Ranges.
Arguments range_attr : clear implicits.
Arguments number_attr : clear implicits.
Arguments bit_attr : clear implicits.
Arguments byte_attr : clear implicits.
Arguments mk_range_attr {T}.
Arguments mk_number_attr {T}.
Arguments mk_bit_attr {T}.
Arguments mk_byte_attr {T}.

Section Phone.
Context {cid : Type}.
(** [country::Id::from_str] and [==] on country ids (external crate phonenumber). *)
Variable id_from_str : list N -> option cid.
Variable cid_eqb : cid -> cid -> bool.

(** Models [meta_2_countries], /repo/validators-derive/src/validator_handlers/phone/phone_attribute.rs:107-132, on the
    syntax; the loop is in PhoneModel.v. *)
Definition countries_from_meta (m : meta) : outcome macro_err (list cid) :=
  match m with
  | MList _ items tr =>
      match args_idents items tr with
      | Some is =>
          match meta_2_countries cid cid_eqb id_from_str [] is with Some cs => Ok cs | None => Err XValue end
      | None => Err XSyntax
      end
  | _ => Err XValue
  end.

(** Models [PhoneAttribute], /repo/validators-derive/src/validator_handlers/phone/phone_attribute.rs:12-105. *)
Record phone_attr := mk_phone_attr { pa_countries : list cid; pa_opts : opts }.
Definition phone_attribute (f : features) (m : meta) : outcome macro_err phone_attr :=
  build_from_meta
    (mk_param (bs "countries") (list cid) countries_from_meta (fun v s => mk_phone_attr v (pa_opts s)) pa_countries
     :: opts_params f pa_opts (fun o s => mk_phone_attr (pa_countries s) o))
    (mk_phone_attr [] opts0) m.
End Phone.
Arguments phone_attr : clear implicits.
Arguments mk_phone_attr {cid}.

(** The value of the [regex] parameter: a pattern, whose matcher is built when a string is validated, or an
    expression of the user's.
    (/repo/validators-derive/src/validator_handlers/regex/regex_attribute.rs:111-146.) *)
Inductive regex_expr := RePattern (pattern : list N) | ReExpr.

Section Regex.
(** [Regex::new(..).is_ok()] (external crate regex). *)
Variable compiles : list N -> bool.

(** Models [expr_lit_2_regex_expr],
    /repo/validators-derive/src/validator_handlers/regex/regex_attribute.rs:111-125. *)
Definition lit_2_regex (l : lit) : outcome macro_err regex_expr :=
  match l with
  | LitStr s => if compiles s then Ok (RePattern s) else Err XValue
  | _ => Err XValue
  end.

(** Models [meta_2_regex_expr],
    /repo/validators-derive/src/validator_handlers/regex/regex_attribute.rs:127-147; the list form parses one
    expression (simplified: every single item without a final comma is one). *)
Definition regex_from_meta (m : meta) : outcome macro_err regex_expr :=
  match m with
  | MNameValue _ (ELit l) => lit_2_regex l
  | MNameValue _ _ => Ok ReExpr
  | MList _ [ILit l] false => lit_2_regex l
  | MList _ [_] false => Ok ReExpr
  | MList _ _ _ => Err XSyntax
  | MPath _ => Err XValue
  end.

(** Models [RegexAttribute], /repo/validators-derive/src/validator_handlers/regex/regex_attribute.rs:10-109. *)
Record regex_attr := mk_regex_attr { ga_regex : option regex_expr; ga_opts : opts }.
Definition regex_attribute (f : features) (m : meta) : outcome macro_err (regex_expr * opts) :=
  let? a := build_from_meta
    (mk_param (bs "regex") (option regex_expr) (fun m => omap Some (regex_from_meta m))
       (fun v s => mk_regex_attr v (ga_opts s)) ga_regex
     :: opts_params f ga_opts (fun o s => mk_regex_attr (ga_regex s) o))
    (mk_regex_attr None opts0) m in
  match ga_regex a with Some r => Ok (r, ga_opts a) | None => Err XMissing end.
End Regex.

(** The match on the name of a length parameter, /repo/validators-derive/src/common/length.rs:33-80;
    [usize_from_str] is the parser of [usize]. *)
Definition usize_from_str (s : list N) : option N :=
  match int_from_str 0 (2 ^ 64 - 1) s with Ok z => Some (Z.to_N z) | _ => None end.
Definition lparam_of_meta (m : meta) : lparam :=
  match get_ident (meta_path m) with
  | Some i =>
      if eqbs i (bs "min") then LMin (number_opt usize_from_str m)
      else if eqbs i (bs "trimmed_min") then LTrimmedMin (number_opt usize_from_str m)
      else if eqbs i (bs "max") then LMax (number_opt usize_from_str m)
      else LOther
  | None => LOther
  end.

(** Models [Length::from_meta], /repo/validators-derive/src/common/length.rs:12-128, on the syntax. *)
Definition length_meta (m : meta) : outcome macro_err len_attr :=
  match m with
  | MList _ items tr =>
      match args_metas items tr with
      | Some ms => omap_err XAttr (length_from_meta (List.map lparam_of_meta ms))
      | None => Err XSyntax
      end
  | _ => Err XFormat
  end.

(** Models [LengthAttribute], /repo/validators-derive/src/validator_handlers/length/length_attribute.rs:8-109:
    no [rocket] parameter, and a final check. *)
Record coll_attr := mk_coll_attr { ca_min : option N; ca_max : option N; ca_serde : bool * bool }.
Definition coll_meta (f : features) (m : meta) : outcome macro_err coll_attr :=
  let? a := build_from_meta
    [ mk_param (bs "min") (option N) (fun m => omap Some (meta_2_number usize_from_str m))
        (fun v s => mk_coll_attr v (ca_max s) (ca_serde s)) ca_min;
      mk_param (bs "max") (option N) (fun m => omap Some (meta_2_number usize_from_str m))
        (fun v s => mk_coll_attr (ca_min s) v (ca_serde s)) ca_max;
      mk_param (bs "serde") (bool * bool) (serde_from_meta f)
        (fun v s => mk_coll_attr (ca_min s) (ca_max s) v) ca_serde ]
    (mk_coll_attr None None (true, true)) m in
  match ca_min a, ca_max a with
  | Some mn, Some mx => if mx <? mn then Err (XAttr EMinMax) else Ok a
  | _, _ => Ok a
  end.

(** Models [Utf8Attribute] (line, text),
    /repo/validators-derive/src/common/attributes/utf8_attribute.rs:9-116: [char_length] and [byte_length] share
    one flag, so the loop is written out. *)
Record utf8_attr := mk_utf8_attr { ta_length : option (bool * len_attr); ta_opts : opts }.
Fixpoint utf8_loop (f : features) (length_set serde_set rocket_set : bool) (st : utf8_attr) (ms : list meta)
  : outcome macro_err utf8_attr :=
  match ms with
  | [] => Ok st
  | m :: ms =>
      match get_ident (meta_path m) with
      | None => Err XUnknown
      | Some i =>
          if eqbs i (bs "char_length") then
            let? v := length_meta m in
            if length_set then Err XReset
            else utf8_loop f true serde_set rocket_set (mk_utf8_attr (Some (false, v)) (ta_opts st)) ms
          else if eqbs i (bs "byte_length") then
            let? v := length_meta m in
            if length_set then Err XReset
            else utf8_loop f true serde_set rocket_set (mk_utf8_attr (Some (true, v)) (ta_opts st)) ms
          else if eqbs i (bs "serde") then
            let? v := serde_from_meta f m in
            if serde_set then Err XReset
            else utf8_loop f length_set true rocket_set
                   (mk_utf8_attr (ta_length st) (set_serde v (ta_opts st))) ms
          else if eqbs i (bs "rocket") then
            let? v := rocket_from_meta f m in
            if rocket_set then Err XReset
            else utf8_loop f length_set serde_set true
                   (mk_utf8_attr (ta_length st) (set_rocket v (ta_opts st))) ms
          else Err XUnknown
      end
  end.
Definition utf8_meta (f : features) (m : meta) : outcome macro_err utf8_attr :=
  match m with
  | MPath _ => Ok (mk_utf8_attr None opts0)
  | MNameValue _ _ => Err XFormat
  | MList _ items tr =>
      match args_metas items tr with
      | Some ms => utf8_loop f false false false (mk_utf8_attr None opts0) ms
      | None => Err XSyntax
      end
  end.

(** The implementations generated by every handler from the options, e.g.
    /repo/validators-derive/src/validator_handlers/base32/mod.rs:201-286: guarded by the cargo feature and the flag. *)
Inductive impl := ImplSerialize | ImplDeserialize | ImplFromFormField | ImplFromParam.
Definition serde_impls (f : features) (o : opts) : list impl :=
  if f_serde f
  then (if fst (o_serde o) then [ImplSerialize] else []) ++ (if snd (o_serde o) then [ImplDeserialize] else [])
  else [].
Definition rocket_impls (f : features) (o : opts) : list impl :=
  if f_rocket f
  then (if fst (o_rocket o) then [ImplFromFormField] else []) ++ (if snd (o_rocket o) then [ImplFromParam] else [])
  else [].
