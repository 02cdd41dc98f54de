(** The [range(..)] attribute: parsing of its parameters by the derive macro and
    its translation to what the code generators use. *)
From Verif Require Import Base.

(** Models [RangeOption], /repo/validators-derive/src/common/range_option.rs:10-17. *)
Inductive range_option (T : Type) : Type :=
| Inside (min max : option T) (inclusive : bool)
| Outside (min max : option T) (inclusive : bool)
| Unlimited.
Arguments Inside {T}.
Arguments Outside {T}.
Arguments Unlimited {T}.

(** Models [RangeTokenStream], /repo/validators-derive/src/common/range_option.rs:76-90
    (a token stream holding a number is modelled by the number). *)
Inductive range_tokens (T : Type) : Type :=
| TInside (min max : option T) (inclusive equal : bool)
| TOutside (min max : option T) (inclusive equal : bool)
| TUnlimited.
Arguments TInside {T}.
Arguments TOutside {T}.
Arguments TUnlimited {T}.

(** Models [Range<T>], /repo/validators-derive/src/common/range.rs:55-62. *)
Record range (T : Type) : Type := mk_range { r_min : option T; r_max : option T; r_incl : bool }.
Arguments mk_range {T}.
Arguments r_min {T}.
Arguments r_max {T}.
Arguments r_incl {T}.

(** One side of a Rust range literal inside an attribute
    (/repo/validators-derive/src/common/range.rs:87-100): absent, a literal whose
    [base10_parse] gave [v] ([None] = parse error), or an expression that is not
    a literal. *)
Inductive lit_bound (T : Type) : Type :=
| NoBound
| LitBound (v : option T)
| NotLit.
Arguments NoBound {T}.
Arguments LitBound {T}.
Arguments NotLit {T}.

(** Models [syn::ExprRange] as used by
    /repo/validators-derive/src/common/range.rs:82-112. *)
Record expr_range (T : Type) : Type :=
  mk_expr_range { e_start : lit_bound T; e_end : lit_bound T; e_half_open : bool }.
Arguments mk_expr_range {T}.
Arguments e_start {T}.
Arguments e_end {T}.
Arguments e_half_open {T}.

(** One [name = value] parameter of Inside/Outside
    (/repo/validators-derive/src/common/range.rs:149-196).  The value is what
    [meta_2_number]/[meta_2_bool] return ([None] = they fail). *)
Inductive rparam (T : Type) : Type :=
| PMin (v : option T)
| PMax (v : option T)
| PInclusive (v : option bool)
| POther.
Arguments PMin {T}.
Arguments PMax {T}.
Arguments PInclusive {T}.
Arguments POther {T}.

(** The three syntactic forms of [Inside..]/[Outside..]
    (/repo/validators-derive/src/common/range.rs:122-207).  [as_range] is the
    outcome of trying to read the argument as a Rust range expression. *)
Inductive rmeta (T : Type) : Type :=
| RPath
| RNameValue (as_range : option (expr_range T))
| RList (as_range : option (expr_range T)) (params : option (list (rparam T))).
Arguments RPath {T}.
Arguments RNameValue {T}.
Arguments RList {T}.

(** Models the kinds of [syn::Error] the attribute code builds, in
    /repo/validators-derive/src/common/range.rs and
    /repo/validators-derive/src/common/length.rs (messages are not modelled). *)
Inductive attr_error := EFormat | ENumber | ENotLiteral | EReset | EUnknown | ESyntax | EMinMax.

(** Models the mutable state of the closure [handler]:
    the three values and the three [*_is_set] flags
    (/repo/validators-derive/src/common/range.rs:118-147). *)
Record rstate (T : Type) : Type := mk_rstate
  { st_min : option T; st_max : option T; st_incl : bool;
    st_min_set : bool; st_max_set : bool; st_incl_set : bool }.
Arguments mk_rstate {T}.
Arguments st_min {T}.
Arguments st_max {T}.
Arguments st_incl {T}.
Arguments st_min_set {T}.
Arguments st_max_set {T}.
Arguments st_incl_set {T}.

Section Range.
Variable T : Type.
Variables ltb leb eqb : T -> T -> bool.
(** [inc] models [RangedNumber::inc] (/repo/validators-derive/src/common/range.rs:22-53). *)
Variable inc : T -> option T.
(** [is_float] models [RangedNumber::IS_FLOAT]. *)
Variable is_float : bool.

(** Models [range_equal], /repo/validators-derive/src/common/range.rs:235-258. *)
Definition range_equal (min max : option T) (inclusive : bool) : bool :=
  match min with
  | Some min =>
      match max with
      | Some max =>
          if inclusive then eqb min max
          else if is_float then false
          else match inc min with
               | Some min => eqb min max
               | None => false
               end
      | None => false
      end
  | None => false
  end.

(** Models [From<RangeOption<T>> for RangeTokenStream],
    /repo/validators-derive/src/common/range_option.rs:99-128. *)
Definition to_tokens (r : range_option T) : range_tokens T :=
  match r with
  | Inside min max i => TInside min max i (range_equal min max i)
  | Outside min max i => TOutside min max i (range_equal min max i)
  | Unlimited => TUnlimited
  end.

(** Models reading one bound of a range literal,
    /repo/validators-derive/src/common/range.rs:87-93 and 95-100. *)
Definition read_bound (b : lit_bound T) : outcome attr_error (option T) :=
  match b with
  | NoBound => Ok None
  | LitBound (Some v) => Ok (Some v)
  | LitBound None => Err ENumber
  | NotLit => Err ENotLiteral
  end.

(** Models [Range::from_expr_range], /repo/validators-derive/src/common/range.rs:80-112. *)
Definition from_expr_range (r : expr_range T) : outcome attr_error (range T) :=
  let? min := read_bound (e_start r) in
  let? max := read_bound (e_end r) in
  let inclusive := match e_end r with
                   | NoBound => true
                   | _ => negb (e_half_open r)
                   end in
  Ok (mk_range min max inclusive).

(** Models one call of the closure [handler] plus the [Ok(false)] case of the loop,
    /repo/validators-derive/src/common/range.rs:149-205. *)
Definition range_handler (st : rstate T) (p : rparam T) : outcome attr_error (rstate T) :=
  match p with
  | PMin v =>
      match v with
      | None => Err ENumber
      | Some v => if st_min_set st then Err EReset
                  else Ok (mk_rstate (Some v) (st_max st) (st_incl st)
                             true (st_max_set st) (st_incl_set st))
      end
  | PMax v =>
      match v with
      | None => Err ENumber
      | Some v => if st_max_set st then Err EReset
                  else Ok (mk_rstate (st_min st) (Some v) (st_incl st)
                             (st_min_set st) true (st_incl_set st))
      end
  | PInclusive v =>
      match v with
      | None => Err ENumber
      | Some v => if st_incl_set st then Err EReset
                  else Ok (mk_rstate (st_min st) (st_max st) v
                             (st_min_set st) (st_max_set st) true)
      end
  | POther => Err EUnknown
  end.

(** Models the loop [for p in result], /repo/validators-derive/src/common/range.rs:198-205. *)
Fixpoint range_params (st : rstate T) (ps : list (rparam T)) : outcome attr_error (rstate T) :=
  match ps with
  | [] => Ok st
  | p :: ps => let? st := range_handler st p in range_params st ps
  end.

(** Models the initial state, /repo/validators-derive/src/common/range.rs:118-120,145-147. *)
Definition rstate0 : rstate T := mk_rstate None None true false false false.

(** Models the final min/max check, /repo/validators-derive/src/common/range.rs:209-231. *)
Definition range_check (min max : option T) (inclusive : bool) : outcome attr_error (range T) :=
  match min, max with
  | Some mn, Some mx =>
      if inclusive
      then if ltb mx mn then Err EMinMax else Ok (mk_range min max inclusive)
      else if leb mx mn then Err EMinMax else Ok (mk_range min max inclusive)
  | _, _ => Ok (mk_range min max inclusive)
  end.

(** Models [Range::from_meta], /repo/validators-derive/src/common/range.rs:114-232;
    [full] is the cargo feature of the same name. *)
Definition range_from_meta (full : bool) (m : rmeta T) : outcome attr_error (range T) :=
  match m with
  | RPath => Err EFormat
  | RNameValue r =>
      match full, r with
      | true, Some r => from_expr_range r
      | _, _ => Err EFormat
      end
  | RList r ps =>
      match full, r with
      | true, Some r => from_expr_range r
      | _, _ =>
          match ps with
          | None => Err ESyntax
          | Some ps =>
              let? st := range_params rstate0 ps in
              range_check (st_min st) (st_max st) (st_incl st)
          end
      end
  end.

End Range.

(** The argument of [range(..)], /repo/validators-derive/src/common/range_option.rs:24-73. *)
Inductive ometa (T : Type) : Type :=
| OInside (m : rmeta T)
| OOutside (m : rmeta T)
| OUnlimited
| OOther.
Arguments OInside {T}.
Arguments OOutside {T}.
Arguments OUnlimited {T}.
Arguments OOther {T}.

(** Models [RangeOption::from_meta], /repo/validators-derive/src/common/range_option.rs:24-73
    (the enclosing meta is a list: the other forms are the final error, [OOther]). *)
Definition range_option_from_meta (T : Type) (ltb leb : T -> T -> bool) (full : bool) (m : ometa T)
  : outcome attr_error (range_option T) :=
  match m with
  | OInside m => let? r := range_from_meta T ltb leb full m in
                 Ok (Inside (r_min r) (r_max r) (r_incl r))
  | OOutside m => let? r := range_from_meta T ltb leb full m in
                  Ok (Outside (r_min r) (r_max r) (r_incl r))
  | OUnlimited => Ok Unlimited
  | OOther => Err EFormat
  end.
