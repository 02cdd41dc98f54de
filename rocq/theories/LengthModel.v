(** The [length] attributes and the [length] validator. *)
From Verif Require Import Base RangeModel.
Local Open Scope N_scope.

(** Models [Length], /repo/validators-derive/src/common/length.rs:5-10. *)
Record len_attr := mk_len { l_min : option N; l_tmin : option N; l_max : option N }.

(** One parameter of [char_length(..)]/[byte_length(..)],
    /repo/validators-derive/src/common/length.rs:33-80; the value is what [meta_2_number]
    gives ([None] = it fails). *)
Inductive lparam := LMin (v : option N) | LTrimmedMin (v : option N) | LMax (v : option N) | LOther.

(** Models the mutable state of the closure, /repo/validators-derive/src/common/length.rs:17-31. *)
Record lstate := mk_lstate
  { ls_min : option N; ls_tmin : option N; ls_max : option N;
    ls_min_set : bool; ls_tmin_set : bool; ls_max_set : bool }.

(** Models the initial state, /repo/validators-derive/src/common/length.rs:17-31. *)
Definition lstate0 : lstate := mk_lstate None None None false false false.

(** Models one call of [handler] and the [Ok(false)] case,
    /repo/validators-derive/src/common/length.rs:33-89. *)
Definition length_handler (st : lstate) (p : lparam) : outcome attr_error lstate :=
  match p with
  | LMin v =>
      match v with
      | None => Err ENumber
      | Some v => if ls_min_set st then Err EReset
                  else Ok (mk_lstate (Some v) (ls_tmin st) (ls_max st)
                             true (ls_tmin_set st) (ls_max_set st))
      end
  | LTrimmedMin v =>
      match v with
      | None => Err ENumber
      | Some v => if ls_tmin_set st then Err EReset
                  else Ok (mk_lstate (ls_min st) (Some v) (ls_max st)
                             (ls_min_set st) true (ls_max_set st))
      end
  | LMax v =>
      match v with
      | None => Err ENumber
      | Some v => if ls_max_set st then Err EReset
                  else Ok (mk_lstate (ls_min st) (ls_tmin st) (Some v)
                             (ls_min_set st) (ls_tmin_set st) true)
      end
  | LOther => Err EUnknown
  end.

(** Models the loop, /repo/validators-derive/src/common/length.rs:82-89. *)
Fixpoint length_params (st : lstate) (ps : list lparam) : outcome attr_error lstate :=
  match ps with
  | [] => Ok st
  | p :: ps => let? st := length_handler st p in length_params st ps
  end.

(** Models the consistency checks, /repo/validators-derive/src/common/length.rs:93-127. *)
Definition length_check (min tmin max : option N) : outcome attr_error len_attr :=
  let? _ := match min with
            | Some mn =>
                let? _ := match tmin with
                          | Some t => if mn <? t then Err EMinMax else Ok tt
                          | None => Ok tt
                          end in
                match max with
                | Some mx => if mx <? mn then Err EMinMax else Ok tt
                | None => Ok tt
                end
            | None => Ok tt
            end in
  let? _ := match tmin, max with
            | Some t, Some mx => if mx <? t then Err EMinMax else Ok tt
            | _, _ => Ok tt
            end in
  Ok (mk_len min tmin max).

(** Models [Length::from_meta] on a list, /repo/validators-derive/src/common/length.rs:12-128
    (the two other meta forms are errors). *)
Definition length_from_meta (ps : list lparam) : outcome attr_error len_attr :=
  let? st := length_params lstate0 ps in
  length_check (ls_min st) (ls_tmin st) (ls_max st).

(** One parameter of [text(..)]/[line(..)],
    /repo/validators-derive/src/common/attributes/utf8_attribute.rs:37-97.
    [USerde]/[URocket] carry whether their own parsing succeeds. *)
Inductive uparam :=
| UCharLength (ps : list lparam) | UByteLength (ps : list lparam)
| USerde (ok : bool) | URocket (ok : bool) | UOther.

(** Models the state of the closure,
    /repo/validators-derive/src/common/attributes/utf8_attribute.rs:20-35; the [bool] of
    [us_length] is true for bytes.  Simplified: the serde and rocket options themselves
    are not kept, only whether they were set. *)
Record ustate := mk_ustate
  { us_length : option (bool * len_attr); us_length_set : bool;
    us_serde_set : bool; us_rocket_set : bool }.

(** Models the handler, /repo/validators-derive/src/common/attributes/utf8_attribute.rs:37-106. *)
Definition utf8_handler (st : ustate) (p : uparam) : outcome attr_error ustate :=
  match p with
  | UCharLength ps =>
      let? v := length_from_meta ps in
      if us_length_set st then Err EReset
      else Ok (mk_ustate (Some (false, v)) true (us_serde_set st) (us_rocket_set st))
  | UByteLength ps =>
      let? v := length_from_meta ps in
      if us_length_set st then Err EReset
      else Ok (mk_ustate (Some (true, v)) true (us_serde_set st) (us_rocket_set st))
  | USerde ok =>
      if ok then if us_serde_set st then Err EReset
                 else Ok (mk_ustate (us_length st) (us_length_set st) true (us_rocket_set st))
      else Err EFormat
  | URocket ok =>
      if ok then if us_rocket_set st then Err EReset
                 else Ok (mk_ustate (us_length st) (us_length_set st) (us_serde_set st) true)
      else Err EFormat
  | UOther => Err EUnknown
  end.

(** Models the loop, /repo/validators-derive/src/common/attributes/utf8_attribute.rs:99-106. *)
Fixpoint utf8_params (st : ustate) (ps : list uparam) : outcome attr_error ustate :=
  match ps with
  | [] => Ok st
  | p :: ps => let? st := utf8_handler st p in utf8_params st ps
  end.

(** Models [Utf8Attribute::build_from_meta],
    /repo/validators-derive/src/common/attributes/utf8_attribute.rs:17-115
    ([None] = the bare path form). *)
Definition utf8_attribute (ps : option (list uparam)) : outcome attr_error (option (bool * len_attr)) :=
  match ps with
  | None => Ok None
  | Some ps => let? st := utf8_params (mk_ustate None false false false) ps in Ok (us_length st)
  end.

(** One parameter of [length(..)],
    /repo/validators-derive/src/validator_handlers/length/length_attribute.rs:36-83. *)
Inductive cparam := CMin (v : option N) | CMax (v : option N) | CSerde (ok : bool) | COther.

(** Models the closure state,
    /repo/validators-derive/src/validator_handlers/length/length_attribute.rs:19-34
    (serde options reduced to whether they were set). *)
Record cstate := mk_cstate
  { cs_min : option N; cs_max : option N;
    cs_min_set : bool; cs_max_set : bool; cs_serde_set : bool }.

(** Models the handler,
    /repo/validators-derive/src/validator_handlers/length/length_attribute.rs:36-92. *)
Definition coll_handler (st : cstate) (p : cparam) : outcome attr_error cstate :=
  match p with
  | CMin v =>
      match v with
      | None => Err ENumber
      | Some v => if cs_min_set st then Err EReset
                  else Ok (mk_cstate (Some v) (cs_max st) true (cs_max_set st) (cs_serde_set st))
      end
  | CMax v =>
      match v with
      | None => Err ENumber
      | Some v => if cs_max_set st then Err EReset
                  else Ok (mk_cstate (cs_min st) (Some v) (cs_min_set st) true (cs_serde_set st))
      end
  | CSerde ok =>
      if ok then if cs_serde_set st then Err EReset
                 else Ok (mk_cstate (cs_min st) (cs_max st) (cs_min_set st) (cs_max_set st) true)
      else Err EFormat
  | COther => Err EUnknown
  end.

(** Models the loop,
    /repo/validators-derive/src/validator_handlers/length/length_attribute.rs:85-92. *)
Fixpoint coll_params (st : cstate) (ps : list cparam) : outcome attr_error cstate :=
  match ps with
  | [] => Ok st
  | p :: ps => let? st := coll_handler st p in coll_params st ps
  end.

(** Models [LengthAttribute::build_from_meta],
    /repo/validators-derive/src/validator_handlers/length/length_attribute.rs:16-108. *)
Definition coll_attribute (ps : option (list cparam)) : outcome attr_error (option N * option N) :=
  let? st := match ps with
             | None => Ok (mk_cstate None None false false false)
             | Some ps => coll_params (mk_cstate None None false false false) ps
             end in
  match cs_min st, cs_max st with
  | Some mn, Some mx => if mx <? mn then Err EMinMax else Ok (cs_min st, cs_max st)
  | _, _ => Ok (cs_min st, cs_max st)
  end.

(** The statements that [handle_range] of the length validator generates
    (/repo/validators-derive/src/validator_handlers/length/mod.rs:74-124). *)
Inductive lstmt :=
| LetLength            (* let length = CollectionLength::len(v); *)
| MatchCmp (n : N)     (* match Ord::cmp(&length, &n) { .. } *)
| IfLess (n : N)       (* if length < n { return Err(TooSmall); } *)
| IfGreater (n : N).   (* if length > n { return Err(TooLarge); } *)

(** Models the generator [handle_range],
    /repo/validators-derive/src/validator_handlers/length/mod.rs:74-124. *)
Definition gen_length (min max : option N) : list lstmt :=
  match min with
  | Some min =>
      match max with
      | Some max =>
          if min =? max then [MatchCmp min]
          else [LetLength; IfLess min; IfGreater max]
      | None => [LetLength; IfLess min]
      end
  | None =>
      match max with
      | Some max => [LetLength; IfGreater max]
      | None => []
      end
  end.

(** Models [LengthError], /repo/validators/src/errors/length.rs; [Unbound] is the compile
    error for a name that is not in scope. *)
Inductive length_err := LTooSmall | LTooLarge | Unbound.

(** Runs the generated statements in an environment that may bind [length];
    [v_len] is [CollectionLength::len(v)] (/repo/validators/src/traits/collection_length.rs). *)
Fixpoint run_length (v_len : N) (env : option N) (p : list lstmt) : outcome length_err unit :=
  match p with
  | [] => Ok tt
  | LetLength :: p => run_length v_len (Some v_len) p
  | MatchCmp n :: p =>
      match env with
      | None => Err Unbound
      | Some l => match N.compare l n with
                  | Eq => run_length v_len env p
                  | Lt => Err LTooSmall
                  | Gt => Err LTooLarge
                  end
      end
  | IfLess n :: p =>
      match env with
      | None => Err Unbound
      | Some l => if l <? n then Err LTooSmall else run_length v_len env p
      end
  | IfGreater n :: p =>
      match env with
      | None => Err Unbound
      | Some l => if n <? l then Err LTooLarge else run_length v_len env p
      end
  end.

(** Models [v_parse_v], /repo/validators-derive/src/validator_handlers/length/mod.rs:130-134:
    the parameters in scope are [v] only. *)
Definition length_v_parse_v (min max : option N) (v_len : N) : outcome length_err unit :=
  run_length v_len None (gen_length min max).

(** Models [parse_collection] and [validate_collection],
    /repo/validators-derive/src/validator_handlers/length/mod.rs:143-155. *)
Definition parse_collection {A} (len : A -> N) (min max : option N) (v : A) : outcome length_err A :=
  let? _ := length_v_parse_v min max (len v) in Ok v.
Definition validate_collection {A} (len : A -> N) (min max : option N) (v : A) : outcome length_err unit :=
  let? _ := length_v_parse_v min max (len v) in Ok tt.
