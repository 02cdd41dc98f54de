(** The domain validator, /repo/validators-derive/src/validator_handlers/domain/mod.rs. *)
From Verif Require Import Base IntStr NetModel IpModel Serde.
Local Open Scope N_scope.

(** Models [DomainError], /repo/validators/src/errors/domain.rs:5-24. *)
Inductive domain_err :=
| DInvalid | DIPv4Must | DIPv4Disallow | DLocalMust | DLocalDisallow | DTwoLabelsMust | DTwoLabelsDisallow
| DPortMust | DPortDisallow.

(** Models [DomainAttribute],
    /repo/validators-derive/src/validator_handlers/domain/domain_attribute.rs:11-21 (the policies; [conflict]
    only matters at macro expansion). *)
Record domain_cfg := { d_ipv4 : tri; d_local : tri; d_port : tri; d_two : tri }.

(** Models [is_local_domain], /repo/validators/src/functions/domain.rs:3-7. *)
Definition is_local_domain (s : list N) : bool := eq_ignore_case (strip_last 46 s) (bs "localhost").

(** Models [is_at_least_two_labels_domain], /repo/validators/src/functions/domain.rs:11-15. *)
Definition is_at_least_two_labels_domain (s : list N) : bool := contains 46 (strip_last 46 s).

(** Models [== TriAllow::Allow]; see [is_allow_only] in Base.v.
    (/repo/validators-derive/src/common/tri_allow.rs.) *)
Definition all_allow (c : domain_cfg) : bool :=
  is_allow_only (d_ipv4 c) && is_allow_only (d_local c) && is_allow_only (d_two c).

(** Models [handle_domain_and_port] and [handle_none_port], /repo/validators-derive/src/validator_handlers/domain/mod.rs:520-545 and 733-738: split at the last
    colon. *)
Definition d_split (c : domain_cfg) (s : list N) : outcome domain_err (list N * option (list N)) :=
  match rposition 58 s with
  | Some colon_index =>
      match d_port c with
      | Disallow => Err DPortDisallow
      | _ => let? domain_str := str_slice s 0 colon_index in
             let? port_str := str_slice_from s (colon_index + 1) in
             Ok (domain_str, Some port_str)
      end
  | None => match d_port c with Must => Err DPortMust | _ => Ok (s, None) end
  end.

(** Models [handle_port], /repo/validators-derive/src/validator_handlers/domain/mod.rs:547-563. *)
Definition d_parse_port (c : domain_cfg) (port_str : option (list N)) : outcome domain_err (option N) :=
  match d_port c with
  | Disallow => Ok None
  | _ => match port_str with
         | Some q => match parse_u16 q with Some p => Ok (Some p) | None => Err DInvalid end
         | None => Ok None
         end
  end.

(** Models [check_local], /repo/validators-derive/src/validator_handlers/domain/mod.rs:565-583. *)
Definition d_check_local (c : domain_cfg) (is_local : bool) : outcome domain_err unit :=
  match d_local c with
  | Allow => Ok tt
  | Must => if negb is_local then Err DLocalMust else Ok tt
  | Disallow => if is_local then Err DLocalDisallow else Ok tt
  end.

(** Models [check_at_least_two_labels], /repo/validators-derive/src/validator_handlers/domain/mod.rs:661-679. *)
Definition d_check_two (c : domain_cfg) (is_local : bool) (ascii_domain : list N) : outcome domain_err unit :=
  match d_two c with
  | Allow => Ok tt
  | Must => if negb is_local && negb (is_at_least_two_labels_domain ascii_domain)
            then Err DTwoLabelsMust else Ok tt
  | Disallow => if negb is_local && is_at_least_two_labels_domain ascii_domain
                then Err DTwoLabelsDisallow else Ok tt
  end.

(** Models [handle_local_ipv4] and [handle_local_domain], /repo/validators-derive/src/validator_handlers/domain/mod.rs:619-629 and 649-659: not computed when
    neither policy needs it. *)
Definition d_flag (c : domain_cfg) (b : bool) : bool :=
  if is_allow_only (d_local c) && is_allow_only (d_two c) then false else b.

Section WithIdna.
(** [idna::Config::default().use_std3_ascii_rules(true).verify_dns_length(true).check_hyphens(true).to_ascii(..)]
    (external crate idna), /repo/validators-derive/src/validator_handlers/domain/mod.rs:591-595 and 682-686. *)
Variable idna : list N -> option (list N).

(** Models [handle_domain_str_and_port_str], /repo/validators-derive/src/validator_handlers/domain/mod.rs:585-712. [s.into_owned()], the whole text, is the
    domain of the IPv4 branch (l.639). *)
Definition d_rest (c : domain_cfg) (s domain_str : list N) (port_str : option (list N))
  : outcome domain_err (list N * option N * bool * bool) :=
  if all_allow c then
    match idna domain_str with
    | Some ascii_domain => let? port := d_parse_port c port_str in Ok (ascii_domain, port, false, false)
    | None => Err DInvalid
    end
  else
    match parse_ipv4_allow_an_ended_dot domain_str with
    | Some ip =>
        if is_disallow (d_ipv4 c) then Err DIPv4Disallow
        else if is_disallow (d_two c) then Err DTwoLabelsDisallow
        else
          let? port := d_parse_port c port_str in
          let is_local := d_flag c (is_local_ipv4 ip) in
          let? _ := d_check_local c is_local in
          Ok (s, port, true, is_local)
    | None =>
        if is_must (d_ipv4 c) then Err DIPv4Must
        else
          match idna domain_str with
          | Some ascii_domain =>
              let? port := d_parse_port c port_str in
              let is_local := d_flag c (is_local_domain ascii_domain) in
              let? _ := d_check_two c is_local ascii_domain in
              let? _ := d_check_local c is_local in
              Ok (ascii_domain, port, false, is_local)
          | None => Err DInvalid
          end
    end.

(** Models [v_parse_str], /repo/validators-derive/src/validator_handlers/domain/mod.rs:726-742. *)
Definition domain_v_parse_str (c : domain_cfg) (s : list N)
  : outcome domain_err (list N * option N * bool * bool) :=
  match s with
  | [] => Err DInvalid
  | _ => let? r := d_split c s in
         let '(domain_str, port_str) := r in
         d_rest c s domain_str port_str
  end.

(** An instance; [None] for a field that the struct does not have (an absent [port] under [Disallow]
    is also [None]). The layouts are those of /repo/validators-derive/src/validator_handlers/domain/mod.rs:142-495. *)
Record domain_val := { dv_domain : list N; dv_port : option N; dv_is_ipv4 : option bool; dv_is_local : option bool }.

(** Whether the [is_local] and [is_ipv4] fields exist, /repo/validators-derive/src/validator_handlers/domain/mod.rs:747-751 and 810-812. *)
Definition has_is_local (c : domain_cfg) : bool := is_allow_only (d_local c) && negb (is_allow_only (d_two c)).
Definition has_is_ipv4 (c : domain_cfg) : bool := is_allow_only (d_ipv4 c) && has_is_local c.

(** Models [create_instance], /repo/validators-derive/src/validator_handlers/domain/mod.rs:745-867. *)
Definition d_create (c : domain_cfg) (r : list N * option N * bool * bool) : outcome domain_err domain_val :=
  let '(domain, port, is_ipv4, is_local) := r in
  let f4 := if has_is_ipv4 c then Some is_ipv4 else None in
  let fl := if has_is_local c then Some is_local else None in
  match d_port c with
  | Allow => Ok {| dv_domain := domain; dv_port := port; dv_is_ipv4 := f4; dv_is_local := fl |}
  | Must => match port with
            | Some p => Ok {| dv_domain := domain; dv_port := Some p; dv_is_ipv4 := f4; dv_is_local := fl |}
            | None => Panic
            end
  | Disallow => Ok {| dv_domain := domain; dv_port := None; dv_is_ipv4 := f4; dv_is_local := fl |}
  end.

(** Models [parse_string], [parse_str] and [validate_str], /repo/validators-derive/src/validator_handlers/domain/mod.rs:873-893. *)
Definition domain_parse_str (c : domain_cfg) (s : list N) : outcome domain_err domain_val :=
  let? r := domain_v_parse_str c s in d_create c r.
Definition domain_parse_string := domain_parse_str.
Definition domain_validate_str (c : domain_cfg) (s : list N) : outcome domain_err unit :=
  let? _ := domain_v_parse_str c s in Ok tt.

(** Models [MyVisitor], /repo/validators-derive/src/validator_handlers/domain/mod.rs:1077-1101. *)
Definition domain_visitor (c : domain_cfg) : visitor domain_err domain_val := fun x =>
  match x with
  | DStr s => Some (domain_parse_str c s)
  | DString s => Some (domain_parse_string c s)
  | _ => None
  end.
End WithIdna.

(** Models [QualifyDomain], /repo/validators-derive/src/validator_handlers/domain/mod.rs:896-936. *)
Definition is_fully_qualified (d : list N) : bool := ends_with 46 d.
Definition get_domain_non_fully_qualified {E} (d : list N) : outcome E (list N) :=
  if is_fully_qualified d then str_slice d 0 (List.length d - 1) else Ok d.

(** Models [to_uri_authority_string], /repo/validators-derive/src/validator_handlers/domain/mod.rs:938-981. *)
Definition domain_authority {E} (v : domain_val) : outcome E (list N) :=
  let? d := get_domain_non_fully_qualified (dv_domain v) in
  match dv_port v with
  | Some p => Ok (d ++ [58] ++ dec_of_N p)
  | None => Ok d
  end.

(** Models [Serialize], /repo/validators-derive/src/validator_handlers/domain/mod.rs:985-995: [serialize_str] of the authority string. *)
Definition domain_ser {E} (v : domain_val) : outcome E ser_call := omap SStr (domain_authority v).
