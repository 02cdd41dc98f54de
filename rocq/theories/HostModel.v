(** The host validator, /repo/validators-derive/src/validator_handlers/host/mod.rs. *)
From Verif Require Import Base IntStr NetModel IpModel DomainModel Serde.
Local Open Scope N_scope.

(** Models [Host], /repo/validators/src/models/host.rs:7-11. *)
Inductive host := HDomain (d : list N) | HIPv4 (a : list N) | HIPv6 (a : list N).

(** Models [HostError], /repo/validators/src/errors/host.rs:5-20. *)
Inductive host_err :=
| HoInvalid | HoLocalMust | HoLocalDisallow | HoTwoLabelsMust | HoTwoLabelsDisallow | HoPortMust | HoPortDisallow.

(** Models [HostAttribute] (the policies), /repo/validators-derive/src/validator_handlers/host/host_attribute.rs. *)
Record host_cfg := { h_local : tri; h_port : tri; h_two : tri }.

(** Models [check_local], /repo/validators-derive/src/validator_handlers/host/mod.rs:259-277. *)
Definition h_check_local (c : host_cfg) (is_local : bool) : outcome host_err unit :=
  match h_local c with
  | Allow => Ok tt
  | Must => if negb is_local then Err HoLocalMust else Ok tt
  | Disallow => if is_local then Err HoLocalDisallow else Ok tt
  end.

(** Models [handle_local_ipv6], [handle_local_ipv4] and [handle_local_domain], /repo/validators-derive/src/validator_handlers/host/mod.rs:279-289, 434-444 and
    487-497. *)
Definition h_flag (c : host_cfg) (b : bool) : bool :=
  if is_allow_only (h_two c) && is_allow_only (h_local c) then false else b.

(** The end of each branch: [is_local], [check_local], the triple.
    (/repo/validators-derive/src/validator_handlers/host/mod.rs.) *)
Definition h_finish (c : host_cfg) (b : bool) (h : host) (port : option N)
  : outcome host_err (host * option N * bool) :=
  let is_local := h_flag c b in
  let? _ := h_check_local c is_local in
  Ok (h, port, is_local).

(** Models [handle_ipv6_without_port], /repo/validators-derive/src/validator_handlers/host/mod.rs:291-310. *)
Definition h_ipv6_without_port (c : host_cfg) (s : list N) (last_index : nat)
  : outcome host_err (host * option N * bool) :=
  match h_port c with
  | Must => Err HoPortMust
  | _ =>
      let? ip_str := str_slice s 1 last_index in
      match ipv6_from_str ip_str with
      | Some ip => h_finish c (is_local_ipv6 ip) (HIPv6 ip) None
      | None => Err HoInvalid
      end
  end.

(** Models [handle_ipv6_with_port], /repo/validators-derive/src/validator_handlers/host/mod.rs:312-347. *)
Definition h_ipv6_with_port (c : host_cfg) (s : list N) : outcome host_err (host * option N * bool) :=
  match h_port c with
  | Disallow => Err HoPortDisallow
  | _ =>
      match rposition 58 s with
      | Some colon_index =>
          let? ok := (if (2 <? colon_index)%nat
                      then let? b := idx s (colon_index - 1) in Ok (b =? 93) else Ok false) in
          if (ok : bool) then
            let? ip_str := str_slice s 1 (colon_index - 1) in
            match ipv6_from_str ip_str with
            | Some ip =>
                let? port_str := str_slice_from s (colon_index + 1) in
                match parse_u16 port_str with
                | Some p => h_finish c (is_local_ipv6 ip) (HIPv6 ip) (Some p)
                | None => Err HoInvalid
                end
            | None => Err HoInvalid
            end
          else Err HoInvalid
      | None => Err HoInvalid
      end
  end.

(** Models [handle_ipv6_bracket], /repo/validators-derive/src/validator_handlers/host/mod.rs:349-363. *)
Definition h_ipv6_bracket (c : host_cfg) (s : list N) : outcome host_err (host * option N * bool) :=
  if is_disallow (h_two c) then Err HoTwoLabelsDisallow
  else
    let last_index := (List.length s - 1)%nat in
    let? b := idx s last_index in
    if b =? 93 then h_ipv6_without_port c s last_index else h_ipv6_with_port c s.

(** Models [handle_ipv6_non_bracket], /repo/validators-derive/src/validator_handlers/host/mod.rs:365-387. *)
Definition h_ipv6_non_bracket (c : host_cfg) (ip : list N) : outcome host_err (host * option N * bool) :=
  if is_disallow (h_two c) then Err HoTwoLabelsDisallow
  else if is_must (h_port c) then Err HoPortMust
  else h_finish c (is_local_ipv6 ip) (HIPv6 ip) None.

(** Models [handle_domain_and_port] and [handle_domain_none_port], /repo/validators-derive/src/validator_handlers/host/mod.rs:389-414 and 539-544. *)
Definition h_split (c : host_cfg) (s : list N) : outcome host_err (list N * option (list N)) :=
  match rposition 58 s with
  | Some colon_index =>
      match h_port c with
      | Disallow => Err HoPortDisallow
      | _ => let? domain_str := str_slice s 0 colon_index in
             let? port_str := str_slice_from s (colon_index + 1) in
             Ok (domain_str, Some port_str)
      end
  | None => match h_port c with Must => Err HoPortMust | _ => Ok (s, None) end
  end.

(** Models [handle_port], /repo/validators-derive/src/validator_handlers/host/mod.rs:416-432. *)
Definition h_parse_port (c : host_cfg) (port_str : option (list N)) : outcome host_err (option N) :=
  match h_port c with
  | Disallow => Ok None
  | _ => match port_str with
         | Some q => match parse_u16 q with Some p => Ok (Some p) | None => Err HoInvalid end
         | None => Ok None
         end
  end.

(** Models [check_at_least_two_labels], /repo/validators-derive/src/validator_handlers/host/mod.rs:467-485. *)
Definition h_check_two (c : host_cfg) (is_local : bool) (ascii_domain : list N) : outcome host_err unit :=
  match h_two c with
  | Allow => Ok tt
  | Must => if negb is_local && negb (is_at_least_two_labels_domain ascii_domain)
            then Err HoTwoLabelsMust else Ok tt
  | Disallow => if negb is_local && is_at_least_two_labels_domain ascii_domain
                then Err HoTwoLabelsDisallow else Ok tt
  end.

Section WithIdna.
(** [idna::Config::to_ascii], as in DomainModel.v; /repo/validators-derive/src/validator_handlers/host/mod.rs:500-505. *)
Variable idna : list N -> option (list N).

(** Models [handle_none_ipv4], /repo/validators-derive/src/validator_handlers/host/mod.rs:466-521. *)
Definition h_name (c : host_cfg) (domain_str : list N) (port_str : option (list N))
  : outcome host_err (host * option N * bool) :=
  match idna domain_str with
  | Some ascii_domain =>
      let? port := h_parse_port c port_str in
      let is_local := h_flag c (is_local_domain ascii_domain) in
      let? _ := h_check_two c is_local ascii_domain in
      let? _ := h_check_local c is_local in
      Ok (HDomain ascii_domain, port, is_local)
  | None => Err HoInvalid
  end.

(** Models the non-IPv6 branch of [v_parse_str], /repo/validators-derive/src/validator_handlers/host/mod.rs:538-555 with [handle_ipv4], host/mod.rs:446-464. *)
Definition h_rest (c : host_cfg) (s : list N) : outcome host_err (host * option N * bool) :=
  let? r := h_split c s in
  let '(domain_str, port_str) := r in
  if ends_with 46 domain_str then Err HoInvalid
  else
    match ipv4_from_str domain_str with
    | Some ip =>
        if is_disallow (h_two c) then Err HoTwoLabelsDisallow
        else
          let? port := h_parse_port c port_str in
          h_finish c (is_local_ipv4 ip) (HIPv4 ip) port
    | None => h_name c domain_str port_str
    end.

(** Models [v_parse_str], /repo/validators-derive/src/validator_handlers/host/mod.rs:524-558. *)
Definition host_v_parse_str (c : host_cfg) (s : list N) : outcome host_err (host * option N * bool) :=
  match s with
  | [] => Err HoInvalid
  | first :: _ =>
      if first =? 91 then h_ipv6_bracket c s
      else match ipv6_from_str s with
           | Some ip => h_ipv6_non_bracket c ip
           | None => h_rest c s
           end
  end.

(** An instance; [None] for a field that the struct does not have (an absent [port] under [Disallow] is also
    [None]). The layouts are those of /repo/validators-derive/src/validator_handlers/host/mod.rs:73-236. *)
Record host_val := { hv_host : host; hv_port : option N; hv_is_local : option bool }.

(** Models [create_instance], /repo/validators-derive/src/validator_handlers/host/mod.rs:563-620. *)
Definition h_create (c : host_cfg) (r : host * option N * bool) : outcome host_err host_val :=
  let '(h, port, is_local) := r in
  let fl := if is_allow_only (h_local c) && negb (is_allow_only (h_two c)) then Some is_local else None in
  match h_port c with
  | Allow => Ok {| hv_host := h; hv_port := port; hv_is_local := fl |}
  | Must => match port with
            | Some p => Ok {| hv_host := h; hv_port := Some p; hv_is_local := fl |}
            | None => Panic
            end
  | Disallow => Ok {| hv_host := h; hv_port := None; hv_is_local := fl |}
  end.

(** Models [parse_string], [parse_str] and [validate_str], /repo/validators-derive/src/validator_handlers/host/mod.rs:622-647. *)
Definition host_parse_str (c : host_cfg) (s : list N) : outcome host_err host_val :=
  let? r := host_v_parse_str c s in h_create c r.
Definition host_parse_string := host_parse_str.
Definition host_validate_str (c : host_cfg) (s : list N) : outcome host_err unit :=
  let? _ := host_v_parse_str c s in Ok tt.

(** Models [MyVisitor], /repo/validators-derive/src/validator_handlers/host/mod.rs:805-832: [visit_str] only. *)
Definition host_visitor (c : host_cfg) : visitor host_err host_val := fun x =>
  match x with DStr s => Some (host_parse_str c s) | _ => None end.
End WithIdna.

(** Models [to_uri_authority_string], /repo/validators-derive/src/validator_handlers/host/mod.rs:649-729. *)
Definition host_authority (v : host_val) : list N :=
  match hv_host v with
  | HIPv4 a => ipv4_authority (a, hv_port v)
  | HIPv6 a => ipv6_authority (a, hv_port v)
  | HDomain d => match hv_port v with Some p => d ++ [58] ++ dec_of_N p | None => d end
  end.

(** Models [Serialize], /repo/validators-derive/src/validator_handlers/host/mod.rs:733-745. *)
Definition host_ser (v : host_val) : ser_call := SStr (host_authority v).
