(** The ip, ipv4 and ipv6 validators,
    /repo/validators-derive/src/validator_handlers/ip/mod.rs, ipv4/mod.rs, ipv6/mod.rs. *)
From Verif Require Import Base IntStr NetModel Serde.
Local Open Scope N_scope.

(** Models [std::net::IpAddr] (core). *)
Inductive ip_addr := V4 (a : list N) | V6 (a : list N).

(** Models [IpError], [Ipv4Error], [Ipv6Error], /repo/validators/src/errors/ip.rs:5-16 and ipv4.rs,
    ipv6.rs. *)
Inductive ip_err := IpInvalid | IpLocalMust | IpLocalDisallow | IpPortMust | IpPortDisallow.

(** Models [port_str.parse::<u16>()], /repo/validators-derive/src/validator_handlers/ip/mod.rs:200. *)
Definition parse_u16 (s : list N) : option N :=
  match int_from_str 0 65535 s with Ok z => Some (Z.to_N z) | _ => None end.

(** Models [handle_local_ipv6] or [handle_local_ipv4], then [check_local] and the resulting triple,
    /repo/validators-derive/src/validator_handlers/ip/mod.rs:133-161, 239-247 and 173-177: [is_local] is not computed when the policy is [Allow]. *)
Definition finish (local : tri) {A} (is_local_addr : bool) (ip : A) (port : option N)
  : outcome ip_err (A * option N * bool) :=
  let is_local := match local with Allow => false | _ => is_local_addr end in
  match local with
  | Allow => Ok (ip, port, is_local)
  | Must => if negb is_local then Err IpLocalMust else Ok (ip, port, is_local)
  | Disallow => if is_local then Err IpLocalDisallow else Ok (ip, port, is_local)
  end.

(** Models [handle_ipv6_without_port], /repo/validators-derive/src/validator_handlers/ip/mod.rs:163-182 and ipv6/mod.rs:200-219. *)
Definition ipv6_without_port (port local : tri) (s : list N) (last_index : nat)
  : outcome ip_err (list N * option N * bool) :=
  match port with
  | Must => Err IpPortMust
  | _ =>
      let? ip_str := str_slice s 1 last_index in
      match ipv6_from_str ip_str with
      | Some ip => finish local (is_local_ipv6 ip) ip None
      | None => Err IpInvalid
      end
  end.

(** Models [handle_ipv6_with_port], /repo/validators-derive/src/validator_handlers/ip/mod.rs:184-219 and ipv6/mod.rs:163-198. *)
Definition ipv6_with_port (port local : tri) (s : list N) : outcome ip_err (list N * option N * bool) :=
  match port with
  | Disallow => Err IpPortDisallow
  | _ =>
      match rposition 58 s with
      | Some colon_index =>
          let? ok := (if (2 <? colon_index)%nat
                      then let? b := idx s (colon_index - 1) in Ok (b =? 93) else Ok false) in
          if (ok : bool) then
            let? ip_str := str_slice s 1 (colon_index - 1) in
            match ipv6_from_str ip_str with
            | Some ip =>
                let? port_str := str_slice_from s (colon_index + 1) in
                match parse_u16 port_str with
                | Some p => finish local (is_local_ipv6 ip) ip (Some p)
                | None => Err IpInvalid
                end
            | None => Err IpInvalid
            end
          else Err IpInvalid
      | None => Err IpInvalid
      end
  end.

(** Models the bracketed branch of [v_parse_str], /repo/validators-derive/src/validator_handlers/ip/mod.rs:312-319 and ipv6/mod.rs:250-257. *)
Definition ipv6_bracket (port local : tri) (s : list N) : outcome ip_err (list N * option N * bool) :=
  let last_index := (List.length s - 1)%nat in
  let? b := idx s last_index in
  if b =? 93 then ipv6_without_port port local s last_index else ipv6_with_port port local s.

(** Models [handle_ipv6_non_bracket], /repo/validators-derive/src/validator_handlers/ip/mod.rs:221-237 and ipv6/mod.rs:221-237. *)
Definition ipv6_non_bracket (port local : tri) (ip : list N) : outcome ip_err (list N * option N * bool) :=
  match port with Must => Err IpPortMust | _ => finish local (is_local_ipv6 ip) ip None end.

(** Models [handle_ipv4_with_port] and [handle_ipv4_without_port], /repo/validators-derive/src/validator_handlers/ip/mod.rs:249-299 and
    ipv4/mod.rs:163-213, with the search for the colon, ip/mod.rs:324-329 and ipv4/mod.rs:226-231. *)
Definition ipv4_rest (port local : tri) (s : list N) : outcome ip_err (list N * option N * bool) :=
  match rposition 58 s with
  | Some colon_index =>
      match port with
      | Disallow => Err IpPortDisallow
      | _ =>
          let? ip_str := str_slice s 0 colon_index in
          match ipv4_from_str ip_str with
          | Some ip =>
              let? port_str := str_slice_from s (colon_index + 1) in
              match parse_u16 port_str with
              | Some p => finish local (is_local_ipv4 ip) ip (Some p)
              | None => Err IpInvalid
              end
          | None => Err IpInvalid
          end
      end
  | None =>
      match port with
      | Must => Err IpPortMust
      | _ => match ipv4_from_str s with
             | Some ip => finish local (is_local_ipv4 ip) ip None
             | None => Err IpInvalid
             end
      end
  end.

(** The [IpAddr::V4]/[IpAddr::V6] wrapping of the triples of the ip validator, /repo/validators-derive/src/validator_handlers/ip/mod.rs:177, 206, 234,
    271, 295. *)
Definition wrap (f : list N -> ip_addr) (r : list N * option N * bool) : ip_addr * option N * bool :=
  let '(a, p, l) := r in (f a, p, l).

(** Models [v_parse_str], /repo/validators-derive/src/validator_handlers/ip/mod.rs:301-335. *)
Definition ip_v_parse_str (port local : tri) (s : list N) : outcome ip_err (ip_addr * option N * bool) :=
  match s with
  | [] => Err IpInvalid
  | first :: _ =>
      if first =? 91 then omap (wrap V6) (ipv6_bracket port local s)
      else match ipv6_from_str s with
           | Some ip => omap (wrap V6) (ipv6_non_bracket port local ip)
           | None => omap (wrap V4) (ipv4_rest port local s)
           end
  end.

(** Models [v_parse_str], /repo/validators-derive/src/validator_handlers/ipv4/mod.rs:215-234. *)
Definition ipv4_v_parse_str (port local : tri) (s : list N) : outcome ip_err (list N * option N * bool) :=
  match s with
  | [] => Err IpInvalid
  | _ => ipv4_rest port local s
  end.

(** Models [v_parse_str], /repo/validators-derive/src/validator_handlers/ipv6/mod.rs:239-266. *)
Definition ipv6_v_parse_str (port local : tri) (s : list N) : outcome ip_err (list N * option N * bool) :=
  match s with
  | [] => Err IpInvalid
  | first :: _ =>
      if first =? 91 then ipv6_bracket port local s
      else match ipv6_from_str s with
           | Some ip => ipv6_non_bracket port local ip
           | None => Err IpInvalid
           end
  end.

(** An instance: the address and the port field ([Option<u16>] for [Allow], [u16] for [Must], absent for
    [Disallow]).
    (/repo/validators-derive/src/validator_handlers/ip/mod.rs:337-361.) *)
Definition instance (A : Type) : Type := A * option N.

(** Models [create_instance], /repo/validators-derive/src/validator_handlers/ip/mod.rs:337-361, ipv4/mod.rs:236-260, ipv6/mod.rs:268-292: [unwrap] of the
    port for [Must]. *)
Definition create_instance {A} (port : tri) (r : A * option N * bool) : outcome ip_err (instance A) :=
  let '(a, p, _) := r in
  match port with
  | Allow => Ok (a, p)
  | Must => match p with Some p => Ok (a, Some p) | None => Panic end
  | Disallow => Ok (a, None)
  end.

(** Models [parse_string], [parse_str] and [validate_str], /repo/validators-derive/src/validator_handlers/ip/mod.rs:363-388, ipv4/mod.rs:262-287,
    ipv6/mod.rs:294-319. *)
Definition ip_parse_str (port local : tri) (s : list N) : outcome ip_err (instance ip_addr) :=
  let? r := ip_v_parse_str port local s in create_instance port r.
Definition ip_parse_string := ip_parse_str.
Definition ip_validate_str (port local : tri) (s : list N) : outcome ip_err unit :=
  let? _ := ip_v_parse_str port local s in Ok tt.
Definition ipv4_parse_str (port local : tri) (s : list N) : outcome ip_err (instance (list N)) :=
  let? r := ipv4_v_parse_str port local s in create_instance port r.
Definition ipv4_parse_string := ipv4_parse_str.
Definition ipv4_validate_str (port local : tri) (s : list N) : outcome ip_err unit :=
  let? _ := ipv4_v_parse_str port local s in Ok tt.
Definition ipv6_parse_str (port local : tri) (s : list N) : outcome ip_err (instance (list N)) :=
  let? r := ipv6_v_parse_str port local s in create_instance port r.
Definition ipv6_parse_string := ipv6_parse_str.
Definition ipv6_validate_str (port local : tri) (s : list N) : outcome ip_err unit :=
  let? _ := ipv6_v_parse_str port local s in Ok tt.

(** Models [to_uri_authority_string], /repo/validators-derive/src/validator_handlers/ipv4/mod.rs:289-330, ipv6/mod.rs:321-362 and ip/mod.rs:390-441. *)
Definition ipv4_authority (v : instance (list N)) : list N :=
  match snd v with
  | Some p => ipv4_display (fst v) ++ [58] ++ dec_of_N p
  | None => ipv4_display (fst v)
  end.
Definition ipv6_authority (v : instance (list N)) : list N :=
  match snd v with
  | Some p => [91] ++ ipv6_display (fst v) ++ [93; 58] ++ dec_of_N p
  | None => [91] ++ ipv6_display (fst v) ++ [93]
  end.
Definition ip_authority (v : instance ip_addr) : list N :=
  match fst v with
  | V4 a => ipv4_authority (a, snd v)
  | V6 a => ipv6_authority (a, snd v)
  end.

(** Models [Serialize] and [Deserialize], /repo/validators-derive/src/validator_handlers/ip/mod.rs:443-535 (the same in ipv4 and ipv6): [serialize_str] of the
    authority string; a visitor with [visit_str] only. *)
Definition ip_ser (v : instance ip_addr) : ser_call := SStr (ip_authority v).
Definition ip_visitor (port local : tri) : visitor ip_err (instance ip_addr) := fun c =>
  match c with DStr s => Some (ip_parse_str port local s) | _ => None end.
Definition ipv4_ser (v : instance (list N)) : ser_call := SStr (ipv4_authority v).
Definition ipv4_visitor (port local : tri) : visitor ip_err (instance (list N)) := fun c =>
  match c with DStr s => Some (ipv4_parse_str port local s) | _ => None end.
Definition ipv6_ser (v : instance (list N)) : ser_call := SStr (ipv6_authority v).
Definition ipv6_visitor (port local : tri) : visitor ip_err (instance (list N)) := fun c =>
  match c with DStr s => Some (ipv6_parse_str port local s) | _ => None end.
