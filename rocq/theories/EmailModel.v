(** The email validator, /repo/validators-derive/src/validator_handlers/email/mod.rs. *)
From Verif Require Import Base IntStr NetModel IpModel DomainModel HostModel Serde.
Local Open Scope N_scope.

(** Models [EmailError], /repo/validators/src/errors/email.rs:5-22. *)
Inductive email_err :=
| EInvalid | EIPMust | EIPDisallow | ELocalMust | ELocalDisallow | ETwoLabelsMust | ETwoLabelsDisallow
| ECommentDisallow.

(** Models [EmailAttribute] (the policies), /repo/validators-derive/src/validator_handlers/email/email_attribute.rs:11-22. [comment] and [non_ascii] are two-valued:
    [true] is [Allow]. *)
Record email_cfg := { e_comment : bool; e_ip : tri; e_local : tri; e_two : tri; e_non_ascii : bool }.

(** The build profile of the crate that derives the validator: whether an unsigned subtraction that goes below zero
    panics (debug) or wraps (release). Only /repo/validators-derive/src/validator_handlers/email/mod.rs:904 can do so. *)
Inductive profile := Debug | Release.

(** The characters of the first arm of the four matches, /repo/validators-derive/src/validator_handlers/email/mod.rs:1019-1031, 1051-1063, 1144-1156, 1176-1188. *)
Definition atext (e : N) : bool :=
  ((65 <=? e) && (e <=? 90)) || ((97 <=? e) && (e <=? 122)) || ((48 <=? e) && (e <=? 57)) || (e =? 33)
  || ((35 <=? e) && (e <=? 39)) || (e =? 42) || (e =? 43) || (e =? 45) || (e =? 47) || (e =? 61) || (e =? 63)
  || ((94 <=? e) && (e <=? 96)) || ((123 <=? e) && (e <=? 126)).

(** The characters that must be escaped, /repo/validators-derive/src/validator_handlers/email/mod.rs:1102. *)
Definition special (e : N) : bool :=
  (e =? 40) || (e =? 41) || (e =? 44) || ((58 <=? e) && (e <=? 60)) || (e =? 62) || (e =? 64) || (e =? 91) || (e =? 93).

(** Models [handle_unrecognized_*], /repo/validators-derive/src/validator_handlers/email/mod.rs:607-660: whether another byte is let through. *)
Definition other_ok (c : email_cfg) (e : N) : bool := e_non_ascii c && (128 <=? e).

(** Models [check_local], /repo/validators-derive/src/validator_handlers/email/mod.rs:662-680. *)
Definition e_check_local (c : email_cfg) (is_local : bool) : outcome email_err unit :=
  match e_local c with
  | Allow => Ok tt
  | Must => if negb is_local then Err ELocalMust else Ok tt
  | Disallow => if is_local then Err ELocalDisallow else Ok tt
  end.

(** Models [handle_local_ipv6], [handle_local_ipv4] and [handle_local_domain], /repo/validators-derive/src/validator_handlers/email/mod.rs:691-713 and 784-794. *)
Definition e_flag (c : email_cfg) (b : bool) : bool :=
  if is_allow_only (e_two c) && is_allow_only (e_local c) then false else b.

(** Models [check_at_least_two_labels], /repo/validators-derive/src/validator_handlers/email/mod.rs:796-814. *)
Definition e_check_two (c : email_cfg) (is_local : bool) (ascii_domain : list N) : outcome email_err unit :=
  match e_two c with
  | Allow => Ok tt
  | Must => if negb is_local && negb (is_at_least_two_labels_domain ascii_domain)
            then Err ETwoLabelsMust else Ok tt
  | Disallow => if negb is_local && is_at_least_two_labels_domain ascii_domain
                then Err ETwoLabelsDisallow else Ok tt
  end.

(** Models [handle_comment_1] and [handle_comment_3] with the tests around them, /repo/validators-derive/src/validator_handlers/email/mod.rs:863-891, 930-958,
    1000-1005 and 1239-1244. They differ in how many bytes are searched: [limit]. *)
Definition e_leading_comment (c : email_cfg) (limit : nat) (s : list N)
  : outcome email_err (nat * option (list N)) :=
  let? b := idx s 0 in
  if b =? 40 then
    if negb (e_comment c) then Err ECommentDisallow
    else if (1 <? List.length s)%nat then
      let? rest := slice_from s 1 in
      match position 41 (firstn limit rest) with
      | Some index =>
          let index := (index + 1)%nat in
          let? comment := str_slice s 1 index in
          let len := (index + 1)%nat in
          if (len =? List.length s)%nat then Err EInvalid else Ok (len, Some comment)
      | None => Err EInvalid
      end
    else Err EInvalid
  else Ok (O, None).

(** Models the quoted loop, /repo/validators-derive/src/validator_handlers/email/mod.rs:1042-1138, on the bytes [l] from index [p] on. Returns the index of the
    closing quote and [need_quoted]. *)
Fixpoint e_quoted_loop (c : email_cfg) (l : list N) (p : nat) (escaping need_quoted last_dot : bool)
  : outcome email_err (nat * bool) :=
  match l with
  | [] => Err EInvalid
  | e :: r =>
      if atext e then
        if (p =? 63)%nat then Err EInvalid else e_quoted_loop c r (S p) false need_quoted false
      else if e =? 46 then
        if (p =? 63)%nat then Err EInvalid
        else e_quoted_loop c r (S p) false (if last_dot then true else need_quoted) true
      else if e =? 92 then
        if (p =? 63)%nat then Err EInvalid else e_quoted_loop c r (S p) (negb escaping) true last_dot
      else if (e =? 32) || (e =? 9) then
        if (p =? 63)%nat then Err EInvalid else e_quoted_loop c r (S p) escaping true last_dot
      else if special e then
        if (p =? 63)%nat || negb escaping then Err EInvalid else e_quoted_loop c r (S p) false need_quoted last_dot
      else if e =? 34 then
        if escaping then
          if (p =? 63)%nat then Err EInvalid else e_quoted_loop c r (S p) false need_quoted last_dot
        else Ok (p, need_quoted)
      else if other_ok c e then e_quoted_loop c r (S p) false need_quoted false
      else Err EInvalid
  end.

(** Models the match on the first byte of a quoted local part, /repo/validators-derive/src/validator_handlers/email/mod.rs:1018-1038: [escaping], [need_quoted],
    [last_dot]. *)
Definition e_quoted_first (c : email_cfg) (e : N) : outcome email_err (bool * bool * bool) :=
  if atext e then Ok (false, false, false)
  else if e =? 46 then Ok (false, true, true)
  else if e =? 92 then Ok (true, true, false)
  else if (e =? 32) || (e =? 9) then Ok (false, true, false)
  else if other_ok c e then Ok (false, false, false)
  else Err EInvalid.

(** Models the unquoted loop, /repo/validators-derive/src/validator_handlers/email/mod.rs:1167-1217, on the bytes [l] from index [p] on. Returns the index of the
    '@' or '('. *)
Fixpoint e_unquoted_loop (c : email_cfg) (l : list N) (p : nat) (last_dot : bool) : outcome email_err nat :=
  match l with
  | [] => Err EInvalid
  | e :: r =>
      if atext e then
        if (p =? 64)%nat then Err EInvalid else e_unquoted_loop c r (S p) false
      else if e =? 46 then
        if (p =? 64)%nat || last_dot then Err EInvalid else e_unquoted_loop c r (S p) true
      else if (e =? 64) || (e =? 40) then Ok p
      else if other_ok c e then e_unquoted_loop c r (S p) false
      else Err EInvalid
  end.

(** Models the local part, /repo/validators-derive/src/validator_handlers/email/mod.rs:1007-1219: the text, [need_quoted], [quoted] and the new
    [local_part_length]. *)
Definition e_local_part (c : email_cfg) (s : list N) (local_part_length : nat)
  : outcome email_err (list N * bool * bool * nat) :=
  let length := List.length s in
  let? b := idx s local_part_length in
  if b =? 34 then
    let p := (local_part_length + 1)%nat in
    if (p =? 63)%nat || (p =? length)%nat then Err EInvalid
    else
      let? e := idx s p in
      let? st := e_quoted_first c e in
      let '(escaping, need_quoted, last_dot) := st in
      let? r := e_quoted_loop c (skipn (p + 1) s) (p + 1) escaping need_quoted last_dot in
      let '(q, need_quoted) := r in
      let? local_part := str_slice s (local_part_length + 1) q in
      let local_part_length := (q + 1)%nat in
      if (local_part_length =? length)%nat then Err EInvalid
      else Ok (local_part, need_quoted, true, local_part_length)
  else
    let? e := idx s local_part_length in
    if atext e || other_ok c e then
      let? p := e_unquoted_loop c (skipn (local_part_length + 1) s) (local_part_length + 1) false in
      let? local_part := str_slice s local_part_length p in
      Ok (local_part, false, false, p)
    else Err EInvalid.

(** The number of bytes searched for the end of the second comment, [64 - local_part_length] in [usize],
    /repo/validators-derive/src/validator_handlers/email/mod.rs:904. A wrapped value exceeds every length. *)
Definition e_take2 (prof : profile) (s : list N) (local_part_length : nat) : outcome email_err nat :=
  if (local_part_length <=? 64)%nat then Ok (64 - local_part_length)%nat
  else match prof with Debug => Panic | Release => Ok (List.length s) end.

(** Models [handle_comment_2] with the test around it, /repo/validators-derive/src/validator_handlers/email/mod.rs:893-928 and 1221-1226. *)
Definition e_comment2 (prof : profile) (c : email_cfg) (s : list N) (local_part_length : nat)
  : outcome email_err (nat * option (list N)) :=
  let length := List.length s in
  let? b := idx s local_part_length in
  if b =? 40 then
    if negb (e_comment c) then Err ECommentDisallow
    else
      let local_part_length := (local_part_length + 1)%nat in
      if (local_part_length <? length)%nat then
        let? rest := slice_from s local_part_length in
        let? n := e_take2 prof s local_part_length in
        match position 41 (firstn n rest) with
        | Some index =>
            let index := (index + local_part_length)%nat in
            let? comment := str_slice s local_part_length index in
            let local_part_length := (index + 1)%nat in
            if (local_part_length =? length)%nat then Err EInvalid else Ok (local_part_length, Some comment)
        | None => Err EInvalid
        end
      else Err EInvalid
  else Ok (local_part_length, None).

(** Models [handle_comment_4] with the test around it, /repo/validators-derive/src/validator_handlers/email/mod.rs:960-987 and 1268-1273. *)
Definition e_comment4 (c : email_cfg) (s : list N) (domain_part_length : nat) : outcome email_err (option (list N)) :=
  let length := List.length s in
  if (domain_part_length <? length)%nat then
    if negb (e_comment c) then Err ECommentDisallow
    else
      let? b := idx s domain_part_length in
      if b =? 40 then
        let domain_part_length := (domain_part_length + 1)%nat in
        if (domain_part_length <? length)%nat then
          let? rest := slice_from s domain_part_length in
          match position 41 rest with
          | Some index =>
              let index := (index + domain_part_length)%nat in
              let? comment := str_slice s domain_part_length index in
              Ok (Some comment)
          | None => Err EInvalid
          end
        else Err EInvalid
      else Err EInvalid
  else Ok None.

(** Models [handle_ip], /repo/validators-derive/src/validator_handlers/email/mod.rs:682-777: host, [is_local], the new [domain_part_length] and what is added to
    [domain_part_length_offset]. *)
Definition e_handle_ip (c : email_cfg) (s : list N) (domain_part_length : nat)
  : outcome email_err (host * bool * nat * Z) :=
  let length := List.length s in
  match e_ip c with
  | Disallow => Err EIPDisallow
  | _ =>
      if is_disallow (e_two c) then Err ETwoLabelsDisallow
      else
        let domain_part_length := (domain_part_length + 1)%nat in
        if (domain_part_length <? length)%nat then
          let? rest := slice_from s domain_part_length in
          if eqbs (firstn 5 rest) (bs "IPv6:") then
            let domain_part_length := (domain_part_length + 5)%nat in
            if (domain_part_length <? length)%nat then
              let? rest := slice_from s domain_part_length in
              match position 93 rest with
              | Some i =>
                  let closing := (i + domain_part_length)%nat in
                  let? ip_str := str_slice s domain_part_length closing in
                  match ipv6_from_str ip_str with
                  | Some ip =>
                      Ok (HIPv6 ip, e_flag c (is_local_ipv6 ip), (closing + 1)%nat,
                          (Z.of_nat (List.length (ipv6_display ip)) - Z.of_nat (List.length ip_str))%Z)
                  | None => Err EInvalid
                  end
              | None => Err EInvalid
              end
            else Err EInvalid
          else
            match position 93 rest with
            | Some i =>
                let closing := (i + domain_part_length)%nat in
                let? ip_str := str_slice s domain_part_length closing in
                match ipv4_from_str ip_str with
                | Some ip => Ok (HIPv4 ip, e_flag c (is_local_ipv4 ip), (closing + 1)%nat, 0%Z)
                | None => Err EInvalid
                end
            | None => Err EInvalid
            end
        else Err EInvalid
  end.

Section WithIdna.
(** [idna::Config::to_ascii], as in DomainModel.v; /repo/validators-derive/src/validator_handlers/email/mod.rs:831-835. *)
Variable idna : list N -> option (list N).

(** Models [handle_domain], /repo/validators-derive/src/validator_handlers/email/mod.rs:779-853; result as for [e_handle_ip]. *)
Definition e_handle_domain (c : email_cfg) (s : list N) (domain_part_length : nat)
  : outcome email_err (host * bool * nat * Z) :=
  match e_ip c with
  | Must => Err EIPMust
  | _ =>
      let? rest := slice_from s domain_part_length in
      let? domain_str :=
        (match position 40 rest with
         | Some i => str_slice s domain_part_length (i + domain_part_length)
         | None => str_slice_from s domain_part_length
         end) in
      if ends_with 46 domain_str then Err EInvalid
      else
        match idna domain_str with
        | Some ascii_domain =>
            let is_local := e_flag c (is_local_domain ascii_domain) in
            let? _ := e_check_two c is_local ascii_domain in
            Ok (HDomain ascii_domain, is_local, (domain_part_length + List.length domain_str)%nat,
                (Z.of_nat (List.length ascii_domain) - Z.of_nat (List.length domain_str))%Z)
        | None => Err EInvalid
        end
  end.

(** What [v_parse_str] returns.
    (/repo/validators-derive/src/validator_handlers/email/mod.rs:992-1286.) *)
Record email_raw := {
  er_local : list N; er_need_quoted : bool; er_host : host;
  er_c1 : option (list N); er_c2 : option (list N); er_c3 : option (list N); er_c4 : option (list N);
  er_is_local : bool }.

(** Models the domain part of [v_parse_str], /repo/validators-derive/src/validator_handlers/email/mod.rs:1232-1285, on the text [s] after the '@'. *)
Definition e_domain_part (c : email_cfg) (s : list N) (quoted_needed : bool)
  : outcome email_err (host * bool * option (list N) * option (list N)) :=
  let length := List.length s in
  if (255 <? length)%nat then Err EInvalid
  else
    let? r3 := e_leading_comment c 253 s in
    let '(domain_part_length, c3) := r3 in
    let offset := (if quoted_needed then -2 else 0)%Z in
    let? b := idx s domain_part_length in
    let? r :=
      (if b =? 40 then Err EInvalid
       else if b =? 91 then e_handle_ip c s domain_part_length
       else e_handle_domain c s domain_part_length) in
    let '(h, is_local, domain_part_length, added) := r in
    let offset := (offset + added)%Z in
    let? _ := e_check_local c is_local in
    if ((0 <? offset)%Z && (255 <? Z.of_nat length + offset)%Z)%bool then Err EInvalid
    else
      let? c4 := e_comment4 c s domain_part_length in
      Ok (h, is_local, c3, c4).

(** Models [v_parse_str], /repo/validators-derive/src/validator_handlers/email/mod.rs:992-1286. *)
Definition email_v_parse_str (prof : profile) (c : email_cfg) (s : list N) : outcome email_err email_raw :=
  let length := List.length s in
  if (length =? 0)%nat || (320 <? length)%nat then Err EInvalid
  else
    let? r1 := e_leading_comment c 62 s in
    let '(local_part_length, c1) := r1 in
    let? rl := e_local_part c s local_part_length in
    let '(local_part, need_quoted, quoted, local_part_length) := rl in
    let? r2 := e_comment2 prof c s local_part_length in
    let '(local_part_length, c2) := r2 in
    let? b := idx s local_part_length in
    if negb (b =? 64) || (local_part_length + 1 =? length)%nat then Err EInvalid
    else
      let? d := str_slice_from s (local_part_length + 1) in
      let? rd := e_domain_part c d (quoted && need_quoted) in
      let '(h, is_local, c3, c4) := rd in
      Ok {| er_local := local_part; er_need_quoted := need_quoted; er_host := h;
            er_c1 := c1; er_c2 := c2; er_c3 := c3; er_c4 := c4; er_is_local := is_local |}.

(** An instance; [None] for a comment or [is_local] field that the struct does not have. The domain part is a [Host]
    for [ip(Allow)], an [IpAddr] for [ip(Must)] and a [String] for [ip(Disallow)]; [host] stands for all three.
    (/repo/validators-derive/src/validator_handlers/email/mod.rs:1289-1497.) *)
Record email_val := {
  ev_local : list N; ev_need_quoted : bool; ev_domain : host;
  ev_c1 : option (list N); ev_c2 : option (list N); ev_c3 : option (list N); ev_c4 : option (list N);
  ev_is_local : option bool }.

(** Models [create_instance], /repo/validators-derive/src/validator_handlers/email/mod.rs:1289-1497; the [unreachable!] arms are [Panic]. *)
Definition e_create (c : email_cfg) (r : email_raw) : outcome email_err email_val :=
  let fc x := if e_comment c then x else None in
  let v := {| ev_local := er_local r; ev_need_quoted := er_need_quoted r; ev_domain := er_host r;
              ev_c1 := fc (er_c1 r); ev_c2 := fc (er_c2 r); ev_c3 := fc (er_c3 r); ev_c4 := fc (er_c4 r);
              ev_is_local := if is_allow_only (e_local c) && negb (is_allow_only (e_two c))
                             then Some (er_is_local r) else None |} in
  match e_ip c, er_host r with
  | Allow, _ => Ok v
  | Must, HDomain _ => Panic
  | Must, _ => Ok v
  | Disallow, HDomain _ => Ok v
  | Disallow, _ => Panic
  end.

(** Models [parse_string], [parse_str] and [validate_str], /repo/validators-derive/src/validator_handlers/email/mod.rs:1499-1524. *)
Definition email_parse_str (prof : profile) (c : email_cfg) (s : list N) : outcome email_err email_val :=
  let? r := email_v_parse_str prof c s in e_create c r.
Definition email_parse_string := email_parse_str.
Definition email_validate_str (prof : profile) (c : email_cfg) (s : list N) : outcome email_err unit :=
  let? _ := email_v_parse_str prof c s in Ok tt.

(** Models [MyVisitor], /repo/validators-derive/src/validator_handlers/email/mod.rs:1739-1757: [visit_str] only. *)
Definition email_visitor (prof : profile) (c : email_cfg) : visitor email_err email_val := fun x =>
  match x with DStr s => Some (email_parse_str prof c s) | _ => None end.
End WithIdna.

(** The domain part as printed, /repo/validators-derive/src/validator_handlers/email/mod.rs:1536-1538, 1552-1553, 1567, 1627-1629, 1649-1650 and 1667. *)
Definition e_host_text (h : host) : list N :=
  match h with
  | HIPv4 a => [91] ++ ipv4_display a ++ [93]
  | HIPv6 a => bs "[IPv6:" ++ ipv6_display a ++ [93]
  | HDomain d => d
  end.

(** A printed comment, /repo/validators-derive/src/validator_handlers/email/mod.rs:1577-1581, 1593-1597, 1601-1605 and 1609-1613. *)
Definition e_comment_text (x : option (list N)) : list N :=
  match x with Some t => [40] ++ t ++ [41] | None => [] end.

(** Models [to_email_string], /repo/validators-derive/src/validator_handlers/email/mod.rs:1526-1677. Without comments the quotes are never written. *)
Definition to_email_string (c : email_cfg) (v : email_val) : list N :=
  if negb (e_comment c) then ev_local v ++ [64] ++ e_host_text (ev_domain v)
  else
    let quote := if ev_need_quoted v then [34] else [] in
    e_comment_text (ev_c1 v) ++ quote ++ ev_local v ++ quote ++ e_comment_text (ev_c2 v) ++ [64]
    ++ e_comment_text (ev_c3 v) ++ e_host_text (ev_domain v) ++ e_comment_text (ev_c4 v).

(** Models [Serialize], /repo/validators-derive/src/validator_handlers/email/mod.rs:1681-1692. *)
Definition email_ser (c : email_cfg) (v : email_val) : ser_call := SStr (to_email_string c v).
