(** Internet addresses: the parts of Rust's core library (core::net) that the validators call.
    core is not in /repo; the definitions follow library/core/src/net/parser.rs and ip_addr.rs of the
    Rust distribution. An [Ipv4Addr] is the list of its 4 octets, an [Ipv6Addr] the list of its 8
    segments. A [Parser] method becomes a function from the remaining text to [None] (the state is
    restored, [read_atomically]) or the value and the new remaining text. *)
From Verif Require Import Base IntStr MacModel.
Local Open Scope N_scope.

(** A parser method.
    (core::net, called from /repo/validators-derive/src/validator_handlers/ip/mod.rs:163-335 and /repo/validators/src/functions/ipv4.rs.) *)
Definition parser (A : Type) := list N -> option (A * list N).

(** Models [char::to_digit] on a [char] made from a byte, for the radices 10 and 16.
    (core::net, called from /repo/validators-derive/src/validator_handlers/ip/mod.rs:163-335 and /repo/validators/src/functions/ipv4.rs.) *)
Definition to_digit (radix c : N) : option N :=
  match hex_digit AnyCase c with
  | Some d => if d <? radix then Some d else None
  | None => None
  end.

(** Models the [while] loop of [Parser::read_number] with a digit limit (parser.rs).
    (core::net, called from /repo/validators-derive/src/validator_handlers/ip/mod.rs:163-335 and /repo/validators/src/functions/ipv4.rs.) *)
Fixpoint num_loop (radix : N) (max_digits : nat) (s : list N) (result : N) (count : nat)
  : option (N * nat * list N) :=
  match s with
  | [] => Some (result, count, s)
  | c :: s' =>
      match to_digit radix c with
      | Some d => if (max_digits <? S count)%nat then None
                  else num_loop radix max_digits s' (result * radix + d) (S count)
      | None => Some (result, count, s)
      end
  end.

(** Models [Parser::read_number] (parser.rs); [hi] is the maximum of the target type.
    (core::net, called from /repo/validators-derive/src/validator_handlers/ip/mod.rs:163-335 and /repo/validators/src/functions/ipv4.rs.) *)
Definition read_number (radix : N) (max_digits : nat) (allow_zero_prefix : bool) (hi : N) : parser N := fun s =>
  let has_leading_zero := match s with c :: _ => c =? 48 | [] => false end in
  match num_loop radix max_digits s 0 0 with
  | None => None
  | Some (result, count, rest) =>
      if Nat.eqb count 0 then None
      else if negb allow_zero_prefix && has_leading_zero && (1 <? count)%nat then None
      else if result <=? hi then Some (result, rest) else None
  end.

(** Models [Parser::read_given_char] (parser.rs).
    (core::net, called from /repo/validators-derive/src/validator_handlers/ip/mod.rs:163-335 and /repo/validators/src/functions/ipv4.rs.) *)
Definition read_given_char (target : N) : parser unit := fun s =>
  match s with c :: s' => if c =? target then Some (tt, s') else None | [] => None end.

(** Models [Parser::read_separator] (parser.rs).
    (core::net, called from /repo/validators-derive/src/validator_handlers/ip/mod.rs:163-335 and /repo/validators/src/functions/ipv4.rs.) *)
Definition read_separator {A} (sep : N) (index : nat) (inner : parser A) : parser A := fun s =>
  if (0 <? index)%nat
  then match read_given_char sep s with Some (_, s') => inner s' | None => None end
  else inner s.

(** Models the loop of [Parser::read_ipv4_addr] (parser.rs): [n] octets still to read.
    (core::net, called from /repo/validators-derive/src/validator_handlers/ip/mod.rs:163-335 and /repo/validators/src/functions/ipv4.rs.) *)
Fixpoint read_octets (n i : nat) : parser (list N) := fun s =>
  match n with
  | O => Some ([], s)
  | S n' =>
      match read_separator 46 i (read_number 10 3 false 255) s with
      | None => None
      | Some (x, s') => match read_octets n' (S i) s' with
                        | None => None
                        | Some (xs, s'') => Some (x :: xs, s'')
                        end
      end
  end.

(** Models [Parser::read_ipv4_addr] (parser.rs).
    (core::net, called from /repo/validators-derive/src/validator_handlers/ip/mod.rs:163-335 and /repo/validators/src/functions/ipv4.rs.) *)
Definition read_ipv4_addr : parser (list N) := read_octets 4 0.

(** Models [u16::from_be_bytes] (core). *)
Definition be16 (a b : N) : N := a * 256 + b.

(** Models [read_groups] inside [Parser::read_ipv6_addr] (parser.rs): [left] is [limit - i].
    (core::net, called from /repo/validators-derive/src/validator_handlers/ip/mod.rs:163-335 and /repo/validators/src/functions/ipv4.rs.) *)
Fixpoint read_groups (left i : nat) (s : list N) : list N * bool * list N :=
  match left with
  | O => ([], false, s)
  | S left' =>
      let ipv4 := if (1 <? left)%nat then read_separator 58 i read_ipv4_addr s else None in
      match ipv4 with
      | Some ([one; two; three; four], s') => ([be16 one two; be16 three four], true, s')
      | Some _ => ([], false, s)
      | None =>
          match read_separator 58 i (read_number 16 4 true 65535) s with
          | Some (g, s') => let '(gs, v4, s'') := read_groups left' (S i) s' in (g :: gs, v4, s'')
          | None => ([], false, s)
          end
      end
  end.

(** Models [Parser::read_ipv6_addr] (parser.rs).
    (core::net, called from /repo/validators-derive/src/validator_handlers/ip/mod.rs:163-335 and /repo/validators/src/functions/ipv4.rs.) *)
Definition read_ipv6_addr : parser (list N) := fun s =>
  let '(head, head_ipv4, s) := read_groups 8 0 s in
  if Nat.eqb (List.length head) 8 then Some (head, s)
  else if head_ipv4 then None
  else match read_given_char 58 s with
       | None => None
       | Some (_, s) =>
           match read_given_char 58 s with
           | None => None
           | Some (_, s) =>
               let limit := (8 - (List.length head + 1))%nat in
               let '(tail, _, s) := read_groups limit 0 s in
               Some (head ++ repeat 0 (8 - List.length head - List.length tail) ++ tail, s)
           end
       end.

(** Models [Parser::parse_with] (parser.rs).
    (core::net, called from /repo/validators-derive/src/validator_handlers/ip/mod.rs:163-335 and /repo/validators/src/functions/ipv4.rs.) *)
Definition parse_with {A} (p : parser A) (s : list N) : option A :=
  match p s with Some (a, []) => Some a | _ => None end.

(** Models [Ipv4Addr::from_str] and [Ipv6Addr::from_str] (parser.rs, [parse_ascii]).
    (core::net, called from /repo/validators-derive/src/validator_handlers/ip/mod.rs:163-335 and /repo/validators/src/functions/ipv4.rs.) *)
Definition ipv4_from_str (s : list N) : option (list N) :=
  if (15 <? List.length s)%nat then None else parse_with read_ipv4_addr s.
Definition ipv6_from_str (s : list N) : option (list N) := parse_with read_ipv6_addr s.

(** Models [Display for Ipv4Addr] (ip_addr.rs).
    (core::net, called from /repo/validators-derive/src/validator_handlers/ip/mod.rs:163-335 and /repo/validators/src/functions/ipv4.rs.) *)
Definition ipv4_display (a : list N) : list N :=
  match a with
  | [a; b; c; d] => dec_of_N a ++ [46] ++ dec_of_N b ++ [46] ++ dec_of_N c ++ [46] ++ dec_of_N d
  | _ => []
  end.

(** Models [{:x}] of a [u16] (core). *)
Definition hex16 (x : N) : list N := hex_fmt 1 false x.

(** Models [fmt_subslice] inside [Display for Ipv6Addr] (ip_addr.rs).
    (core::net, called from /repo/validators-derive/src/validator_handlers/ip/mod.rs:163-335 and /repo/validators/src/functions/ipv4.rs.) *)
Fixpoint fmt_tail (chunk : list N) : list N :=
  match chunk with [] => [] | x :: r => 58 :: hex16 x ++ fmt_tail r end.
Definition fmt_subslice (chunk : list N) : list N :=
  match chunk with [] => [] | x :: r => hex16 x ++ fmt_tail r end.

(** Models the search for the longest run of zeros inside [Display for Ipv6Addr] (ip_addr.rs); a span is
    its start and its length.
    (core::net, called from /repo/validators-derive/src/validator_handlers/ip/mod.rs:163-335 and /repo/validators/src/functions/ipv4.rs.) *)
Fixpoint longest_zeros (segments : list N) (i : nat) (longest current : nat * nat) : nat * nat :=
  match segments with
  | [] => longest
  | x :: r =>
      if x =? 0 then
        let current := (if Nat.eqb (snd current) 0 then i else fst current, S (snd current)) in
        longest_zeros r (S i) (if (snd longest <? snd current)%nat then current else longest) current
      else longest_zeros r (S i) longest (0%nat, 0%nat)
  end.

(** Models [Ipv6Addr::to_ipv4_mapped] and [Ipv6Addr::to_ipv4] (ip_addr.rs).
    (core::net, called from /repo/validators-derive/src/validator_handlers/ip/mod.rs:163-335 and /repo/validators/src/functions/ipv4.rs.) *)
Definition to_ipv4_mapped (a : list N) : option (list N) :=
  match a with
  | [s0; s1; s2; s3; s4; s5; ab; cd] =>
      if (s0 =? 0) && (s1 =? 0) && (s2 =? 0) && (s3 =? 0) && (s4 =? 0) && (s5 =? 65535)
      then Some [ab / 256; ab mod 256; cd / 256; cd mod 256] else None
  | _ => None
  end.
Definition to_ipv4 (a : list N) : option (list N) :=
  match a with
  | [s0; s1; s2; s3; s4; s5; ab; cd] =>
      if (s0 =? 0) && (s1 =? 0) && (s2 =? 0) && (s3 =? 0) && (s4 =? 0) && ((s5 =? 0) || (s5 =? 65535))
      then Some [ab / 256; ab mod 256; cd / 256; cd mod 256] else None
  | _ => None
  end.

(** Models [Display for Ipv6Addr] (ip_addr.rs, since Rust 1.70; before, IPv4-compatible addresses were
    also printed with a dotted tail).
    (core::net, called from /repo/validators-derive/src/validator_handlers/ip/mod.rs:163-335 and /repo/validators/src/functions/ipv4.rs.) *)
Definition ipv6_display (segments : list N) : list N :=
  match to_ipv4_mapped segments with
  | Some ipv4 => bs "::ffff:" ++ ipv4_display ipv4
  | None =>
      let zeroes := longest_zeros segments 0 (0%nat, 0%nat) (0%nat, 0%nat) in
      if (1 <? snd zeroes)%nat
      then fmt_subslice (firstn (fst zeroes) segments) ++ [58; 58] ++
           fmt_subslice (skipn (fst zeroes + snd zeroes) segments)
      else fmt_subslice segments
  end.

(** Models [Ipv4Addr::is_private], [is_loopback], [is_link_local], [is_broadcast], [is_documentation],
    [is_unspecified] (ip_addr.rs).
    (core::net, called from /repo/validators-derive/src/validator_handlers/ip/mod.rs:163-335 and /repo/validators/src/functions/ipv4.rs.) *)
Definition v4_is_private (o : list N) : bool :=
  match o with
  | a :: b :: _ => (a =? 10) || ((a =? 172) && (16 <=? b) && (b <=? 31)) || ((a =? 192) && (b =? 168))
  | _ => false
  end.
Definition v4_is_loopback (o : list N) : bool := match o with a :: _ => a =? 127 | _ => false end.
Definition v4_is_link_local (o : list N) : bool :=
  match o with a :: b :: _ => (a =? 169) && (b =? 254) | _ => false end.
Definition v4_is_broadcast (o : list N) : bool :=
  match o with [a; b; c; d] => (a =? 255) && (b =? 255) && (c =? 255) && (d =? 255) | _ => false end.
Definition v4_is_documentation (o : list N) : bool :=
  match o with
  | [a; b; c; _] => ((a =? 192) && (b =? 0) && (c =? 2)) || ((a =? 198) && (b =? 51) && (c =? 100))
                    || ((a =? 203) && (b =? 0) && (c =? 113))
  | _ => false
  end.
Definition v4_is_unspecified (o : list N) : bool :=
  match o with [a; b; c; d] => (a =? 0) && (b =? 0) && (c =? 0) && (d =? 0) | _ => false end.

(** Models [is_local_ipv4], /repo/validators/src/functions/ipv4.rs:4-13. *)
Definition is_local_ipv4 (addr : list N) : bool :=
  v4_is_private addr || v4_is_loopback addr || v4_is_link_local addr || v4_is_broadcast addr
  || v4_is_documentation addr || v4_is_unspecified addr.

(** Models [parse_ipv4_allow_an_ended_dot], /repo/validators/src/functions/ipv4.rs:15-21. *)
Definition parse_ipv4_allow_an_ended_dot (s : list N) : option (list N) :=
  ipv4_from_str (strip_last 46 s).

(** Models [is_local_ipv6], /repo/validators/src/functions/ipv6.rs:5-46. *)
Definition is_local_ipv6 (segments : list N) : bool :=
  let first := nth 0 segments 0 in
  if N.land first 65280 =? 65280 then negb (N.land first 15 =? 14)
  else if eqbs segments [0; 0; 0; 0; 0; 0; 0; 0] || eqbs segments [0; 0; 0; 0; 0; 0; 0; 1] then true
  else if (N.land first 65472 =? 65152) || (N.land first 65472 =? 65216) then true
  else if (N.land first 65024 =? 64512) || ((first =? 8193) && (nth 1 segments 0 =? 3512)) then true
  else match to_ipv4 segments with
       | Some addr => is_local_ipv4 addr
       | None => false
       end.
