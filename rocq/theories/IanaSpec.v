(** Which addresses can be reached from everywhere, by the IANA special-purpose address registries (RFC 6890 and the entries added since). *)
From Verif Require Import Base NetSpec IpSpec.
Local Open Scope N_scope.

(** The address lies in a block of the table (base address and prefix length). *)
Definition v4_in (t : list (list N * N)) (a : list N) : Prop :=
  exists b len, In (b, len) t /\ in_block 32 (number 256 a) (number 256 b) len.
Definition v6_in (t : list (list N * N)) (a : list N) : Prop :=
  exists b len, In (b, len) t /\ in_block 128 (number 65536 a) (number 65536 b) len.

(** The IPv4 blocks that the registry says are not globally reachable, and the more specific entries inside them that are. *)
Definition v4_special : list (list N * N) :=
  [([0; 0; 0; 0], 8);          (* this network, RFC 791 *)
   ([10; 0; 0; 0], 8);         (* private use, RFC 1918 *)
   ([100; 64; 0; 0], 10);      (* shared address space, RFC 6598 *)
   ([127; 0; 0; 0], 8);        (* loopback, RFC 1122 *)
   ([169; 254; 0; 0], 16);     (* link local, RFC 3927 *)
   ([172; 16; 0; 0], 12);      (* private use *)
   ([192; 0; 0; 0], 24);       (* protocol assignments, RFC 6890 *)
   ([192; 0; 2; 0], 24);       (* documentation, RFC 5737 *)
   ([192; 168; 0; 0], 16);     (* private use *)
   ([198; 18; 0; 0], 15);      (* benchmarking, RFC 2544 *)
   ([198; 51; 100; 0], 24);    (* documentation *)
   ([203; 0; 113; 0], 24);     (* documentation *)
   ([240; 0; 0; 0], 4);        (* reserved, RFC 1112 *)
   ([255; 255; 255; 255], 32)  (* limited broadcast, RFC 919 *)].
Definition v4_anycast : list (list N * N) := [([192; 0; 0; 9], 32); ([192; 0; 0; 10], 32)].
Definition v4_reachable (a : list N) : Prop := ~ v4_in v4_special a \/ v4_in v4_anycast a.

(** The same for IPv6; an entry whose reachability is given as not applicable (Teredo, ORCHID) counts as reachable. *)
Definition v6_special : list (list N * N) :=
  [([0; 0; 0; 0; 0; 0; 0; 1], 128);        (* ::1 *)
   ([0; 0; 0; 0; 0; 0; 0; 0], 128);        (* :: *)
   ([0; 0; 0; 0; 0; 65535; 0; 0], 96);     (* ::ffff:0:0/96, IPv4-mapped *)
   ([100; 65435; 1; 0; 0; 0; 0; 0], 48);   (* 64:ff9b:1::/48, local translation, RFC 8215 *)
   ([256; 0; 0; 0; 0; 0; 0; 0], 64);       (* 100::/64, discard only, RFC 6666 *)
   ([256; 0; 0; 1; 0; 0; 0; 0], 64);       (* 100:0:0:1::/64, dummy prefix, RFC 9780 *)
   ([8193; 0; 0; 0; 0; 0; 0; 0], 23);      (* 2001::/23, protocol assignments *)
   ([8193; 3512; 0; 0; 0; 0; 0; 0], 32);   (* 2001:db8::/32, documentation *)
   ([16383; 0; 0; 0; 0; 0; 0; 0], 20);     (* 3fff::/20, documentation, RFC 9637 *)
   ([24320; 0; 0; 0; 0; 0; 0; 0], 16);     (* 5f00::/16, segment routing, RFC 9602 *)
   ([64512; 0; 0; 0; 0; 0; 0; 0], 7);      (* fc00::/7, unique local *)
   ([65152; 0; 0; 0; 0; 0; 0; 0], 10)      (* fe80::/10, link local *)].
Definition v6_specific : list (list N * N) :=
  [([8193; 0; 0; 0; 0; 0; 0; 0], 32);      (* 2001::/32 *)
   ([8193; 1; 0; 0; 0; 0; 0; 1], 128);     (* 2001:1::1 *)
   ([8193; 1; 0; 0; 0; 0; 0; 2], 128);     (* 2001:1::2 *)
   ([8193; 1; 0; 0; 0; 0; 0; 3], 128);     (* 2001:1::3 *)
   ([8193; 3; 0; 0; 0; 0; 0; 0], 32);      (* 2001:3::/32 *)
   ([8193; 4; 274; 0; 0; 0; 0; 0], 48);    (* 2001:4:112::/48 *)
   ([8193; 16; 0; 0; 0; 0; 0; 0], 28);     (* 2001:10::/28 *)
   ([8193; 32; 0; 0; 0; 0; 0; 0], 28);     (* 2001:20::/28 *)
   ([8193; 48; 0; 0; 0; 0; 0; 0], 28)      (* 2001:30::/28 *)].
Definition v6_reachable (a : list N) : Prop := ~ v6_in v6_special a \/ v6_in v6_specific a.

(** Addresses that no registry entry names and that RFC 4291 and RFC 3879 take out of use: site local, IPv4-compatible. *)
Definition v6_withdrawn (a : list N) : Prop :=
  v6_in [([65216; 0; 0; 0; 0; 0; 0; 0], 10); ([0; 0; 0; 0; 0; 0; 0; 0], 96)] a.

(** An IPv4 address behind a translator (RFC 6052, 64:ff9b::/96) and behind a 6to4 router (RFC 3056, 2002::/16). *)
Definition nat64 (b : list N) : list N :=
  match b with [b1; b2; b3; b4] => [100; 65435; 0; 0; 0; 0; b1 * 256 + b2; b3 * 256 + b4] | _ => [] end.
Definition six_to_four (b : list N) (rest : list N) : list N :=
  match b with [b1; b2; b3; b4] => [8194; b1 * 256 + b2; b3 * 256 + b4] ++ rest | _ => [] end.
