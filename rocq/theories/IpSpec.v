(** What the ip validators should accept, stated without their code. *)
From Verif Require Import Base IntStrProofs NetSpec.
Local Open Scope N_scope.

(** A 16-bit decimal number as Rust's [u16::from_str] reads it: an optional plus sign, then digits. *)
Definition port_text (s : list N) (p : N) : Prop := denotes_int false s (Z.of_N p) /\ p <= 65535.

(** An address with an optional port. *)
Definition v4_form (s : list N) (a : list N) (p : option N) : Prop :=
  match p with
  | None => v4_text s a
  | Some p => exists t q, s = t ++ [58] ++ q /\ v4_text t a /\ port_text q p
  end.
Definition v6_form (s : list N) (a : list N) (p : option N) : Prop :=
  match p with
  | None => v6_text s a \/ exists t, s = [91] ++ t ++ [93] /\ v6_text t a
  | Some p => exists t q, s = [91] ++ t ++ [93; 58] ++ q /\ v6_text t a /\ port_text q p
  end.

(** The port policy. *)
Definition port_ok (port : tri) (p : option N) : Prop :=
  match port with Must => p <> None | Allow => True | Disallow => p = None end.

(** The local policy, for an address that is local iff [P]. *)
Definition local_ok (local : tri) (P : Prop) : Prop :=
  match local with Must => P | Allow => True | Disallow => ~ P end.

(** An address as a number. *)
Definition number (base : N) (a : list N) : N := fold_left (fun n x => n * base + x) a 0.

(** [v] lies in the block [block/len] of addresses of [width] bits. *)
Definition in_block (width v block len : N) : Prop := v / 2 ^ (width - len) = block / 2 ^ (width - len).

(** Local IPv4 blocks: base address and prefix length. *)
Definition v4_blocks : list (list N * N) :=
  [([10; 0; 0; 0], 8); ([172; 16; 0; 0], 12); ([192; 168; 0; 0], 16); ([127; 0; 0; 0], 8);
   ([169; 254; 0; 0], 16); ([255; 255; 255; 255], 32); ([192; 0; 2; 0], 24); ([198; 51; 100; 0], 24);
   ([203; 0; 113; 0], 24); ([0; 0; 0; 0], 32)].
Definition v4_local (a : list N) : Prop :=
  exists b len, In (b, len) v4_blocks /\ in_block 32 (number 256 a) (number 256 b) len.

(** Local IPv6 blocks: ::, ::1, fe80::/10, fec0::/10, fc00::/7, 2001:db8::/32. *)
Definition v6_blocks : list (list N * N) :=
  [([0; 0; 0; 0; 0; 0; 0; 0], 128); ([0; 0; 0; 0; 0; 0; 0; 1], 128);
   ([65152; 0; 0; 0; 0; 0; 0; 0], 10); ([65216; 0; 0; 0; 0; 0; 0; 0], 10);
   ([64512; 0; 0; 0; 0; 0; 0; 0], 7); ([8193; 3512; 0; 0; 0; 0; 0; 0], 32)].

(** A multicast address (ff00::/8) whose scope, the last four bits of the first segment, is not global. *)
Definition v6_multicast (a : list N) : Prop :=
  in_block 128 (number 65536 a) (number 65536 [65280; 0; 0; 0; 0; 0; 0; 0]) 8.
Definition v6_scope (a : list N) : N := (number 65536 a / 2 ^ 112) mod 16.

(** The IPv4 address [b] in mapped (::ffff:0:0/96) or compatible (::/96) form. *)
Definition v6_embeds (a b : list N) : Prop :=
  v4_addr b /\ (number 65536 a = number 256 b \/ number 65536 a = 65535 * 2 ^ 32 + number 256 b).

Definition v6_local (a : list N) : Prop :=
  (v6_multicast a /\ v6_scope a <> 14) \/
  (exists b len, In (b, len) v6_blocks /\ in_block 128 (number 65536 a) (number 65536 b) len) \/
  (exists b, v6_embeds a b /\ v4_local b).

(** A text with port and local policies in force. *)
Definition v4_accepts (port local : tri) (s a : list N) (p : option N) : Prop :=
  v4_form s a p /\ port_ok port p /\ local_ok local (v4_local a).
Definition v6_accepts (port local : tri) (s a : list N) (p : option N) : Prop :=
  v6_form s a p /\ port_ok port p /\ local_ok local (v6_local a).
