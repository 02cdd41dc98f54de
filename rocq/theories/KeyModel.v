(** The derived impls of the [Host] and [Protocol] enums: comparison and hashing. *)
From Verif Require Import Base HostModel.
From Verif Require HttpModel.
Local Open Scope N_scope.

(** Models [Ord] of byte strings and of the arrays in [Ipv4Addr] and [Ipv6Addr]: the first difference decides, and a beginning comes
    first (external: core; called by the impls derived at /repo/validators/src/models/host.rs:6). *)
Fixpoint seq_cmp (a b : list N) : comparison :=
  match a, b with
  | [], [] => Eq
  | [], _ :: _ => Lt
  | _ :: _, [] => Gt
  | x :: a, y :: b => match x ?= y with Eq => seq_cmp a b | c => c end
  end.

(** Models the discriminants of [Host], in the order of /repo/validators/src/models/host.rs:8-10. *)
Definition host_discr (h : host) : N := match h with HDomain _ => 0 | HIPv4 _ => 1 | HIPv6 _ => 2 end.

(** Models [derive(PartialOrd, Ord)] of [Host], /repo/validators/src/models/host.rs:6: fields are compared in the same variant,
    discriminants otherwise. *)
Definition host_cmp (h k : host) : comparison :=
  match h, k with
  | HDomain a, HDomain b => seq_cmp a b
  | HIPv4 a, HIPv4 b => seq_cmp a b
  | HIPv6 a, HIPv6 b => seq_cmp a b
  | _, _ => host_discr h ?= host_discr k
  end.

(** Models [derive(PartialEq, Eq)] of [Host], /repo/validators/src/models/host.rs:6. *)
Definition host_eqb (h k : host) : bool :=
  match h, k with
  | HDomain a, HDomain b => eqbs a b
  | HIPv4 a, HIPv4 b => eqbs a b
  | HIPv6 a, HIPv6 b => eqbs a b
  | _, _ => false
  end.

(** Models [derive(Hash)] of [Host], /repo/validators/src/models/host.rs:6: the bytes that are fed to the hasher, on a 64-bit machine.
    The discriminant is an [isize]; a text is followed by the byte 255. Simplified: an address is written byte by byte, the
    highest first; core may write the same number of bytes in another order. *)
Definition host_hash (h : host) : list N :=
  [host_discr h; 0; 0; 0; 0; 0; 0; 0] ++
  match h with
  | HDomain a => a ++ [255]
  | HIPv4 a => a
  | HIPv6 a => flat_map (fun x => [x / 256; x mod 256]) a
  end.

(** Models [derive(PartialOrd, Ord)] and [derive(PartialEq, Eq)] of [Protocol], /repo/validators/src/models/protocol.rs:1-6. *)
Definition protocol_discr (p : HttpModel.protocol) : N :=
  match p with HttpModel.HTTP => 0 | HttpModel.HTTPS => 1 | HttpModel.FTP => 2 end.
Definition protocol_cmp (p q : HttpModel.protocol) : comparison := protocol_discr p ?= protocol_discr q.
Definition protocol_eqb (p q : HttpModel.protocol) : bool := protocol_discr p =? protocol_discr q.
