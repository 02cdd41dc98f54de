(** Model of the [Host] enum's own impls. *)
From Verif Require Import Base NetModel HostModel.
Local Open Scope N_scope.

(** Models [Display for Host], /repo/validators/src/models/host.rs:13-22; [ipv4_display] and [ipv6_display] are [core]'s. *)
Definition host_display (h : host) : list N :=
  match h with
  | HDomain s => s
  | HIPv4 ip => ipv4_display ip
  | HIPv6 ip => ipv6_display ip
  end.

(** Models [From<Ipv4Addr> for Host] and [From<Ipv6Addr> for Host], /repo/validators/src/models/host.rs:24-36. *)
Definition host_from_ipv4 (a : list N) : host := HIPv4 a.
Definition host_from_ipv6 (a : list N) : host := HIPv6 a.
