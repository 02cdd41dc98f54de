(** What the host validator should accept and return, stated without its code. *)
From Verif Require Import Base NetSpec IpSpec DomainSpec HostModel.
Local Open Scope N_scope.

(** The [is_local] field exists only when labels are restricted and locality is not. *)
Definition host_field (c : host_cfg) : bool :=
  match h_local c, h_two c with Allow, (Must | Disallow) => true | _, _ => false end.

(** Whether a host is local. *)
Definition host_local (h : host) : Prop :=
  match h with HDomain d => domain_local d | HIPv4 a => v4_local a | HIPv6 a => v6_local a end.

(** The label policy on a host: an address counts as having many labels, local or not. *)
Definition host_two_ok (two : tri) (h : host) : Prop :=
  match h with
  | HDomain d => two_ok two (domain_local d) d
  | _ => two <> Disallow
  end.

(** All texts accepted, with their values. *)
Definition accepts_ipv6 (c : host_cfg) (s : list N) (v : host_val) : Prop :=
  exists a, hv_host v = HIPv6 a /\ v6_form s a (hv_port v) /\ port_ok (h_port c) (hv_port v) /\ h_two c <> Disallow /\
    local_ok (h_local c) (v6_local a) /\ field (host_field c) (v6_local a) (hv_is_local v).
Definition accepts_ipv4 (c : host_cfg) (s : list N) (v : host_val) : Prop :=
  exists a, hv_host v = HIPv4 a /\ v4_form s a (hv_port v) /\ port_ok (h_port c) (hv_port v) /\ h_two c <> Disallow /\
    local_ok (h_local c) (v4_local a) /\ field (host_field c) (v4_local a) (hv_is_local v).
Definition accepts_name (idna : list N -> option (list N)) (c : host_cfg) (s : list N) (v : host_val) : Prop :=
  exists name d, hv_host v = HDomain d /\ s <> [] /\ (forall r, s <> 91 :: r) /\ (forall a, ~ v6_text s a) /\
    split_port s name (hv_port v) /\ port_ok (h_port c) (hv_port v) /\ (forall u, name <> u ++ [46]) /\
    (forall a, ~ v4_text name a) /\ idna name = Some d /\
    two_ok (h_two c) (localhost d) d /\ local_ok (h_local c) (localhost d) /\
    field (host_field c) (localhost d) (hv_is_local v).
Definition host_accepts idna c s v : Prop := accepts_ipv6 c s v \/ accepts_ipv4 c s v \/ accepts_name idna c s v.

(** A host that is not a name reading as an IPv4 address or ending in a dot. *)
Definition plain_host (h : host) : Prop :=
  match h with HDomain d => (forall a, ~ v4_text d a) /\ (forall u, d <> u ++ [46]) | _ => True end.
