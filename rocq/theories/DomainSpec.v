(** What the domain validator should accept and return, stated without its code. *)
From Verif Require Import Base IntStrProofs NetSpec IpSpec DomainModel.
Local Open Scope N_scope.

(** A text with at most one final dot dropped. *)
Definition undotted (d t : list N) : Prop := d = t ++ [46] \/ (d = t /\ forall u, d <> u ++ [46]).

(** An IPv4 address, possibly with a final dot. *)
Definition v4_dotted (d a : list N) : Prop := exists t, (d = t \/ d = t ++ [46]) /\ v4_text t a.

(** The name localhost in any case, possibly with a final dot. *)
Definition localhost (d : list N) : Prop :=
  exists t, (d = t \/ d = t ++ [46]) /\ List.map lower t = bs "localhost".

(** A local domain: localhost or a local IPv4 address. *)
Definition domain_local (d : list N) : Prop :=
  localhost d \/ exists a, v4_dotted d a /\ v4_local a.

(** At least two labels: a dot that is not the last byte. *)
Definition two_labels (d : list N) : Prop := exists a b, d = a ++ [46] ++ b /\ b <> [].

(** The label policy, which local domains are exempt from. *)
Definition two_ok (two : tri) (loc : Prop) (d : list N) : Prop :=
  match two with Must => loc \/ two_labels d | Allow => True | Disallow => loc \/ ~ two_labels d end.

(** The IPv4 policy. *)
Definition ipv4_ok (ipv4 : tri) (P : Prop) : Prop :=
  match ipv4 with Must => P | Allow => True | Disallow => ~ P end.

(** A text is a domain part and an optional port. *)
Definition split_port (s dom : list N) (p : option N) : Prop :=
  match p with
  | None => s = dom /\ ~ In 58 s
  | Some p => exists q, s = dom ++ [58] ++ q /\ port_text q p
  end.

(** Documented laws of [to_ascii] with STD3 rules and DNS length verification (UTS #46, processing steps 1-5 and
    section 4.2; used as explicit hypotheses only): the result has lower-case letters, digits, hyphens and dots only, is
    not the root or empty, and
    without its final dot is a fixed point with no empty label at the end. *)
Definition idna_char (c : N) : Prop := 48 <= c <= 57 \/ 97 <= c <= 122 \/ c = 45 \/ c = 46.
Definition idna_laws (idna : list N -> option (list N)) : Prop := forall x d, idna x = Some d ->
  Forall idna_char d /\
  (forall t, undotted d t -> t <> [] /\ (forall u, t <> u ++ [46]) /\ idna t = Some t).

(** A further law, which full-width digits and ideographic dots break: no new IPv4 addresses appear. *)
Definition idna_no_new_ipv4 (idna : list N -> option (list N)) : Prop := forall x d a, idna x = Some d ->
  v4_dotted d a -> exists b, v4_dotted x b.

(** A boolean field: absent, or present and telling whether [P]. *)
Definition field (present : bool) (P : Prop) (f : option bool) : Prop :=
  match f with None => present = false | Some b => present = true /\ (b = true <-> P) end.

(** All texts accepted, with their values. [no_policy] says that none of the three policies on the name is in force. *)
Definition no_policy (c : domain_cfg) : Prop := d_ipv4 c = Allow /\ d_local c = Allow /\ d_two c = Allow.
Definition local_field (c : domain_cfg) : bool :=
  match d_local c, d_two c with Allow, (Must | Disallow) => true | _, _ => false end.
Definition ipv4_field (c : domain_cfg) : bool := match d_ipv4 c with Allow => local_field c | _ => false end.

Definition domain_accepts (idna : list N -> option (list N)) (c : domain_cfg) (s : list N) (v : domain_val) : Prop :=
  s <> [] /\ exists name, split_port s name (dv_port v) /\ port_ok (d_port c) (dv_port v) /\
  ((no_policy c /\ idna name = Some (dv_domain v) /\ dv_is_ipv4 v = None /\ dv_is_local v = None) \/
   (~ no_policy c /\ exists a, v4_dotted name a /\ d_ipv4 c <> Disallow /\ d_two c <> Disallow /\
      local_ok (d_local c) (v4_local a) /\ dv_domain v = s /\
      field (ipv4_field c) True (dv_is_ipv4 v) /\ field (local_field c) (v4_local a) (dv_is_local v)) \/
   (~ no_policy c /\ (forall a, ~ v4_dotted name a) /\ d_ipv4 c <> Must /\ idna name = Some (dv_domain v) /\
      two_ok (d_two c) (localhost (dv_domain v)) (dv_domain v) /\ local_ok (d_local c) (localhost (dv_domain v)) /\
      field (ipv4_field c) False (dv_is_ipv4 v) /\ field (local_field c) (localhost (dv_domain v)) (dv_is_local v))).
