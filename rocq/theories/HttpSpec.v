(** What a user of the http_url and http_ftp_url validators relies on. *)
From Verif Require Import Base IntModel RangeModel NetModel NetSpec IpSpec DomainSpec Serde HttpModel.
Local Open Scope N_scope.

(** The text starts with the scheme [p] and a colon, in any ASCII case. *)
Definition has_scheme (p s : list N) : Prop := exists a b, s = a ++ [58] ++ b /\ List.map lower a = p.

(** The host is local: the name localhost or an address of a local block. *)
Definition host_local (h : url_host) : Prop :=
  match h with
  | HDomain d => localhost d
  | HIpv4 a => v4_local a
  | HIpv6 a => v6_local a
  end.

(** What the types [Ipv4Addr] and [Ipv6Addr] guarantee about the host of a URL. *)
Definition host_typed {url} (host : url -> option url_host) : Prop := forall u,
  match host u with
  | Some (HIpv4 a) => v4_addr a
  | Some (HIpv6 a) => v6_addr a
  | _ => True
  end.

(** The local policy. *)
Definition url_policy {url} (host : url -> option url_host) (local : tri) (u : url) : Prop :=
  local = Allow \/ exists h, host u = Some h /\ local_ok local (host_local h).

Definition scheme_name (p : protocol) : list N :=
  match p with HTTP => bs "http" | HTTPS => bs "https" | FTP => bs "ftp" end.

(** WHATWG: URLs of these schemes have a host. *)
Definition special_host {url} (parse : list N -> option url) (host : url -> option url_host) : Prop :=
  forall s u p, parse s = Some u -> has_scheme (scheme_name p) s -> host u <> None.

(** WHATWG: the serialisation of a URL parses to the URL and keeps the scheme. *)
Definition url_text_laws {url} (parse : list N -> option url) (href : url -> list N) : Prop :=
  forall s u p, parse s = Some u -> has_scheme (scheme_name p) s ->
    parse (href u) = Some u /\ has_scheme (scheme_name p) (href u).
