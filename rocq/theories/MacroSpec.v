(** Specification of the derive macro, in terms of what the user writes and what rustc accepts. *)
From Coq Require Import Permutation.
From Verif Require Import Base RangeModel IntModel NumberModel MetaModel MacroModel MetaSpec.
Local Open Scope N_scope.

(** rustc refuses a struct with two fields of one name. *)
Definition declared (fs : syn_fields) : Prop := match fs with FNamed ns => NoDup ns | _ => True end.

(** rustc accepts a struct literal (names only; the types are rustc's business): every field once, no other. *)
Definition literal_fits (fs : syn_fields) (b : fields_of) : Prop :=
  match b, fs with
  | Named l, FNamed ns => Permutation ns (List.map fst l)
  | Tuple ts, FUnnamed tys => List.length tys = List.length ts
  | _, _ => False
  end.

(** rustc accepts reading a field. *)
Definition access_fits (fs : syn_fields) (x : access) : Prop :=
  match x, fs with
  | ReadField n, FNamed ns => In n ns
  | ReadZero, FUnnamed (_ :: _) => True
  | _, _ => False
  end.

(** The names of the validators. *)
Definition validator_name (v : validator) : ident :=
  match v with
  | Vbase32 => bs "base32" | Vbase32_decoded => bs "base32_decoded" | Vbase64 => bs "base64"
  | Vbase64_decoded => bs "base64_decoded" | Vbase64_url => bs "base64_url"
  | Vbase64_url_decoded => bs "base64_url_decoded" | Vbit => bs "bit" | Vboolean => bs "boolean" | Vbyte => bs "byte"
  | Vdomain => bs "domain" | Vemail => bs "email" | Vhost => bs "host" | Vhttp_url => bs "http_url"
  | Vhttp_ftp_url => bs "http_ftp_url" | Vip => bs "ip" | Vipv4 => bs "ipv4" | Vipv6 => bs "ipv6" | Vjson => bs "json"
  | Vlength => bs "length" | Vline => bs "line" | Vmac_address => bs "mac_address" | Vnumber => bs "number"
  | Vphone => bs "phone" | Vregex => bs "regex" | Vsemver => bs "semver" | Vsemver_req => bs "semver_req"
  | Vsigned_integer => bs "signed_integer" | Vtext => bs "text" | Vunsigned_integer => bs "unsigned_integer"
  | Vurl => bs "url" | Vuuid => bs "uuid"
  end.

Section Expansion.
Context {cid : Type}.

(** Which validator was generated. *)
Definition generated (g : expansion cid) : validator :=
  match g with
  | GBasic v _ => v | GBase v _ => v | GHttp v _ => v | GIp v _ => v
  | GHost _ => Vhost | GDomain _ => Vdomain | GEmail _ => Vemail | GMac _ => Vmac_address | GUuid _ => Vuuid
  | GInt sg _ _ => if sg then Vsigned_integer else Vunsigned_integer
  | GNumber _ _ => Vnumber | GBit _ => Vbit | GByte _ => Vbyte | GPhone _ => Vphone | GRegex _ _ => Vregex
  | GLength _ => Vlength | GLine _ => Vline | GText _ => Vtext
  end.

(** The name and type of the address field of the ip validators. *)
Definition ip_field (v : validator) : ident * type_enum :=
  match v with Vipv4 => (bs "ipv4", TIpv4Addr) | Vipv6 => (bs "ipv6", TIpv6Addr) | _ => (bs "ip", TIpAddr) end.

(** The fields the generated code builds and reads, and the struct the compile error asks for. *)
Definition builds (g : expansion cid) : fields_of :=
  match g with
  | GIp v a => ip_builds (fst (ip_field v)) (snd (ip_field v)) (ia_port a)
  | GHost a => host_builds a
  | GDomain a => domain_builds a
  | GEmail a => email_builds a
  | GPhone a => simple_builds Vphone (List.length (pa_countries a))
  | _ => simple_builds (generated g) 0
  end.
Definition reads (g : expansion cid) : list access :=
  match g with
  | GIp v a => ip_reads (fst (ip_field v)) (ia_port a)
  | GHost a => host_reads a
  | GDomain a => domain_reads a
  | GEmail a => email_reads a
  | _ => simple_reads (generated g)
  end.
Definition asked_for (g : expansion cid) : fields_of :=
  match g with
  | GIp v a => ip_item (fst (ip_field v)) (snd (ip_field v)) (ia_port a)
  | GHost a => host_item a
  | GDomain a => domain_item a
  | GEmail a => email_item a
  | GPhone a => simple_item Vphone (List.length (pa_countries a))
  | _ => simple_item (generated g) 0
  end.
End Expansion.
