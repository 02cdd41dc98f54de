(** The http_url and http_ftp_url validators,
    /repo/validators-derive/src/validator_handlers/http_url/mod.rs and http_ftp_url/mod.rs
    (the two files differ in the list of prefixes and in the type of the reported protocol). *)
From Verif Require Import Base IntModel RangeModel NetModel Serde DomainModel.
Local Open Scope N_scope.

(** Models [HttpURLError] and [HttpFtpUrlError], /repo/validators/src/errors/http_url.rs and
    http_ftp_url.rs (the payload of [ParseError] is dropped). *)
Inductive http_err := HParseError | HProtocolError | HLocalMust | HLocalDisallow.

(** Models [url::Host] (external crate url): what [Url::host] returns.
    (matched at /repo/validators-derive/src/validator_handlers/http_url/mod.rs:75-77.) *)
Inductive url_host := HDomain (d : list N) | HIpv4 (a : list N) | HIpv6 (a : list N).

(** Models [str::starts_with] up to ASCII case against a lower-case prefix (external crate str-utils).
    (/repo/validators-derive/src/validator_handlers/http_url/mod.rs:93.) *)
Fixpoint starts_with_lower (prefix s : list N) : bool :=
  match prefix, s with
  | [], _ => true
  | p :: prefix, x :: s => (lower x =? p) && starts_with_lower prefix s
  | _ :: _, [] => false
  end.

(** Models [starts_with_ignore_ascii_case_with_lowercase_multiple] (external crate str-utils): the index
    of the first prefix of the list that the text starts with.
    (/repo/validators-derive/src/validator_handlers/http_url/mod.rs:93.) *)
Fixpoint starts_with_multiple (prefixes : list (list N)) (s : list N) : option nat :=
  match prefixes with
  | [] => None
  | p :: ps => if starts_with_lower p s then Some O
               else match starts_with_multiple ps s with Some i => Some (S i) | None => None end
  end.

(** Models [Protocol], /repo/validators/src/models/protocol.rs:1-6. *)
Inductive protocol := HTTP | HTTPS | FTP.

Section WithUrl.
(** The type [url::Url], [Url::parse], [Url::host] and [Url::as_str] (external crate url: arbitrary). *)
Variable url : Type.
Variable url_parse : list N -> option url.
Variable host : url -> option url_host.
Variable href : url -> list N.

(** Models [is_local] inside [handle_local], /repo/validators-derive/src/validator_handlers/http_url/mod.rs:73-78, http_ftp_url/mod.rs:73-78:
    [url.host().unwrap()] panics when there is no host. *)
Definition url_is_local (u : url) : outcome http_err bool :=
  match host u with
  | None => Panic
  | Some (HDomain d) => Ok (is_local_domain d)
  | Some (HIpv4 a) => Ok (is_local_ipv4 a)
  | Some (HIpv6 a) => Ok (is_local_ipv6 a)
  end.

(** Models [handle_local], /repo/validators-derive/src/validator_handlers/http_url/mod.rs:52-84, http_ftp_url/mod.rs:52-84. *)
Definition http_handle_local (local : tri) (u : url) : outcome http_err unit :=
  match local with
  | Allow => Ok tt
  | Must => let? l := url_is_local u in if negb l then Err HLocalMust else Ok tt
  | Disallow => let? l := url_is_local u in if l then Err HLocalDisallow else Ok tt
  end.

(** Models [v_parse_str] of http_url, /repo/validators-derive/src/validator_handlers/http_url/mod.rs:86-111. *)
Definition http_v_parse_str (local : tri) (s : list N) : outcome http_err (url * bool) :=
  let? is_https := match starts_with_multiple [bs "http:"; bs "https:"] s with
                   | Some O => Ok false
                   | Some (S O) => Ok true
                   | Some _ => Panic
                   | None => Err HProtocolError
                   end in
  let? u := match url_parse s with Some u => Ok u | None => Err HParseError end in
  let? _ := http_handle_local local u in
  Ok (u, is_https).

(** Models [v_parse_str] of http_ftp_url, /repo/validators-derive/src/validator_handlers/http_ftp_url/mod.rs:87-113. *)
Definition http_ftp_v_parse_str (local : tri) (s : list N) : outcome http_err (url * protocol) :=
  let? p := match starts_with_multiple [bs "http:"; bs "https:"; bs "ftp:"] s with
            | Some O => Ok HTTP
            | Some (S O) => Ok HTTPS
            | Some (S (S O)) => Ok FTP
            | Some _ => Panic
            | None => Err HProtocolError
            end in
  let? u := match url_parse s with Some u => Ok u | None => Err HParseError end in
  let? _ := http_handle_local local u in
  Ok (u, p).

(** Models [parse_string], [parse_str] and [validate_str], /repo/validators-derive/src/validator_handlers/http_url/mod.rs:113-143; the struct has the
    fields [url] and [is_https]. *)
Definition http_parse_string (local : tri) (s : list N) : outcome http_err (url * bool) :=
  let? r := http_v_parse_str local s in let '(u, x) := r in Ok (u, x).
Definition http_parse_str (local : tri) (s : list N) : outcome http_err (url * bool) :=
  let? r := http_v_parse_str local s in let '(u, x) := r in Ok (u, x).
Definition http_validate_str (local : tri) (s : list N) : outcome http_err unit :=
  let? _ := http_v_parse_str local s in Ok tt.

(** The same of http_ftp_url, /repo/validators-derive/src/validator_handlers/http_ftp_url/mod.rs:115-145; the fields are [url] and [protocol]. *)
Definition http_ftp_parse_string (local : tri) (s : list N) : outcome http_err (url * protocol) :=
  let? r := http_ftp_v_parse_str local s in let '(u, x) := r in Ok (u, x).
Definition http_ftp_parse_str (local : tri) (s : list N) : outcome http_err (url * protocol) :=
  let? r := http_ftp_v_parse_str local s in let '(u, x) := r in Ok (u, x).
Definition http_ftp_validate_str (local : tri) (s : list N) : outcome http_err unit :=
  let? _ := http_ftp_v_parse_str local s in Ok tt.

(** Models [Serialize]: the text of the URL, /repo/validators-derive/src/validator_handlers/http_url/mod.rs:147-158, http_ftp_url/mod.rs:148-159. *)
Definition http_ser (v : url * bool) : ser_call := SStr (href (fst v)).
Definition http_ftp_ser (v : url * protocol) : ser_call := SStr (href (fst v)).

(** Models [MyVisitor], /repo/validators-derive/src/validator_handlers/http_url/mod.rs:178-205, http_ftp_url/mod.rs:179-206. *)
Definition http_visitor (local : tri) : visitor http_err (url * bool) := fun c =>
  match c with DStr s => Some (http_parse_str local s) | _ => None end.
Definition http_ftp_visitor (local : tri) : visitor http_err (url * protocol) := fun c =>
  match c with DStr s => Some (http_ftp_parse_str local s) | _ => None end.
End WithUrl.
