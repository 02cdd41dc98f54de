(** Property C135, continued: URLs. *)
From Verif Require Import Base IntModel RangeModel NetModel NetSpec IpSpec DomainSpec DomainProofs Serde HttpModel HttpSpec
  HttpProofs PropHttp PropFirstErr.
Local Open Scope N_scope.

(** The error of the rule on locality. *)
Definition url_local_error (local : tri) : http_err := match local with Must => HLocalMust | _ => HLocalDisallow end.

(** The rules behind the rule on the scheme: the library reads the text, and the URL obeys the rule on locality. *)
Definition url_rules {url} (parse : list N -> option url) (host : url -> option url_host) (local : tri) (s : list N) :
  list (Prop * http_err) :=
  [(exists u, parse s = Some u, HParseError);
   (local = Allow \/ exists u h, parse s = Some u /\ host u = Some h /\ local_ok local (host_local h), url_local_error local)].

Lemma local_result {url} (host : url -> option url_host) local u : host u <> None ->
  http_handle_local url host local u = Ok tt \/ http_handle_local url host local u = Err (url_local_error local).
Proof.
  intros Hh. unfold http_handle_local, url_is_local. destruct local; [|left; reflexivity|].
  all: destruct (host u) as [[d|a|a]|]; [| | |destruct (Hh eq_refl)]; cbn [obind].
  all: match goal with |- context [if ?b then _ else _] => destruct b end; auto.
Qed.

Lemma url_rest {url A} (parse : list N -> option url) host local s (k : A) p (good : url * A -> Prop) :
  host_typed host -> special_host parse host -> has_scheme (scheme_name p) s -> (forall u, parse s = Some u -> good (u, k)) ->
  first_broken good (url_rules parse host local s)
    (let? u := match parse s with Some u => Ok u | None => Err HParseError end in
     let? _ := http_handle_local url host local u in Ok (u, k)).
Proof.
  intros Ht Hs Hp Hg. cbn [url_rules first_broken]. destruct (parse s) as [u|] eqn:Hu; cbn [obind].
  2: { split; [reflexivity|]. intros [u K]. discriminate K. }
  split; [intros K; destruct K; exists u; reflexivity|]. intros _.
  pose proof (policy_spec url parse host local u Ht) as Hl. unfold url_policy in Hl.
  split; intros K.
  - pose proof (Hs s u p Hu Hp) as Hh. destruct (local_result host local u Hh) as [O|O].
    + destruct K. destruct (proj1 Hl O) as [L|(h & L)]; [left; exact L|]. right. exists u, h. auto.
    + rewrite O. reflexivity.
  - rewrite (proj2 Hl); [exists (u, k); split; [reflexivity|apply Hg; reflexivity]|].
    destruct K as [K|(u' & h & E & K)]; [left; exact K|]. injection E as <-. right. exists h. exact K.
Qed.

(** The http_url and http_ftp_url validators look at the scheme first, then at what the library says of the text, and at
    locality last, for every text and every library that gives URLs of these schemes a host. *)
Theorem C135_http : forall url parse host local s, host_typed host -> special_host parse host ->
  first_broken (fun r : url * bool => parse s = Some (fst r) /\ has_scheme (if snd r then bs "https" else bs "http") s)
    ((has_scheme (bs "http") s \/ has_scheme (bs "https") s, HProtocolError) :: url_rules parse host local s)
    (http_parse_str url parse host local s) /\
  first_broken (fun r : url * protocol => parse s = Some (fst r) /\
                  has_scheme (match snd r with HTTP => bs "http" | HTTPS => bs "https" | FTP => bs "ftp" end) s)
    ((has_scheme (bs "http") s \/ has_scheme (bs "https") s \/ has_scheme (bs "ftp") s, HProtocolError)
       :: url_rules parse host local s)
    (http_ftp_parse_str url parse host local s).
Proof.
  intros url parse host local s Ht Hs. rewrite http_parse_eq, http_ftp_parse_eq. split.
  - unfold http_v_parse_str. pose proof (http_index s) as Hi.
    destruct (starts_with_multiple [bs "http:"; bs "https:"] s) as [[|[|i]]|]; [| |destruct Hi|]; cbn [obind scheme_name] in *.
    + split; [intros K; destruct K; left; exact Hi|]. intros _.
      apply (url_rest parse host local s false HTTP); auto.
    + split; [intros K; destruct K; right; exact Hi|]. intros _.
      apply (url_rest parse host local s true HTTPS); auto.
    + split; [reflexivity|]. intros K. destruct Hi, K; contradiction.
  - unfold http_ftp_v_parse_str. pose proof (ftp_index s) as Hi.
    destruct (starts_with_multiple [bs "http:"; bs "https:"; bs "ftp:"] s) as [[|[|[|i]]]|]; [| | |destruct Hi|];
      cbn [obind] in *.
    + split; [intros K; destruct K; left; exact Hi|]. intros _. apply (url_rest parse host local s HTTP HTTP); auto.
    + split; [intros K; destruct K; right; left; exact Hi|]. intros _. apply (url_rest parse host local s HTTPS HTTPS); auto.
    + split; [intros K; destruct K; right; right; exact Hi|]. intros _. apply (url_rest parse host local s FTP FTP); auto.
    + split; [reflexivity|]. intros [K|[K|K]]; [destruct (Hi HTTP K)|destruct (Hi HTTPS K)|destruct (Hi FTP K)].
Qed.
Print Assumptions C135_http.

(** A library that reads no text with a space. *)
Definition strict_parse (s : list N) : option (list N) :=
  match position 32 s with Some _ => None | None => toy_parse s end.

Example C135_http_example :
  host_typed toy_host /\ special_host strict_parse toy_host /\
  http_parse_str _ strict_parse toy_host Disallow (bs "ftp://local host") = Err HProtocolError /\
  http_parse_str _ strict_parse toy_host Disallow (bs "ftp://localhost") = Err HProtocolError /\
  http_parse_str _ strict_parse toy_host Must (bs "http://a b") = Err HParseError /\
  http_parse_str _ strict_parse toy_host Must (bs "http://ab") = Err HLocalMust /\
  http_ftp_parse_str _ strict_parse toy_host Disallow (bs "FTP://localhost") = Err HLocalDisallow /\
  http_ftp_parse_str _ strict_parse toy_host Disallow (bs "FTP://ab") = Ok (bs "ftp://ab", FTP).
Proof.
  split; [|split].
  - intros u. unfold toy_host. destruct (position 47 u); exact I.
  - intros s u p _ _. unfold toy_host. destruct (position 47 u); discriminate.
  - repeat split.
Qed.
