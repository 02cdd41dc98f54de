(** http_url and http_ftp_url: C54, C60 and C61. The URL library is an arbitrary type with arbitrary functions; laws about it
    are hypotheses of the theorems that need them. *)
From Verif Require Import Base IntModel RangeModel NetModel NetSpec IpSpec DomainSpec DomainProofs Serde HttpModel HttpSpec
  HttpProofs.
Local Open Scope N_scope.

(** C54. Exactly which texts are accepted, and with which value: the reported scheme is the one that the text starts with. *)
Theorem C54_http_accepts_exactly : forall url parse host local s u (https : bool), host_typed host ->
  http_parse_str url parse host local s = Ok (u, https) <->
  has_scheme (if https then bs "https" else bs "http") s /\ parse s = Some u /\
  (local = Allow \/ exists h, host u = Some h /\ local_ok local (host_local h)).
Proof.
  intros. rewrite http_parse_eq, (http_v_spec url parse host local s u https H). destruct https; reflexivity.
Qed.
Print Assumptions C54_http_accepts_exactly.

Theorem C54_http_ftp_accepts_exactly : forall url parse host local s u p, host_typed host ->
  http_ftp_parse_str url parse host local s = Ok (u, p) <->
  has_scheme (match p with HTTP => bs "http" | HTTPS => bs "https" | FTP => bs "ftp" end) s /\ parse s = Some u /\
  (local = Allow \/ exists h, host u = Some h /\ local_ok local (host_local h)).
Proof. intros. rewrite http_ftp_parse_eq. apply http_ftp_v_spec. exact H. Qed.
Print Assumptions C54_http_ftp_accepts_exactly.

(** C54. The error [ProtocolError] is returned exactly when the text starts with none of the schemes ... *)
Theorem C54_protocol_error : forall url parse host local s,
  (http_parse_str url parse host local s = Err HProtocolError <->
     ~ has_scheme (bs "http") s /\ ~ has_scheme (bs "https") s) /\
  (http_ftp_parse_str url parse host local s = Err HProtocolError <->
     ~ has_scheme (bs "http") s /\ ~ has_scheme (bs "https") s /\ ~ has_scheme (bs "ftp") s).
Proof.
  intros. rewrite http_parse_eq, http_ftp_parse_eq. split; [apply http_v_errors|].
  rewrite (proj1 (http_ftp_v_errors url parse host local s)). split.
  - intros H. exact (conj (H HTTP) (conj (H HTTPS) (H FTP))).
  - intros (H1 & H2 & H3) []; assumption.
Qed.
Print Assumptions C54_protocol_error.

(** ... there is no panic as long as the library gives every URL of these schemes a host (the code unwraps it), and in no
    case when the local policy is [Allow] ... *)
Theorem C54_no_panic : forall url parse host local s, special_host parse host \/ local = Allow ->
  http_parse_str url parse host local s <> Panic /\ http_ftp_parse_str url parse host local s <> Panic.
Proof.
  intros url parse host local s H. rewrite http_parse_eq, http_ftp_parse_eq. split; intros P;
    [apply http_v_errors in P|apply http_ftp_v_errors in P]; destruct P as (Hl & u & p & Hu & Hp & Hh);
    destruct H as [H|H]; try contradiction; exact (H s u p Hu Hp Hh).
Qed.
Print Assumptions C54_no_panic.

(** ... and the entry points agree. *)
Theorem C54_entry_points : forall url parse host local s,
  http_parse_string url parse host local s = http_parse_str url parse host local s /\
  http_validate_str url parse host local s = omap (fun _ => tt) (http_parse_str url parse host local s) /\
  http_ftp_parse_string url parse host local s = http_ftp_parse_str url parse host local s /\
  http_ftp_validate_str url parse host local s = omap (fun _ => tt) (http_ftp_parse_str url parse host local s).
Proof. intros. destruct (http_entry url parse host local s), (http_ftp_entry url parse host local s). auto. Qed.
Print Assumptions C54_entry_points.

(** A small URL library for the examples: the part between the two slashes and the end is the host; leading spaces are
    ignored, as in the WHATWG algorithm. *)
Fixpoint toy_trim (s : list N) : list N := match s with 32 :: r => toy_trim r | _ => s end.
Definition toy_parse (s : list N) : option (list N) := Some (List.map lower (toy_trim s)).
Definition toy_host (u : list N) : option url_host :=
  match position 47 u with Some i => Some (HDomain (skipn (S (S i)) u)) | None => Some (HDomain []) end.

Example C54_example :
  host_typed toy_host /\ special_host toy_parse toy_host /\
  http_parse_str _ toy_parse toy_host Must (bs "HTTPs://LocalHost") = Ok (bs "https://localhost", true) /\
  http_parse_str _ toy_parse toy_host Disallow (bs "http://localhost.") = Err HLocalDisallow /\
  http_parse_str _ toy_parse toy_host Must (bs "http://example.org") = Err HLocalMust /\
  http_parse_str _ toy_parse toy_host Allow (bs "ftp://example.org") = Err HProtocolError /\
  http_ftp_parse_str _ toy_parse toy_host Disallow (bs "Ftp://example.org") = Ok (bs "ftp://example.org", FTP).
Proof.
  split; [|split].
  - intros u. unfold toy_host. destruct (position 47 u); exact I.
  - intros s u p _ _. unfold toy_host. destruct (position 47 u); discriminate.
  - repeat split.
Qed.

(** C60. A value that was parsed from a text comes back from its serialisation, in JSON and in any format that presents strings
    as strings, if the library's URLs do. *)
Theorem C60_http_round_trip : forall url parse host href local s v, host_typed host -> url_text_laws parse href ->
  (http_parse_str url parse host local s = Ok v ->
     visit (http_visitor url parse host local) (json_call (json_of (http_ser url href v))) = Ok v /\
     visit (http_visitor url parse host local) (binary_call (http_ser url href v)) = Ok v).
Proof.
  intros url parse host href local s [u b] Ht Hl H.
  assert (R := http_round url parse host href local s u b Ht Hl H).
  unfold visit, http_visitor, http_ser. cbn [json_of json_call binary_call fst]. rewrite R. split; reflexivity.
Qed.
Print Assumptions C60_http_round_trip.

Theorem C60_http_ftp_round_trip : forall url parse host href local s v, host_typed host -> url_text_laws parse href ->
  (http_ftp_parse_str url parse host local s = Ok v ->
     visit (http_ftp_visitor url parse host local) (json_call (json_of (http_ftp_ser url href v))) = Ok v /\
     visit (http_ftp_visitor url parse host local) (binary_call (http_ftp_ser url href v)) = Ok v).
Proof.
  intros url parse host href local s [u b] Ht Hl H.
  assert (R := http_ftp_round url parse host href local s u b Ht Hl H).
  unfold visit, http_ftp_visitor, http_ftp_ser. cbn [json_of json_call binary_call fst]. rewrite R. split; reflexivity.
Qed.
Print Assumptions C60_http_ftp_round_trip.

Lemma lower_lower x : lower (lower x) = lower x.
Proof.
  unfold lower. destruct ((65 <=? x) && (x <=? 90)) eqn:E; [|rewrite E; reflexivity].
  destruct ((65 <=? x + 32) && (x + 32 <=? 90)) eqn:E'; lia.
Qed.

Lemma lower_space x : lower x <> 32 \/ x = 32.
Proof. unfold lower. destruct ((65 <=? x) && (x <=? 90)) eqn:E; lia. Qed.

Lemma toy_trim_id x s : x <> 32 -> toy_trim (x :: s) = x :: s.
Proof.
  intros H. cbn [toy_trim]. destruct x as [|[p|p|]]; try reflexivity.
  all: repeat (destruct p as [p|p|]; try reflexivity). congruence.
Qed.

Example C60_example : url_text_laws toy_parse (fun u => u) /\
  visit (http_visitor _ toy_parse toy_host Must)
    (json_call (json_of (http_ser _ (fun u => u) (bs "https://localhost", true)))) = Ok (bs "https://localhost", true).
Proof.
  split; [|reflexivity]. intros s u p H (a & b & -> & Ha).
  assert (E : u = List.map lower (a ++ [58] ++ b)).
  { destruct a as [|x a]; [destruct p; discriminate Ha|]. unfold toy_parse in H. cbn [app] in H.
    rewrite toy_trim_id in H; [injection H as <-; reflexivity|].
    intros ->. destruct p; discriminate Ha. }
  split.
  - unfold toy_parse. subst u. destruct a as [|x a]; [destruct p; discriminate Ha|]. cbn [app List.map].
    rewrite toy_trim_id.
    + cbn [List.map]. rewrite lower_lower. f_equal. f_equal. rewrite map_map. apply map_ext. exact lower_lower.
    + destruct (lower_space x) as [L| ->]; [exact L|destruct p; discriminate Ha].
  - subst u. rewrite map_app. exists (List.map lower a), (List.map lower b). split; [reflexivity|].
    rewrite map_map. rewrite <- Ha. apply map_ext. exact lower_lower.
Qed.

(** C61. "It is guaranteed that the scheme is not http or https" when the error is [ProtocolError]
    (/repo/validators/src/errors/http_url.rs:8-10): true of texts on which the library finds the scheme where the text has it ... *)
Theorem C61_protocol_error_partial : forall url parse host (scheme : url -> list N) local s u,
  (forall s u, parse s = Some u -> has_scheme (scheme u) s) ->
  parse s = Some u ->
  (http_parse_str url parse host local s = Err HProtocolError -> scheme u <> bs "http" /\ scheme u <> bs "https") /\
  (http_ftp_parse_str url parse host local s = Err HProtocolError ->
     scheme u <> bs "http" /\ scheme u <> bs "https" /\ scheme u <> bs "ftp").
Proof.
  intros url parse host scheme local s u Hl Hu. pose proof (C54_protocol_error url parse host local s) as [E1 E2].
  apply Hl in Hu. split; intros H; [apply E1 in H|apply E2 in H]; repeat split; intros E; rewrite E in Hu; tauto.
Qed.
Print Assumptions C61_protocol_error_partial.

Example C61_example :
  http_parse_str _ (fun s => match position 58 s with Some _ => Some s | None => None end) toy_host Allow (bs "ftp:a") = Err HProtocolError /\
  forall s u, match position 58 s with Some _ => Some s | None => None end = Some u ->
    has_scheme (match position 58 u with Some i => List.map lower (firstn i u) | None => [] end) s.
Proof.
  split; [reflexivity|]. intros s u. destruct (position 58 s) as [i|] eqn:E; [|discriminate]. intros H. injection H as <-.
  rewrite E. exists (firstn i s), (skipn (S i) s). split; [|reflexivity].
  clear - E. revert i E. induction s as [|x s IH]; intros i E; cbn [position] in E; [discriminate|].
  destruct (x =? 58) eqn:Ex.
  - injection E as <-. apply N.eqb_eq in Ex. subst x. reflexivity.
  - destruct (position 58 s) as [j|]; [|discriminate]. injection E as <-. cbn [firstn skipn app]. f_equal. apply IH. reflexivity.
Qed.

(** ... but false for every library that, like the WHATWG algorithm, ignores leading spaces. *)
Theorem C61_protocol_error_refuted : exists s, forall url parse host (scheme : url -> list N) local,
  (forall s, parse (32 :: s) = parse s) ->
  (exists u, parse (bs "http://a") = Some u /\ scheme u = bs "http") ->
  http_parse_str url parse host local s = Err HProtocolError /\
  exists u, parse s = Some u /\ scheme u = bs "http".
Proof.
  exists (32 :: bs "http://a"). intros url parse host scheme local Ht (u & Hu & Hs). split; [reflexivity|].
  exists u. rewrite Ht. auto.
Qed.
Print Assumptions C61_protocol_error_refuted.

(** The hypotheses of the refutation hold of the small library. *)
Example C61_refuted_example :
  (forall s, toy_parse (32 :: s) = toy_parse s) /\
  toy_parse (bs "http://a") = Some (bs "http://a") /\
  http_parse_str _ toy_parse toy_host Allow (bs " http://a") = Err HProtocolError.
Proof. repeat split. Qed.
