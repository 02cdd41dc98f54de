(** Property C122: the answer to a refused request is one short line of plain text that repeats nothing of the request. *)
From Coq Require Import Floats.SpecFloat.
From Verif Require Import Base RangeModel IntStr BaseModel CodecModel BooleanModel DomainModel EmailModel HostModel IntModel IpModel JsonModel LengthModel
  LineModel MacModel NumberModel PhoneModel SizeModel LibModel MessageModel.
From Verif Require Import IdnaFrag PropDomain PropEmail SizeProofs PropAttr.
From Verif Require HttpModel PropMessageB.
Local Open Scope N_scope.

(** A text that can be shown as it is in a terminal, in a log line, in HTML and between quotes of either kind, with a length of at most 50. *)
Definition harmless_char (c : N) : Prop := 32 <= c <= 126 /\ ~ In c (bs "<>&'\") /\ c <> 34.
Definition harmless (m : list N) : Prop := m <> [] /\ (List.length m <= 50)%nat /\ Forall harmless_char m.

(** A response with status 400 whose body is such a text, and one of [few]: the request can choose no more than which one. *)
Definition answer (few : list (list N)) (r : N * list N) : Prop := fst r = 400 /\ harmless (snd r) /\ In (snd r) few.

Definition harmless_b (m : list N) : bool :=
  match m with [] => false | _ => true end && (List.length m <=? 50)%nat
  && forallb (fun c => (32 <=? c) && (c <=? 126) && negb (existsb (N.eqb c) (bs "<>&'\")) && negb (c =? 34)) m.
Lemma harmless_dec m : harmless_b m = true -> harmless m.
Proof.
  unfold harmless_b. rewrite !andb_true_iff, forallb_forall. intros [[H0 H1] H2]. split; [destruct m; discriminate|].
  split; [now apply Nat.leb_le|]. apply Forall_forall. intros c C. apply H2 in C.
  rewrite !andb_true_iff, !negb_true_iff in C. destruct C as [[[C1 C2] C3] C4].
  split; [lia|]. split; [|now apply N.eqb_neq]. intros I.
  assert (X : existsb (N.eqb c) (bs "<>&'\") = true) by (apply existsb_exists; exists c; split; [exact I|apply N.eqb_refl]). congruence.
Qed.
Ltac answers := split; [reflexivity|split; [apply harmless_dec; reflexivity|cbn [snd into_response]; cbn; tauto]].

(** C122. The validators whose errors are all their own: every refusal, under every configuration, is answered with one of these lines. *)
Theorem C122_own_texts : forall s,
  (forall port local e, ip_parse_str port local s = Err e ->
     answer [bs "invalid IP"; bs "must be local"; bs "must not be local"; bs "port not found"; bs "port not allowed"]
       (into_response (ip_message AnyIp) e)) /\
  (forall port local e, ipv4_parse_str port local s = Err e ->
     answer [bs "invalid IPv4"; bs "must be local"; bs "must not be local"; bs "port not found"; bs "port not allowed"]
       (into_response (ip_message Ip4) e)) /\
  (forall port local e, ipv6_parse_str port local s = Err e ->
     answer [bs "invalid IPv6"; bs "must be local"; bs "must not be local"; bs "port not found"; bs "port not allowed"]
       (into_response (ip_message Ip6) e)) /\
  (forall idna c e, domain_parse_str idna c s = Err e ->
     answer [bs "invalid domain"; bs "must use an IPv4"; bs "must not use an IPv4"; bs "must be local"; bs "must not be local";
             bs "must have at least two labels"; bs "must have only one label"; bs "port not found"; bs "port not allowed"]
       (into_response domain_message e)) /\
  (forall idna c e, host_parse_str idna c s = Err e ->
     answer [bs "invalid domain or IP"; bs "must be local"; bs "must not be local";
             bs "must have at least two labels"; bs "must have only one label"; bs "port not found"; bs "port not allowed"]
       (into_response host_message e)) /\
  (forall idna prof c e, email_parse_str idna prof c s = Err e ->
     answer [bs "invalid Email"; bs "must use an IP"; bs "must not use an IP"; bs "must be local"; bs "must not be local";
             bs "must have at least two labels"; bs "must have only one label"; bs "must not contain comments"]
       (into_response email_message e)) /\
  (forall f p e, base_parse_str f p s = Err e \/ dec_parse_str f p s = Err e ->
     answer [match f with B32 => bs "invalid Base32" | B64 => bs "invalid Base64" | B64Url => bs "invalid Base64-url" end; bs "padding not found"; bs "padding not allowed"; bs "decoded incorrectly"]
       (into_response (base_message f) e)) /\
  (forall case sep e, mac_parse_str case sep s = Err e ->
     answer [bs "invalid mac address"; bs "separators not found"; bs "separators not allowed"] (into_response (hex_message true) e)) /\
  (forall case sep e, uuid_parse_str case sep s = Err e ->
     answer [bs "invalid uuid"; bs "separators not found"; bs "separators not allowed"] (into_response (hex_message false) e)) /\
  (forall e, bool_parse_str s = Err e -> answer [bs "invalid boolean"] (into_response bool_message e)) /\
  (forall a e, line_parse_str Line a s = Err e ->
     answer [bs "invalid line"; bs "line is too long"; bs "line is too short"] (into_response (line_message Line) e)) /\
  (forall a e, line_parse_str Text a s = Err e ->
     answer [bs "invalid text"; bs "text is too long"; bs "text is too short"] (into_response (line_message Text) e)) /\
  (forall sg pw t r e, int_parse_str sg pw t r s = Err e ->
     answer [bs "cannot parse integer from empty string"; bs "invalid digit found in string"; bs "number too large to fit in target type";
             bs "number too small to fit in target type"; bs "integer is too large"; bs "integer is too small"; bs "integer is forbidden"]
       (into_response int_message e)).
Proof.
  intros s. repeat match goal with |- _ /\ _ => split end; intros;
    try (match goal with H : int_parse_str _ _ _ _ _ = Err ?e |- _ => destruct e as [[]| | |] end; answers);
    try (match goal with H : base_parse_str ?f _ _ = Err _ \/ _ |- _ => destruct f end); destruct e; answers.
Qed.
Print Assumptions C122_own_texts.

(** C122. Validators on more than texts, and regex. A collection that has the length the attribute gives for both bounds is left aside
    (C09: the code does not compile). *)
Theorem C122_other_inputs :
  (forall sg pw t r m i e, int_parse sg pw t r m i = Err e ->
     answer [bs "number too large to fit in target type"; bs "number too small to fit in target type"; bs "integer is too large"; bs "integer is too small"; bs "integer is forbidden";
             bs "cannot parse integer from empty string"; bs "invalid digit found in string"] (into_response int_message e)) /\
  (forall A (len : A -> N) mn mx (v : A) e, (forall m, mn = Some m -> mx <> Some m) -> parse_collection len mn mx v = Err e ->
     answer [bs "collection is too large"; bs "collection is too small"] (into_response length_message e)) /\
  (forall (c : N) e, bool_parse_char c = Err e -> answer [bs "invalid boolean"] (into_response bool_message e)) /\
  (forall re regex_new is_match user x s e, re_parse_str re regex_new is_match user x s = Err e ->
     answer [bs "invalid format"] (into_response (fun _ => regex_message) e)).
Proof.
  repeat match goal with |- _ /\ _ => split end; intros.
  - destruct e as [[]| | |]; answers.
  - destruct e; [answers..|]. exfalso. destruct (C09_length_scope_partial mn mx) as [S U]. apply (U (proj2 S H) (len v)).
    unfold parse_collection in H0. destruct (length_v_parse_v mn mx (len v)); cbn [obind] in H0; congruence.
  - destruct e; answers.
  - destruct e; answers.
Qed.
Print Assumptions C122_other_inputs.

Lemma parse_float_error from_str r nan s : num_parse_str from_str r nan s = Err NParseFloat <-> from_str s = None.
Proof.
  unfold num_parse_str, num_v_parse_str. destruct (from_str s) as [f|]; [|split; reflexivity]. split; [|discriminate].
  assert (K : num_handle_range (to_tokens spec_float SFeqb float_inc true r) f <> Err NParseFloat).
  { unfold num_handle_range. repeat match goal with |- context [match ?x with _ => _ end] => destruct x; cbn [obind] end; discriminate. }
  unfold v_parse_f. destruct (num_handle_range _ f) as [[]|e'|]; cbn [obind]; [|congruence|discriminate].
  unfold handle_nan. destruct nan, (is_nan f); cbn; discriminate.
Qed.
Lemma local_not url host local u : HttpModel.http_handle_local url host local u <> Err HttpModel.HParseError.
Proof.
  unfold HttpModel.http_handle_local. destruct local; [|discriminate|];
    (destruct (HttpModel.url_is_local url host u) as [[]|e|] eqn:E; cbn; try discriminate; intros X; injection X as ->;
     unfold HttpModel.url_is_local in E; destruct (host u) as [[]|]; discriminate E).
Qed.

(** C122. The validators that wrap the error of a library: the library's text is given as it is, everything else is a fixed line.
    So the answers are harmless exactly if the library's texts are. *)
Theorem C122_wrapped : forall s,
  (forall from_str r nan lib e, num_parse_str from_str r nan s = Err e ->
     (from_str s = None /\ into_response (number_message lib) e = (400, lib)) \/
     (from_str s <> None /\
      answer [bs "number is too large"; bs "number is too small"; bs "number is forbidden"; bs "must be NaN"; bs "must not be NaN"]
        (into_response (number_message lib) e))) /\
  (forall from_str r byte lib e, size_parse_str from_str r s = Err e ->
     (from_str s = None /\ into_response (size_message lib byte) e = (400, lib)) \/
     (from_str s <> None /\
      answer (if byte then [bs "byte is too large"; bs "byte is too small"] else [bs "bit is too large"; bs "bit is too small"])
        (into_response (size_message lib byte) e))) /\
  (forall url parse host local lib e, HttpModel.http_parse_str url parse host local s = Err e ->
     (parse s = None /\ into_response (http_message lib false) e = (400, lib)) \/
     answer [bs "need to use `http` or `https` as a protocol"; bs "must be local"; bs "must not be local"] (into_response (http_message lib false) e)) /\
  (forall url parse host local lib e, HttpModel.http_ftp_parse_str url parse host local s = Err e ->
     (parse s = None /\ into_response (http_message lib true) e = (400, lib)) \/
     answer [bs "need to use `http`, `https` or `ftp` as a protocol"; bs "must be local"; bs "must not be local"]
       (into_response (http_message lib true) e)) /\
  (forall cid cid_eqb phone perr pn_parse pn_country pn_valid (lib : perr -> list N) cs e,
     phone_parse_str cid cid_eqb phone perr pn_parse pn_country pn_valid cs s = Err e ->
     (exists c x, pn_parse c s = inr x /\ into_response (phone_message lib) e = (400, lib x)) \/
     answer [bs "invalid phone number"] (into_response (phone_message lib) e)) /\
  (forall A E (parse : list N -> A + E) (lib : E -> list N) e, lib_parse_str A E parse s = Err e ->
     parse s = inr e /\ into_response lib e = (400, lib e)) /\
  (forall A (from_str : list N -> option A) lib e, json_parse_str A from_str s = Err e ->
     from_str s = None /\ into_response (json_message lib) e = (400, lib)).
Proof.
  intros s. repeat match goal with |- _ /\ _ => split end; intros.
  - pose proof (parse_float_error from_str r nan s) as P. destruct e; [left; split; [now apply P|reflexivity]|right..];
      (split; [intros X; apply P in X; rewrite H in X; discriminate X|answers]).
  - pose proof (proj1 (size_exact_lemma from_str 0 r) s) as P. destruct (from_str s) as [v|].
    + right. split; [discriminate|]. destruct P as (_ & _ & _ & P & _). destruct byte, e; (congruence || answers).
    + left. rewrite P in H. injection H as <-. split; reflexivity.
  - destruct e; [left|right; answers..]. split; [|reflexivity]. revert H.
    unfold HttpModel.http_parse_str, HttpModel.http_v_parse_str.
    destruct (HttpModel.starts_with_multiple _ _) as [[|[|]]|]; cbn [obind]; try discriminate;
      (destruct (parse s) as [u|]; [|reflexivity]; cbn [obind]; pose proof (local_not _ host local u) as L; destruct (HttpModel.http_handle_local _ _ _ _); cbn [obind]; congruence).
  - destruct e; [left|right; answers..]. split; [|reflexivity]. revert H.
    unfold HttpModel.http_ftp_parse_str, HttpModel.http_ftp_v_parse_str.
    destruct (HttpModel.starts_with_multiple _ _) as [[|[|[|]]]|]; cbn [obind]; try discriminate;
      (destruct (parse s) as [u|]; [|reflexivity]; cbn [obind]; pose proof (local_not _ host local u) as L; destruct (HttpModel.http_handle_local _ _ _ _); cbn [obind]; congruence).
  - destruct (PropMessageB.C88_phone cid cid_eqb phone perr pn_parse pn_country pn_valid lib cs s e H) as [(c & x & _ & P & M)|[M _]].
    + left. exists c, x. unfold into_response. now rewrite M.
    + right. unfold into_response. rewrite M. answers.
  - unfold lib_parse_str, lib_v_parse_str in H. destruct (parse s); cbn [obind] in H; [discriminate|]. injection H as ->. split; reflexivity.
  - unfold json_parse_str, json_v_parse_str, serde_json_result in H. destruct (from_str s); cbn [obind] in H; [discriminate|].
    injection H as <-. split; reflexivity.
Qed.
Print Assumptions C122_wrapped.

(** C122. The two texts of core's [ParseFloatError] are such lines, so number is as good as the validators of the first theorem. *)
Theorem C122_number_core : forall from_str r nan lib s e,
  lib = bs "cannot parse float from empty string" \/ lib = bs "invalid float literal" -> num_parse_str from_str r nan s = Err e ->
  answer [bs "cannot parse float from empty string"; bs "invalid float literal"; bs "number is too large"; bs "number is too small";
          bs "number is forbidden"; bs "must be NaN"; bs "must not be NaN"] (into_response (number_message lib) e).
Proof. intros from_str r nan lib s e [->| ->] H; destruct e; answers. Qed.
Print Assumptions C122_number_core.

Example C122_example :
  let s := bs "<script>alert('x')</script>@" ++ [10; 0; 34] in
  email_parse_str idna_ascii Debug (ecfg true Allow Allow Allow true) s = Err EInvalid /\
  into_response email_message EInvalid = (400, bs "invalid Email") /\ harmless (bs "invalid Email") /\ ~ harmless s /\
  int_parse_str true W64 I8 Unlimited s = Err (ParseInt IInvalidDigit) /\ bool_parse_str s = Err BooleanError /\
  HttpModel.http_parse_str unit (fun _ => None) (fun _ => None) Allow (bs "http:<") = Err HttpModel.HParseError /\
  answer [bs "port not allowed"] (into_response (ip_message Ip4) IpPortDisallow).
Proof.
  cbv zeta. split; [vm_compute; reflexivity|]. split; [reflexivity|]. split; [apply harmless_dec; reflexivity|].
  split.
  { intros (_ & _ & F). apply (Forall_inv) in F. destruct F as (_ & F & _). apply F. vm_compute. tauto. }
  split; [vm_compute; reflexivity|]. split; [vm_compute; reflexivity|]. split; [vm_compute; reflexivity|]. answers.
Qed.
