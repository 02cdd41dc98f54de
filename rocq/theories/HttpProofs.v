(** Proofs about http_url and http_ftp_url. *)
From Verif Require Import Base IntModel RangeModel NetModel NetSpec NetProofs IpModel IpSpec LocalProofs DomainModel DomainSpec
  DomainProofs Serde HttpModel HttpSpec.
Local Open Scope N_scope.

Lemma lower_colon x : lower x = 58 <-> x = 58.
Proof. unfold lower. destruct ((65 <=? x) && (x <=? 90)) eqn:E; lia. Qed.

Lemma starts_with_lower_spec p s :
  starts_with_lower p s = true <-> exists a b, s = a ++ b /\ List.map lower a = p.
Proof.
  revert s. induction p as [|c p IH]; intros s; cbn [starts_with_lower].
  - split; [intros _; exists [], s; split; reflexivity|reflexivity].
  - destruct s as [|x s].
    + split; [discriminate|]. intros ([|y a] & b & H & Hm); [discriminate Hm|discriminate H].
    + rewrite andb_true_iff, IH, N.eqb_eq. split.
      * intros (Hx & a & b & -> & Hm). exists (x :: a), b. cbn. rewrite Hx, Hm. split; reflexivity.
      * intros ([|y a] & b & H & Hm); [discriminate Hm|]. cbn in H, Hm. injection H as -> ->. injection Hm as Hy Hm.
        split; [exact Hy|]. exists a, b. split; [reflexivity|exact Hm].
Qed.

Lemma starts_with_scheme p s : starts_with_lower (p ++ [58]) s = true <-> has_scheme p s.
Proof.
  rewrite starts_with_lower_spec. unfold has_scheme. split.
  - intros (a & b & -> & Hm). destruct a as [|x a _] using rev_ind; [destruct p; discriminate Hm|].
    rewrite map_app in Hm. cbn in Hm. apply app_inj_tail in Hm. destruct Hm as [Hm Hx].
    apply (proj1 (lower_colon x)) in Hx. subst x. exists a, b. rewrite <- app_assoc. split; [reflexivity|exact Hm].
  - intros (a & b & -> & Hm). exists (a ++ [58]), b. rewrite <- app_assoc. split; [reflexivity|].
    rewrite map_app, Hm. reflexivity.
Qed.

(** Two schemes without a colon in their names cannot both start a text. *)
Lemma scheme_unique p q s : has_scheme p s -> has_scheme q s -> ~ In 58 p -> ~ In 58 q -> p = q.
Proof.
  intros (a & b & -> & <-) (c & d & H & <-) Hp Hq. f_equal.
  assert (Ha : ~ In 58 a) by (intros I; apply Hp; apply in_map_iff; exists 58; split; [reflexivity|exact I]).
  assert (Hc : ~ In 58 c) by (intros I; apply Hq; apply in_map_iff; exists 58; split; [reflexivity|exact I]).
  clear Hp Hq. revert c Hc H. induction a as [|x a IH]; intros [|y c] Hc H; cbn in H.
  - reflexivity.
  - injection H as H _. destruct Hc. left. symmetry. exact H.
  - injection H as H _. destruct Ha. left. exact H.
  - injection H as -> H. f_equal. apply IH; [|intros I; apply Hc; right; exact I|exact H].
    intros I; apply Ha; right; exact I.
Qed.

Lemma scheme_no_colon p : ~ In 58 (scheme_name p).
Proof. destruct p; cbn; intuition discriminate. Qed.

Lemma scheme_inj p q : scheme_name p = scheme_name q -> p = q.
Proof. destruct p, q; cbn; (reflexivity || discriminate). Qed.

Lemma scheme_det p q s : has_scheme (scheme_name p) s -> has_scheme (scheme_name q) s -> p = q.
Proof. intros H1 H2. apply scheme_inj. eapply scheme_unique; eauto using scheme_no_colon. Qed.

Section WithUrl.
Variable url : Type.
Variable parse : list N -> option url.
Variable host : url -> option url_host.

Lemma policy_spec local u : host_typed host ->
  http_handle_local url host local u = Ok tt <-> url_policy host local u.
Proof.
  intros Ht. specialize (Ht u). unfold http_handle_local, url_is_local, url_policy.
  destruct local.
  1, 3: destruct (host u) as [[d|a|a]|] eqn:E; cbn [obind].
  1-8: try (split; [intros H; right; eexists; split; [reflexivity|] | intros [H|(h & Hh & Hl)]; [discriminate H|injection Hh as <-]]).
  all: try (split; [discriminate|intros [H|(h & Hh & _)]; discriminate]).
  all: try (split; [left; reflexivity|reflexivity]).
  all: cbn [host_local local_ok] in *.
  1, 2, 7, 8: pose proof (localhost_spec d) as Hs.
  5, 6, 9, 10: pose proof (is_local_ipv4_spec a Ht) as Hs.
  9, 10, 11, 12: pose proof (is_local_ipv6_spec a Ht) as Hs.
  all: match type of Hs with ?b = true <-> _ => destruct b end; cbn [negb] in *; intuition congruence.
Qed.

Lemma policy_cases local u :
  (exists e, http_handle_local url host local u = Err e) \/ http_handle_local url host local u = Ok tt \/
  (http_handle_local url host local u = Panic /\ host u = None /\ local <> Allow).
Proof.
  unfold http_handle_local, url_is_local. destruct local.
  all: try (right; left; reflexivity).
  all: destruct (host u) as [[d|a|a]|]; cbn [obind]; try (right; right; repeat split; discriminate).
  all: match goal with |- context [if ?b then _ else _] => destruct b end; eauto.
Qed.

Lemma ftp_index s :
  match starts_with_multiple [bs "http:"; bs "https:"; bs "ftp:"] s with
  | Some O => has_scheme (scheme_name HTTP) s
  | Some (S O) => has_scheme (scheme_name HTTPS) s
  | Some (S (S O)) => has_scheme (scheme_name FTP) s
  | Some _ => False
  | None => forall p, ~ has_scheme (scheme_name p) s
  end.
Proof.
  cbn [starts_with_multiple].
  pose proof (starts_with_scheme (bs "http") s) as H1. change (bs "http" ++ [58]) with (bs "http:") in H1.
  pose proof (starts_with_scheme (bs "https") s) as H2. change (bs "https" ++ [58]) with (bs "https:") in H2.
  pose proof (starts_with_scheme (bs "ftp") s) as H3. change (bs "ftp" ++ [58]) with (bs "ftp:") in H3.
  destruct (starts_with_lower (bs "http:") s); [apply H1; reflexivity|].
  destruct (starts_with_lower (bs "https:") s); [apply H2; reflexivity|].
  destruct (starts_with_lower (bs "ftp:") s); [apply H3; reflexivity|].
  intros p Hp. destruct p; [apply H1 in Hp|apply H2 in Hp|apply H3 in Hp]; discriminate.
Qed.

Lemma http_index s :
  match starts_with_multiple [bs "http:"; bs "https:"] s with
  | Some O => has_scheme (scheme_name HTTP) s
  | Some (S O) => has_scheme (scheme_name HTTPS) s
  | Some _ => False
  | None => ~ has_scheme (scheme_name HTTP) s /\ ~ has_scheme (scheme_name HTTPS) s
  end.
Proof.
  cbn [starts_with_multiple].
  pose proof (starts_with_scheme (bs "http") s) as H1. change (bs "http" ++ [58]) with (bs "http:") in H1.
  pose proof (starts_with_scheme (bs "https") s) as H2. change (bs "https" ++ [58]) with (bs "https:") in H2.
  destruct (starts_with_lower (bs "http:") s); [apply H1; reflexivity|].
  destruct (starts_with_lower (bs "https:") s); [apply H2; reflexivity|].
  split; intros Hp; [apply H1 in Hp|apply H2 in Hp]; discriminate.
Qed.

Definition https_name (b : bool) : protocol := if b then HTTPS else HTTP.

Lemma rest_spec A (local : tri) s (k : A) u v : host_typed host ->
  (let? u := match parse s with Some u => Ok u | None => Err HParseError end in
   let? _ := http_handle_local url host local u in Ok (u, k)) = Ok (u, v) <->
  parse s = Some u /\ v = k /\ url_policy host local u.
Proof.
  intros Ht. destruct (parse s) as [u'|]; cbn [obind].
  - rewrite <- (policy_spec local u Ht).
    destruct (http_handle_local url host local u') as [[]| |] eqn:E; cbn [obind]; split.
    + intros H. injection H as -> <-. auto.
    + intros (H & -> & _). injection H as ->. reflexivity.
    + discriminate.
    + intros (H & _ & H'). injection H as ->. congruence.
    + discriminate.
    + intros (H & _ & H'). injection H as ->. congruence.
  - split; [discriminate|intros (H & _); discriminate].
Qed.

Lemma http_v_spec local s u b : host_typed host ->
  http_v_parse_str url parse host local s = Ok (u, b) <->
  has_scheme (scheme_name (https_name b)) s /\ parse s = Some u /\ url_policy host local u.
Proof.
  intros Ht. unfold http_v_parse_str. pose proof (http_index s) as Hi.
  destruct (starts_with_multiple [bs "http:"; bs "https:"] s) as [[|[|i]]|]; cbn [obind].
  - rewrite (rest_spec bool local s false u b Ht). split.
    + intros (H1 & -> & H2). auto.
    + intros (H1 & H2 & H3). repeat split; auto.
      assert (E := scheme_det _ _ _ Hi H1). destruct b; [discriminate E|reflexivity].
  - rewrite (rest_spec bool local s true u b Ht). split.
    + intros (H1 & -> & H2). auto.
    + intros (H1 & H2 & H3). repeat split; auto.
      assert (E := scheme_det _ _ _ Hi H1). destruct b; [reflexivity|discriminate E].
  - destruct Hi.
  - split; [discriminate|]. destruct Hi as [H0 H1]. destruct b; intros (H & _); contradiction.
Qed.

Lemma http_ftp_v_spec local s u p : host_typed host ->
  http_ftp_v_parse_str url parse host local s = Ok (u, p) <->
  has_scheme (scheme_name p) s /\ parse s = Some u /\ url_policy host local u.
Proof.
  intros Ht. unfold http_ftp_v_parse_str. pose proof (ftp_index s) as Hi.
  destruct (starts_with_multiple [bs "http:"; bs "https:"; bs "ftp:"] s) as [[|[|[|i]]]|]; cbn [obind].
  1-3: match goal with |- context [Ok (_, ?k)] => rewrite (rest_spec protocol local s k u p Ht) end; split;
    [intros (H1 & -> & H2); auto|intros (H1 & H2 & H3); repeat split; auto; exact (scheme_det _ _ _ H1 Hi)].
  - destruct Hi.
  - split; [discriminate|]. intros (H & _). destruct (Hi p H).
Qed.

Lemma rest_errors A (local : tri) s (k : A) :
  let r := (let? u := match parse s with Some u => Ok u | None => Err HParseError end in
            let? _ := http_handle_local url host local u in Ok (u, k)) in
  r <> Err HProtocolError /\
  (r = Panic -> local <> Allow /\ exists u, parse s = Some u /\ host u = None).
Proof.
  cbn zeta. destruct (parse s) as [u|] eqn:Ep; cbn [obind]; [|split; discriminate].
  unfold http_handle_local, url_is_local. destruct local; cbn [obind].
  2: split; discriminate.
  all: destruct (host u) as [[d|a|a]|] eqn:Eh; cbn [obind].
  all: try (split; [discriminate|intros _; split; [discriminate|eauto]]).
  all: match goal with |- context [if ?b then _ else _] => destruct b end; cbn; split; discriminate.
Qed.

Lemma http_v_errors local s :
  (http_v_parse_str url parse host local s = Err HProtocolError <->
     ~ has_scheme (scheme_name HTTP) s /\ ~ has_scheme (scheme_name HTTPS) s) /\
  (http_v_parse_str url parse host local s = Panic ->
     local <> Allow /\ exists u p, parse s = Some u /\ has_scheme (scheme_name p) s /\ host u = None).
Proof.
  unfold http_v_parse_str. pose proof (http_index s) as Hi.
  destruct (starts_with_multiple [bs "http:"; bs "https:"] s) as [[|[|i]]|]; cbn [obind].
  1-2: match goal with |- context [Ok (_, ?k)] => destruct (rest_errors bool local s k) as [H1 H2] end; split;
    [split; [intros H; contradiction|intros [H H']; contradiction]|];
    intros H; destruct (H2 H) as (Hl & u & Hu & Hh); split; [exact Hl|]; eauto.
  - destruct Hi.
  - split; [split; [intros _; exact Hi|reflexivity]|discriminate].
Qed.

Lemma http_ftp_v_errors local s :
  (http_ftp_v_parse_str url parse host local s = Err HProtocolError <-> forall p, ~ has_scheme (scheme_name p) s) /\
  (http_ftp_v_parse_str url parse host local s = Panic ->
     local <> Allow /\ exists u p, parse s = Some u /\ has_scheme (scheme_name p) s /\ host u = None).
Proof.
  unfold http_ftp_v_parse_str. pose proof (ftp_index s) as Hi.
  destruct (starts_with_multiple [bs "http:"; bs "https:"; bs "ftp:"] s) as [[|[|[|i]]]|]; cbn [obind].
  1-3: match goal with |- context [Ok (_, ?k)] => destruct (rest_errors protocol local s k) as [H1 H2] end; split;
    [split; [intros H; contradiction|intros H; destruct (H _ Hi)]|];
    intros H; destruct (H2 H) as (Hl & u & Hu & Hh); split; [exact Hl|]; eauto.
  - destruct Hi.
  - split; [split; [intros _; exact Hi|reflexivity]|discriminate].
Qed.

Lemma http_parse_eq local s : http_parse_str url parse host local s = http_v_parse_str url parse host local s.
Proof. unfold http_parse_str. destruct (http_v_parse_str url parse host local s) as [[u b]| |]; reflexivity. Qed.
Lemma http_ftp_parse_eq local s : http_ftp_parse_str url parse host local s = http_ftp_v_parse_str url parse host local s.
Proof. unfold http_ftp_parse_str. destruct (http_ftp_v_parse_str url parse host local s) as [[u b]| |]; reflexivity. Qed.
Lemma http_entry local s :
  http_parse_string url parse host local s = http_parse_str url parse host local s /\
  http_validate_str url parse host local s = omap (fun _ => tt) (http_parse_str url parse host local s).
Proof.
  unfold http_parse_string, http_validate_str, http_parse_str.
  destruct (http_v_parse_str url parse host local s) as [[u b]| |]; split; reflexivity.
Qed.
Lemma http_ftp_entry local s :
  http_ftp_parse_string url parse host local s = http_ftp_parse_str url parse host local s /\
  http_ftp_validate_str url parse host local s = omap (fun _ => tt) (http_ftp_parse_str url parse host local s).
Proof.
  unfold http_ftp_parse_string, http_ftp_validate_str, http_ftp_parse_str.
  destruct (http_ftp_v_parse_str url parse host local s) as [[u b]| |]; split; reflexivity.
Qed.

Lemma http_round href local s u b : host_typed host -> url_text_laws parse href ->
  http_parse_str url parse host local s = Ok (u, b) ->
  http_parse_str url parse host local (href u) = Ok (u, b).
Proof.
  intros Ht Hl. rewrite !http_parse_eq, !(http_v_spec _ _ _ _ Ht). intros (H1 & H2 & H3).
  destruct (Hl s u _ H2 H1). auto.
Qed.
Lemma http_ftp_round href local s u p : host_typed host -> url_text_laws parse href ->
  http_ftp_parse_str url parse host local s = Ok (u, p) ->
  http_ftp_parse_str url parse host local (href u) = Ok (u, p).
Proof.
  intros Ht Hl. rewrite !http_ftp_parse_eq, !(http_ftp_v_spec _ _ _ _ Ht). intros (H1 & H2 & H3).
  destruct (Hl s u _ H2 H1). auto.
Qed.
End WithUrl.
