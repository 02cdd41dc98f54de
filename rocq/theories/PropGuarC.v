(** Property C75, third part: email addresses.
    (/repo/validators/src/errors/email.rs:5-22.) *)
From Verif Require Import Base IntStr NetModel NetSpec NetProofs IpModel IpSpec LocalProofs IpProofs Utf8 StrFacts Serde
  DomainModel DomainSpec DomainProofs IdnaFrag HostModel HostSpec HostProofs EmailModel EmailSpec EmailProofs EmailParts
  EmailDomain EmailMain PropDomain PropHost PropEmail PropErrors PropErrorsB PropGuar.
Local Open Scope N_scope.

(** The text before the '@' of an address. *)
Definition before_at (na : bool) (u : list N) : Prop := exists c1 lt c2 l nq q,
  u = ctext c1 ++ lt ++ ctext c2 /\ local_text na (List.length (ctext c1)) lt l nq q.
(** The domain part [dt] stands for the host [h], with [tail] after it. *)
Definition mail_host (idna : list N -> option (list N)) (dt tail : list N) (h : host) : Prop :=
  match h with
  | HIPv4 a => exists t, dt = [91] ++ t ++ [93] /\ v4_text t a
  | HIPv6 a => exists t, dt = bs "[IPv6:" ++ t ++ [93] /\ v6_text t a
  | HDomain d => idna dt = Some d /\ ~ In 40 dt /\ (forall r, dt ++ tail <> 91 :: r) /\ (tail = [] \/ exists r, tail = 40 :: r)
  end.

(** What is known of [d], the text after the '@'. *)
Definition after_guarantee (idna : list N -> option (list N)) (d : list N) (e : email_err) : Prop :=
  match e with
  | EInvalid => True
  | EIPMust => exists k rest, d = ctext k ++ rest /\ forall r, rest <> 91 :: r
  | EIPDisallow => exists k rest, d = ctext k ++ 91 :: rest
  | ELocalMust => exists k dt tail h, d = ctext k ++ dt ++ tail /\ mail_host idna dt tail h /\ ~ literal_local h
  | ELocalDisallow => exists k dt tail h, d = ctext k ++ dt ++ tail /\ mail_host idna dt tail h /\ literal_local h
  | ETwoLabelsMust => exists k dt tail x, d = ctext k ++ dt ++ tail /\ mail_host idna dt tail (HDomain x) /\ ~ two_labels x
  | ETwoLabelsDisallow => (exists k rest, d = ctext k ++ 91 :: rest) \/
      exists k dt tail x, d = ctext k ++ dt ++ tail /\ mail_host idna dt tail (HDomain x) /\ two_labels x
  | ECommentDisallow => In 40 d \/
      exists k dt tail h, d = ctext k ++ dt ++ tail /\ mail_host idna dt tail h /\ tail <> [] /\ forall x, h <> HDomain x
  end.

Lemma handle_ip_errs c s n e : e_handle_ip c s n = Err e -> e = EInvalid \/ e = EIPDisallow \/ e = ETwoLabelsDisallow.
Proof.
  unfold e_handle_ip. destruct (e_ip c); [| |intros [= <-]; auto];
    (destruct (is_disallow (e_two c)); [intros [= <-]; auto|]);
    (destruct (_ <? _)%nat; [|intros [= <-]; auto]);
    (destruct (slice_from s (n + 1)) as [rest|?|] eqn:S1; cbn [obind]; [|noerr|discriminate]);
    (destruct (eqbs _ _);
     [(destruct (_ <? _)%nat; [|intros [= <-]; auto]);
      (destruct (slice_from s (n + 1 + 5)) as [rest'|?|] eqn:S2; cbn [obind]; [|noerr|discriminate]);
      (destruct (position 93 rest'); [|intros [= <-]; auto]);
      (destruct (str_slice s _ _) as [t|?|] eqn:S3; cbn [obind]; [|noerr|discriminate]);
      (destruct (ipv6_from_str t); [discriminate|intros [= <-]; auto])
     |(destruct (position 93 rest); [|intros [= <-]; auto]);
      (destruct (str_slice s _ _) as [t|?|] eqn:S3; cbn [obind]; [|noerr|discriminate]);
      (destruct (ipv4_from_str t); [discriminate|intros [= <-]; auto])]).
Qed.

Lemma leading_errs c n s e : e_leading_comment c n s = Err e -> e = EInvalid \/ (e = ECommentDisallow /\ In 40 s).
Proof.
  unfold e_leading_comment. destruct s as [|b r]; [cbn; discriminate|]. cbn [idx nth_error obind].
  destruct (N.eqb_spec b 40) as [->|]; [|discriminate].
  destruct (negb (e_comment c)); [intros [= <-]; right; split; [reflexivity|left; reflexivity]|].
  destruct (_ <? _)%nat; [|intros [= <-]; auto].
  destruct (slice_from _ 1) as [rest|?|] eqn:S1; cbn [obind]; [|noerr|discriminate].
  destruct (position 41 _) as [i|]; [|intros [= <-]; auto].
  destruct (str_slice _ 1 _) as [t|?|] eqn:S2; cbn [obind]; [|noerr|discriminate].
  destruct (_ =? _)%nat; [intros [= <-]; auto|discriminate].
Qed.
Lemma comment2_errs prof c pre rest e : e_comment2 prof c (pre ++ rest) (List.length pre) = Err e ->
  e = EInvalid \/ (e = ECommentDisallow /\ In 40 rest).
Proof.
  unfold e_comment2. destruct rest as [|b r]; [rewrite app_nil_r, idx_end; discriminate|]. rewrite idx_app. cbn [obind].
  destruct (N.eqb_spec b 40) as [->|]; [|discriminate].
  destruct (negb (e_comment c)); [intros [= <-]; right; split; [reflexivity|left; reflexivity]|].
  destruct (_ <? _)%nat; [|intros [= <-]; auto].
  destruct (slice_from _ _) as [x|?|] eqn:S1; cbn [obind]; [|noerr|discriminate].
  unfold e_take2. destruct (_ <=? _)%nat; [|destruct prof; [discriminate|]]; cbn [obind];
    (destruct (position 41 _) as [i|]; [|intros [= <-]; auto]);
    (destruct (str_slice _ _ _) as [t|?|] eqn:S2; cbn [obind]; [|noerr|discriminate]);
    (destruct (_ =? _)%nat; [intros [= <-]; auto|discriminate]).
Qed.
Lemma comment4_errs c s n e : e_comment4 c s n = Err e -> e = EInvalid \/ (e = ECommentDisallow /\ (n < List.length s)%nat).
Proof.
  unfold e_comment4. destruct (Nat.ltb_spec n (List.length s)) as [L|L]; [|discriminate].
  destruct (negb (e_comment c)); [intros [= <-]; auto|].
  destruct (idx s n) as [b|?|] eqn:I; cbn [obind]; [|noerr|discriminate].
  destruct (b =? 40); [|intros [= <-]; auto]. destruct (_ <? _)%nat; [|intros [= <-]; auto].
  destruct (slice_from _ _) as [x|?|] eqn:S1; cbn [obind]; [|noerr|discriminate].
  destruct (position 41 _) as [i|]; [|intros [= <-]; auto].
  destruct (str_slice _ _ _) as [t|?|] eqn:S2; cbn [obind]; [discriminate|noerr|discriminate].
Qed.
Lemma e_check_local_errs c b e : e_check_local c (e_flag c b) = Err e ->
  (e = ELocalMust /\ b = false) \/ (e = ELocalDisallow /\ b = true).
Proof. unfold e_check_local, e_flag. destruct (e_local c), (e_two c), b; cbn; intros [= <-]; auto. Qed.

(** A host that was read, and where. *)
Lemma host_step_host idna c pre rest h l n added : valid_str (pre ++ rest) -> ascii_end pre ->
  host_step idna c (pre ++ rest) (List.length pre) = Ok (h, l, n, added) ->
  exists dt tail, rest = dt ++ tail /\ n = List.length (pre ++ dt) /\ mail_host idna dt tail h /\ l = e_flag c (host_flag h) /\
    (host_flag h = true <-> literal_local h).
Proof.
  intros Hv Ha. unfold host_step. destruct rest as [|b r]; [rewrite app_nil_r, idx_end; discriminate|]. rewrite idx_app. cbn [obind].
  destruct (N.eqb_spec b 40); [discriminate|]. destruct (N.eqb_spec b 91) as [->|B].
  - intros H. apply handle_ip_spec in H; [|exact Hv]. destruct H as (_ & _ & [H|H]).
    + destruct H as (t & a & tl & -> & -> & T & -> & -> & _). exists ([91] ++ t ++ [93]), tl.
      split; [rewrite <- !app_assoc; reflexivity|]. split; [reflexivity|]. split; [exists t; auto|]. split; [reflexivity|].
      cbn. apply is_local_ipv4_spec, (v4_addr_of t a None), T.
    + destruct H as (t & a & tl & -> & -> & T & -> & -> & _). exists (bs "[IPv6:" ++ t ++ [93]), tl.
      split; [rewrite <- !app_assoc; reflexivity|]. split; [reflexivity|]. split; [exists t; auto|]. split; [reflexivity|].
      cbn [host_flag literal_local]. apply is_local_ipv6_spec, (v6_addr_of t a None). left. exact T.
  - intros H. apply handle_domain_spec in H; [|exact Hv|exact Ha].
    destruct H as (_ & dt & tl & d & E & D & R & Dn & Id & -> & -> & _ & -> & _). exists dt, tl. rewrite app_length.
    split; [exact E|]. split; [reflexivity|]. split.
    + split; [exact Id|]. split; [exact D|]. split; [intros r'; rewrite <- E; congruence|exact R].
    + split; [reflexivity|]. apply localhost_spec.
Qed.
Lemma host_step_err idna c k rest e : valid_str (ctext k ++ rest) ->
  host_step idna c (ctext k ++ rest) (List.length (ctext k)) = Err e -> after_guarantee idna (ctext k ++ rest) e.
Proof.
  intros Hv. pose proof (ctext_ascii_end k) as Ha. set (pre := ctext k) in *. unfold host_step.
  destruct rest as [|b r]; [rewrite app_nil_r, idx_end; discriminate|]. rewrite idx_app. cbn [obind].
  destruct (N.eqb_spec b 40); [intros [= <-]; exact I|]. destruct (N.eqb_spec b 91) as [->|B].
  - intros H. apply handle_ip_errs in H. destruct H as [->|[->| ->]]; [exact I|exists k, r; reflexivity|left; exists k, r; reflexivity].
  - unfold e_handle_domain.
    assert (G : forall (A : Type) (x : A) (y : A), match e_ip c with Must => x | _ => y end = if is_must (e_ip c) then x else y)
      by (intros; destruct (e_ip c); reflexivity).
    rewrite G. destruct (is_must (e_ip c)).
    { intros [= <-]. exists k, (b :: r). split; [reflexivity|]. intros r'. congruence. }
    rewrite slice_from_app. cbn [obind]. destruct (domain_str_spec idna pre (b :: r) Hv Ha) as (dt & tl & E & Hdt & Hr & ->).
    cbn [obind]. destruct (ends_with 46 dt); [intros [= <-]; exact I|]. destruct (idna dt) as [d|] eqn:Id; [|intros [= <-]; exact I].
    rewrite e_check_two_eq. destruct (d_check_two _ _ d) as [u|e'|] eqn:T; cbn [omap_err obind]; try discriminate.
    intros [= <-].
    assert (M : mail_host idna dt tl (HDomain d)).
    { split; [exact Id|]. split; [exact Hdt|]. split; [intros r'; rewrite <- E; congruence|exact Hr]. }
    rewrite E. apply d_check_two_err in T. destruct T as [(-> & _ & _ & T)|(-> & _ & _ & T)]; cbn [d2e after_guarantee].
    + exists k, dt, tl, d. auto.
    + right. exists k, dt, tl, d. auto.
Qed.

Lemma domain_part_err idna c d qn e : valid_str d -> e_domain_part idna c d qn = Err e -> after_guarantee idna d e.
Proof.
  intros Hv. rewrite domain_part_step. destruct (_ <? _)%nat; [intros [= <-]; exact I|].
  destruct (e_leading_comment c 253 d) as [[n3 c3]|e'|] eqn:E3; cbn [obind]; [| |discriminate].
  2:{ intros [= <-]. apply leading_errs in E3. destruct E3 as [->|(-> & K)]; [exact I|left; exact K]. }
  apply leading_spec in E3 as (r & (-> & Hr & Hk & Hn) & ->); [|exact Hv].
  pose proof (ctext_ascii_end c3) as Ha.
  destruct (host_step idna c _ _) as [[[[h l] n] added]|e'|] eqn:E4; cbn [obind]; [| |discriminate].
  2:{ intros [= <-]. eapply host_step_err; eassumption. }
  apply host_step_host in E4; [|exact Hv|exact Ha]. destruct E4 as (dt & tail & -> & -> & M & -> & L).
  destruct (e_check_local c _) as [u|e'|] eqn:E5; cbn [obind]; [| |discriminate].
  2:{ intros [= <-]. apply e_check_local_errs in E5. destruct E5 as [(-> & B)|(-> & B)]; exists c3, dt, tail, h;
      (split; [reflexivity|]); (split; [exact M|]); rewrite <- L; congruence. }
  destruct (_ && _)%bool; [intros [= <-]; exact I|].
  destruct (e_comment4 c _ _) as [c4|e'|] eqn:E6; cbn [obind]; [discriminate| |discriminate].
  intros [= <-]. apply comment4_errs in E6. destruct E6 as [->|(-> & K)]; [exact I|].
  destruct tail as [|x tail]; [rewrite app_nil_r in K; lia|].
  destruct h as [d|a|a].
  - destruct M as (_ & _ & _ & [M|(r & M)]); [discriminate|]. left. rewrite M. apply in_or_app. right. apply in_or_app. right. left. reflexivity.
  - right. exists c3, dt, (x :: tail), (HIPv4 a). split; [reflexivity|]. split; [exact M|]. split; [discriminate|]. discriminate.
  - right. exists c3, dt, (x :: tail), (HIPv6 a). split; [reflexivity|]. split; [exact M|]. split; [discriminate|]. discriminate.
Qed.

(** C75, email addresses: what an error says of the part after the '@'. Comments are only said to seem to exist. *)
Theorem C75_email_guarantees_partial : forall idna prof c s e, valid_str s -> email_parse_str idna prof c s = Err e ->
  match e with
  | EInvalid => True
  | ECommentDisallow => In 40 s \/ exists u d, s = u ++ [64] ++ d /\ before_at (e_non_ascii c) u /\ after_guarantee idna d e
  | _ => exists u d, s = u ++ [64] ++ d /\ before_at (e_non_ascii c) u /\ after_guarantee idna d e
  end.
Proof.
  intros idna prof c s e Hv H.
  assert (V : email_v_parse_str idna prof c s = Err e).
  { unfold email_parse_str in H. destruct (email_v_parse_str idna prof c s) as [x|e'|]; cbn [obind] in H.
    - exfalso. revert H. unfold e_create. destruct (e_ip c), (er_host x); discriminate.
    - congruence.
    - discriminate. }
  clear H. revert V. unfold email_v_parse_str.
  assert (W : (exists u d, s = u ++ [64] ++ d /\ before_at (e_non_ascii c) u /\ after_guarantee idna d e) -> 
    match e with
    | EInvalid => True
    | ECommentDisallow => In 40 s \/ exists u d, s = u ++ [64] ++ d /\ before_at (e_non_ascii c) u /\ after_guarantee idna d e
    | _ => exists u d, s = u ++ [64] ++ d /\ before_at (e_non_ascii c) u /\ after_guarantee idna d e
    end) by (intros X; destruct e; auto).
  destruct (Nat.eqb_spec (List.length s) 0) as [|H0]; [intros [= <-]; exact I|].
  destruct (Nat.ltb_spec 320 (List.length s)) as [|HL]; [intros [= <-]; exact I|]. cbn [orb].
  destruct (e_leading_comment c 62 s) as [[n1 c1]|e'|] eqn:E1; cbn [obind]; [| |discriminate].
  2:{ intros [= <-]. apply leading_errs in E1. destruct E1 as [->|(-> & K)]; [exact I|left; exact K]. }
  apply leading_spec in E1 as (r1 & (-> & Hr1 & Hk1 & Hn1) & ->); [|exact Hv].
  pose proof (ctext_ascii_end c1) as Ha.
  destruct (e_local_part c _ _) as [[[[l nq] q] n2]|e'|] eqn:E2; cbn [obind]; [| |discriminate].
  2:{ intros [= <-]. apply local_part_err in E2. subst. exact I. }
  apply local_part_spec in E2 as (lt & r2 & -> & HLT & -> & Hr2 & Hs2); [|exact Hv|exact Ha].
  rewrite app_assoc in *. rewrite <- app_length.
  destruct (e_comment2 prof c _ _) as [[n3 c2]|e'|] eqn:E3; cbn [obind]; [| |discriminate].
  2:{ intros [= <-]. apply comment2_errs in E3. destruct E3 as [->|(-> & K)]; [exact I|]. left. apply in_or_app. right. exact K. }
  apply comment2_spec in E3 as (r3 & (-> & Hr3 & Hk3 & Hn3) & HS2 & ->); [|exact Hv|exact HL].
  rewrite app_assoc in *. rewrite <- app_length.
  destruct r3 as [|b d]; [contradiction|]. rewrite idx_app. cbn [obind].
  destruct (N.eqb_spec b 64) as [->|]; [|intros [= <-]; exact I].
  destruct (_ =? _)%nat eqn:EN; [intros [= <-]; exact I|]. cbn [negb orb].
  rewrite str_slice_after by (assumption || lia). cbn [obind].
  assert (Hd : valid_str d) by (apply (valid_after _ _ _ Hv); lia).
  destruct (e_domain_part idna c d (q && nq)) as [[[[h il] c3] c4]|e'|] eqn:ED; cbn [obind]; [discriminate| |discriminate].
  intros [= <-]. apply W. apply domain_part_err in ED; [|exact Hd].
  exists ((ctext c1 ++ lt) ++ ctext c2), d. split; [reflexivity|]. split; [|exact ED].
  exists c1, lt, c2, l, nq, q. split; [rewrite <- app_assoc; reflexivity|exact HLT].
Qed.

(** The two guarantees that fail: a bare address is said to be neither an IP address nor local. *)
Theorem C75_email_guarantees_refuted : exists s dt a, valid_str s /\ s = bs "me@" ++ dt /\ v4_text dt a /\ v4_local a /\
  email_parse_str idna_ascii Debug (ecfg false Must Allow Allow false) s = Err EIPMust /\
  email_parse_str idna_ascii Debug (ecfg false Allow Must Allow false) s = Err ELocalMust.
Proof.
  exists (bs "me@127.0.0.1"), (bs "127.0.0.1"), [127; 0; 0; 1].
  assert (T : v4_text (bs "127.0.0.1") [127; 0; 0; 1]) by (apply ipv4_from_str_spec; vm_compute; reflexivity).
  split; [ascii_str|]. split; [reflexivity|]. split; [exact T|].
  split; [apply is_local_ipv4_spec; [exact (v4_addr_of _ _ None T)|vm_compute; reflexivity]|].
  split; vm_compute; reflexivity.
Qed.

Example C75_example_c :
  email_parse_str idna_ascii Debug (ecfg false Must Allow Allow false) (bs "me@example.com") = Err EIPMust /\
  email_parse_str idna_ascii Debug (ecfg true Allow Must Allow false) (bs "me@(x)example.com(y)") = Err ELocalMust /\
  email_parse_str idna_ascii Debug (ecfg true Allow Disallow Allow false) (bs "me@[127.0.0.1]") = Err ELocalDisallow /\
  email_parse_str idna_ascii Debug (ecfg true Allow Allow Must false) (bs "me@example") = Err ETwoLabelsMust /\
  before_at false (bs "me").
Proof.
  do 4 (split; [vm_compute; reflexivity|]). exists None, (bs "me"), None, (bs "me"), false, false. split; [reflexivity|].
  left. split; [reflexivity|]. split; [reflexivity|]. split; [|reflexivity].
  split; [discriminate|]. split; [intros r; discriminate|]. split.
  - change (bs "me") with [109; 101]. constructor; [left; right; left; lia|]. constructor; [left; right; left; lia|constructor].
  - split.
    + intros (u & v & E). destruct u as [|x [|y [|z u]]]; discriminate E.
    + intros i e Hi Hi0 _. destruct i as [|[|i]]; cbn in Hi; [lia| |destruct i; discriminate]. cbn. lia.
Qed.

Print Assumptions C75_email_guarantees_partial.
Print Assumptions C75_email_guarantees_refuted.
