(** Property C123: what a validator asks the library it stands on. *)
From Verif Require Import Base StrFacts NetModel NetSpec NetProofs IpModel DomainModel DomainProofs HostModel EmailModel PhoneModel LibModel PropCase PropArith IpSpec LocalProofs IpProofs HostProofs.
From Verif Require Import IdnaFrag PropDomain PropHost PropEmail.
From Verif Require HttpModel SizeModel NumberModel JsonModel.
Local Open Scope N_scope.

(** What a run that is given a library function can learn from it: nothing, or the answer to [t]. *)
Definition asks_nothing {X} (run : (list N -> option (list N)) -> X) : Prop := forall idna idna', run idna = run idna'.
Definition asks_only {X} (run : (list N -> option (list N)) -> X) (t : list N) : Prop := forall idna idna', idna t = idna' t -> run idna = run idna'.

(** What stands before the last colon, or everything if there is no colon. *)
Definition before_port (s t : list N) : Prop := (s = t /\ ~ In 58 s) \/ exists q, s = t ++ [58] ++ q /\ ~ In 58 q.

Lemma split_before {E} s i t : rposition 58 s = Some i -> str_slice (E := E) s 0 i = Ok t -> before_port s t.
Proof.
  intros R S. apply rposition_some in R. destruct R as (a & b & -> & <- & N). right. exists b. split; [|exact N].
  rewrite str_slice_before in S by lia. injection S as <-. reflexivity.
Qed.

(** C123. domain and host: at most the name in front of the port, once. *)
Theorem C123_domain : forall c s,
  asks_nothing (fun idna => domain_parse_str idna c s) \/
  exists t, before_port s t /\ asks_only (fun idna => domain_parse_str idna c s) t.
Proof.
  intros c s. unfold domain_parse_str, domain_v_parse_str. destruct s as [|x s0]; [left; intros ? ?; reflexivity|].
  set (s := x :: s0). destruct (d_split c s) as [[d q]|e|] eqn:D; [|left; intros ? ?; reflexivity..].
  right. exists d. split.
  - unfold d_split in D. destruct (rposition 58 s) as [i|] eqn:R.
    + destruct (d_port c); try discriminate D; (destruct (str_slice s 0 i) as [t| |] eqn:S; cbn [obind] in D; try discriminate D;
        destruct (str_slice_from s (i + 1)); cbn [obind] in D; try discriminate D; injection D as -> _; exact (split_before _ _ _ R S)).
    + apply rposition_none in R. left. destruct (d_port c); try discriminate D; injection D as <- _; auto.
  - intros idna idna' A. cbn [obind]. unfold d_rest. rewrite A. reflexivity.
Qed.
Print Assumptions C123_domain.
Theorem C123_host : forall c s,
  asks_nothing (fun idna => host_parse_str idna c s) \/
  exists t, before_port s t /\ last t 0 <> 46 /\ asks_only (fun idna => host_parse_str idna c s) t.
Proof.
  intros c s. unfold host_parse_str, host_v_parse_str. destruct s as [|x s0]; [left; intros ? ?; reflexivity|].
  destruct (x =? 91); [left; intros ? ?; reflexivity|].
  destruct (ipv6_from_str (x :: s0)); [left; intros ? ?; reflexivity|]. unfold h_rest.
  set (s := x :: s0). destruct (h_split c s) as [[d q]|e|] eqn:D; [|left; intros ? ?; reflexivity..]. cbn [obind].
  destruct (ends_with 46 d) eqn:EW; [left; intros ? ?; reflexivity|].
  right. exists d. split; [|split].
  - unfold h_split in D. destruct (rposition 58 s) as [i|] eqn:R.
    + destruct (h_port c); try discriminate D; (destruct (str_slice s 0 i) as [t| |] eqn:S; cbn [obind] in D; try discriminate D;
        destruct (str_slice_from s (i + 1)); cbn [obind] in D; try discriminate D; injection D as -> _; exact (split_before _ _ _ R S)).
    + apply rposition_none in R. left. destruct (h_port c); try discriminate D; injection D as <- _; auto.
  - intros L. destruct (exists_last (l := d)) as (r & y & Y); [intros ->; discriminate L|]. rewrite Y, last_last in L.
    rewrite Y, L, ends_with_snoc in EW. discriminate EW.
  - intros idna idna' A. unfold h_name. rewrite A. reflexivity.
Qed.
Print Assumptions C123_host.

(** C123. email: at most the name behind the @, which has at most 255 octets. *)
Theorem C123_email : forall prof c s,
  asks_nothing (fun idna => email_parse_str idna prof c s) \/
  exists a t b, s = a ++ t ++ b /\ (exists u, a = u ++ [64] \/ exists k, a = u ++ [64; 40] ++ k ++ [41]) /\ (b = [] \/ exists w, b = 40 :: w) /\
    t <> [] /\ (List.length t <= 255)%nat /\ ~ In 40 t /\ last t 0 <> 46 /\ asks_only (fun idna => email_parse_str idna prof c s) t.
Proof.
  intros prof c s. unfold email_parse_str, email_v_parse_str.
  destruct ((List.length s =? 0)%nat || (320 <? List.length s)%nat)%bool; [left; intros ? ?; reflexivity|].
  destruct (e_leading_comment c 62 s) as [[n1 c1]|e|]; [|left; intros ? ?; reflexivity..]. cbn [obind].
  destruct (e_local_part c s n1) as [[[[lp nq] qu] n2]|e|]; [|left; intros ? ?; reflexivity..]. cbn [obind].
  destruct (e_comment2 prof c s n2) as [[n3 c2]|e|]; [|left; intros ? ?; reflexivity..]. cbn [obind].
  destruct (idx s n3) as [b|e|] eqn:I; [|left; intros ? ?; reflexivity..]. cbn [obind].
  destruct (negb (b =? 64) || (n3 + 1 =? List.length s)%nat)%bool eqn:B; [left; intros ? ?; reflexivity|].
  destruct (str_slice_from s (n3 + 1)) as [d|e|] eqn:SL; [|left; intros ? ?; reflexivity..]. cbn [obind].
  apply str_slice_from_ok in SL. unfold e_domain_part.
  destruct (255 <? List.length d)%nat eqn:L; [left; intros ? ?; reflexivity|].
  destruct (e_leading_comment c 253 d) as [[n4 c3]|e|] eqn:C3; [|left; intros ? ?; reflexivity..]. cbn [obind].
  destruct (idx d n4) as [b'|e|] eqn:I4; [|left; intros ? ?; reflexivity..]. cbn [obind].
  destruct (b' =? 40) eqn:B40; [left; intros ? ?; reflexivity|]. destruct (b' =? 91); [left; intros ? ?; reflexivity|].
  unfold e_handle_domain.
  destruct (slice_from d n4) as [r|e|] eqn:SF; cbn [obind]; [|left; destruct (e_ip c); intros ? ?; reflexivity..].
  destruct (match position 40 r with Some i => str_slice d n4 (i + n4) | None => str_slice_from d n4 end) as [t|e|] eqn:T;
    cbn [obind]; [|left; destruct (e_ip c); intros ? ?; reflexivity..].
  destruct (ends_with 46 t) eqn:EW; [left; destruct (e_ip c); intros ? ?; reflexivity|].
  right.
  assert (S0 : s = (firstn n3 s ++ [64]) ++ d).
  { unfold idx in I. destruct (nth_error s n3) as [y|] eqn:Y; [|discriminate I]. injection I as ->.
    apply orb_false_iff in B. destruct B as [B _]. apply negb_false_iff, N.eqb_eq in B. subst b.
    apply nth_error_split in Y. destruct Y as (l1 & l2 & -> & <-). rewrite SL, firstn_app, Nat.sub_diag, firstn_all. cbn [firstn].
    rewrite app_nil_r, <- app_assoc. cbn [app]. do 2 f_equal.
    replace (List.length l1 + 1)%nat with (List.length (l1 ++ [64])) by (rewrite app_length; reflexivity).
    change (l1 ++ 64 :: l2) with (l1 ++ [64] ++ l2). rewrite app_assoc, skipn_app, skipn_all, Nat.sub_diag. reflexivity. }
  assert (R : r = skipn n4 d) by (now apply slice_from_ok in SF).
  assert (TB : exists w, r = t ++ w /\ ~ In 40 t /\ (w = [] \/ exists w', w = 40 :: w')).
  { destruct (position 40 r) as [i|] eqn:P.
    - apply position_some in P. destruct P as (x & y & X & <- & NI). exists (40 :: y). split; [|split; [|eauto]].
      + unfold str_slice in T. destruct (_ && _)%bool in T; [|discriminate T]. injection T as <-.
        rewrite <- R, X. replace (List.length x + n4 - n4)%nat with (List.length x) by lia. now rewrite firstn_app, Nat.sub_diag, firstn_all, app_nil_r.
      + unfold str_slice in T. destruct (_ && _)%bool in T; [|discriminate T]. injection T as <-.
        rewrite <- R, X. replace (List.length x + n4 - n4)%nat with (List.length x) by lia. now rewrite firstn_app, Nat.sub_diag, firstn_all, app_nil_r.
    - apply position_none in P. apply str_slice_from_ok in T. exists []. rewrite app_nil_r. subst t r. auto. }
  destruct TB as (w & RW & N40 & W).
  exists ((firstn n3 s ++ [64]) ++ firstn n4 d), t, w. split; [|split; [|split; [exact W|split; [|split; [|split; [exact N40|split]]]]]].
  - rewrite <- app_assoc, <- RW, R, firstn_skipn. exact S0.
  - exists (firstn n3 s). unfold e_leading_comment in C3. destruct (idx d 0) as [b0|e|] eqn:I0; cbn [obind] in C3; [|discriminate C3..].
    destruct (b0 =? 40) eqn:B0.
    + right. destruct (negb (e_comment c)); [discriminate C3|]. destruct (1 <? List.length d)%nat; [|discriminate C3].
      destruct (slice_from d 1) as [rest|e|] eqn:S1; cbn [obind] in C3; [|discriminate C3..]. apply slice_from_ok in S1.
      destruct (position 41 (firstn 253 rest)) as [i|] eqn:P; [|discriminate C3].
      destruct (str_slice d 1 (i + 1)) as [k|e|] eqn:K; cbn [obind] in C3; [|discriminate C3..].
      destruct (i + 1 + 1 =? List.length d)%nat; [discriminate C3|]. injection C3 as <- <-.
      exists (firstn i rest). apply N.eqb_eq in B0. subst b0. destruct d as [|d0 d1]; [discriminate I0|]. cbn in I0. injection I0 as ->.
      cbn [skipn] in S1. subst d1. apply position_some in P. destruct P as (x & y & X & <- & _).
      assert (XX : rest = x ++ 41 :: y ++ skipn 253 rest).
      { rewrite <- (firstn_skipn 253 rest) at 1. rewrite X, <- app_assoc. reflexivity. }
      rewrite <- app_assoc. f_equal. cbn [app]. f_equal. replace (List.length x + 1 + 1)%nat with (S (S (List.length x))) by lia.
      cbn [firstn]. f_equal. clear - XX. revert XX. generalize (y ++ skipn 253 rest). intros z ->. clear.
      induction x as [|h x IH]; [reflexivity|]. cbn [List.length app firstn] in *. now rewrite IH.
    + left. injection C3 as <- _. cbn [firstn]. now rewrite app_nil_r.
  - intros ->. cbn [app] in RW. unfold idx in I4. destruct (nth_error d n4) as [y|] eqn:Y; [|discriminate I4]. injection I4 as ->.
    apply nth_error_split in Y. destruct Y as (l1 & l2 & -> & <-). rewrite skipn_app, skipn_all, Nat.sub_diag in R. cbn in R.
    destruct W as [->|[w' ->]]; rewrite RW in R; [discriminate R|]. injection R as <- _. discriminate B40.
  - apply Nat.ltb_ge in L. assert (List.length r <= List.length d)%nat by (rewrite R, skipn_length; lia). rewrite RW, app_length in H. lia.
  - intros X. destruct (exists_last (l := t)) as (u & y & Y); [intros ->; discriminate X|]. rewrite Y, last_last in X.
    rewrite Y, X, ends_with_snoc in EW. discriminate EW.
  - intros idna idna' A. destruct (e_ip c); [reflexivity|..]; rewrite A; reflexivity.
Qed.
Print Assumptions C123_email.

(** A text of more than 320 octets is not looked at further. *)
Theorem C123_email_long : forall prof c s, (320 < List.length s)%nat -> asks_nothing (fun idna => email_parse_str idna prof c s).
Proof.
  intros prof c s L idna idna'. unfold email_parse_str, email_v_parse_str.
  replace (320 <? List.length s)%nat with true by (symmetry; apply Nat.ltb_lt; exact L). now rewrite orb_true_r.
Qed.
Print Assumptions C123_email_long.

(** C123 fails for domain and host in one respect: there is no limit to the length of the names that IDNA is asked to convert, although
    a name of DNS has at most 253 octets. *)
Lemma xs_no n c : c <> 120 -> ~ In c (repeat 120 n).
Proof. intros C H. apply repeat_spec in H. congruence. Qed.
Lemma xs_no_v4 n : ipv4_from_str (repeat 120 (S n)) = None.
Proof.
  destruct (ipv4_from_str _) eqn:E; [|reflexivity]. apply ipv4_from_str_spec in E. exfalso.
  apply (v4_not_in _ _ 120 E); [unfold v4_char; lia|left; reflexivity].
Qed.
Lemma xs_no_v6 n : ipv6_from_str (repeat 120 (S n)) = None.
Proof.
  destruct (ipv6_from_str _) eqn:E; [|reflexivity]. apply ipv6_from_str_spec in E. exfalso.
  apply (v6_not_in _ _ 120 E); [unfold v6_char; lia|left; reflexivity].
Qed.
Theorem C123_name_length_refuted : forall n, exists s idna idna', (n < List.length s)%nat /\
  (forall t, (List.length t <= n)%nat -> idna t = idna' t) /\
  (forall ipv4 local port two, ipv4 <> Must -> port <> Must ->
     domain_parse_str idna (cfg ipv4 local port two) s <> domain_parse_str idna' (cfg ipv4 local port two) s) /\
  (forall local port two, port <> Must ->
     host_parse_str idna (hcfg local port two) s <> host_parse_str idna' (hcfg local port two) s).
Proof.
  intros n. exists (repeat 120 (S n)), (fun t => if (List.length t <=? n)%nat then None else Some (bs "x")), (fun _ => None).
  assert (LL : (List.length (repeat 120%N (S n)) <=? n)%nat = false) by (apply Nat.leb_gt; rewrite repeat_length; lia).
  assert (RP : rposition 58 (repeat 120 (S n)) = None) by (apply rposition_none, xs_no; lia).
  assert (EW : ends_with 46 (repeat 120 (S n)) = false).
  { clear. induction n as [|n IH]; [reflexivity|]. exact IH. }
  assert (SL : strip_last 46 (repeat 120 (S n)) = repeat 120 (S n)).
  { clear. induction n as [|n IH]; [reflexivity|]. change (120 :: strip_last 46 (repeat 120 (S n)) = 120 :: repeat 120 (S n)). now f_equal. }
  split; [rewrite repeat_length; lia|]. split; [|split].
  - intros t H. apply Nat.leb_le in H. now rewrite H.
  - intros ipv4 local port two I P. unfold domain_parse_str, domain_v_parse_str. cbn [repeat]. change (120 :: repeat 120 n) with (repeat 120 (S n)).
    unfold d_split. rewrite RP. cbn [d_port cfg].
    assert (Z : forall idna s, d_rest idna (cfg ipv4 local port two) s (repeat 120 (S n)) None =
      if all_allow (cfg ipv4 local port two) then
        match idna (repeat 120 (S n)) with Some a => let? p := d_parse_port (cfg ipv4 local port two) None in Ok (a, p, false, false) | None => Err DInvalid end
      else match idna (repeat 120 (S n)) with
           | Some a =>
              let? p := d_parse_port (cfg ipv4 local port two) None in
              let is_local := d_flag (cfg ipv4 local port two) (is_local_domain a) in
              let? _ := d_check_two (cfg ipv4 local port two) is_local a in
              let? _ := d_check_local (cfg ipv4 local port two) is_local in
              Ok (a, p, false, is_local)
           | None => Err DInvalid end).
    { intros idna s. unfold d_rest, parse_ipv4_allow_an_ended_dot. rewrite SL, xs_no_v4. now destruct ipv4. }
    destruct port; [congruence|..]; cbn [obind]; rewrite !Z; cbv beta; rewrite LL; clear Z SL EW RP LL;
      (destruct ipv4, local, two; (congruence || (vm_compute; discriminate))).
  - intros local port two P. unfold host_parse_str, host_v_parse_str. cbn [repeat]. change (120 :: repeat 120 n) with (repeat 120 (S n)).
    change (120 =? 91) with false. cbv iota. rewrite xs_no_v6. unfold h_rest, h_split. rewrite RP. cbn [h_port hcfg].
    destruct port; [congruence|..]; cbn [obind]; rewrite EW, xs_no_v4; unfold h_name; cbv beta; rewrite LL; clear EW RP LL;
      (destruct local, two; vm_compute; discriminate).
Qed.
Print Assumptions C123_name_length_refuted.

(** C123. The other validators ask about the whole text; phone asks for each country of the attribute, and no other. *)
Theorem C123_whole_text : forall s,
  (forall url parse parse' host local, parse s = parse' s ->
     HttpModel.http_parse_str url parse host local s = HttpModel.http_parse_str url parse' host local s /\
     HttpModel.http_ftp_parse_str url parse host local s = HttpModel.http_ftp_parse_str url parse' host local s) /\
  (forall cid cid_eqb phone perr parse parse' country valid cs,
     (forall c, In c (match cs with [] => [None] | _ => List.map (@Some cid) cs end) -> parse c s = parse' c s) ->
     phone_parse_str cid cid_eqb phone perr parse country valid cs s = phone_parse_str cid cid_eqb phone perr parse' country valid cs s) /\
  (forall from_str from_str' r, from_str s = from_str' s -> SizeModel.size_parse_str from_str r s = SizeModel.size_parse_str from_str' r s) /\
  (forall from_str from_str' r nan, from_str s = from_str' s -> NumberModel.num_parse_str from_str r nan s = NumberModel.num_parse_str from_str' r nan s) /\
  (forall A (from_str from_str' : list N -> option A), from_str s = from_str' s -> JsonModel.json_parse_str A from_str s = JsonModel.json_parse_str A from_str' s) /\
  (forall A E (parse parse' : list N -> A + E), parse s = parse' s -> lib_parse_str A E parse s = lib_parse_str A E parse' s) /\
  (forall re regex_new regex_new' is_match is_match' user user' e,
     (forall p, regex_new p = regex_new' p) -> (forall r, is_match r s = is_match' r s) -> user s = user' s ->
     re_parse_str re regex_new is_match user e s = re_parse_str re regex_new' is_match' user' e s).
Proof.
  intros s. repeat match goal with |- _ /\ _ => split end; intros.
  - split; [unfold HttpModel.http_parse_str, HttpModel.http_v_parse_str|unfold HttpModel.http_ftp_parse_str, HttpModel.http_ftp_v_parse_str]; now rewrite H.
  - assert (L : forall l m, (forall c, In c l -> parse (Some c) s = parse' (Some c) s) ->
      phone_v_loop cid cid_eqb phone perr parse country valid l s m = phone_v_loop cid cid_eqb phone perr parse' country valid l s m).
    { induction l as [|c l IH]; intros m X; cbn [phone_v_loop]; [reflexivity|]. unfold p_parse. rewrite (X c (or_introl eq_refl)).
      destruct (parse' (Some c) s); cbn [obind]; [|reflexivity]. apply IH. intros c' C. apply X. now right. }
    unfold phone_parse_str. destruct cs as [|c [|c2 cs]]; cbn [phone_v_parse_str].
    + unfold phone_v_any, p_parse. rewrite (H None (or_introl eq_refl)). reflexivity.
    + unfold phone_v_one, p_parse. rewrite (H (Some c) (or_introl eq_refl)). reflexivity.
    + unfold phone_v_many. rewrite L; [reflexivity|]. intros c' C. apply H. apply (in_map (@Some cid)) in C. exact C.
  - unfold SizeModel.size_parse_str, SizeModel.size_v_parse_str. now rewrite H.
  - unfold NumberModel.num_parse_str, NumberModel.num_v_parse_str. now rewrite H.
  - unfold JsonModel.json_parse_str, JsonModel.json_v_parse_str. now rewrite H.
  - unfold lib_parse_str, lib_v_parse_str. now rewrite H.
  - unfold re_parse_str, re_v_parse_str, re_is_match. destruct e as [p|]; [rewrite H; destruct (regex_new' p); [now rewrite H0|reflexivity]|now rewrite H1].
Qed.
Print Assumptions C123_whole_text.

Example C123_example :
  let s := bs "me@(c)Example.com(d)" in let c := ecfg true Disallow Disallow Must false in
  let yes := fun t => if eqbs t (bs "Example.com") then Some (bs "example.com") else None in
  is_ok (email_parse_str yes Debug c s) /\ email_parse_str (fun _ => None) Debug c s = Err EInvalid /\
  before_port (bs "a.org:80") (bs "a.org") /\
  is_ok (host_parse_str (fun t => if eqbs t (bs "a.org") then Some t else None) (hcfg Allow Allow Allow) (bs "a.org:80")) /\
  host_parse_str (fun _ => None) (hcfg Allow Allow Allow) (bs "a.org:80") = Err HoInvalid /\
  asks_nothing (fun idna => host_parse_str idna (hcfg Allow Allow Allow) (bs "[::1]:80")).
Proof.
  cbv zeta. split; [eexists; vm_compute; reflexivity|]. split; [vm_compute; reflexivity|]. split.
  { right. exists (bs "80"). split; [reflexivity|]. vm_compute. intuition discriminate. }
  split; [eexists; vm_compute; reflexivity|]. split; [vm_compute; reflexivity|]. intros ? ?. vm_compute. reflexivity.
Qed.
