(** Properties C42-C47 and C56-C58: email addresses. *)
From Verif Require Import EntryFacts Base IntStr NetModel NetSpec NetProofs IpModel IpSpec LocalProofs IpProofs Utf8 StrFacts Serde
  DomainModel DomainSpec DomainProofs IdnaFrag HostModel HostSpec HostProofs EmailModel EmailSpec EmailProofs EmailParts
  EmailDomain EmailMain EmailRound.
Local Open Scope N_scope.

Definition ecfg (com : bool) (ip local two : tri) (na : bool) : email_cfg :=
  {| e_comment := com; e_ip := ip; e_local := local; e_two := two; e_non_ascii := na |}.

Ltac ascii_str := apply ascii_valid; repeat (constructor; [reflexivity|]); constructor.

(** C42. A panic needs a debug build, allowed comments and an opening parenthesis at byte 64 or later. *)
Theorem C42_email_no_panic_partial : forall idna prof c s, valid_str s ->
  prof = Release \/ e_comment c = false \/ (forall a b, s = a ++ [40] ++ b -> (List.length a < 64)%nat) ->
  email_parse_str idna prof c s <> Panic /\ email_parse_string idna prof c s <> Panic /\
  email_validate_str idna prof c s <> Panic.
Proof.
  intros idna prof c s Hv H.
  assert (X : ~ (email_parse_str idna prof c s = Panic \/ email_validate_str idna prof c s = Panic)).
  { intros P. apply email_panic in P as (-> & E & a & b & Es & L); [|exact Hv].
    destruct H as [H|[H|H]]; [discriminate|congruence|]. specialize (H a b Es). lia. }
  unfold email_parse_string. tauto.
Qed.

(** In a debug build 64 letters and a comment panic: [64 - local_part_length] is below zero. *)
Theorem C42_email_no_panic_refuted : exists idna c s, idna_laws idna /\ valid_str s /\
  s = List.repeat 97 64 ++ bs "(c)@example.com" /\
  email_parse_str idna Debug c s = Panic /\ email_validate_str idna Debug c s = Panic.
Proof.
  exists idna_ascii, (ecfg true Allow Allow Allow true), (List.repeat 97 64 ++ bs "(c)@example.com").
  split; [exact idna_ascii_laws|]. split; [ascii_str|]. split; [reflexivity|]. vm_compute. split; reflexivity.
Qed.

(** The same for a quoted local part of 64 bytes. *)
Theorem C42_email_quoted_no_panic_refuted : exists idna c s, idna_laws idna /\ valid_str s /\
  s = [34] ++ List.repeat 97 62 ++ [34] ++ bs "(c)@example.com" /\
  email_parse_str idna Debug c s = Panic.
Proof.
  exists idna_ascii, (ecfg true Allow Allow Allow true), ([34] ++ List.repeat 97 62 ++ [34] ++ bs "(c)@example.com").
  split; [exact idna_ascii_laws|]. split; [ascii_str|]. split; [reflexivity|]. vm_compute. reflexivity.
Qed.

Example C42_example :
  valid_str [34; 195; 169] /\
  email_parse_str idna_ascii Debug (ecfg true Allow Allow Allow true) [34; 195; 169] = Err EInvalid /\
  email_parse_str idna_ascii Debug (ecfg false Allow Allow Allow true) (List.repeat 97 64 ++ bs "(c)@example.com") =
    Err ECommentDisallow /\
  email_parse_str idna_ascii Release (ecfg true Allow Allow Allow true) (bs "(") = Err EInvalid.
Proof.
  split; [exists [34; 233]; split; [repeat constructor|reflexivity]|]. vm_compute. repeat split; reflexivity.
Qed.

(** C43. *)
Theorem C43_email_local_nonempty : forall idna prof c s v, valid_str s -> email_parse_str idna prof c s = Ok v ->
  ev_local v <> [].
Proof.
  intros idna prof c s v Hv H. apply email_parse_spec in H; [|exact Hv].
  destruct H as (lt & q & dt & tail & canon & _ & _ & [(_ & _ & (X & _) & _)|(_ & _ & (X & _) & _)] & _); exact X.
Qed.

(** Without non-ASCII characters, and with a first comment of at most 60 bytes, the bound holds. *)
Theorem C43_email_local_bound_partial : forall idna prof c s v, valid_str s -> email_parse_str idna prof c s = Ok v ->
  e_non_ascii c = false -> (forall t, ev_c1 v = Some t -> (List.length t <= 60)%nat) ->
  (List.length (ev_local v) <= 64)%nat.
Proof.
  intros idna prof c s v Hv H Hna H1. apply email_parse_spec in H; [|exact Hv].
  destruct H as (lt & q & dt & tail & canon & _ & _ & HL & _).
  assert (Ho : (List.length (ctext (ev_c1 v)) <= 62)%nat).
  { destruct (ev_c1 v) as [t|]; cbn [ctext]; [|cbn; lia]. specialize (H1 t eq_refl).
    repeat (rewrite app_length || cbn [List.length]). lia. }
  pose proof (local_part_bound _ _ _ _ _ _ HL Hna ltac:(lia) ltac:(auto)) as B.
  destruct HL as [(_ & -> & _)|(_ & -> & _)]; [lia|]. repeat (rewrite app_length in B || cbn [List.length] in B). lia.
Qed.

(** A non-ASCII character at byte 64 gets any number of letters past the limit. *)
Theorem C43_email_non_ascii_bound_refuted : exists idna c s v, idna_laws idna /\ valid_str s /\
  email_parse_str idna Release c s = Ok v /\ email_parse_str idna Debug c s = Ok v /\
  List.length (ev_local v) = 300%nat.
Proof.
  exists idna_ascii, (ecfg false Disallow Disallow Must true),
    (List.repeat 97 63 ++ [195; 169] ++ List.repeat 97 235 ++ bs "@example.com"). eexists.
  split; [exact idna_ascii_laws|]. split.
  - exists (List.repeat 97 63 ++ [233] ++ List.repeat 97 235 ++ bs "@example.com").
    split; [|vm_compute; reflexivity]. repeat (apply Forall_cons; [reflexivity|]). constructor.
  - split; [vm_compute; reflexivity|]. split; vm_compute; reflexivity.
Qed.

(** So does a first comment of 61 bytes before a quoted local part, in ASCII. *)
Theorem C43_email_comment_bound_refuted : exists idna c s v, idna_laws idna /\ valid_str s /\ e_non_ascii c = false /\
  email_parse_str idna Release c s = Ok v /\ email_parse_str idna Debug c s = Ok v /\
  List.length (ev_local v) = 200%nat.
Proof.
  exists idna_ascii, (ecfg true Disallow Disallow Must false),
    ([40] ++ List.repeat 99 61 ++ [41; 34] ++ List.repeat 97 200 ++ [34] ++ bs "@example.com"). eexists.
  split; [exact idna_ascii_laws|]. split; [ascii_str|].
  split; [reflexivity|]. split; [vm_compute; reflexivity|]. split; vm_compute; reflexivity.
Qed.

Example C43_example : exists v,
  email_parse_str idna_ascii Debug (ecfg true Disallow Disallow Must false)
    ([40] ++ List.repeat 99 10 ++ [41] ++ List.repeat 97 52 ++ bs "@example.com") = Ok v /\
  ev_c1 v = Some (List.repeat 99 10) /\ ev_local v = List.repeat 97 52 /\
  email_parse_str idna_ascii Debug (ecfg true Disallow Disallow Must false)
    ([40] ++ List.repeat 99 10 ++ [41] ++ List.repeat 97 53 ++ bs "@example.com") = Err EInvalid.
Proof. eexists. split; [vm_compute; reflexivity|]. split; [reflexivity|]. split; [reflexivity|]. vm_compute. reflexivity. Qed.

(** C44. The validator accepts exactly [email_accepts], for every IDNA behaviour. *)
Theorem C44_email_accepts_exactly : forall idna prof c s v, valid_str s ->
  email_parse_str idna prof c s = Ok v <-> email_accepts idna prof c s v.
Proof. exact email_parse_spec. Qed.

(** Everything but text after a fourth comment belongs to a part of the address. *)
Theorem C44_email_consumed_partial : forall idna prof c s v, valid_str s -> email_parse_str idna prof c s = Ok v ->
  exists lt dt junk,
    s = ctext (ev_c1 v) ++ lt ++ ctext (ev_c2 v) ++ [64] ++ ctext (ev_c3 v) ++ dt ++ ctext (ev_c4 v) ++ junk /\
    (lt = ev_local v \/ lt = [34] ++ ev_local v ++ [34]) /\
    match ev_domain v with
    | HDomain d => idna dt = Some d
    | HIPv4 a => exists t, dt = [91] ++ t ++ [93] /\ v4_text t a
    | HIPv6 a => exists t, dt = bs "[IPv6:" ++ t ++ [93] /\ v6_text t a
    end /\
    (ev_c4 v = None -> junk = []).
Proof.
  intros idna prof c s v Hv H. apply email_parse_spec in H; [|exact Hv].
  destruct H as (lt & q & dt & tail & canon & -> & _ & HL & _ & _ & _ & HT & _ & HH & _).
  assert (T : exists junk, tail = ctext (ev_c4 v) ++ junk /\ (ev_c4 v = None -> junk = [])).
  { unfold tail_ok in HT. destruct (ev_c4 v).
    - destruct HT as (_ & _ & j & ->). exists j. split; [reflexivity|discriminate].
    - exists []. subst. split; reflexivity. }
  destruct T as (junk & -> & Hj). exists lt, dt, junk. split; [reflexivity|]. split.
  - destruct HL as [(_ & -> & _)|(_ & -> & _)]; auto.
  - split; [|exact Hj]. destruct (ev_domain v); cbn [host_text] in HH; [tauto| |];
      destruct HH as (_ & _ & t & E & Ht & _); eauto.
Qed.

Theorem C44_email_consumed_refuted : exists idna c s v, idna_laws idna /\ valid_str s /\
  s = bs "a@b.com(c) and any text (even) this" /\
  email_parse_str idna Debug c s = Ok v /\ email_parse_str idna Debug c (bs "a@b.com(c)") = Ok v.
Proof.
  exists idna_ascii, (ecfg true Allow Allow Allow true), (bs "a@b.com(c) and any text (even) this"). eexists.
  split; [exact idna_ascii_laws|]. split; [ascii_str|]. split; [reflexivity|].
  split; [vm_compute; reflexivity|]. vm_compute. reflexivity.
Qed.

Example C44_example :
  email_parse_str idna_ascii Debug (ecfg true Allow Allow Must true) (bs "(1)me(2)@(3)[IPv6:::1](4)") =
    Ok {| ev_local := bs "me"; ev_need_quoted := false; ev_domain := HIPv6 [0; 0; 0; 0; 0; 0; 0; 1];
          ev_c1 := Some (bs "1"); ev_c2 := Some (bs "2"); ev_c3 := Some (bs "3"); ev_c4 := Some (bs "4");
          ev_is_local := Some true |} /\
  email_parse_str idna_ascii Debug (ecfg true Allow Allow Must true) (bs "me@[IPv6:::1] ") = Err EInvalid.
Proof. vm_compute. repeat split; reflexivity. Qed.

(** C45. Runs of permitted characters separated by dots. *)
Definition atom_char (na : bool) (e : N) : Prop := is_atext e \/ (na = true /\ 128 <= e).
Inductive dot_atom (na : bool) : list N -> Prop :=
| da_run r : r <> [] -> Forall (atom_char na) r -> dot_atom na r
| da_dot r t : r <> [] -> Forall (atom_char na) r -> dot_atom na t -> dot_atom na (r ++ [46] ++ t).

Lemma dotted_runs na : forall n l, (List.length l <= n)%nat -> l <> [] -> (forall r, l <> 46 :: r) ->
  Forall (local_char na) l -> ~ double_dot l ->
  dot_atom na l \/ exists t, l = t ++ [46] /\ dot_atom na t.
Proof.
  assert (A : forall a, Forall (local_char na) a -> ~ In 46 a -> Forall (atom_char na) a).
  { intros a Ha Hn. rewrite Forall_forall in *. intros e He. destruct (Ha e He) as [X|[X|X]]; [left; exact X| |right; exact X].
    subst. contradiction. }
  induction n as [|n IH]; intros l Hl Hne Hh Hf Hd.
  - destruct l; [contradiction|cbn in Hl; lia].
  - destruct (first_split 46 l) as [(a & b & -> & Ha)|Hn].
    + apply Forall_app in Hf as [F1 F2]. apply Forall_inv_tail in F2.
      assert (Ne : a <> []) by (intros ->; exact (Hh b eq_refl)).
      specialize (A a F1 Ha). destruct b as [|y b].
      * right. exists a. split; [reflexivity|]. apply da_run; assumption.
      * destruct (IH (y :: b)) as [H|(t & E & H)].
        -- rewrite app_length in Hl. cbn [List.length] in *. lia.
        -- discriminate.
        -- intros r E. injection E as -> _. apply Hd. exists a, b. reflexivity.
        -- exact F2.
        -- intros (u & w & E). apply Hd. exists (a ++ 46 :: u), w. rewrite E, <- app_assoc. reflexivity.
        -- left. apply (da_dot na a (y :: b)); assumption.
        -- right. exists (a ++ [46] ++ t). split; [rewrite E, <- !app_assoc; reflexivity|].
           apply da_dot; assumption.
    + left. apply da_run; [exact Hne|]. apply A; assumption.
Qed.

(** A local part without quotes is dot-separated runs, possibly with a dot at the end. *)
Theorem C45_email_dot_atom_partial : forall idna prof c s v r, valid_str s -> email_parse_str idna prof c s = Ok v ->
  s = ctext (ev_c1 v) ++ r -> (forall r', r <> 34 :: r') ->
  dot_atom (e_non_ascii c) (ev_local v) \/
  exists t, ev_local v = t ++ [46] /\ dot_atom (e_non_ascii c) t.
Proof.
  intros idna prof c s v r Hv H Er Hq. apply email_parse_spec in H; [|exact Hv].
  destruct H as (lt & q & dt & tail & canon & -> & _ & HL & _). apply app_inv_head in Er.
  destruct HL as [(_ & -> & (H1 & H2 & H3 & H4 & _) & _)|(_ & -> & _)].
  - exact (dotted_runs _ _ _ (le_n _) H1 H2 H3 H4).
  - destruct (Hq _ (eq_sym Er)).
Qed.

Theorem C45_email_dot_atom_refuted : exists idna c v, idna_laws idna /\ valid_str (bs "a.@example.com") /\
  email_parse_str idna Debug c (bs "a.@example.com") = Ok v /\ ev_local v = bs "a." /\
  forall na, ~ dot_atom na (ev_local v).
Proof.
  exists idna_ascii, (ecfg false Disallow Disallow Must false). eexists. split; [exact idna_ascii_laws|]. split; [ascii_str|].
  split; [vm_compute; reflexivity|]. split; [reflexivity|]. intros na H. cbn [ev_local] in H.
  assert (ND : forall r, Forall (atom_char na) r -> ~ In 46 r).
  { intros r Hr Hi. rewrite Forall_forall in Hr. destruct (Hr _ Hi) as [X|[_ X]]; [|lia]. apply atext_spec in X. discriminate. }
  inversion H as [r _ Hr E|r t Hne Hr Ht E].
  - apply (ND _ Hr). right. left. reflexivity.
  - destruct r as [|x [|y r]]; [contradiction| |].
    + injection E as _ E. subst t. inversion Ht as [r' Hne' _ E'|r' t' Hne' _ _ E']; [contradiction|].
      destruct r'; [congruence|discriminate].
    + cbn in E. injection E as _ E1 E2. apply (ND _ Hr). right. left. exact E1.
Qed.

Example C45_example : exists v,
  email_parse_str idna_ascii Debug (ecfg true Disallow Disallow Must false) (bs "(x)len.me+tag@magiclen.org") = Ok v /\
  ev_local v = bs "len.me+tag" /\ ev_c1 v = Some (bs "x") /\
  email_parse_str idna_ascii Debug (ecfg true Disallow Disallow Must false) (bs "len..me@magiclen.org") = Err EInvalid /\
  email_parse_str idna_ascii Debug (ecfg true Disallow Disallow Must false) (bs ".len@magiclen.org") = Err EInvalid.
Proof. eexists. split; [vm_compute; reflexivity|]. split; [reflexivity|]. split; [reflexivity|]. split; vm_compute; reflexivity. Qed.

(** C46. The printed address reads back as the same value if quotes are printed when needed, the name has no final dot
    and the printed local and domain parts are within 64 and 255 bytes; the latter always holds unless the local part
    needs quotes. *)
Theorem C46_email_roundtrip_partial : forall idna prof c s v, idna_laws idna -> valid_str s ->
  email_parse_str idna prof c s = Ok v ->
  e_comment c = true \/ ev_need_quoted v = false ->
  (forall d u, ev_domain v = HDomain d -> d <> u ++ [46]) ->
  (List.length (local_side v) <= 64)%nat ->
  (ev_need_quoted v = true -> (List.length (domain_side v) <= 255)%nat) ->
  email_parse_str idna prof c (to_email_string c v) = Ok v /\
  visit (email_visitor idna prof c) (json_call (json_of (email_ser c v))) = Ok v.
Proof.
  intros idna prof c s v Hi Hv H Hc Hd H64 H255.
  destruct (email_roundtrip idna prof c s v Hi Hv H Hc Hd H64 H255) as [_ R]. split; [exact R|].
  unfold email_ser. cbn [json_of json_call]. unfold visit, email_visitor. rewrite R. reflexivity.
Qed.

(** With [comment(Disallow)] the quotes are dropped although they are needed. *)
Theorem C46_email_quotes_refuted : exists idna c s v, idna_laws idna /\ valid_str s /\ e_comment c = false /\
  s = [34] ++ bs "a..b" ++ [34] ++ bs "@example.com" /\
  email_parse_str idna Debug c s = Ok v /\ ev_need_quoted v = true /\ to_email_string c v = bs "a..b@example.com" /\
  email_parse_str idna Debug c (to_email_string c v) = Err EInvalid.
Proof.
  exists idna_ascii, (ecfg false Disallow Disallow Must false), ([34] ++ bs "a..b" ++ [34] ++ bs "@example.com"). eexists.
  split; [exact idna_ascii_laws|]. split; [ascii_str|]. split; [reflexivity|]. split; [reflexivity|].
  split; [vm_compute; reflexivity|]. split; [reflexivity|]. split; [reflexivity|]. vm_compute. reflexivity.
Qed.

(** The two quotes are wrongly deducted from the length of the domain part. *)
Theorem C46_email_length_refuted : exists idna c s v, idna_laws idna /\ valid_str s /\ e_comment c = true /\
  email_parse_str idna Debug c s = Ok v /\ ev_domain v = HIPv6 [1; 0; 3; 4; 5; 6; 7; 8] /\
  List.length (local_side v) = 3%nat /\ List.length (domain_side v) = 256%nat /\
  email_parse_str idna Debug c (to_email_string c v) = Err EInvalid.
Proof.
  exists idna_ascii, (ecfg true Allow Allow Allow false),
    ([34; 32; 34] ++ bs "@[IPv6:1::3:4:5:6:7:8](" ++ List.repeat 99 232 ++ [41]). eexists.
  split; [exact idna_ascii_laws|]. split; [ascii_str|]. split; [reflexivity|].
  split; [vm_compute; reflexivity|]. split; [reflexivity|]. split; [reflexivity|]. split; [vm_compute; reflexivity|].
  vm_compute. reflexivity.
Qed.

(** A name that ends in an ideographic full stop prints as a text that is refused. *)
Theorem C46_email_final_dot_refuted : exists idna c s v, idna_laws idna /\ valid_str s /\
  email_parse_str idna Debug c s = Ok v /\ to_email_string c v = bs "a@b.org." /\
  email_parse_str idna Debug c (to_email_string c v) = Err EInvalid.
Proof.
  exists idna_frag, (ecfg false Disallow Disallow Must false), (bs "a@b.org" ++ [227; 128; 130]). eexists.
  split; [exact idna_frag_laws|].
  split; [exists (bs "a@b.org" ++ [12290]); split; [repeat constructor|reflexivity]|].
  split; [vm_compute; reflexivity|]. split; [reflexivity|]. vm_compute. reflexivity.
Qed.

Example C46_example :
  let v := {| ev_local := bs "a b"; ev_need_quoted := true; ev_domain := HIPv6 [8193; 3512; 0; 0; 0; 0; 0; 1];
              ev_c1 := Some (bs "x"); ev_c2 := None; ev_c3 := None; ev_c4 := Some (bs "y"); ev_is_local := Some true |} in
  idna_laws idna_ascii /\
  email_parse_str idna_ascii Debug (ecfg true Allow Allow Must false)
    ([40; 120; 41; 34] ++ bs "a b" ++ [34] ++ bs "@[IPv6:2001:DB8:0::1](y)junk") = Ok v /\
  to_email_string (ecfg true Allow Allow Must false) v =
    [40; 120; 41; 34] ++ bs "a b" ++ [34] ++ bs "@[IPv6:2001:db8::1](y)" /\
  (List.length (local_side v) <= 64)%nat /\ (List.length (domain_side v) <= 255)%nat.
Proof. split; [exact idna_ascii_laws|]. vm_compute. repeat split; try reflexivity; lia. Qed.

(** C47. The policies hold of the returned value, and [is_local] is true. *)
Definition email_ip_ok (p : tri) (h : host) : Prop :=
  match p, h with Must, HDomain _ => False | Disallow, (HIPv4 _ | HIPv6 _) => False | _, _ => True end.
Definition email_two_ok (p : tri) (h : host) : Prop :=
  match h with HDomain d => two_ok p (localhost d) d | _ => p <> Disallow end.

Theorem C47_email_policies : forall idna prof c s v, valid_str s -> email_parse_str idna prof c s = Ok v ->
  email_ip_ok (e_ip c) (ev_domain v) /\
  local_ok (e_local c) (literal_local (ev_domain v)) /\
  email_two_ok (e_two c) (ev_domain v) /\
  (e_comment c = false -> ev_c1 v = None /\ ev_c2 v = None /\ ev_c3 v = None /\ ev_c4 v = None) /\
  field (email_field c) (literal_local (ev_domain v)) (ev_is_local v).
Proof.
  intros idna prof c s v Hv H. apply email_parse_spec in H; [|exact Hv]. pose proof (comments_off _ _ _ _ _ H) as HC.
  destruct H as (lt & q & dt & tail & canon & _ & _ & _ & _ & _ & _ & _ & _ & HH & _ & HL & HF).
  split; [|split; [exact HL|split; [|split; [exact HC|exact HF]]]].
  - destruct (ev_domain v); cbn [host_text] in HH; destruct HH as (X & _); destruct (e_ip c); cbn; congruence || exact I.
  - destruct (ev_domain v); cbn [host_text] in HH; cbn [email_two_ok]; tauto.
Qed.

Theorem C47_email_entry_points : forall idna prof c s, valid_str s ->
  email_parse_string idna prof c s = email_parse_str idna prof c s /\
  email_validate_str idna prof c s = omap (fun _ => tt) (email_parse_str idna prof c s).
Proof. intros idna prof c s Hv. split; [reflexivity|]. apply validate_lift. exact (email_validate_parse idna prof c s Hv). Qed.

Example C47_example :
  (exists v, email_parse_str idna_ascii Debug (ecfg false Must Must Must false) (bs "a@[10.0.0.1]") = Ok v /\
     ev_domain v = HIPv4 [10; 0; 0; 1]) /\
  (exists v, email_parse_str idna_ascii Debug (ecfg false Disallow Allow Must false) (bs "a@LocalHost") = Ok v /\
     ev_is_local v = Some true) /\
  email_parse_str idna_ascii Debug (ecfg false Disallow Allow Must false) (bs "a@[10.0.0.1]") = Err EIPDisallow /\
  email_parse_str idna_ascii Debug (ecfg false Must Allow Must false) (bs "a@b.com") = Err EIPMust /\
  email_parse_str idna_ascii Debug (ecfg false Allow Disallow Must false) (bs "a@[IPv6:::1]") = Err ELocalDisallow /\
  email_parse_str idna_ascii Debug (ecfg false Allow Allow Must false) (bs "a@b") = Err ETwoLabelsMust /\
  email_parse_str idna_ascii Debug (ecfg false Allow Allow Must false) (bs "(c)a@b.com") = Err ECommentDisallow.
Proof.
  split; [eexists; split; [vm_compute; reflexivity|reflexivity]|].
  split; [eexists; split; [vm_compute; reflexivity|reflexivity]|]. vm_compute. repeat split; reflexivity.
Qed.

(** C56. An IPv4 address without brackets passes as a name, even a local one. *)
Theorem C56_email_bare_address_refuted : exists idna c v a, idna_laws idna /\ idna_no_new_ipv4 idna /\
  e_ip c = Disallow /\ e_local c = Disallow /\ valid_str (bs "a@127.0.0.1") /\
  email_parse_str idna Debug c (bs "a@127.0.0.1") = Ok v /\
  ev_domain v = HDomain (bs "127.0.0.1") /\ v4_text (bs "127.0.0.1") a /\ v4_local a.
Proof.
  exists idna_ascii, (ecfg false Disallow Disallow Must false). eexists. exists [127; 0; 0; 1].
  split; [exact idna_ascii_laws|]. split; [exact idna_ascii_no_new|]. split; [reflexivity|]. split; [reflexivity|].
  split; [ascii_str|]. split; [vm_compute; reflexivity|]. split; [reflexivity|].
  split; [apply ipv4_from_str_spec; vm_compute; reflexivity|].
  apply is_local_ipv4_spec; [split; [reflexivity|repeat constructor]|reflexivity].
Qed.

(** An address in brackets does not. *)
Theorem C56_email_literal_address_partial : forall idna prof c s v, valid_str s -> email_parse_str idna prof c s = Ok v ->
  e_ip c = Disallow -> exists d, ev_domain v = HDomain d /\ (e_local c = Disallow -> ~ localhost d).
Proof.
  intros idna prof c s v Hv H E. destruct (C47_email_policies _ _ _ _ _ Hv H) as (A & B & _). rewrite E in A.
  destruct (ev_domain v) as [d|a|a]; try contradiction. exists d. split; [reflexivity|]. intros EL. rewrite EL in B. exact B.
Qed.

Example C56_example : exists v,
  email_parse_str idna_ascii Debug (ecfg false Disallow Disallow Must false) (bs "a@Example.com") = Ok v /\
  ev_domain v = HDomain (bs "example.com") /\
  email_parse_str idna_ascii Debug (ecfg false Disallow Disallow Must false) (bs "a@[127.0.0.1]") = Err EIPDisallow.
Proof. eexists. split; [vm_compute; reflexivity|]. split; [reflexivity|]. vm_compute. reflexivity. Qed.

(** C57. With [non_ascii(Disallow)] the local part is ASCII. *)
Theorem C57_email_ascii_local_partial : forall idna prof c s v, valid_str s -> email_parse_str idna prof c s = Ok v ->
  e_non_ascii c = false -> Forall (fun e => e < 128) (ev_local v).
Proof.
  intros idna prof c s v Hv H Hna. apply email_parse_spec in H; [|exact Hv].
  destruct H as (lt & q & dt & tail & canon & _ & _ & HL & _). rewrite Hna in HL.
  assert (L : forall e, local_char false e -> e < 128).
  { intros e [X|[X|[X _]]]; [|lia|discriminate]. apply atext_spec in X. destruct (kind false e); try congruence; lia. }
  apply Forall_forall. intros e He.
  destruct HL as [(_ & _ & (_ & _ & HF & _) & _)|(_ & _ & (_ & HQ & _) & _)].
  - rewrite Forall_forall in HF. auto.
  - apply in_split in He as (u & w & E). destruct (HQ u e w E) as [X|[X|[X _]]]; [auto|unfold blank in X; lia|].
    apply (special_not_local false) in X. tauto.
Qed.

(** Comments are not checked. *)
Theorem C57_email_ascii_refuted : exists idna c s v, idna_laws idna /\ valid_str s /\ e_non_ascii c = false /\
  email_parse_str idna Debug c s = Ok v /\ ev_c1 v = Some [195; 169] /\ to_email_string c v = s.
Proof.
  exists idna_ascii, (ecfg true Disallow Disallow Must false), ([40; 195; 169; 41] ++ bs "a@example.com"). eexists.
  split; [exact idna_ascii_laws|]. split.
  { exists ([40; 233; 41] ++ bs "a@example.com"). split; [repeat constructor|reflexivity]. }
  split; [reflexivity|]. split; [vm_compute; reflexivity|]. split; reflexivity.
Qed.

Example C57_example : exists v,
  email_parse_str idna_ascii Debug (ecfg true Disallow Disallow Must true) ([195; 169] ++ bs "@example.com") = Ok v /\
  email_parse_str idna_ascii Debug (ecfg true Disallow Disallow Must false) ([195; 169] ++ bs "@example.com") = Err EInvalid.
Proof. eexists. split; vm_compute; reflexivity. Qed.

(** C58. Quoted strings (RFC 5321, section 4.1.2): characters of an atom, dots, spaces, tabs, and pairs of a backslash
    and a character; the other characters of a quoted string, such as parentheses, this validator wants as pairs. *)
Inductive quoted_items (na : bool) : list N -> Prop :=
| qi_nil : quoted_items na []
| qi_char x l : local_char na x \/ x = 32 \/ x = 9 -> quoted_items na l -> quoted_items na (x :: l)
| qi_pair x l : is_special x \/ x = 92 \/ local_char na x -> quoted_items na l -> quoted_items na (92 :: x :: l).

Lemma items_run na : forall l, quoted_items na l -> forall p, (p + List.length l <= 63)%nat ->
  qrun na p false l /\ est false l = false.
Proof.
  assert (SL : forall x, local_char na x -> step x false = false /\ step x true = false).
  { intros x X. assert (B : ~ blank x); [|split; apply step_nonblank, B].
    intros [->|[->| ->]]; destruct X as [X|[X|[_ X]]]; try lia; apply atext_spec in X; discriminate. }
  intros l H. induction H as [|x l X H IH|x l X H IH]; intros p Hp.
  - split; [exact I|reflexivity].
  - cbn [List.length] in Hp. assert (S0 : step x false = false).
    { destruct X as [X|[->| ->]]; [apply SL, X|reflexivity|reflexivity]. }
    cbn [qrun est]. rewrite S0. destruct (IH (S p) ltac:(lia)) as [A B]. split; [|exact B].
    split; [|split; [intros _; lia|exact A]]. unfold q_char, blank. tauto.
  - cbn [List.length] in Hp. assert (S0 : step x true = false).
    { destruct X as [X|[->|X]]; [|reflexivity|apply SL, X]. apply step_nonblank. apply (special_not_local na x X). }
    cbn [qrun est]. change (step 92 false) with true. rewrite S0. destruct (IH (S (S p)) ltac:(lia)) as [A B].
    split; [|exact B]. split; [right; left; left; reflexivity|]. split; [intros _; lia|].
    split; [|split; [intros _; lia|exact A]]. unfold q_char, blank. destruct X as [X|[X|X]]; auto.
Qed.

Lemma items_quoted na l : quoted_items na l -> l <> [] -> (List.length l <= 62)%nat -> quoted na 0 l.
Proof.
  intros H Hne HL. destruct l as [|x b]; [contradiction|].
  destruct (items_run na (x :: b) H 1 ltac:(lia)) as [A B]. cbn [qrun est] in A, B. destruct A as (A1 & A2 & A3).
  apply quoted_body. split; [|split; [lia|split; [exact A3|exact B]]].
  destruct A1 as [X|[X|[_ X]]]; [auto|auto|discriminate].
Qed.

(** Any such quoted string that fits is accepted wherever the letter [a] is. *)
Theorem C58_email_quoted_string_partial : forall idna prof c l d v, valid_str l -> valid_str d ->
  email_parse_str idna prof c ([97] ++ [64] ++ d) = Ok v ->
  quoted_items (e_non_ascii c) l -> l <> [] -> (List.length l <= 62)%nat ->
  exists w, email_parse_str idna prof c ([34] ++ l ++ [34; 64] ++ d) = Ok w /\
    ev_local w = l /\ (ev_need_quoted w = true <-> needs_quotes l) /\ ev_domain w = ev_domain v.
Proof.
  intros idna prof c l d v Hl Hd H Hi Hne H62.
  assert (HV1 : valid_str ([97] ++ [64] ++ d)) by (apply valid_app; [apply valid_one; lia|]; apply valid_app; [apply valid_one; lia|exact Hd]).
  apply email_parse_spec in H; [|exact HV1].
  destruct H as (lt & q & dt & tail & canon & Es & HL & HLT & K1 & K2 & K3 & K4 & HS & HH & [Hn Hcan] & Hloc & Hf).
  assert (E : ev_c1 v = None /\ lt = [97] /\ ev_c2 v = None /\ d = ctext (ev_c3 v) ++ dt ++ tail /\ q && ev_need_quoted v = false).
  { destruct (ev_c1 v) as [t|]; [discriminate|]. cbn [ctext app List.length] in *.
    pose proof (local_text_head idna _ _ _ _ _ _ HLT) as [L1 _].
    destruct lt as [|x [|y lt]]; [contradiction| |].
    - cbn in Es. injection Es as <- Es. split; [reflexivity|]. split; [reflexivity|].
      destruct (ev_c2 v); [discriminate|]. cbn in Es. injection Es as Es. split; [reflexivity|]. split; [exact Es|].
      destruct HLT as [(-> & _)|(_ & X & _)]; [reflexivity|discriminate].
    - cbn in Es. injection Es as <- <- Es. exfalso. destruct HLT as [(_ & <- & (_ & _ & F & _) & _)|(_ & X & _)]; [|discriminate].
      apply Forall_inv_tail, Forall_inv in F. destruct F as [X|[X|[_ X]]]; [|lia|lia]. apply atext_spec in X. discriminate. }
  destruct E as (E1 & -> & E2 & -> & EQ). rewrite E1, E2 in *. rewrite EQ, !Nat.add_0_r in Hcan. cbn [ctext app] in *.
  pose proof (items_quoted _ _ Hi Hne H62) as HQ.
  assert (D : needs_quotes l \/ ~ needs_quotes l).
  { destruct l as [|x b]; [contradiction|]. pose proof HQ as HQ'. apply quoted_body in HQ' as (F1 & _ & F3 & _).
    pose proof (needs_spec _ _ _ _ F1 F3) as NS. destruct (nqr _ _ _); [left; apply NS; reflexivity|right].
    intros X. apply NS in X. discriminate. }
  assert (NQ : exists nq : bool, nq = true <-> needs_quotes l) by (destruct D; [exists true|exists false]; intuition congruence).
  destruct NQ as [nq NQ].
  exists {| ev_local := l; ev_need_quoted := nq; ev_domain := ev_domain v; ev_c1 := None; ev_c2 := None; ev_c3 := ev_c3 v;
            ev_c4 := ev_c4 v; ev_is_local := ev_is_local v |}.
  split; [|auto]. apply email_parse_spec.
  { apply (valid_app [34]); [apply valid_one; lia|]. apply valid_app; [exact Hl|].
    apply (valid_app [34]); [apply valid_one; lia|]. apply (valid_app [64]); [apply valid_one; lia|exact Hd]. }
  exists ([34] ++ l ++ [34]), true, dt, tail, canon. cbn [ev_local ev_need_quoted ev_domain ev_c1 ev_c2 ev_c3 ev_c4 ev_is_local ctext].
  split; [cbn [app]; rewrite <- app_assoc; reflexivity|].
  split. { cbn [List.length app] in *. rewrite app_length. cbn [List.length]. lia. }
  split; [right; auto|]. split; [exact K1|]. split; [exact K2|]. split; [exact K3|]. split; [exact K4|].
  split; [intros t X; discriminate|]. split; [exact HH|]. split; [|auto].
  cbn zeta. split; [exact Hn|]. intros X. destruct nq; cbn [andb] in *; lia.
Qed.

(** An escaped space is refused at the end ... *)
Theorem C58_email_escaped_space_refuted : exists idna c s, idna_laws idna /\ valid_str s /\
  s = [34; 97; 92; 32; 34] ++ bs "@example.com" /\ email_parse_str idna Debug c s = Err EInvalid /\
  is_ok (email_parse_str idna Debug c (bs "a@example.com")).
Proof.
  exists idna_ascii, (ecfg true Allow Allow Allow true), ([34; 97; 92; 32; 34] ++ bs "@example.com").
  split; [exact idna_ascii_laws|]. split; [ascii_str|]. split; [reflexivity|]. split; [vm_compute; reflexivity|].
  eexists. vm_compute. reflexivity.
Qed.

(** ... and escapes the character after it, so that a bare quote does not end the local part. *)
Theorem C58_email_escape_past_space_refuted : exists idna c s v, idna_laws idna /\ valid_str s /\
  s = [34; 97; 92; 32; 34; 98; 34] ++ bs "@example.com" /\ email_parse_str idna Debug c s = Ok v /\
  ev_local v = [97; 92; 32; 34; 98].
Proof.
  exists idna_ascii, (ecfg true Allow Allow Allow true), ([34; 97; 92; 32; 34; 98; 34] ++ bs "@example.com"). eexists.
  split; [exact idna_ascii_laws|]. split; [ascii_str|]. split; [reflexivity|]. split; [vm_compute; reflexivity|]. reflexivity.
Qed.

Example C58_example : quoted_items false [97; 32; 92; 34; 92; 92; 46; 46; 98] /\ exists v,
  email_parse_str idna_ascii Debug (ecfg false Disallow Disallow Must false)
    ([34; 97; 32; 92; 34; 92; 92; 46; 46; 98; 34] ++ bs "@example.com") = Ok v /\ ev_need_quoted v = true.
Proof.
  split.
  - assert (A : forall e, atext e = true -> local_char false e) by (intros e X; left; apply atext_spec, X).
    apply qi_char; [left; apply A; reflexivity|]. apply qi_char; [auto|]. apply qi_pair; [left; right; reflexivity|].
    apply qi_pair; [auto|]. apply qi_char; [left; right; left; reflexivity|]. apply qi_char; [left; right; left; reflexivity|].
    apply qi_char; [left; apply A; reflexivity|]. constructor.
  - eexists. split; [vm_compute; reflexivity|reflexivity].
Qed.

Print Assumptions C42_email_no_panic_partial.
Print Assumptions C42_email_no_panic_refuted.
Print Assumptions C43_email_local_bound_partial.
Print Assumptions C43_email_comment_bound_refuted.
Print Assumptions C44_email_accepts_exactly.
Print Assumptions C44_email_consumed_partial.
Print Assumptions C44_email_consumed_refuted.
Print Assumptions C45_email_dot_atom_partial.
Print Assumptions C45_email_dot_atom_refuted.
Print Assumptions C46_email_roundtrip_partial.
Print Assumptions C46_email_quotes_refuted.
Print Assumptions C46_email_length_refuted.
Print Assumptions C47_email_policies.
Print Assumptions C56_email_bare_address_refuted.
Print Assumptions C57_email_ascii_local_partial.
Print Assumptions C58_email_quoted_string_partial.
