(** The domain part of an email address. *)
From Verif Require Import Base IntStr IntStrProofs NetModel NetSpec NetProofs IpModel IpSpec LocalProofs IpProofs
  Utf8 StrFacts Serde DomainModel DomainSpec DomainProofs HostModel HostSpec HostProofs EmailModel EmailSpec EmailProofs
  EmailParts.
Local Open Scope N_scope.

(** The policy checks are those of the domain validator, with other errors. *)
Definition edc (c : email_cfg) : domain_cfg :=
  {| d_ipv4 := Allow; d_local := e_local c; d_port := Allow; d_two := e_two c |}.
Definition d2e (e : domain_err) : email_err :=
  match e with
  | DLocalMust => ELocalMust | DLocalDisallow => ELocalDisallow
  | DTwoLabelsMust => ETwoLabelsMust | DTwoLabelsDisallow => ETwoLabelsDisallow
  | _ => EInvalid
  end.
Lemma e_check_local_eq c b : e_check_local c b = omap_err d2e (d_check_local (edc c) b).
Proof. unfold e_check_local, d_check_local. cbn [edc d_local]. destruct (e_local c), b; reflexivity. Qed.
Lemma e_check_two_eq c b d : e_check_two c b d = omap_err d2e (d_check_two (edc c) b d).
Proof.
  unfold e_check_two, d_check_two. cbn [edc d_two].
  destruct (e_two c), b, (is_at_least_two_labels_domain d); reflexivity.
Qed.
Lemma e_flag_eq c b : e_flag c b = d_flag (edc c) b.
Proof. unfold e_flag, d_flag. cbn [edc d_two d_local]. rewrite andb_comm. reflexivity. Qed.
Lemma e_flag_local c b (P : Prop) : (b = true <-> P) -> (local_ok (e_local c) (e_flag c b = true) <-> local_ok (e_local c) P).
Proof. rewrite e_flag_eq. apply (flag_local (edc c)). Qed.
Lemma e_flag_two c b (P : Prop) d : (b = true <-> P) -> (two_ok (e_two c) (e_flag c b = true) d <-> two_ok (e_two c) P d).
Proof. rewrite e_flag_eq. apply (flag_two (edc c)). Qed.
Lemma e_flag_field c b (P : Prop) (f : option bool) : (b = true <-> P) ->
  (f = (if email_field c then Some (e_flag c b) else None) <-> field (email_field c) P f).
Proof.
  intros H. unfold email_field, e_flag.
  assert (F : f = None <-> field false P f) by (destruct f; cbn; intuition congruence).
  pose proof (field_iff true P b f H) as T. destruct (e_local c), (e_two c); cbn [is_allow_only andb]; assumption.
Qed.
Lemma e_local_spec c b : e_check_local c b = Ok tt <-> local_ok (e_local c) (b = true).
Proof. rewrite e_check_local_eq, omap_err_ok. apply (d_check_local_spec (edc c)). Qed.
Lemma e_local_cases c b : e_check_local c b = Ok tt \/ exists e, e_check_local c b = Err e.
Proof. unfold e_check_local. destruct (e_local c), b; cbn; eauto. Qed.
Lemma e_two_spec c b d : e_check_two c b d = Ok tt <-> two_ok (e_two c) (b = true) d.
Proof. rewrite e_check_two_eq, omap_err_ok. apply (d_check_two_spec (edc c)). Qed.
Lemma e_two_cases c b d : e_check_two c b d = Ok tt \/ exists e, e_check_two c b d = Err e.
Proof. unfold e_check_two. destruct (e_two c), b, (is_at_least_two_labels_domain d); cbn; eauto. Qed.

Lemma prefix5 rest : eqbs (firstn 5 rest) (bs "IPv6:") = true <-> exists r, rest = bs "IPv6:" ++ r.
Proof.
  rewrite eqbs_eq. split.
  - intros E. exists (skipn 5 rest). rewrite <- E. symmetry. apply firstn_skipn.
  - intros (r & ->). reflexivity.
Qed.

(** Address literals. *)
Definition literal4 (c : email_cfg) (pre rest : list N) (h : host) (l : bool) (n : nat) (added : Z) : Prop :=
  exists t a r, h = HIPv4 a /\ rest = t ++ 93 :: r /\ v4_text t a /\ l = e_flag c (is_local_ipv4 a) /\
    n = List.length (pre ++ [91] ++ t ++ [93]) /\ added = 0%Z.
Definition literal6 (c : email_cfg) (pre rest : list N) (h : host) (l : bool) (n : nat) (added : Z) : Prop :=
  exists t a r, h = HIPv6 a /\ rest = bs "IPv6:" ++ t ++ 93 :: r /\ v6_text t a /\ l = e_flag c (is_local_ipv6 a) /\
    n = List.length (pre ++ bs "[IPv6:" ++ t ++ [93]) /\
    added = (Z.of_nat (List.length (ipv6_display a)) - Z.of_nat (List.length t))%Z.

Lemma v4_no_bracket t a : v4_text t a -> ~ In 93 t.
Proof. intros H. apply (v4_not_in _ _ _ H). unfold v4_char. lia. Qed.
Lemma v6_no_bracket t a : v6_text t a -> ~ In 93 t.
Proof. intros H. apply (v6_not_in _ _ _ H). unfold v6_char. lia. Qed.

Lemma v4_not_prefix t a r : v4_text t a -> t ++ 93 :: r <> bs "IPv6:" ++ skipn 5 (t ++ 93 :: r).
Proof.
  intros H E. destruct t as [|x t].
  - discriminate.
  - cbn in E. injection E as -> _. apply (v4_not_in _ _ 73 H); [unfold v4_char; lia|left; reflexivity].
Qed.


Lemma handle_ip_spec c pre rest h l n added : valid_str (pre ++ 91 :: rest) ->
  (e_handle_ip c (pre ++ 91 :: rest) (List.length pre) = Ok (h, l, n, added) <->
   e_ip c <> Disallow /\ e_two c <> Disallow /\ (literal4 c pre rest h l n added \/ literal6 c pre rest h l n added)).
Proof.
  intros Hv. unfold e_handle_ip.
  assert (G : forall (A : Type) (x : A) (y : A), match e_ip c with Disallow => x | _ => y end = if is_disallow (e_ip c) then x else y)
    by (intros; destruct (e_ip c); reflexivity).
  rewrite G. destruct (is_disallow (e_ip c)) eqn:EI.
  { split; [discriminate|]. intros [H _]. apply disallow_spec in H. congruence. }
  apply disallow_spec in EI. destruct (is_disallow (e_two c)) eqn:ET.
  { split; [discriminate|]. intros (_ & H & _). apply disallow_spec in H. congruence. }
  apply disallow_spec in ET.
  assert (S1 : pre ++ 91 :: rest = (pre ++ [91]) ++ rest) by (rewrite <- app_assoc; reflexivity).
  assert (L1 : (List.length pre + 1)%nat = List.length (pre ++ [91])) by (rewrite app_length; reflexivity).
  destruct (Nat.ltb_spec (List.length pre + 1) (List.length (pre ++ 91 :: rest))) as [L|L].
  2: { split; [discriminate|]. intros (_ & _ & [(t & a & r & _ & -> & _)|(t & a & r & _ & -> & _)]); exfalso;
       repeat (rewrite app_length in L || cbn [List.length app] in L); lia. }
  rewrite L1, S1, slice_from_app. cbn [obind].
  assert (N2 : (List.length pre + 1 + 5)%nat = List.length (pre ++ bs "[IPv6:")) by (rewrite app_length; cbn; lia).
  destruct (eqbs (firstn 5 rest) (bs "IPv6:")) eqn:EP.
  - apply prefix5 in EP as (rest' & ->).
    assert (N4 : ~ literal4 c pre (bs "IPv6:" ++ rest') h l n added).
    { intros (t & a & r & _ & E & Ht & _). apply (v4_not_prefix t a r Ht). rewrite <- E. reflexivity. }
    assert (S2 : (pre ++ [91]) ++ bs "IPv6:" ++ rest' = (pre ++ bs "[IPv6:") ++ rest') by (rewrite <- !app_assoc; reflexivity).
    rewrite <- L1, N2, S2.
    destruct (Nat.ltb_spec (List.length (pre ++ bs "[IPv6:")) (List.length ((pre ++ bs "[IPv6:") ++ rest'))) as [L2|L2].
    2: { split; [discriminate|]. intros (_ & _ & [H|(t & a & r & _ & E & _)]); [contradiction|]. exfalso.
         change (bs "IPv6:" ++ rest' = bs "IPv6:" ++ (t ++ 93 :: r)) in E. apply app_inv_head in E. subst rest'.
         rewrite !app_length in L2. cbn in L2. lia. }
    rewrite slice_from_app. cbn [obind]. destruct (position 93 rest') as [i|] eqn:E93.
    + apply position_some in E93 as (t & r & -> & <- & Ht). rewrite (Nat.add_comm (List.length t)), slice_between;
        [|rewrite <- S2, <- S1; exact Hv|apply (ascii_end_snoc (pre ++ bs "[IPv6") 58) || (right; exists (pre ++ bs "[IPv6"), 58; split; [rewrite <- app_assoc; reflexivity|lia])|lia].
      cbn [obind]. destruct (ipv6_from_str t) as [a|] eqn:E6.
      * apply ipv6_from_str_spec in E6. split.
        -- intros E. injection E as <- <- <- <-. split; [exact EI|]. split; [exact ET|]. right. exists t, a, r.
           repeat (split; [reflexivity || exact E6|]). split; [|reflexivity]. rewrite !app_length. cbn. lia.
        -- intros (_ & _ & [H|(t' & a' & r' & -> & E & Ht' & -> & -> & ->)]); [contradiction|].
           change (bs "IPv6:" ++ t ++ 93 :: r = bs "IPv6:" ++ (t' ++ 93 :: r')) in E. apply app_inv_head in E.
           apply split_unique in E as [<- <-]; [|exact Ht|exact (v6_no_bracket _ _ Ht')].
           apply ipv6_from_str_spec in E6, Ht'. rewrite E6 in Ht'. injection Ht' as ->.
           do 2 f_equal. f_equal. rewrite !app_length. cbn. lia.
      * split; [discriminate|]. intros (_ & _ & [H|(t' & a' & r' & -> & E & Ht' & _)]); [contradiction|]. exfalso.
        change (bs "IPv6:" ++ t ++ 93 :: r = bs "IPv6:" ++ (t' ++ 93 :: r')) in E. apply app_inv_head in E.
        apply split_unique in E as [<- <-]; [|exact Ht|exact (v6_no_bracket _ _ Ht')].
        apply ipv6_from_str_spec in Ht'. congruence.
    + apply position_none in E93. split; [discriminate|].
      intros (_ & _ & [H|(t' & a' & r' & -> & E & Ht' & _)]); [contradiction|]. exfalso.
      change (bs "IPv6:" ++ rest' = bs "IPv6:" ++ (t' ++ 93 :: r')) in E. apply app_inv_head in E. apply E93. rewrite E.
      apply in_or_app. right. left. reflexivity.
  - assert (N6 : ~ literal6 c pre rest h l n added).
    { intros (t & a & r & _ & E & _). apply not_true_iff_false in EP. apply EP, prefix5. eauto. }
    destruct (position 93 rest) as [i|] eqn:E93.
    + apply position_some in E93 as (t & r & -> & <- & Ht). rewrite (Nat.add_comm (List.length t)), slice_between;
        [|rewrite <- S1; exact Hv|apply ascii_end_snoc; lia|lia].
      cbn [obind]. destruct (ipv4_from_str t) as [a|] eqn:E4.
      * apply ipv4_from_str_spec in E4. split.
        -- intros E. injection E as <- <- <- <-. split; [exact EI|]. split; [exact ET|]. left. exists t, a, r.
           repeat (split; [reflexivity || exact E4|]). split; [|reflexivity]. rewrite !app_length. cbn [List.length]. lia.
        -- intros (_ & _ & [(t' & a' & r' & -> & E & Ht' & -> & -> & ->)|H]); [|contradiction].
           apply split_unique in E as [<- <-]; [|exact Ht|exact (v4_no_bracket _ _ Ht')].
           apply ipv4_from_str_spec in E4, Ht'. rewrite E4 in Ht'. injection Ht' as ->.
           do 2 f_equal. f_equal. rewrite !app_length. cbn [List.length]. lia.
      * split; [discriminate|]. intros (_ & _ & [(t' & a' & r' & -> & E & Ht' & _)|H]); [|contradiction]. exfalso.
        apply split_unique in E as [<- <-]; [|exact Ht|exact (v4_no_bracket _ _ Ht')].
        apply ipv4_from_str_spec in Ht'. congruence.
    + apply position_none in E93. split; [discriminate|].
      intros (_ & _ & [(t' & a' & r' & -> & E & Ht' & _)|H]); [|contradiction]. exfalso.
      apply E93. rewrite E. apply in_or_app. right. left. reflexivity.
Qed.

Lemma handle_ip_no_panic c pre rest : valid_str (pre ++ 91 :: rest) ->
  e_handle_ip c (pre ++ 91 :: rest) (List.length pre) <> Panic.
Proof.
  intros Hv. unfold e_handle_ip.
  assert (S1 : pre ++ 91 :: rest = (pre ++ [91]) ++ rest) by (rewrite <- app_assoc; reflexivity).
  assert (L1 : (List.length pre + 1)%nat = List.length (pre ++ [91])) by (rewrite app_length; reflexivity).
  assert (G : forall (A : Type) (x : A) (y : A), match e_ip c with Disallow => x | _ => y end = if is_disallow (e_ip c) then x else y)
    by (intros; destruct (e_ip c); reflexivity).
  rewrite G. destruct (is_disallow (e_ip c)); [discriminate|].
  destruct (is_disallow (e_two c)); [discriminate|]. destruct (_ <? _)%nat; [|discriminate].
  rewrite L1, S1, slice_from_app. cbn [obind]. destruct (eqbs _ _) eqn:EP.
  - apply prefix5 in EP as (rest' & ->).
    assert (N2 : (List.length pre + 1 + 5)%nat = List.length (pre ++ bs "[IPv6:")) by (rewrite app_length; cbn; lia).
    assert (S2 : (pre ++ [91]) ++ bs "IPv6:" ++ rest' = (pre ++ bs "[IPv6:") ++ rest') by (rewrite <- !app_assoc; reflexivity).
    rewrite <- L1, N2, S2. destruct (_ <? _)%nat; [|discriminate]. rewrite slice_from_app. cbn [obind].
    destruct (position 93 rest') as [i|] eqn:E93; [|discriminate].
    apply position_some in E93 as (t & r & -> & <- & Ht). rewrite (Nat.add_comm (List.length t)), slice_between;
      [|rewrite <- S2, <- S1; exact Hv|right; exists (pre ++ bs "[IPv6"), 58; split; [rewrite <- app_assoc; reflexivity|lia]|lia].
    cbn [obind]. destruct (ipv6_from_str t); discriminate.
  - destruct (position 93 rest) as [i|] eqn:E93; [|discriminate].
    apply position_some in E93 as (t & r & -> & <- & Ht). rewrite (Nat.add_comm (List.length t)), slice_between;
      [|rewrite <- S1; exact Hv|apply ascii_end_snoc; lia|lia].
    cbn [obind]. destruct (ipv4_from_str t); discriminate.
Qed.

(** Names. *)
Section WithIdna.
Variable idna : list N -> option (list N).

Definition name_part (c : email_cfg) (pre rest : list N) (h : host) (l : bool) (n : nat) (added : Z) : Prop :=
  exists dt r d, rest = dt ++ r /\ ~ In 40 dt /\ (r = [] \/ exists r', r = 40 :: r') /\ (forall u, dt <> u ++ [46]) /\
    idna dt = Some d /\ h = HDomain d /\ l = e_flag c (is_local_domain d) /\ two_ok (e_two c) (l = true) d /\
    n = (List.length pre + List.length dt)%nat /\ added = (Z.of_nat (List.length d) - Z.of_nat (List.length dt))%Z.

Lemma domain_str_spec pre rest : valid_str (pre ++ rest) -> ascii_end pre ->
  exists dt r, rest = dt ++ r /\ ~ In 40 dt /\ (r = [] \/ exists r', r = 40 :: r') /\
    match position 40 rest with
    | Some i => @str_slice email_err (pre ++ rest) (List.length pre) (i + List.length pre)
    | None => str_slice_from (pre ++ rest) (List.length pre)
    end = Ok dt.
Proof.
  intros Hv Ha. destruct (position 40 rest) as [i|] eqn:E.
  - apply position_some in E as (t & r & -> & <- & Ht). exists t, (40 :: r). split; [reflexivity|]. split; [exact Ht|].
    split; [eauto|]. rewrite Nat.add_comm. apply slice_between; [exact Hv|exact Ha|lia].
  - apply position_none in E. exists rest, []. rewrite app_nil_r. split; [reflexivity|]. split; [exact E|]. split; [auto|].
    apply slice_end; assumption.
Qed.

Lemma paren_unique dt r dt' r' : dt ++ r = dt' ++ r' -> ~ In 40 dt -> ~ In 40 dt' ->
  (r = [] \/ exists x, r = 40 :: x) -> (r' = [] \/ exists x, r' = 40 :: x) -> dt = dt' /\ r = r'.
Proof.
  intros E H H' [->|[x ->]] [->|[x' ->]].
  - rewrite !app_nil_r in E. auto.
  - rewrite app_nil_r in E. exfalso. apply H. rewrite E. apply in_or_app. right. left. reflexivity.
  - rewrite app_nil_r in E. exfalso. apply H'. rewrite <- E. apply in_or_app. right. left. reflexivity.
  - apply split_unique in E as [-> ->]; auto.
Qed.

Lemma handle_domain_spec c pre rest h l n added : valid_str (pre ++ rest) -> ascii_end pre ->
  (e_handle_domain idna c (pre ++ rest) (List.length pre) = Ok (h, l, n, added) <->
   e_ip c <> Must /\ name_part c pre rest h l n added).
Proof.
  intros Hv Ha. unfold e_handle_domain.
  assert (G : forall (A : Type) (x : A) (y : A), match e_ip c with Must => x | _ => y end = if is_must (e_ip c) then x else y)
    by (intros; destruct (e_ip c); reflexivity).
  rewrite G. destruct (is_must (e_ip c)) eqn:EI.
  { split; [discriminate|]. intros [H _]. destruct (e_ip c); try discriminate. contradiction. }
  assert (NM : e_ip c <> Must) by (intros X; rewrite X in EI; discriminate).
  rewrite slice_from_app. cbn [obind]. destruct (domain_str_spec pre rest Hv Ha) as (dt & r & E & Hdt & Hr & ->).
  cbn [obind]. subst rest. unfold name_part. split.
  - destruct (ends_with 46 dt) eqn:EE; [discriminate|].
    destruct (idna dt) as [d|] eqn:Hi; [|discriminate].
    destruct (e_two_cases c (e_flag c (is_local_domain d)) d) as [E2|[e E2]]; rewrite E2; cbn [obind]; [|discriminate].
    intros E. injection E as <- <- <- <-. split; [exact NM|]. exists dt, r, d. split; [reflexivity|].
    split; [exact Hdt|]. split; [exact Hr|]. split.
    { intros u ->. apply not_true_iff_false in EE. apply EE, ends_with_spec. eauto. }
    split; [exact Hi|]. split; [reflexivity|]. split; [reflexivity|]. split; [apply e_two_spec; exact E2|]. auto.
  - intros (_ & dt' & r' & d & E & Hdt' & Hr' & Hd & Hi & -> & -> & Ht & -> & ->).
    apply paren_unique in E as [<- <-]; auto.
    replace (ends_with 46 dt) with false.
    2: { symmetry. apply not_true_iff_false. rewrite ends_with_spec. intros (u & Hu). exact (Hd _ Hu). }
    rewrite Hi. rewrite (proj2 (e_two_spec _ _ _) Ht). reflexivity.
Qed.

Lemma handle_domain_no_panic c pre rest : valid_str (pre ++ rest) -> ascii_end pre ->
  e_handle_domain idna c (pre ++ rest) (List.length pre) <> Panic.
Proof.
  intros Hv Ha. unfold e_handle_domain.
  assert (G : forall (A : Type) (x : A) (y : A), match e_ip c with Must => x | _ => y end = if is_must (e_ip c) then x else y)
    by (intros; destruct (e_ip c); reflexivity).
  rewrite G. destruct (is_must (e_ip c)); [discriminate|].
  rewrite slice_from_app. cbn [obind]. destruct (domain_str_spec pre rest Hv Ha) as (dt & r & E & Hdt & Hr & ->).
  cbn [obind]. destruct (ends_with 46 dt); [discriminate|]. destruct (idna dt) as [d|]; [|discriminate].
  destruct (e_two_cases c (e_flag c (is_local_domain d)) d) as [E2|[e E2]]; rewrite E2; discriminate.
Qed.

(** The whole domain part. *)
Definition host_flag (h : host) : bool :=
  match h with HDomain d => is_local_domain d | HIPv4 a => is_local_ipv4 a | HIPv6 a => is_local_ipv6 a end.

Definition domain_accepts (c : email_cfg) (s : list N) (qn : bool) (h : host) (c3 c4 : option (list N)) : Prop :=
  exists dt tail canon, s = ctext c3 ++ dt ++ tail /\ comment_ok c 253 c3 /\ tail_ok c c4 tail /\
    host_text idna c dt h canon /\
    (List.length s <= 255 /\ (List.length dt + (if qn then 2 else 0) < canon ->
       List.length s + canon <= 255 + List.length dt + (if qn then 2 else 0)))%nat /\
    local_ok (e_local c) (literal_local h).

Lemma host_flag_spec c dt h canon : host_text idna c dt h canon -> (host_flag h = true <-> literal_local h).
Proof.
  destruct h as [d|a|a]; cbn.
  - intros _. apply localhost_spec.
  - intros (_ & _ & t & _ & H & _). apply is_local_ipv4_spec, (v4_text_addr _ _ H).
  - intros (_ & _ & t & _ & H & _). apply is_local_ipv6_spec, (v6_text_addr _ _ H).
Qed.

Definition host_step (c : email_cfg) (s : list N) (n : nat) : outcome email_err (host * bool * nat * Z) :=
  let? b := idx s n in
  if b =? 40 then Err EInvalid else if b =? 91 then e_handle_ip c s n else e_handle_domain idna c s n.

Lemma host_step_spec c pre rest tail c4 h l n added : valid_str (pre ++ rest) -> ascii_end pre ->
  (host_step c (pre ++ rest) (List.length pre) = Ok (h, l, n, added) /\
   (exists pre', pre ++ rest = pre' ++ tail /\ n = List.length pre') /\ tail_ok c c4 tail <->
   exists dt canon, rest = dt ++ tail /\ tail_ok c c4 tail /\ host_text idna c dt h canon /\
     l = e_flag c (host_flag h) /\ n = List.length (pre ++ dt) /\ added = (Z.of_nat canon - Z.of_nat (List.length dt))%Z).
Proof.
  intros Hv Ha.
  assert (TL : tail_ok c c4 tail -> tail = [] \/ exists x, tail = 40 :: x).
  { unfold tail_ok. destruct c4; [|auto]. intros (_ & _ & j & ->). right. cbn. eauto. }
  unfold host_step. split.
  - intros (E & (pre' & ES & EN) & HT). revert E. destruct rest as [|b rest].
    { rewrite app_nil_r, idx_end. discriminate. }
    rewrite idx_app. cbn [obind]. destruct (N.eqb_spec b 40) as [|H40]; [discriminate|].
    destruct (N.eqb_spec b 91) as [->|H91]; intros E.
    + apply handle_ip_spec in E as (E1 & E2 & [H|H]); [| |exact Hv].
      * destruct H as (t & a & r & -> & -> & Ht & -> & -> & ->).
        assert (T : tail = r).
        { assert (X : pre ++ 91 :: t ++ 93 :: r = (pre ++ [91] ++ t ++ [93]) ++ r) by (rewrite <- !app_assoc; reflexivity).
          rewrite X in ES. rewrite <- (skipn_app_len (pre ++ [91] ++ t ++ [93]) r), ES, EN, skipn_app_len. reflexivity. }
        subst r. exists ([91] ++ t ++ [93]), (List.length ([91] ++ t ++ [93])).
        split; [rewrite <- !app_assoc; reflexivity|]. split; [exact HT|]. split; [cbn [host_text]; eauto 6|].
        repeat (split; [reflexivity|]). lia.
      * destruct H as (t & a & r & -> & -> & Ht & -> & -> & ->).
        assert (T : tail = r).
        { assert (X : pre ++ 91 :: bs "IPv6:" ++ t ++ 93 :: r = (pre ++ bs "[IPv6:" ++ t ++ [93]) ++ r) by (rewrite <- !app_assoc; reflexivity).
          rewrite X in ES. rewrite <- (skipn_app_len (pre ++ bs "[IPv6:" ++ t ++ [93]) r), ES, EN, skipn_app_len. reflexivity. }
        subst r. exists (bs "[IPv6:" ++ t ++ [93]), (List.length (ipv6_display a) + 7)%nat.
        split; [rewrite <- !app_assoc; reflexivity|]. split; [exact HT|]. split; [cbn [host_text]; eauto 6|].
        repeat (split; [reflexivity|]). rewrite !app_length. cbn [List.length bs]. cbn. lia.
    + apply handle_domain_spec in E as (E1 & H); [|exact Hv|exact Ha].
      destruct H as (dt & r & d & E & Hdt & Hr & Hd & Hi & -> & -> & Ht & -> & ->).
      assert (T : tail = r).
      { rewrite E, app_assoc in ES. rewrite <- app_length in EN. rewrite <- (skipn_app_len (pre ++ dt) r), ES, EN, skipn_app_len. reflexivity. }
      subst r. exists dt, (List.length d). split; [exact E|]. split; [exact HT|]. split.
      * cbn [host_text]. split; [exact E1|]. split.
        { intros ->. cbn in E. destruct (TL HT) as [->|[x ->]]; [discriminate|]. injection E as -> _. contradiction. }
        split; [exact Hdt|]. split.
        { intros r ->. cbn in E. injection E as -> _. contradiction. }
        split; [exact Hd|]. split; [exact Hi|]. split; [|reflexivity].
        apply (e_flag_two c (is_local_domain d) _ d (localhost_spec d)). exact Ht.
      * cbn [host_flag]. rewrite app_length. auto.
  - intros (dt & canon & -> & HT & HH & -> & -> & ->).
    split; [|split; [exists (pre ++ dt); rewrite <- app_assoc; auto|exact HT]].
    destruct h as [d|a|a]; cbn [host_text] in HH.
    + destruct HH as (E1 & E2 & E3 & E4 & E5 & E6 & E7 & ->). destruct dt as [|b dt]; [contradiction|].
      cbn [app]. rewrite idx_app. cbn [obind].
      replace (b =? 40) with false by (symmetry; apply N.eqb_neq; intros ->; apply E3; left; reflexivity).
      replace (b =? 91) with false by (symmetry; apply N.eqb_neq; intros ->; exact (E4 _ eq_refl)).
      apply handle_domain_spec; [exact Hv|exact Ha|]. split; [exact E1|]. exists (b :: dt), tail, d.
      split; [reflexivity|]. split; [exact E3|]. split; [exact (TL HT)|]. split; [exact E5|]. split; [exact E6|].
      split; [reflexivity|]. split; [reflexivity|].
      split; [apply (e_flag_two c (is_local_domain d) _ d (localhost_spec d)); exact E7|]. rewrite app_length. auto.
    + destruct HH as (E1 & E2 & t & -> & Ht & ->). cbn [app] in *. rewrite <- app_assoc in *. cbn [app] in *. rewrite idx_app.
      cbn [obind]. change (91 =? 40) with false. change (91 =? 91) with true. cbn iota.
      apply handle_ip_spec; [exact Hv|]. split; [exact E1|]. split; [exact E2|]. left. exists t, a, tail.
      repeat (split; [reflexivity || exact Ht|]). lia.
    + destruct HH as (E1 & E2 & t & -> & Ht & ->).
      assert (X : pre ++ (bs "[IPv6:" ++ t ++ [93]) ++ tail = pre ++ 91 :: bs "IPv6:" ++ t ++ 93 :: tail) by (rewrite <- !app_assoc; reflexivity).
      rewrite X in *. rewrite idx_app.
      cbn [obind]. change (91 =? 40) with false. change (91 =? 91) with true. cbn iota.
      apply handle_ip_spec; [exact Hv|]. split; [exact E1|]. split; [exact E2|]. right. exists t, a, tail.
      repeat (split; [reflexivity || exact Ht|]). rewrite !app_length. cbn. lia.
Qed.

Lemma host_step_end c pre rest h l n added : valid_str (pre ++ rest) -> ascii_end pre ->
  host_step c (pre ++ rest) (List.length pre) = Ok (h, l, n, added) ->
  exists dt tail, rest = dt ++ tail /\ n = List.length (pre ++ dt).
Proof.
  intros Hv Ha. unfold host_step. destruct rest as [|b rest].
  { rewrite app_nil_r, idx_end. discriminate. }
  rewrite idx_app. cbn [obind]. destruct (N.eqb_spec b 40) as [|H40]; [discriminate|].
  destruct (N.eqb_spec b 91) as [->|H91]; intros E.
  - apply handle_ip_spec in E as (E1 & E2 & [H|H]); [| |exact Hv].
    + destruct H as (t & a & r & -> & -> & Ht & -> & -> & ->). exists ([91] ++ t ++ [93]), r.
      split; [rewrite <- !app_assoc; reflexivity|reflexivity].
    + destruct H as (t & a & r & -> & -> & Ht & -> & -> & ->). exists (bs "[IPv6:" ++ t ++ [93]), r.
      split; [rewrite <- !app_assoc; reflexivity|reflexivity].
  - apply handle_domain_spec in E as (E1 & H); [|exact Hv|exact Ha].
    destruct H as (dt & r & d & E & Hdt & Hr & Hd & Hi & -> & -> & Ht & -> & ->). exists dt, r.
    split; [exact E|rewrite app_length; reflexivity].
Qed.

Lemma host_step_no_panic c pre rest : valid_str (pre ++ rest) -> ascii_end pre -> rest <> [] ->
  host_step c (pre ++ rest) (List.length pre) <> Panic.
Proof.
  intros Hv Ha Hr. unfold host_step. destruct rest as [|b rest]; [contradiction|]. rewrite idx_app. cbn [obind].
  destruct (N.eqb_spec b 40); [discriminate|]. destruct (N.eqb_spec b 91) as [->|].
  - apply handle_ip_no_panic, Hv.
  - apply handle_domain_no_panic; assumption.
Qed.

Lemma domain_part_step c s qn : e_domain_part idna c s qn =
  if (255 <? List.length s)%nat then Err EInvalid
  else
    let? r3 := e_leading_comment c 253 s in
    let '(n3, c3) := r3 in
    let? r := host_step c s n3 in
    let '(h, l, n, added) := r in
    let? _ := e_check_local c l in
    if ((0 <? (if qn then -2 else 0) + added)%Z && (255 <? Z.of_nat (List.length s) + ((if qn then -2 else 0) + added))%Z)%bool
    then Err EInvalid
    else let? c4 := e_comment4 c s n in Ok (h, l, c3, c4).
Proof.
  unfold e_domain_part, host_step. destruct (255 <? List.length s)%nat; [reflexivity|].
  destruct (e_leading_comment c 253 s) as [[n3 c3]| |]; cbn [obind]; [|reflexivity|reflexivity].
  destruct (@idx email_err s n3) as [b| |]; reflexivity.
Qed.

Lemma domain_part_spec c s qn h l c3 c4 : valid_str s ->
  (e_domain_part idna c s qn = Ok (h, l, c3, c4) <-> domain_accepts c s qn h c3 c4 /\ l = e_flag c (host_flag h)).
Proof.
  intros Hv. rewrite domain_part_step. unfold domain_accepts. split.
  - destruct (Nat.ltb_spec 255 (List.length s)) as [|L]; [discriminate|].
    destruct (e_leading_comment c 253 s) as [[n3 k3]| |] eqn:E3; cbn [obind]; try discriminate.
    apply leading_spec in E3 as (r & (-> & Hr & Hk & Hn) & ->); [|exact Hv].
    pose proof (ctext_ascii_end k3) as Ha.
    destruct (host_step c (ctext k3 ++ r) (List.length (ctext k3))) as [[[[h' l'] n] added]| |] eqn:EH; cbn [obind]; try discriminate.
    destruct (e_local_cases c l') as [EL|[e EL]]; rewrite EL; cbn [obind]; [|discriminate].
    destruct ((0 <? _)%Z && _) eqn:EO; [discriminate|].
    destruct (host_step_end _ _ _ _ _ _ _ Hv Ha EH) as (dt & tail & -> & ->).
    rewrite app_assoc. destruct (e_comment4 c _ _) as [k4| |] eqn:E4; cbn [obind]; try discriminate.
    apply comment4_spec in E4; [|rewrite <- app_assoc; exact Hv].
    intros E. injection E as -> -> -> ->.
    assert (X : exists dt0 canon, dt ++ tail = dt0 ++ tail /\ tail_ok c c4 tail /\ host_text idna c dt0 h canon /\
       l = e_flag c (host_flag h) /\ List.length (ctext c3 ++ dt) = List.length (ctext c3 ++ dt0) /\
       added = (Z.of_nat canon - Z.of_nat (List.length dt0))%Z).
    { apply host_step_spec; [exact Hv|exact Ha|]. split; [exact EH|]. split; [|exact E4]. exists (ctext c3 ++ dt).
      rewrite <- app_assoc. auto. }
    destruct X as (dt0 & canon & Ed & HT & HH & -> & _ & ->). apply app_inv_tail in Ed. subst dt0.
    split; [|reflexivity]. exists dt, tail, canon. split; [rewrite <- app_assoc; reflexivity|]. split; [exact Hk|]. split; [exact HT|].
    split; [exact HH|]. split.
    + rewrite <- app_assoc. split; [exact L|]. intros LC. apply andb_false_iff in EO. rewrite !Z.ltb_ge in EO. destruct qn; lia.
    + apply e_local_spec in EL. apply (e_flag_local c _ _ (host_flag_spec c dt h canon HH)). exact EL.
  - intros ((dt & tail & canon & -> & Hk & HT & HH & [L LC] & HL) & ->).
    destruct (Nat.ltb_spec 255 (List.length (ctext c3 ++ dt ++ tail))) as [|_]; [lia|].
    pose proof (ctext_ascii_end c3) as Ha.
    assert (DN : dt <> [] /\ forall r, dt <> 40 :: r).
    { destruct h; cbn [host_text] in HH.
      - destruct HH as (_ & X & Y & _). split; [exact X|]. intros r ->. apply Y. left. reflexivity.
      - destruct HH as (_ & _ & t & -> & _). split; [discriminate|intros r E; discriminate].
      - destruct HH as (_ & _ & t & -> & _). split; [discriminate|intros r E; discriminate]. }
    destruct DN as [D1 D2].
    rewrite (proj2 (leading_spec c 253 (ctext c3 ++ dt ++ tail) (List.length (ctext c3)) c3 Hv)).
    2: { exists (dt ++ tail). split; [|reflexivity]. split; [reflexivity|]. destruct dt as [|b dt]; [contradiction|].
         split; [discriminate|]. split; [exact Hk|]. intros _ r' E. injection E as -> _. exact (D2 _ eq_refl). }
    cbn [obind].
    assert (X : host_step c (ctext c3 ++ dt ++ tail) (List.length (ctext c3)) =
      Ok (h, e_flag c (host_flag h), List.length (ctext c3 ++ dt), (Z.of_nat canon - Z.of_nat (List.length dt))%Z)).
    { apply (host_step_spec c (ctext c3) (dt ++ tail) tail c4); [exact Hv|exact Ha|]. exists dt, canon. auto 10. }
    rewrite X. cbn [obind].
    rewrite (proj2 (e_local_spec _ _)) by (apply (e_flag_local c _ _ (host_flag_spec c dt h canon HH)); exact HL). cbn [obind].
    destruct ((0 <? _)%Z && _) eqn:EO.
    { exfalso. apply andb_true_iff in EO as [O1 O2]. rewrite Z.ltb_lt in O1, O2. destruct qn; lia. }
    rewrite app_assoc in *. rewrite (proj2 (comment4_spec c (ctext c3 ++ dt) tail c4 Hv) HT). reflexivity.
Qed.

Lemma domain_part_no_panic c s qn : valid_str s -> s <> [] -> e_domain_part idna c s qn <> Panic.
Proof.
  intros Hv Hs. rewrite domain_part_step. destruct (_ <? _)%nat; [discriminate|].
  destruct (e_leading_comment c 253 s) as [[n3 k3]| |] eqn:E3; cbn [obind]; try discriminate.
  2: { destruct (leading_no_panic c 253 s Hv Hs E3). }
  apply leading_spec in E3 as (r & (-> & Hr & Hk & Hn) & ->); [|exact Hv].
  pose proof (ctext_ascii_end k3) as Ha.
  destruct (host_step c (ctext k3 ++ r) (List.length (ctext k3))) as [[[[h' l'] n] added]| |] eqn:EH; cbn [obind]; try discriminate.
  2: { destruct (host_step_no_panic c _ _ Hv Ha Hr EH). }
  destruct (e_local_cases c l') as [EL|[e EL]]; rewrite EL; cbn [obind]; [|discriminate].
  destruct ((0 <? _)%Z && _); [discriminate|].
  destruct (host_step_end _ _ _ _ _ _ _ Hv Ha EH) as (dt & tail & -> & ->).
  rewrite app_assoc. destruct (e_comment4 c _ _) as [k4| |] eqn:E4; cbn [obind]; try discriminate.
  apply comment4_no_panic in E4; [contradiction|rewrite <- app_assoc; exact Hv].
Qed.
End WithIdna.
