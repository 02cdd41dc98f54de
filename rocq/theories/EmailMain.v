(** The email validator as a whole. *)
From Verif Require Import Base IntStr IntStrProofs NetModel NetSpec NetProofs IpModel IpSpec LocalProofs IpProofs
  Utf8 StrFacts Serde DomainModel DomainSpec DomainProofs HostModel HostSpec HostProofs EmailModel EmailSpec EmailProofs
  EmailParts EmailDomain.
Local Open Scope N_scope.

Section WithIdna.
Variable idna : list N -> option (list N).

Definition raw_accepts (prof : profile) (c : email_cfg) (s : list N) (r : email_raw) : Prop :=
  exists lt q d,
    s = ctext (er_c1 r) ++ lt ++ ctext (er_c2 r) ++ [64] ++ d /\ (List.length s <= 320)%nat /\
    local_text (e_non_ascii c) (List.length (ctext (er_c1 r))) lt (er_local r) (er_need_quoted r) q /\
    comment_ok c 62 (er_c1 r) /\ comment_ok c 320 (er_c2 r) /\
    second_ok prof (List.length (ctext (er_c1 r) ++ lt)) (er_c2 r) /\
    domain_accepts idna c d (q && er_need_quoted r) (er_host r) (er_c3 r) (er_c4 r) /\
    er_is_local r = e_flag c (host_flag (er_host r)).

Lemma domain_nonempty c d qn h c3 c4 : domain_accepts idna c d qn h c3 c4 -> d <> [].
Proof.
  intros (dt & tail & canon & -> & _ & _ & HH & _) E. apply app_eq_nil in E as [_ E]. apply app_eq_nil in E as [-> _].
  destruct h; cbn [host_text] in HH.
  - destruct HH as (_ & X & _). contradiction.
  - destruct HH as (_ & _ & t & X & _). discriminate.
  - destruct HH as (_ & _ & t & X & _). discriminate.
Qed.

Lemma local_text_head na o lt l nq q : local_text na o lt l nq q -> lt <> [] /\ forall r, lt <> 40 :: r.
Proof.
  intros [(-> & -> & HU & _)|(_ & -> & _)].
  - destruct HU as (H1 & _ & H2 & _). split; [exact H1|]. intros r ->. inversion H2 as [|? ? X _].
    destruct X as [X|[X|[_ X]]]; [|lia|lia]. apply atext_spec in X. discriminate.
  - split; [discriminate|intros r E; discriminate].
Qed.

Lemma leading_start c lim s k r : leading c lim s k r -> k <> None -> exists s', s = 40 :: s'.
Proof. intros (-> & _) H. destruct k; [|contradiction]. cbn. eauto. Qed.

Lemma ctext_at k d : exists x r, ctext k ++ 64 :: d = x :: r /\ stop_char x.
Proof. unfold stop_char. destruct k; cbn; eauto. Qed.

Lemma email_v_spec prof c s r : valid_str s ->
  (email_v_parse_str idna prof c s = Ok r <-> raw_accepts prof c s r).
Proof.
  intros Hv. unfold email_v_parse_str, raw_accepts. split.
  - destruct (Nat.eqb_spec (List.length s) 0) as [|H0]; [discriminate|].
    destruct (Nat.ltb_spec 320 (List.length s)) as [|HL]; [discriminate|]. cbn [orb].
    destruct (e_leading_comment c 62 s) as [[n1 c1]| |] eqn:E1; cbn [obind]; try discriminate.
    apply leading_spec in E1 as (r1 & (-> & Hr1 & Hk1 & Hn1) & ->); [|exact Hv].
    pose proof (ctext_ascii_end c1) as Ha.
    destruct (e_local_part c _ _) as [[[[l nq] q] n2]| |] eqn:E2; cbn [obind]; try discriminate.
    apply local_part_spec in E2 as (lt & r2 & -> & HLT & -> & Hr2 & Hs2); [|exact Hv|exact Ha].
    rewrite app_assoc in *. rewrite <- app_length.
    destruct (e_comment2 prof c _ _) as [[n3 c2]| |] eqn:E3; cbn [obind]; try discriminate.
    apply comment2_spec in E3 as (r3 & (-> & Hr3 & Hk3 & Hn3) & HS2 & ->); [|exact Hv|exact HL].
    rewrite app_assoc in *. rewrite <- app_length.
    destruct r3 as [|b d]; [contradiction|]. rewrite idx_app. cbn [obind].
    destruct (N.eqb_spec b 64) as [->|]; [|discriminate].
    destruct (_ =? _)%nat eqn:EN; [discriminate|]. cbn [negb orb].
    rewrite str_slice_after by (assumption || lia). cbn [obind].
    assert (Hd : valid_str d) by (apply (valid_after _ _ _ Hv); lia).
    destruct (e_domain_part idna c d (q && nq)) as [[[[h il] c3] c4]| |] eqn:ED; cbn [obind]; try discriminate.
    apply domain_part_spec in ED as [HD ->]; [|exact Hd]. intros E. injection E as <-.
    cbn [er_local er_need_quoted er_host er_c1 er_c2 er_c3 er_c4 er_is_local]. exists lt, q, d.
    split; [rewrite <- !app_assoc; reflexivity|]. split; [exact HL|]. auto 10.
  - intros (lt & q & d & Es & HL & HLT & Hk1 & Hk2 & HS2 & HD & EL).
    pose proof (domain_nonempty _ _ _ _ _ _ HD) as Hd0.
    pose proof (local_text_head _ _ _ _ _ _ HLT) as [L1 L2].
    destruct (Nat.eqb_spec (List.length s) 0) as [H0|_].
    { exfalso. apply length_zero_iff_nil in H0. rewrite Es in H0. apply app_eq_nil in H0 as [_ H0].
      apply app_eq_nil in H0 as [H0 _]. contradiction. }
    destruct (Nat.ltb_spec 320 (List.length s)) as [|_]; [lia|]. cbn [orb].
    rewrite (proj2 (leading_spec c 62 s (List.length (ctext (er_c1 r))) (er_c1 r) Hv)).
    2: { eexists. split; [|reflexivity]. split; [exact Es|]. destruct lt as [|x lt]; [contradiction|].
         split; [discriminate|]. split; [exact Hk1|]. intros _ r' E. injection E as -> _. exact (L2 _ eq_refl). }
    cbn [obind]. pose proof (ctext_ascii_end (er_c1 r)) as Ha. rewrite Es in Hv |- *. 
    rewrite (proj2 (local_part_spec c (ctext (er_c1 r)) _ (er_local r) (er_need_quoted r) q
      (List.length (ctext (er_c1 r)) + List.length lt)%nat Hv Ha)).
    2: { exists lt. eexists. split; [reflexivity|]. split; [exact HLT|]. split; [reflexivity|].
         destruct (ctext_at (er_c2 r) d) as (x & r' & X & HX). cbn [app]. rewrite X. split; [discriminate|]. eauto. }
    cbn [obind]. rewrite app_assoc in *. rewrite <- app_length.
    rewrite Es in HL.
    rewrite (proj2 (comment2_spec prof c (ctext (er_c1 r) ++ lt) _
      (List.length (ctext (er_c1 r) ++ lt) + List.length (ctext (er_c2 r)))%nat (er_c2 r) Hv HL)).
    2: { exists ([64] ++ d). split; [|split; [exact HS2|reflexivity]]. split; [reflexivity|]. split; [discriminate|].
         split; [exact Hk2|]. intros _ r' E. discriminate. }
    cbn [obind]. rewrite app_assoc in *. rewrite <- app_length. cbn [app] in *. rewrite idx_app. cbn [obind].
    change (64 =? 64) with true. cbn [negb orb].
    destruct (Nat.eqb_spec (List.length ((ctext (er_c1 r) ++ lt) ++ ctext (er_c2 r)) + 1) (List.length (((ctext (er_c1 r) ++ lt) ++ ctext (er_c2 r)) ++ 64 :: d))) as [E|_].
    { exfalso. apply Hd0. rewrite (app_length _ (64 :: d)) in E. cbn [List.length] in E. apply length_zero_iff_nil. lia. }
    rewrite str_slice_after by (assumption || lia). cbn [obind].
    assert (Hd : valid_str d) by (apply (valid_after _ _ _ Hv); lia).
    rewrite (proj2 (domain_part_spec idna c d _ _ _ _ _ Hd) (conj HD eq_refl)). cbn [obind]. rewrite <- EL.
    destruct r. reflexivity.
Qed.

(** A panic needs a debug build and an opening parenthesis at byte 64 or later, after the local part. *)
Lemma email_v_panic prof c s : valid_str s -> email_v_parse_str idna prof c s = Panic ->
  prof = Debug /\ e_comment c = true /\ exists a b, s = a ++ [40] ++ b /\ (64 <= List.length a)%nat.
Proof.
  intros Hv. unfold email_v_parse_str.
  destruct (Nat.eqb_spec (List.length s) 0) as [|H0]; [discriminate|].
  destruct (Nat.ltb_spec 320 (List.length s)) as [|HL]; [discriminate|]. cbn [orb].
  assert (Hs : s <> []) by (intros ->; cbn in H0; lia).
  destruct (e_leading_comment c 62 s) as [[n1 c1]| |] eqn:E1; cbn [obind]; try discriminate.
  2: { destruct (leading_no_panic c 62 s Hv Hs E1). }
  apply leading_spec in E1 as (r1 & (-> & Hr1 & Hk1 & Hn1) & ->); [|exact Hv].
  pose proof (ctext_ascii_end c1) as Ha.
  destruct (e_local_part c _ _) as [[[[l nq] q] n2]| |] eqn:E2; cbn [obind]; try discriminate.
  2: { destruct (local_part_no_panic c _ _ Hv Ha Hr1 E2). }
  apply local_part_spec in E2 as (lt & r2 & -> & HLT & -> & Hr2 & Hs2); [|exact Hv|exact Ha].
  rewrite app_assoc in *. rewrite <- app_length.
  destruct (e_comment2 prof c _ _) as [[n3 c2]| |] eqn:E3; cbn [obind]; try discriminate.
  2: { intros _. apply comment2_panic in E3 as (-> & -> & L & r & ->); [|exact Hv|exact Hr2].
       split; [reflexivity|]. split; [reflexivity|]. exists (ctext c1 ++ lt), r. auto. }
  apply comment2_spec in E3 as (r3 & (-> & Hr3 & Hk3 & Hn3) & HS2 & ->); [|exact Hv|exact HL].
  rewrite app_assoc in *. rewrite <- app_length.
  destruct r3 as [|b d]; [contradiction|]. rewrite idx_app. cbn [obind].
  destruct (N.eqb_spec b 64) as [->|]; [|discriminate].
  destruct (_ =? _)%nat eqn:EN; [discriminate|]. cbn [negb orb].
  rewrite str_slice_after by (assumption || lia). cbn [obind].
  assert (Hd : valid_str d) by (apply (valid_after _ _ _ Hv); lia).
  destruct (e_domain_part idna c d (q && nq)) as [[[[h il] c3] c4]| |] eqn:ED; cbn [obind]; try discriminate.
  apply domain_part_no_panic in ED; [contradiction|exact Hd|]. intros ->.
  apply Nat.eqb_neq in EN. rewrite (app_length _ [64]) in EN. cbn in EN. lia.
Qed.

Lemma email_field_eq c : is_allow_only (e_local c) && negb (is_allow_only (e_two c)) = email_field c.
Proof. unfold email_field. destruct (e_local c), (e_two c); reflexivity. Qed.

Lemma comment_off c lim k : comment_ok c lim k -> (if e_comment c then k else None) = k.
Proof. destruct k as [t|]; [|destruct (e_comment c); reflexivity]. intros H. destruct (H t eq_refl) as (-> & _). reflexivity. Qed.
Lemma tail_off c k t : tail_ok c k t -> (if e_comment c then k else None) = k.
Proof. destruct k as [x|]; [|destruct (e_comment c); reflexivity]. intros (-> & _). reflexivity. Qed.

Definition val_of (c : email_cfg) (r : email_raw) : email_val :=
  {| ev_local := er_local r; ev_need_quoted := er_need_quoted r; ev_domain := er_host r; ev_c1 := er_c1 r; ev_c2 := er_c2 r;
     ev_c3 := er_c3 r; ev_c4 := er_c4 r; ev_is_local := if email_field c then Some (er_is_local r) else None |}.

Lemma e_create_spec prof c s r : raw_accepts prof c s r -> e_create c r = Ok (val_of c r).
Proof.
  intros (lt & q & d & _ & _ & _ & K1 & K2 & _ & (dt & tail & canon & _ & K3 & K4 & HH & _) & _).
  unfold e_create, val_of. rewrite email_field_eq, (comment_off _ _ _ K1), (comment_off _ _ _ K2), (comment_off _ _ _ K3), (tail_off _ _ _ K4).
  destruct (er_host r); cbn [host_text] in HH.
  - destruct HH as (H & _). destruct (e_ip c); [contradiction|reflexivity|reflexivity].
  - destruct HH as (H & _). destruct (e_ip c); [reflexivity|reflexivity|contradiction].
  - destruct HH as (H & _). destruct (e_ip c); [reflexivity|reflexivity|contradiction].
Qed.

Theorem email_parse_spec prof c s v : valid_str s ->
  (email_parse_str idna prof c s = Ok v <-> email_accepts idna prof c s v).
Proof.
  intros Hv. unfold email_parse_str. split.
  - destruct (email_v_parse_str idna prof c s) as [r| |] eqn:ER; cbn [obind]; try discriminate.
    apply email_v_spec in ER; [|exact Hv]. rewrite (e_create_spec _ _ _ _ ER). intros E. injection E as <-.
    destruct ER as (lt & q & d & Es & HL & HLT & K1 & K2 & HS & (dt & tail & canon & -> & K3 & K4 & HH & Hn & Hloc) & El).
    unfold email_accepts, val_of. cbn [ev_local ev_need_quoted ev_domain ev_c1 ev_c2 ev_c3 ev_c4 ev_is_local].
    exists lt, q, dt, tail, canon. repeat (split; [assumption|]). rewrite El.
    apply (e_flag_field c _ _ _ (host_flag_spec idna c dt _ canon HH)). reflexivity.
  - intros (lt & q & dt & tail & canon & Es & HL & HLT & K1 & K2 & K3 & K4 & HS & HH & Hn & Hloc & Hf).
    set (r := {| er_local := ev_local v; er_need_quoted := ev_need_quoted v; er_host := ev_domain v; er_c1 := ev_c1 v;
                 er_c2 := ev_c2 v; er_c3 := ev_c3 v; er_c4 := ev_c4 v; er_is_local := e_flag c (host_flag (ev_domain v)) |}).
    assert (R : raw_accepts prof c s r).
    { exists lt, q, (ctext (ev_c3 v) ++ dt ++ tail). cbn [r er_local er_need_quoted er_host er_c1 er_c2 er_c3 er_c4 er_is_local].
      repeat (split; [assumption|]). split; [|reflexivity]. exists dt, tail, canon. repeat (split; [assumption || reflexivity|]).
      assumption. }
    rewrite (proj2 (email_v_spec prof c s r Hv) R). cbn [obind]. rewrite (e_create_spec _ _ _ _ R). f_equal.
    apply (e_flag_field c _ _ _ (host_flag_spec idna c dt _ canon HH)) in Hf. unfold val_of, r.
    cbn [er_local er_need_quoted er_host er_c1 er_c2 er_c3 er_c4 er_is_local]. rewrite <- Hf. destruct v. reflexivity.
Qed.

Theorem email_panic prof c s : valid_str s ->
  email_parse_str idna prof c s = Panic \/ email_validate_str idna prof c s = Panic ->
  prof = Debug /\ e_comment c = true /\ exists a b, s = a ++ [40] ++ b /\ (64 <= List.length a)%nat.
Proof.
  intros Hv H. apply (email_v_panic prof c s Hv). unfold email_parse_str, email_validate_str in H.
  destruct (email_v_parse_str idna prof c s) as [r| |] eqn:E; [|destruct H; discriminate|reflexivity].
  exfalso. apply email_v_spec in E; [|exact Hv]. cbn [obind] in H. rewrite (e_create_spec _ _ _ _ E) in H. destruct H; discriminate.
Qed.

Theorem email_validate_parse prof c s : valid_str s ->
  (is_ok (email_validate_str idna prof c s) <-> is_ok (email_parse_str idna prof c s)).
Proof.
  intros Hv. unfold email_parse_str, email_validate_str.
  destruct (email_v_parse_str idna prof c s) as [r| |] eqn:E; cbn [obind];
    [|split; intros [x X]; discriminate|split; intros [x X]; discriminate].
  apply email_v_spec in E; [|exact Hv]. rewrite (e_create_spec _ _ _ _ E). split; intros; eexists; reflexivity.
Qed.
End WithIdna.
