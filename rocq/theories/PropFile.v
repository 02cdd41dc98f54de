(** Property C130: an accepted text used as a file name stays in its directory. *)
From Coq Require Import SpecFloat.
From Verif Require Import Base Utf8 IntStr IntStrProofs IntModel MacModel MacSpec BaseModel BaseSpec CodecModel CodecSpec
  RangeModel IntSpec NumberModel FloatModel BooleanModel BooleanProofs NetModel NetSpec NetProofs IpModel IpSpec IpProofs
  DomainModel DomainSpec DomainProofs HostModel HostSpec EmailModel EmailSpec EmailMain.
From Verif Require Import BaseProofs CodecProofs PropInt PropMac PropBoolean PropBase PropIp PropDomain PropHost PropEmail IdnaFrag StrFacts
  PropTame PropUri PropTell PropJoin.
From Verif Require HostProofs.
Local Open Scope N_scope.

(** The name of a file in the directory at hand (POSIX, section 3.170, without the names of the directory itself and of the one
    above): not empty, no slash and no NUL in it, and neither [.] nor [..]. *)
Definition file_name (s : list N) : Prop := s <> [] /\ ~ In 47 s /\ ~ In 0 s /\ s <> bs "." /\ s <> bs "..".

(** A part of a name, and a name with a character that is no dot. *)
Definition part (c : N) : Prop := c <> 0 /\ c <> 47.
Definition solid (c : N) : Prop := part c /\ c <> 46.
Definition good (s : list N) : Prop := Forall part s /\ Exists (fun c => c <> 46) s.

Lemma good_file s : good s -> file_name s.
Proof.
  intros [F X]. rewrite Forall_forall in F. split; [intros ->; inversion X|]. split; [|split].
  - intros I. now destruct (F _ I).
  - intros I. now destruct (F _ I).
  - split; intros ->; vm_compute in X; repeat (inversion X as [? ? D|? ? D]; subst; clear X; [now apply D|rename D into X]); inversion X.
Qed.
Lemma solid_parts s : Forall solid s -> Forall part s.
Proof. apply Forall_impl. intros c [H _]. exact H. Qed.
Lemma good_solid s : Forall solid s -> s <> [] -> good s.
Proof.
  intros F N. split; [exact (solid_parts _ F)|]. destruct s as [|c s]; [contradiction|]. constructor. exact (proj2 (Forall_inv F)).
Qed.
Lemma good_left a b : good a -> Forall part b -> good (a ++ b).
Proof. intros [F X] P. split; [apply Forall_app; now split|]. apply Exists_app. now left. Qed.
Lemma good_right a b : Forall part a -> good b -> good (a ++ b).
Proof. intros P [F X]. split; [apply Forall_app; now split|]. apply Exists_app. now right. Qed.
Ltac sol := unfold solid, part; lia.

(** ** Numbers *)
Lemma sd_digits ds v : denotes_digits ds v -> Forall solid ds /\ ds <> [].
Proof.
  induction 1 as [c H|ds v c _ [IH X] H]; unfold is_digit in H.
  - split; [|discriminate]. constructor; [sol|constructor].
  - split; [|destruct ds; discriminate]. apply Forall_app. split; [exact IH|]. constructor; [sol|constructor].
Qed.
Lemma sd_int sg s v : denotes_int sg s v -> Forall solid s /\ s <> [].
Proof.
  intros H. inversion H; subst; match goal with D : denotes_digits _ _ |- _ => apply sd_digits in D as [D X] end.
  - now split.
  - split; [|discriminate]. constructor; [sol|assumption].
  - split; [|discriminate]. constructor; [sol|assumption].
Qed.
Lemma gd_int sg s v : denotes_int sg s v -> good s.
Proof. intros H. apply sd_int in H as [F X]. now apply good_solid. Qed.
Lemma sd_dec n : Forall solid (dec_of_N n).
Proof. exact (proj1 (sd_digits _ _ (dec_of_N_denotes n))). Qed.

Lemma sd_span s : forall d q, span_digits s = (d, q) -> s = d ++ q /\ Forall solid d.
Proof.
  induction s as [|c r IH]; intros d q H; cbn [span_digits] in H.
  - injection H as <- <-. split; [reflexivity|constructor].
  - destruct (fdigit c) eqn:F.
    + destruct (span_digits r) as [d' q'] eqn:E. injection H as <- <-. destruct (IH _ _ eq_refl) as [-> V].
      split; [reflexivity|]. constructor; [|exact V]. unfold fdigit in F. sol.
    + injection H as <- <-. split; [reflexivity|constructor].
Qed.
Lemma sd_sign s : exists g, s = g ++ snd (take_sign s) /\ Forall solid g.
Proof.
  destruct s as [|c r]; [exists []; split; [reflexivity|constructor]|]. unfold take_sign.
  destruct (N.eqb_spec c 45) as [->|]; [|destruct (N.eqb_spec c 43) as [->|]].
  - exists [45]. split; [reflexivity|]. constructor; [sol|constructor].
  - exists [43]. split; [reflexivity|]. constructor; [sol|constructor].
  - exists []. split; [reflexivity|constructor].
Qed.
Lemma sd_exponent s x : read_exponent s = Some x -> Forall solid s.
Proof.
  destruct s as [|c r]; [constructor|]. unfold read_exponent.
  destruct ((c =? 101) || (c =? 69))%N%bool eqn:C; [|discriminate].
  destruct (sd_sign r) as (g & E & G). destruct (take_sign r) as [neg r1]. cbn [snd] in E.
  destruct (span_digits r1) as [[|d ds] q] eqn:S; [discriminate|]. destruct q; [|discriminate]. intros _.
  destruct (sd_span _ _ _ S) as [-> V]. constructor; [sol|]. rewrite E, app_nil_r. apply Forall_app. now split.
Qed.
Lemma gd_decimal s p : read_decimal s = Some p -> good s.
Proof.
  unfold read_decimal. destruct (span_digits s) as [ints r1] eqn:S1. destruct (sd_span _ _ _ S1) as [-> V1].
  assert (forall fracs r2, match r1 with c :: r => if (c =? 46)%N then span_digits r else ([], r1) | [] => ([], []) end
            = (fracs, r2) -> Forall solid r2 -> exists m, r1 = m ++ fracs ++ r2 /\ Forall part m /\ Forall solid fracs) as K.
  { intros fracs r2 H R. destruct r1 as [|c r].
    - injection H as <- <-. exists []. repeat split; constructor.
    - destruct (N.eqb_spec c 46) as [->|].
      + destruct (sd_span _ _ _ H) as [-> V]. exists [46]. split; [reflexivity|]. split; [|exact V]. constructor; [unfold part; lia|constructor].
      + injection H as <- <-. exists []. repeat split; constructor. }
  destruct (match r1 with [] => _ | c :: r => _ end) as [fracs r2] eqn:E.
  destruct (ints ++ fracs) as [|i l] eqn:IF; [discriminate|]. destruct (read_exponent r2) eqn:X; [|discriminate]. intros _.
  apply sd_exponent in X. destruct (K _ _ eq_refl X) as (m & -> & M & F). apply solid_parts in X.
  destruct ints as [|c ints].
  - cbn [app] in IF. cbn [app]. apply good_right; [exact M|]. apply good_left; [|exact X]. apply good_solid; [exact F|]. rewrite IF. discriminate.
  - apply good_left; [apply good_solid; [exact V1|discriminate]|]. apply Forall_app. split; [exact M|]. apply Forall_app.
    split; [exact (solid_parts _ F)|exact X].
Qed.

Lemma sd_lower s : Forall solid (List.map lower s) -> Forall solid s.
Proof.
  rewrite Forall_map. apply Forall_impl. intros c. unfold lower, solid, part. destruct ((65 <=? c) && (c <=? 90))%N%bool eqn:E; lia.
Qed.
Lemma solid_text l : forallb (fun c => negb (c =? 0) && negb (c =? 46) && negb (c =? 47))%bool l = true -> Forall solid l.
Proof. intros H. apply Forall_forall. intros c C. rewrite forallb_forall in H. specialize (H c C). sol. Qed.
Lemma gd_word s w : eq_ignore_case s w = true -> Forall solid (List.map lower w) -> w <> [] -> good s.
Proof.
  intros H V N. apply DomainProofs.eq_ignore_case_map in H. apply good_solid; [apply sd_lower; now rewrite H|].
  intros ->. destruct w; [contradiction|discriminate].
Qed.
Lemma gd_float t s f : float_of_text t s = Some f -> good s.
Proof.
  unfold float_of_text. destruct (sd_sign s) as (g & E & G). destruct (take_sign s) as [sg r]. cbn [snd] in E. subst s.
  intros H. apply good_right; [exact (solid_parts _ G)|]. destruct (read_decimal r) as [p|] eqn:D; [eapply gd_decimal; eassumption|].
  destruct (eq_ignore_case r (bs "inf")) eqn:W1; [eapply gd_word; [exact W1|apply solid_text; reflexivity|discriminate]|].
  destruct (eq_ignore_case r (bs "infinity")) eqn:W2; [eapply gd_word; [exact W2|apply solid_text; reflexivity|discriminate]|].
  cbn [orb] in H. destruct (eq_ignore_case r (bs "nan")) eqn:W3; [|discriminate].
  eapply gd_word; [exact W3|apply solid_text; reflexivity|discriminate].
Qed.

(** ** Words, encodings and identifiers *)
Lemma sd_same s w : same_but_case s w -> Forall solid w -> Forall solid s.
Proof.
  induction 1 as [|x y s w H _ IH]; intros V; [constructor|]. inversion V as [|? ? A B]; subst. constructor; [|auto].
  unfold solid, part in *. lia.
Qed.
Lemma sd_alphabet f c : f <> B64 -> In c (alphabet f) -> solid c.
Proof. intros N. revert c. apply Forall_forall. destruct f; try congruence; apply solid_text; reflexivity. Qed.
Lemma sd_eq k : Forall solid (repeat 61 k).
Proof. induction k; constructor; [sol|assumption]. Qed.
Lemma sd_encode f d : f <> B64 -> Forall solid (encode f d).
Proof.
  intros N. assert (Forall (fun c => In c (alphabet f)) (encode f d)) as H by (apply Forall_alphabet, alphabet_encode).
  eapply Forall_impl; [|exact H]. intros c. now apply sd_alphabet.
Qed.
(** The separator, if there is one, is neither a slash nor NUL. *)
Definition part_sep (sep : sep_option) : Prop := forall c, sep_char sep = Some c -> c <> 0 /\ c <> 47.
Lemma hex_solid c : hexc c -> solid c.
Proof. unfold hexc. sol. Qed.
Lemma gd_grouped sep n sizes v digits : part_sep sep -> grouped sep (S n :: sizes) v digits -> Forall hexc digits -> good v.
Proof.
  intros S G H. split.
  - revert H. remember (_ :: sizes) as l eqn:L. clear L. induction G as [|g t zs v digits T _ IH]; intros F.
    + eapply Forall_impl; [|exact F]. intros c C. apply hex_solid in C. apply C.
    + apply Forall_app in F as [F1 F2]. apply Forall_app. split; [eapply Forall_impl; [|exact F1]; intros c C; apply hex_solid in C; apply C|].
      apply Forall_app. split; [|auto]. destruct (sep_cases _ _ T) as [->|(x & X & ->)]; [constructor|].
      constructor; [exact (S _ X)|constructor].
  - destruct (grouped_first _ _ _ _ _ G) as (c & r & -> & I). constructor. rewrite Forall_forall in H. apply hex_solid, (H _ I).
Qed.

(** C130: integers, numbers, boolean words, base32 and base64_url texts, checked or decoded, and, unless a slash separates their
    digits, addresses of the link layer and uuids. *)
Theorem C130_texts : forall s,
  (forall sg pw t r v, int_parse_str sg pw t r s = Ok v -> file_name s) /\
  (forall t r nan v, num_parse_str (float_of_text t) r nan s = Ok v -> file_name s) /\
  (forall b, bool_parse_str s = Ok b -> file_name s) /\
  (forall f p v, f <> B64 -> base_parse_str f p s = Ok v -> file_name s) /\
  (forall f p v, f <> B64 -> dec_parse_str f p s = Ok v -> file_name s) /\
  (forall case sep x, part_sep sep -> mac_parse_str case sep s = Ok x -> file_name s) /\
  (forall case sep x, part_sep sep -> uuid_parse_str case sep s = Ok x -> file_name s).
Proof.
  intros s. repeat apply conj.
  - intros sg pw t r v H. unfold int_parse_str, v_parse_str in H.
    destruct (int_from_str _ _ s) eqn:E; try discriminate.
    apply int_from_str_spec in E as [E _]; [apply good_file; eapply gd_int; exact E|]. apply IntProofs.min_max.
  - intros t r nan v H. unfold num_parse_str, num_v_parse_str in H.
    destruct (float_of_text t s) eqn:E; [|discriminate]. apply good_file. eapply gd_float; exact E.
  - intros b H. apply C16_boolean_words in H as (w & W & S). apply good_file.
    assert (Forall (fun p => Forall solid (fst p) /\ fst p <> []) bool_words) as K.
    { repeat (constructor; [split; [apply solid_text; reflexivity|discriminate]|]). constructor. }
    destruct (proj1 (Forall_forall _ _) K _ W) as [K1 K2]. apply good_solid; [exact (sd_same _ _ S K1)|].
    intros ->. inversion S as [E|]. now apply K2.
  - intros f p v N H. assert (base_shape f p s) as B by (apply C19_base_language; eexists; exact H).
    apply good_file, good_solid; [|destruct B as (? & ? & _ & X & _); exact X].
    apply base_shape_bytes in B. eapply Forall_impl; [|exact B]. intros c [C| ->]; [eapply sd_alphabet; eassumption|sol].
  - intros f p v N H. apply C22_decoded_exact in H as (X & B). apply good_file, good_solid; [|exact X].
    destruct B as [(_ & _ & -> & _)|(_ & _ & ds & _ & -> & _)]; [now apply sd_encode|].
    clear -N. induction ds as [|d ds IH]; cbn [List.map List.concat]; [constructor|]. apply Forall_app. split; [|exact IH].
    apply Forall_app. split; [now apply sd_encode|apply sd_eq].
  - intros case sep x S H. apply C25_mac_accepts_only in H as (ds & G & D). apply good_file.
    exact (gd_grouped _ _ _ _ _ S G (hexes_hexc _ _ _ D)).
  - intros case sep x S H. apply C28_uuid_accepts_only in H as (ds & G & D). apply good_file.
    exact (gd_grouped _ _ _ _ _ S G (hexes_hexc _ _ _ D)).
Qed.
Print Assumptions C130_texts.

(** ** Addresses *)
Lemma literal_part s : Forall literal_char s -> Forall part s.
Proof. apply Forall_impl. unfold literal_char, part. intros c C. lia. Qed.

Lemma gd_v4 s a : v4_text s a -> good s.
Proof.
  intros H. split; [exact (literal_part _ (v4_literal _ _ H))|]. destruct (v4_head _ _ H) as (ds & r & X & N & ->).
  destruct ds as [|c ds]; [contradiction|]. constructor. inversion X as [|? ? (k & K) _]; subst. intros ->. discriminate K.
Qed.
Lemma gd_v6 s a : v6_text s a -> good s.
Proof.
  intros H. split; [exact (literal_part _ (v6_literal _ _ H))|]. destruct (HostProofs.v6_two_colons _ _ H) as (u & m & r & ->).
  apply Exists_app. right. constructor. discriminate.
Qed.
Lemma pt_port q p : port_text q p -> Forall part q.
Proof. intros [H _]. apply solid_parts. exact (proj1 (sd_int _ _ _ H)). Qed.
Lemma pt_colon q p : port_text q p -> Forall part ([58] ++ q).
Proof. intros H. constructor; [unfold part; lia|exact (pt_port _ _ H)]. Qed.
Lemma gd_bracket t : good t -> good ([91] ++ t ++ [93]).
Proof. intros H. apply good_right; [|apply good_left; [exact H|]]; (constructor; [unfold part; lia|constructor]). Qed.
Lemma gd_v4_form s a p : v4_form s a p -> good s.
Proof.
  destruct p as [p|]; [intros (t & q & -> & A & B)|intros A; exact (gd_v4 _ _ A)].
  apply good_left; [exact (gd_v4 _ _ A)|exact (pt_colon _ _ B)].
Qed.
Lemma gd_v6_form s a p : v6_form s a p -> good s.
Proof.
  destruct p as [p|]; [intros (t & q & -> & A & B)|intros [A|(t & -> & A)]].
  - replace ([91] ++ t ++ [93; 58] ++ q) with (([91] ++ t ++ [93]) ++ [58] ++ q) by (rewrite <- !app_assoc; reflexivity).
    apply good_left; [exact (gd_bracket _ (gd_v6 _ _ A))|exact (pt_colon _ _ B)].
  - exact (gd_v6 _ _ A).
  - exact (gd_bracket _ (gd_v6 _ _ A)).
Qed.

(** C130: ip addresses, as they come in and as their value prints. *)
Theorem C130_ip : forall port local s, valid_str s ->
  (forall v, ip_parse_str port local s = Ok v -> file_name s /\ file_name (ip_authority v)) /\
  (forall v, ipv4_parse_str port local s = Ok v -> file_name s /\ file_name (ipv4_authority v)) /\
  (forall v, ipv6_parse_str port local s = Ok v -> file_name s /\ file_name (ipv6_authority v)).
Proof.
  assert (forall s a p, v4_form s a p -> file_name s /\ file_name (ipv4_authority (a, p))) as K4.
  { intros s a p H. destruct (v4_form_addr _ _ _ H) as [A B].
    split; eapply good_file, gd_v4_form; [exact H|apply ipv4_authority_form; assumption]. }
  assert (forall s a p, v6_form s a p -> file_name s /\ file_name (ipv6_authority (a, p))) as K6.
  { intros s a p H. destruct (v6_form_addr _ _ _ H) as [A B].
    split; eapply good_file, gd_v6_form; [exact H|apply ipv6_authority_form; assumption]. }
  intros port local s V. split; [|split]; intros [x p] H.
  - destruct x as [a|a]; apply C31_ip_accepts_exactly in H as [F _]; [|assumption| |assumption]; [exact (K4 _ _ _ F)|exact (K6 _ _ _ F)].
  - apply C31_ipv4_accepts_exactly in H as [F _]; [|assumption]. exact (K4 _ _ _ F).
  - apply C31_ipv6_accepts_exactly in H as [F _]; [|assumption]. exact (K6 _ _ _ F).
Qed.
Print Assumptions C130_ip.

(** ** Names *)

(** A law of [to_ascii] (UTS #46, section 4.2: labels are not empty): it refuses a text of dots only. *)
Definition idna_not_dots (idna : list N -> option (list N)) : Prop := forall k, idna (repeat 46 k) = None.

Lemma dots_or s : s = repeat 46 (List.length s) \/ Exists (fun c => c <> 46) s.
Proof.
  induction s as [|c s [IH|IH]]; [now left| |right; now apply Exists_cons_tl].
  destruct (N.eq_dec c 46) as [->|H]; [left; cbn; congruence|right; now constructor].
Qed.
Lemma gd_name idna s d : idna_ldh idna -> idna_not_dots idna -> idna s = Some d -> good s.
Proof.
  intros L K H. split.
  - eapply Forall_impl; [|exact (L _ _ H)]. cbn. unfold part. intros c C. lia.
  - destruct (dots_or s) as [E|E]; [|exact E]. rewrite E, K in H. discriminate.
Qed.
Lemma gd_strip s : good s -> good (strip_last 46 s).
Proof.
  intros [P X]. destruct (strip_cases s) as [E|E]; [rewrite <- E; now split|]. rewrite E in P, X. apply Forall_app in P as [P _].
  split; [exact P|]. apply Exists_app in X as [X|X]; [exact X|]. inversion X as [? ? D|? ? D]; subst; [now destruct D|inversion D].
Qed.
Lemma gd_ascii idna s d : idna_laws idna -> idna s = Some d -> good d.
Proof.
  intros L H. destruct (L _ _ H) as [F U].
  destruct (U (strip_last 46 d) (proj2 (undotted_strip d _) eq_refl)) as (N & D & _).
  split; [eapply Forall_impl; [|exact F]; unfold idna_char, part; intros c C; lia|].
  assert (Exists (fun c => c <> 46) (strip_last 46 d)) as X.
  { destruct (ends_cases (strip_last 46 d)) as [E|(l & x & E)]; [contradiction|]. rewrite E in D |- *. apply Exists_app. right. constructor.
    intros ->. exact (D l eq_refl). }
  destruct (strip_cases d) as [E|E]; rewrite E; [exact X|]. apply Exists_app. now left.
Qed.
Lemma gd_split s name p : split_port s name p -> good name -> good s.
Proof.
  destruct p as [p|]; [intros (q & -> & P)|intros [-> _]]; intros H; [|exact H]. apply good_left; [exact H|exact (pt_colon _ _ P)].
Qed.
Lemma gd_dotted s a : v4_dotted s a -> good s.
Proof.
  intros (t & [-> | ->] & T); [exact (gd_v4 _ _ T)|]. apply good_left; [exact (gd_v4 _ _ T)|]. constructor; [unfold part; lia|constructor].
Qed.
Lemma gd_dec t n : good t -> good (t ++ [58] ++ dec_of_N n).
Proof. intros H. apply good_left; [exact H|]. constructor; [unfold part; lia|]. exact (solid_parts _ (sd_dec n)). Qed.

(** C130: domains and hosts, as they come in and as their value prints. *)
Theorem C130_names : forall idna s, idna_ldh idna -> idna_laws idna -> idna_not_dots idna -> valid_str s ->
  (forall c v, domain_parse_str idna c s = Ok v -> file_name s /\
     exists t, @domain_authority domain_err v = Ok t /\ file_name t) /\
  (forall c v, host_parse_str idna c s = Ok v -> file_name s /\ file_name (host_authority v)).
Proof.
  intros idna s L I K V. split.
  - intros c v H. apply C36_domain_accepts_exactly in H; [|exact V].
    destruct H as (_ & name & P & _ & B).
    assert (good s /\ good (dv_domain v)) as [S D].
    { destruct B as [(_ & B & _)|[(_ & a & B & _ & _ & _ & E & _)|(_ & _ & _ & B & _)]].
      - split; [exact (gd_split _ _ _ P (gd_name _ _ _ L K B))|exact (gd_ascii _ _ _ I B)].
      - pose proof (gd_split _ _ _ P (gd_dotted _ _ B)) as W. split; [exact W|now rewrite E].
      - split; [exact (gd_split _ _ _ P (gd_name _ _ _ L K B))|exact (gd_ascii _ _ _ I B)]. }
    split; [now apply good_file|]. eexists. split; [apply domain_authority_ok|]. apply good_file.
    destruct (dv_port v); [apply gd_dec|]; now apply gd_strip.
  - intros c v H. apply C39_host_accepts_exactly in H; [|exact V]. unfold host_authority.
    destruct H as [(a & E & F & _)|[(a & E & F & _)|(name & d & E & _ & _ & _ & P & _ & _ & _ & B & _)]]; rewrite E.
    + split; [eapply good_file, gd_v6_form; exact F|]. destruct (v6_form_addr _ _ _ F) as [A Q].
      eapply good_file, gd_v6_form. apply ipv6_authority_form; assumption.
    + split; [eapply good_file, gd_v4_form; exact F|]. destruct (v4_form_addr _ _ _ F) as [A Q].
      eapply good_file, gd_v4_form. apply ipv4_authority_form; assumption.
    + split; [exact (good_file _ (gd_split _ _ _ P (gd_name _ _ _ L K B)))|]. pose proof (gd_ascii _ _ _ I B) as D. apply good_file.
      destruct (hv_port v); [apply gd_dec|]; exact D.
Qed.
Print Assumptions C130_names.

(** The law holds of the fragment. *)
Lemma idna_ascii_not_dots : idna_not_dots idna_ascii.
Proof.
  intros k. destruct (idna_ascii (repeat 46 k)) as [d|] eqn:H; [|reflexivity]. exfalso.
  pose proof (gd_ascii _ _ _ idna_ascii_laws H) as [_ X]. apply idna_ascii_frag in H as [H A]. unfold idna_frag in H.
  destruct (map_dots _) as [e|] eqn:E; [|discriminate H]. destruct (ok_name _); [|discriminate H]. injection H as ->.
  apply (map_ascii _ _ A) in E. subst d. clear A. induction k as [|k IH]; [inversion X|]. inversion X as [? ? D|? ? D]; subst; [now apply D|auto].
Qed.
Print Assumptions idna_ascii_not_dots.

(** ** E-mail addresses *)

(** A path with a component that leads to the directory above. *)
Definition climbs (s : list N) : Prop := exists u v, s = u ++ bs ".." ++ v /\
  (u = [] \/ exists u', u = u' ++ [47]) /\ (v = [] \/ exists v', v = 47 :: v').

Lemma host_no_slash idna c dt h canon : idna_ldh idna -> host_text idna c dt h canon -> ~ In 47 dt.
Proof.
  intros L H. assert (Forall part dt) as P.
  { destruct h as [d|a|a]; cbn [host_text] in H.
    - destruct H as (_ & _ & _ & _ & _ & H & _). eapply Forall_impl; [|exact (L _ _ H)]. cbn. unfold part. intros e E. lia.
    - destruct H as (_ & _ & t & -> & T & _). apply (gd_bracket t (gd_v4 _ _ T)).
    - destruct H as (_ & _ & t & -> & T & _). apply Forall_app. split; [apply solid_parts, solid_text; reflexivity|].
      apply Forall_app. split; [apply (gd_v6 _ _ T)|]. constructor; [unfold part; lia|constructor]. }
  intros I. rewrite Forall_forall in P. destruct (P _ I) as [_ D]. now apply D.
Qed.
Lemma host_printed_slash idna c dt h canon : idna_laws idna -> host_text idna c dt h canon -> ~ In 47 (e_host_text h).
Proof.
  intros L H. assert (Forall part (e_host_text h)) as P.
  { destruct h as [d|a|a]; cbn [host_text e_host_text] in *.
    - destruct H as (_ & _ & _ & _ & _ & H & _). apply (gd_ascii _ _ _ L H).
    - destruct H as (_ & _ & t & -> & T & _). pose proof (ipv4_display_text a (v4_text_addr _ _ T)) as D.
      apply (gd_bracket _ (gd_v4 _ _ D)).
    - destruct H as (_ & _ & t & -> & T & _). pose proof (ipv6_display_text a (v6_text_addr _ _ T)) as D.
      apply Forall_app. split; [apply solid_parts, solid_text; reflexivity|].
      apply Forall_app. split; [apply (gd_v6 _ _ D)|]. constructor; [unfold part; lia|constructor]. }
  intros I. rewrite Forall_forall in P. destruct (P _ I) as [_ D]. now apply D.
Qed.
Lemma climbs_local l dt : ~ double_dot l -> l <> [] -> ~ In 47 dt -> ~ climbs (l ++ 64 :: dt).
Proof.
  intros D N S (u & v & E & U & _). apply app_eq_app in E as (m & [[E1 E2]|[E1 E2]]).
  - destruct m as [|x [|y m]]; cbn in E2.
    + discriminate E2.
    + discriminate E2.
    + injection E2 as <- <- _. apply D. exists u, m. exact E1.
  - destruct U as [->|(u' & ->)].
    + destruct l; [contradiction|discriminate E1].
    + destruct m as [|x m] using rev_ind; [discriminate E2|]. rewrite app_assoc in E1. apply app_inj_tail in E1 as [_ <-].
      clear IHm. destruct m as [|y m]; [discriminate E2|]. cbn [app] in E2. injection E2 as _ E2.
      apply S. rewrite E2, !in_app_iff. cbn [In]. tauto.
Qed.

(** C130: an e-mail address without comments and quotes does not lead out of the directory under it, nor does what is printed.
    Missing: a slash in the local part may lead into a directory below; and a leading one makes the path absolute
    (see below). *)
Theorem C130_email_partial : forall idna prof c s v, idna_ldh idna -> idna_laws idna -> valid_str s ->
  email_parse_str idna prof c s = Ok v -> e_comment c = false -> ~ In 34 s -> ~ climbs s /\ ~ climbs (to_email_string c v).
Proof.
  intros idna prof c s v L I V H C Q.
  destruct (C47_email_policies _ _ _ _ _ V H) as (_ & _ & _ & N4 & _). destruct (N4 C) as (C1 & C2 & C3 & C4). clear N4.
  apply C44_email_accepts_exactly in H; [|exact V].
  destruct H as (lt & q & dt & tail & canon & E & _ & HL & _ & _ & _ & HT & _ & HH & _).
  rewrite C4 in HT. cbn [tail_ok] in HT. subst tail. rewrite C1, C2, C3 in E. cbn [ctext app] in E. rewrite app_nil_r in E.
  unfold to_email_string. rewrite C. cbn [negb app].
  destruct HL as [(_ & -> & (N & _ & _ & D & _) & _)|(_ & -> & _)].
  - rewrite E. split; apply climbs_local; try assumption; [exact (host_no_slash _ _ _ _ _ L HH)|exact (host_printed_slash _ _ _ _ _ I HH)].
  - destruct Q. rewrite E. left. reflexivity.
Qed.
Print Assumptions C130_email_partial.

(** Finding. Quotes let an address lead out, and it is printed without them. *)
Theorem C130_email_quoted_refuted : exists s v, valid_str s /\ climbs s /\ (exists r, to_email_string (ecfg false Disallow Disallow Must false) v = bs "../../" ++ r) /\
  forall prof com, email_parse_str idna_ascii prof (ecfg com Disallow Disallow Must false) s = Ok v.
Proof.
  exists ([34] ++ bs "../../etc/x" ++ [34] ++ bs "@d.org"),
    {| ev_local := bs "../../etc/x"; ev_need_quoted := true; ev_domain := HDomain (bs "d.org"); ev_c1 := None; ev_c2 := None;
       ev_c3 := None; ev_c4 := None; ev_is_local := None |}.
  split; [ascii_str|]. split.
  { exists ([34] ++ bs "../"), (bs "/etc/x" ++ [34] ++ bs "@d.org"). split; [reflexivity|]. split; right; [exists ([34] ++ bs "..")|eexists]; reflexivity. }
  split; [eexists; vm_compute; reflexivity|]. intros prof com. destruct prof, com; vm_compute; reflexivity.
Qed.
Print Assumptions C130_email_quoted_refuted.

(** Finding. Without quotes and comments an address may still be an absolute path. *)
Theorem C130_email_absolute_refuted : exists s v r, valid_str s /\ ~ In 34 s /\ s = 47 :: r /\
  forall prof com, let c := ecfg com Disallow Disallow Must false in email_parse_str idna_ascii prof c s = Ok v /\ to_email_string c v = s.
Proof.
  exists (bs "/etc/cron.d/x@d.org"),
    {| ev_local := bs "/etc/cron.d/x"; ev_need_quoted := false; ev_domain := HDomain (bs "d.org"); ev_c1 := None; ev_c2 := None;
       ev_c3 := None; ev_c4 := None; ev_is_local := None |}, (bs "etc/cron.d/x@d.org").
  split; [ascii_str|]. split; [vm_compute; lia|]. split; [reflexivity|].
  intros prof com. cbn zeta. split; destruct prof, com; vm_compute; reflexivity.
Qed.
Print Assumptions C130_email_absolute_refuted.

(** Finding. With comments it may climb. *)
Theorem C130_email_comment_refuted : exists s v, valid_str s /\ ~ In 34 s /\ climbs s /\
  forall prof, let c := ecfg true Disallow Disallow Must false in
  email_parse_str idna_ascii prof c s = Ok v /\ climbs (to_email_string c v).
Proof.
  assert (climbs (bs "(/../)a@d.org")) as K.
  { exists (bs "(/"), (bs "/)a@d.org"). split; [reflexivity|]. split; right; [exists (bs "(")|eexists]; reflexivity. }
  exists (bs "(/../)a@d.org"),
    {| ev_local := bs "a"; ev_need_quoted := false; ev_domain := HDomain (bs "d.org"); ev_c1 := Some (bs "/../"); ev_c2 := None;
       ev_c3 := None; ev_c4 := None; ev_is_local := None |}.
  split; [ascii_str|]. split; [vm_compute; lia|]. split; [exact K|].
  intros prof. cbn zeta. split; [destruct prof; vm_compute; reflexivity|exact K].
Qed.
Print Assumptions C130_email_comment_refuted.

(** Finding. A base64 text may be an absolute path. *)
Theorem C130_base64_refuted : exists s, s = bs "/etc/ssh" /\ forall p, base_parse_str B64 p s = Ok s /\ is_ok (dec_parse_str B64 p s).
Proof.
  exists (bs "/etc/ssh"). split; [reflexivity|]. intros []; (split; [vm_compute; reflexivity|eexists; vm_compute; reflexivity]).
Qed.
Print Assumptions C130_base64_refuted.

(** Finding. With a slash for the separator, so do the identifiers lie in directories below. *)
Theorem C130_separator_refuted : exists s, In 47 s /\ forall case, is_ok (mac_parse_str case (SepMust 47) s).
Proof. exists (bs "01/23/45/67/89/01"). split; [vm_compute; lia|]. intros []; eexists; vm_compute; reflexivity. Qed.
Print Assumptions C130_separator_refuted.

(** Non-triviality: the hypotheses of the theorems, and texts that come close to the names that are left out. *)
Example C130_example :
  let d := {| d_ipv4 := Allow; d_local := Allow; d_port := Allow; d_two := Allow |} in
  idna_ldh idna_ascii /\ idna_laws idna_ascii /\ idna_not_dots idna_ascii /\ part_sep (SepAllow 46) /\
  ~ file_name (bs ".") /\ ~ file_name (bs "..") /\ ~ file_name [] /\ ~ file_name (bs "a/b") /\ file_name (bs "...") /\
  valid_str (bs "a.:80") /\ is_ok (domain_parse_str idna_ascii d (bs "a.:80")) /\
  ~ is_ok (domain_parse_str idna_ascii d (bs "..")) /\ ~ is_ok (domain_parse_str idna_ascii d (bs ".")) /\
  is_ok (num_parse_str (float_of_text F64) Unlimited Allow (bs ".5")) /\
  ~ is_ok (num_parse_str (float_of_text F64) Unlimited Allow (bs ".")) /\
  is_ok (mac_parse_str AnyCase (SepAllow 46) (bs "01.23.45.67.89.ab")) /\
  is_ok (email_parse_str idna_ascii Debug (ecfg false Disallow Disallow Must false) (bs "a/b.@d.org")).
Proof.
  cbn zeta. split; [exact idna_ascii_ldh|]. split; [exact idna_ascii_laws|]. split; [exact idna_ascii_not_dots|].
  split; [intros c E; injection E as <-; lia|].
  split; [unfold file_name; tauto|]. split; [unfold file_name; tauto|]. split; [unfold file_name; tauto|].
  split; [intros (_ & H & _); apply H; vm_compute; lia|].
  split; [repeat split; try discriminate; vm_compute; lia|].
  split; [ascii_str|].
  repeat split; try (eexists; vm_compute; reflexivity); intros [v H]; vm_compute in H; discriminate H.
Qed.
Print Assumptions C130_example.
