(** Property C128: a list of accepted texts, written one after the other, can be taken apart. *)
From Coq Require Import SpecFloat.
From Verif Require Import Base Utf8 IntStr IntStrProofs IntModel MacModel MacSpec BaseModel BaseSpec CodecModel CodecSpec
  RangeModel IntSpec NumberModel FloatModel BooleanModel NetModel NetSpec NetProofs IpModel IpSpec IpProofs
  DomainModel DomainSpec HostModel HostSpec EmailModel EmailSpec EmailMain LengthModel LineModel LineSpec.
From Verif Require Import PropMac PropIp PropDomain PropHost PropEmail PropLine PropTame PropTell IdnaFrag StrFacts.
Local Open Scope N_scope.

(** ** Lists of texts *)

(** The texts of [l] one after the other, with [sep] between them. *)
Fixpoint join (sep : list N) (l : list (list N)) : list N :=
  match l with
  | [] => []
  | x :: r => match r with [] => x | _ :: _ => x ++ sep ++ join sep r end
  end.

(** What was joined can be told from the result. *)
Definition taken_apart (P : list N -> Prop) (sep : list N) : Prop :=
  forall l l', l <> [] -> l' <> [] -> Forall P l -> Forall P l' -> join sep l = join sep l' -> l = l'.

Lemma join_cons sep x r : join sep (x :: r) = x ++ (match r with [] => [] | _ :: _ => sep ++ join sep r end).
Proof. destruct r; cbn [join]; [now rewrite app_nil_r|reflexivity]. Qed.

Lemma join_apart (P : list N -> Prop) d more : (forall s r, P s -> P (s ++ d :: r) -> False) -> taken_apart P (d :: more).
Proof.
  intros A l. induction l as [|x l IH]; intros l' N N' F F' E; [congruence|].
  destruct l' as [|x' l']; [congruence|]. inversion F as [|? ? Fx Fl]; inversion F' as [|? ? Fx' Fl']; subst.
  rewrite !join_cons in E. apply app_eq_app in E as (m & [[E1 E2]|[E1 E2]]).
  - destruct m as [|y m].
    + rewrite app_nil_r in E1. subst x'. f_equal. destruct l as [|z l], l' as [|z' l']; try reflexivity; try discriminate E2.
      cbn [app] in E2. injection E2 as E2. apply app_inv_head in E2. symmetry in E2. apply IH; congruence || assumption.
    + destruct l' as [|z' l']; [discriminate E2|]. cbn [app] in E2. injection E2 as <- _. subst x. destruct (A _ _ Fx' Fx).
  - destruct m as [|y m].
    + rewrite app_nil_r in E1. subst x'. f_equal. destruct l as [|z l], l' as [|z' l']; try reflexivity; try discriminate E2.
      cbn [app] in E2. injection E2 as E2. apply app_inv_head in E2. apply IH; congruence || assumption.
    + destruct l as [|z l]; [discriminate E2|]. cbn [app] in E2. injection E2 as <- _. subst x'. destruct (A _ _ Fx Fx').
Qed.

(** Texts without the delimiter. *)
Lemma join_without (P : list N -> Prop) d more : (forall s, P s -> ~ In d s) -> taken_apart P (d :: more).
Proof. intros A. apply join_apart. intros s r _ H. apply (A _ H). apply in_app_iff. right. now left. Qed.

Lemma not_tame d s : ~ tame d -> Forall tame s -> ~ In d s.
Proof. intros N F I. exact (N (proj1 (Forall_forall _ _) F d I)). Qed.

(** C128: numbers, boolean words and base texts, with any delimiter that does not occur in such texts. *)
Theorem C128_texts : forall d more, ~ tame d ->
  (forall sg pw t r, taken_apart (fun s => is_ok (int_parse_str sg pw t r s)) (d :: more)) /\
  (forall t r nan, taken_apart (fun s => is_ok (num_parse_str (float_of_text t) r nan s)) (d :: more)) /\
  taken_apart (fun s => is_ok (bool_parse_str s)) (d :: more) /\
  (forall f p, taken_apart (fun s => is_ok (base_parse_str f p s)) (d :: more)) /\
  (forall f p, taken_apart (fun s => is_ok (dec_parse_str f p s)) (d :: more)).
Proof.
  intros d more D. assert (J : forall P : list N -> Prop, (forall s, P s -> Forall tame s) -> taken_apart P (d :: more)).
  { intros P H. apply join_without. intros s S. exact (not_tame _ _ D (H s S)). }
  repeat split; intros; apply J; intros s H; destruct H as [v H];
    destruct (C115_tame s) as (A1 & A2 & A3 & A4 & A5 & _); eauto.
Qed.
Print Assumptions C128_texts.

(** ** Identifiers: all have the same number of digits and end in one *)
Definition hexb (c : N) : bool := ((48 <=? c) && (c <=? 57)) || ((65 <=? c) && (c <=? 70)) || ((97 <=? c) && (c <=? 102)).
Lemma hexb_spec c : hexb c = true <-> hexc c.
Proof. unfold hexb, hexc. rewrite !orb_true_iff, !andb_true_iff, !N.leb_le. lia. Qed.
Lemma filter_hex ds : Forall hexc ds -> filter hexb ds = ds.
Proof. induction 1 as [|c ds C _ IH]; [reflexivity|]. cbn [filter]. rewrite (proj2 (hexb_spec c) C). congruence. Qed.
Lemma filter_sep sep t : (forall c, sep_char sep = Some c -> ~ hexc c) -> sep_form sep t -> filter hexb t = [].
Proof.
  intros H S. destruct (sep_cases _ _ S) as [->|(c & C & ->)]; [reflexivity|]. cbn [filter].
  destruct (hexb c) eqn:B; [|reflexivity]. apply hexb_spec in B. destruct (H _ C B).
Qed.
Lemma grouped_filter sep sizes v digits : (forall c, sep_char sep = Some c -> ~ hexc c) ->
  grouped sep sizes v digits -> Forall hexc digits -> filter hexb v = digits.
Proof.
  intros H. induction 1 as [g|g t sizes v digits T G IH]; intros F; [exact (filter_hex _ F)|].
  apply Forall_app in F as [F1 F2]. now rewrite !filter_app, (filter_hex _ F1), (filter_sep _ _ H T), (IH F2).
Qed.
Lemma grouped_last sep sizes v digits : grouped sep sizes v digits -> Forall (fun n => (0 < n)%nat) sizes -> Forall hexc digits ->
  exists u c, v = u ++ [c] /\ hexc c.
Proof.
  induction 1 as [g|g t sizes v digits T G IH]; intros P F.
  - destruct g as [|x g] using rev_ind; [inversion P; cbn in *; lia|]. apply Forall_app in F as [_ F]. inversion F; subst. eauto.
  - apply Forall_app in F as [_ F]. inversion P; subst. destruct IH as (u & c & -> & C); [assumption..|].
    exists (g ++ t ++ u), c. split; [now rewrite <- !app_assoc|exact C].
Qed.
Lemma hex_text_apart sep sizes d s r : (forall c, sep_char sep = Some c -> ~ hexc c) -> ~ hexc d ->
  Forall (fun n => (0 < n)%nat) sizes -> hex_text sep sizes s -> hex_text sep sizes (s ++ d :: r) -> False.
Proof.
  intros H D P (ds & G & F) (ds' & G' & F'). pose proof (grouped_len _ _ _ _ G) as L. pose proof (grouped_len _ _ _ _ G') as L'.
  pose proof (grouped_filter _ _ _ _ H G F) as E. pose proof (grouped_filter _ _ _ _ H G' F') as E'.
  rewrite filter_app in E'. assert (R : filter hexb (d :: r) = []).
  { apply length_zero_iff_nil. apply (f_equal (@List.length N)) in E, E'. rewrite app_length in E'. lia. }
  destruct (grouped_last _ _ _ _ G' P F') as (u & c & Ec & C).
  destruct (@exists_last _ (d :: r) ltac:(discriminate)) as (w & y & Ew). rewrite Ew in Ec, R. rewrite app_assoc in Ec.
  apply app_inj_tail in Ec as [_ ->]. rewrite filter_app in R. apply app_eq_nil in R as [_ R]. cbn [filter] in R.
  rewrite (proj2 (hexb_spec c) C) in R. discriminate R.
Qed.

(** C128: identifiers, even when the delimiter is the separator. *)
Theorem C128_identifiers : forall case sep d more, ~ hexc d ->
  taken_apart (fun s => is_ok (mac_parse_str case sep s)) (d :: more) /\
  taken_apart (fun s => is_ok (uuid_parse_str case sep s)) (d :: more).
Proof.
  intros case sep d more D.
  assert (J : forall sizes s r, Forall (fun n => (0 < n)%nat) sizes -> hex_text sep sizes s -> hex_text sep sizes (s ++ d :: r) -> False).
  { intros sizes s r P X Y. refine (hex_text_apart _ _ _ _ _ _ D P X Y). intros c C.
    assert (I : In d (s ++ d :: r)) by (apply in_app_iff; right; now left). apply (hex_text_in _ _ _ _ Y D) in I. congruence. }
  split; apply join_apart; intros s r [x X] [y Y].
  - apply mac_hex in X, Y. refine (J _ _ _ _ X Y). repeat constructor; lia.
  - apply uuid_hex in X, Y. refine (J _ _ _ _ X Y). repeat constructor; lia.
Qed.
Print Assumptions C128_identifiers.

(** C128: Internet addresses, domains and hosts. *)
Theorem C128_addresses : forall d more, ~ tame d ->
  (forall port local, taken_apart (fun s => valid_str s /\ is_ok (ip_parse_str port local s)) (d :: more)) /\
  (forall port local, taken_apart (fun s => valid_str s /\ is_ok (ipv4_parse_str port local s)) (d :: more)) /\
  (forall port local, taken_apart (fun s => valid_str s /\ is_ok (ipv6_parse_str port local s)) (d :: more)).
Proof.
  intros d more D.
  repeat split; intros port local; apply join_without; intros s [V [v H]]; apply (not_tame _ _ D);
    destruct (C115_ip port local s V) as (A1 & A2 & A3); [apply (A1 _ H)|apply (A2 _ H)|apply (A3 _ H)].
Qed.
Print Assumptions C128_addresses.

Lemma not_more d s : d < 128 -> ~ tame d -> Forall tame_or_more s -> ~ In d s.
Proof. intros L N F I. pose proof (proj1 (Forall_forall _ _) F d I) as [H|H]; [exact (N H)|lia]. Qed.

Theorem C128_names : forall idna d more, idna_ldh idna -> idna_laws idna -> d < 128 -> ~ tame d ->
  (forall c, taken_apart (fun s => valid_str s /\ is_ok (domain_parse_str idna c s)) (d :: more)) /\
  (forall c, taken_apart (fun s => valid_str s /\ is_ok (host_parse_str idna c s)) (d :: more)).
Proof.
  intros idna d more I1 I2 L D.
  split; intros c; apply join_without; intros s [V [v H]]; apply (not_more _ _ L D);
    destruct (C115_names idna s I1 I2 V) as [A1 A2]; [apply (A1 _ _ H)|apply (A2 _ _ H)].
Qed.
Print Assumptions C128_names.

(** ** E-mail addresses *)

Lemma local_char_plain na e : local_char na e -> e <> 64 /\ e <> 34 /\ e <> 92.
Proof.
  intros [H|[H|[_ H]]]; try lia. assert (e <> 64 /\ e <> 34 /\ e <> 92); [|tauto].
  destruct H as [H|[H|[H|H]]]; try lia. vm_compute in H. intuition (subst; discriminate).
Qed.
Lemma unquoted_not_escaped na o l : unquoted na o l -> ~ escaped l.
Proof.
  intros (_ & _ & F & _) (w & t & -> & _ & B & O). apply Forall_app in F as [_ F].
  assert (C : count_occ N.eq_dec t 92 = 0%nat).
  { apply count_occ_not_In. intros I. apply (proj1 (Forall_forall _ _) F) in I. apply local_char_plain in I. tauto. }
  rewrite C in O. destruct O as [k K]. lia.
Qed.
Lemma quoted_special na o u e v : quoted na o (u ++ e :: v) -> e = 64 \/ e = 34 -> escaped u.
Proof.
  intros (_ & H & _) E. destruct (H u e v eq_refl) as [K|[K|[_ K]]]; [|unfold blank in K; lia|exact K].
  apply local_char_plain in K. lia.
Qed.

(** The text of a local part, without its quotes. *)
Definition contents (na : bool) (l : list N) : Prop := exists o, unquoted na o l \/ quoted na o l.
Lemma contents_not_escaped na l : contents na l -> ~ escaped l.
Proof. intros (o & [H|(_ & _ & H & _)]); [exact (unquoted_not_escaped _ _ _ H)|exact H]. Qed.
Lemma contents_at na l m : contents na l -> contents na (l ++ 64 :: m) -> False.
Proof.
  intros H (o & [(_ & _ & F & _)|Q]).
  - apply Forall_app in F as [_ F]. inversion F as [|? ? X _]; subst. apply local_char_plain in X. tauto.
  - apply quoted_special in Q; [|now left]. exact (contents_not_escaped _ _ H Q).
Qed.
Lemma contents_end na l l' r r' : contents na l -> contents na l' -> l ++ 64 :: r = l' ++ 64 :: r' -> l = l' /\ r = r'.
Proof.
  intros H H' E. apply app_eq_app in E as (m & [[E1 E2]|[E1 E2]]); (destruct m as [|x m];
    [rewrite app_nil_r in E1; injection E2 as <-; auto|exfalso; cbn in E2; injection E2 as <- _; subst]).
  - exact (contents_at _ _ _ H' H).
  - exact (contents_at _ _ _ H H').
Qed.
Lemma quoted_end na o o' l l' r r' : quoted na o l -> quoted na o' l' -> l ++ 34 :: r = l' ++ 34 :: r' -> l = l' /\ r = r'.
Proof.
  intros H H' E. apply app_eq_app in E as (m & [[E1 E2]|[E1 E2]]); (destruct m as [|x m];
    [rewrite app_nil_r in E1; injection E2 as <-; auto|exfalso; cbn in E2; injection E2 as <- _; subst]).
  - apply quoted_special in H; [|now right]. destruct H' as (_ & _ & N & _). exact (N H).
  - apply quoted_special in H'; [|now right]. destruct H as (_ & _ & N & _). exact (N H').
Qed.
Lemma local_contents na o lt l nq q : local_text na o lt l nq q -> contents na l.
Proof. intros [(_ & _ & H & _)|(_ & _ & H & _)]; exists o; tauto. Qed.

Lemma local_end na o o' lt l nq q lt' l' nq' q' r r' :
  local_text na o lt l nq q -> local_text na o' lt' l' nq' q' -> lt ++ 64 :: r = lt' ++ 64 :: r' -> lt = lt' /\ r = r'.
Proof.
  assert (X : forall o o' l l' r r', unquoted na o l -> l ++ 64 :: r = ([34] ++ l' ++ [34]) ++ 64 :: r' -> quoted na o' l' -> False).
  { intros p p' k k' z z' (N & _ & F & _) E _. destruct k as [|x k]; [congruence|]. injection E as -> _.
    inversion F as [|? ? K _]; subst. apply local_char_plain in K. tauto. }
  intros [(_ & -> & H & _)|(_ & -> & H & _)] [(_ & -> & H' & _)|(_ & -> & H' & _)] E.
  - apply (contents_end na); [exists o; tauto|exists o'; tauto|exact E].
  - destruct (X _ _ _ _ _ _ H E H').
  - symmetry in E. destruct (X _ _ _ _ _ _ H' E H).
  - cbn [app] in E. injection E as E. rewrite <- !app_assoc in E. cbn [app] in E.
    destruct (quoted_end _ _ _ _ _ _ _ H H' E) as [-> R]. injection R as ->. auto.
Qed.

(** An address without comments, in its two parts. *)
Lemma email_parts idna prof c s v : idna_ldh idna -> idna_laws idna -> valid_str s -> e_comment c = false ->
  email_parse_str idna prof c s = Ok v -> exists lt q dt, s = lt ++ 64 :: dt /\
    local_text (e_non_ascii c) 0 lt (ev_local v) (ev_need_quoted v) q /\ Forall tame_or_more dt /\ Forall tame (e_host_text (ev_domain v)).
Proof.
  intros I1 I2 V C H. apply email_parse_spec in H; [|exact V].
  destruct H as (lt & q & dt & tail & canon & Es & _ & HL & K1 & K2 & K3 & T & _ & Ht & _).
  assert (Z : forall lim k, comment_ok c lim k -> k = None).
  { intros lim [k|] K; [|reflexivity]. destruct (K k eq_refl) as [K' _]. congruence. }
  rewrite (Z _ _ K1) in *. rewrite (Z _ _ K2), (Z _ _ K3) in Es. cbn [ctext app List.length] in *.
  destruct (ev_c4 v) as [k|]; cbn [tail_ok] in T; [destruct T; congruence|]. subst tail. rewrite app_nil_r in Es.
  exists lt, q, dt. repeat split; [exact Es|exact HL|exact (host_more _ _ _ _ _ I1 Ht)|exact (host_printed_tm _ _ _ _ _ I2 Ht)].
Qed.

(** C128: e-mail addresses without comments, and what they print.
    Missing: addresses with comments. *)
Theorem C128_email_partial : forall idna prof c d more, idna_ldh idna -> idna_laws idna -> e_comment c = false ->
  d < 128 -> ~ tame d ->
  taken_apart (fun s => valid_str s /\ is_ok (email_parse_str idna prof c s)) (d :: more) /\
  taken_apart (fun t => exists s v, valid_str s /\ email_parse_str idna prof c s = Ok v /\ t = to_email_string c v) (d :: more).
Proof.
  intros idna prof c d more I1 I2 C L D. split; apply join_apart.
  - intros s r [V [v H]] [V' [v' H']].
    destruct (email_parts _ _ _ _ _ I1 I2 V C H) as (lt & q & dt & E & T & F & _).
    destruct (email_parts _ _ _ _ _ I1 I2 V' C H') as (lt' & q' & dt' & E' & T' & F' & _).
    rewrite E, <- app_assoc in E'. cbn [app] in E'. destruct (local_end _ _ _ _ _ _ _ _ _ _ _ _ _ T T' E') as [_ R].
    rewrite <- R in F'. apply (not_more _ _ L D F'). apply in_app_iff. right. now left.
  - intros t r (s & v & V & H & E) (s' & v' & V' & H' & E').
    destruct (email_parts _ _ _ _ _ I1 I2 V C H) as (lt & q & dt & _ & T & _ & F).
    destruct (email_parts _ _ _ _ _ I1 I2 V' C H') as (lt' & q' & dt' & _ & T' & _ & F').
    unfold to_email_string in E, E'. rewrite C in E, E'. cbn [negb app] in E, E'.
    rewrite E, <- app_assoc in E'. cbn [app] in E'.
    destruct (contents_end _ _ _ _ _ (local_contents _ _ _ _ _ _ T) (local_contents _ _ _ _ _ _ T') E') as [_ R].
    rewrite <- R in F'. apply (not_tame _ _ D F'). apply in_app_iff. right. now left.
Qed.
Print Assumptions C128_email_partial.

(** C128: splitting at the commas is not the way to take them apart. *)
Theorem C128_email_commas_refuted : exists idna c s v, idna_ldh idna /\ idna_laws idna /\ e_comment c = false /\ valid_str s /\
  (forall prof, email_parse_str idna prof c s = Ok v) /\ In 44 s /\ In 44 (to_email_string c v).
Proof.
  exists idna_ascii, (ecfg false Disallow Disallow Must false), ([34] ++ bs "x\,y" ++ [34] ++ bs "@d.org").
  eexists. split; [exact idna_ascii_ldh|]. split; [exact idna_ascii_laws|]. split; [reflexivity|]. split; [ascii_str|].
  split; [intros []; vm_compute; reflexivity|]. vm_compute. tauto.
Qed.
Print Assumptions C128_email_commas_refuted.

(** C128: with comments a list of two addresses is also a list of one. *)
Theorem C128_email_refuted : exists idna c l l', idna_ldh idna /\ idna_laws idna /\
  Forall (fun s => valid_str s /\ forall prof, is_ok (email_parse_str idna prof c s)) (l ++ l') /\
  join (bs ", ") l = join (bs ", ") l' /\ List.length l = 1%nat /\ List.length l' = 2%nat.
Proof.
  exists idna_ascii, (ecfg true Disallow Disallow Must false), [bs "a@d.org(office), b@e.org"], [bs "a@d.org(office)"; bs "b@e.org"].
  split; [exact idna_ascii_ldh|]. split; [exact idna_ascii_laws|]. split; [|repeat split].
  repeat constructor; try (ascii_str; fail); intros []; eexists; vm_compute; reflexivity.
Qed.
Print Assumptions C128_email_refuted.

(** ** Lines *)

Lemma forbidden_white s lead m trail lead' rest d r : trims s lead m trail -> m <> [] ->
  s ++ d :: r = lead' ++ rest -> Forall white lead' -> In d rest.
Proof.
  intros (-> & _ & _ & [[-> _]|[(x & m' & -> & X) _]]) N E W; [congruence|].
  rewrite <- !app_assoc in E. apply app_eq_app in E as (z & [[E1 E2]|[E1 E2]]).
  - subst rest. rewrite in_app_iff. right. right. rewrite in_app_iff. right. rewrite in_app_iff. right. now left.
  - destruct z as [|y z]; [cbn in E2; subst rest|].
    + right. rewrite in_app_iff. right. rewrite in_app_iff. right. now left.
    + cbn [app] in E2. injection E2 as <- _. subst lead'. apply Forall_app in W as [_ W]. inversion W; subst. contradiction.
Qed.

(** C128: lines, joined by line breaks or other characters that are not allowed in a line, unless the trimmed length may be 0. *)
Theorem C128_lines : forall k a d more, forbidden k d -> a_tmin a <> Some 0 ->
  taken_apart (fun s => is_ok (line_parse_str k a s)) (d :: more).
Proof.
  intros k a d more D T. apply join_apart. intros s r [v H] [w H'].
  destruct (a_tmin a) as [t|] eqn:E.
  - assert (w = s ++ d :: r) as -> by (apply (C12_trimmed_min_exact k a t _ w E) in H' as [-> _]; reflexivity).
    apply (C12_trimmed_min_exact k a t s v E) in H as (_ & lead & m & trail & Tr & _ & _ & _ & L).
    apply C13_no_control_partial in H' as [_ (lead' & rest & E1 & W & F)].
    assert (M : m <> []). { intros ->. apply T. f_equal. destruct (a_byte a); vm_compute in L; destruct t; congruence. }
    pose proof (forbidden_white _ _ _ _ _ _ _ _ Tr M E1 W) as I. exact (proj1 (Forall_forall _ _) F d I D).
  - apply (C11_no_trimmed_min_exact k a _ w E) in H' as (_ & F & _). apply Forall_app in F as [_ F].
    inversion F; subst. contradiction.
Qed.
Print Assumptions C128_lines.

(** C128: when the trimmed length may be 0, two lines are also one. *)
Theorem C128_lines_refuted : exists a l l', accepted_attr a /\ Forall (fun s => is_ok (line_parse_str Line a s)) (l ++ l') /\
  join [10] l = join [10] l' /\ List.length l = 1%nat /\ List.length l' = 2%nat.
Proof.
  exists (Some (false, mk_len None (Some 0) None)), [[32; 10; 97]], [[32]; [97]]. split; [|split; [|repeat split]].
  - exists (Some [UCharLength [LTrimmedMin (Some 0)]]). reflexivity.
  - repeat constructor; eexists; vm_compute; reflexivity.
Qed.
Print Assumptions C128_lines_refuted.

Example C128_example :
  ~ tame 44 /\ ~ hexc 44 /\ forbidden Line 10 /\ idna_ldh idna_ascii /\ idna_laws idna_ascii /\
  join (bs ", ") [bs "a@d.org"; [34] ++ bs "x\,y" ++ [34] ++ bs "@d.org"] = bs "a@d.org, " ++ [34] ++ bs "x\,y" ++ [34] ++ bs "@d.org" /\
  is_ok (email_parse_str idna_ascii Debug (ecfg false Disallow Disallow Must false) ([34] ++ bs "x\,y" ++ [34] ++ bs "@d.org")) /\
  is_ok (email_parse_str idna_ascii Debug (ecfg false Disallow Disallow Must false) (bs "a@d.org")) /\
  email_parse_str idna_ascii Debug (ecfg false Disallow Disallow Must false) (bs "a@d.org, ") = Err EInvalid /\
  join (bs ",") [bs "01,23,45,67,89,ab"; bs "0123456789ab"] = bs "01,23,45,67,89,ab,0123456789ab" /\
  is_ok (mac_parse_str AnyCase (SepAllow 44) (bs "01,23,45,67,89,ab")) /\ is_ok (mac_parse_str AnyCase (SepAllow 44) (bs "0123456789ab")) /\
  ~ is_ok (mac_parse_str AnyCase (SepAllow 44) (bs "01,23,45,67,89,ab,")) /\
  is_ok (line_parse_str Line (Some (true, mk_len None (Some 1) None)) [10; 97]) /\
  join [10] [[97]; [10; 97]] = [97; 10; 10; 97].
Proof.
  split; [rewrite tame_range; lia|]. split; [unfold hexc; lia|]. split; [cbn; lia|]. split; [exact idna_ascii_ldh|].
  split; [exact idna_ascii_laws|]. split; [reflexivity|]. split; [eexists; vm_compute; reflexivity|].
  split; [eexists; vm_compute; reflexivity|]. split; [vm_compute; reflexivity|]. split; [reflexivity|].
  split; [eexists; vm_compute; reflexivity|]. split; [eexists; vm_compute; reflexivity|].
  split; [intros [x H]; vm_compute in H; discriminate H|]. split; [eexists; vm_compute; reflexivity|reflexivity].
Qed.
