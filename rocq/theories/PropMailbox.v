(** Property C108: the printed e-mail address is a mailbox of SMTP. *)
From Verif Require Import EntryFacts Base IntStr NetModel NetSpec NetProofs IpModel IpSpec LocalProofs IpProofs Utf8 StrFacts Serde
  DomainModel DomainSpec DomainProofs IdnaFrag HostModel HostSpec HostProofs EmailModel EmailSpec EmailProofs EmailParts
  EmailDomain EmailMain EmailRound.
From Verif Require Import PropEmail PropSafe PropWidth.
From Verif Require PropUri PropInject.
Local Open Scope N_scope.

(** RFC 5321, section 4.1.2, with the extension of RFC 6531, section 3.3, if [na]: [qtextSMTP] and [quoted-pairSMTP]. *)
Definition qtext (na : bool) (x : N) : Prop := 32 <= x <= 33 \/ 35 <= x <= 91 \/ 93 <= x <= 126 \/ (na = true /\ 128 <= x).
Inductive qcontent (na : bool) : list N -> Prop :=
| qc_nil : qcontent na []
| qc_text x l : qtext na x -> qcontent na l -> qcontent na (x :: l)
| qc_pair x l : 32 <= x <= 126 -> qcontent na l -> qcontent na (92 :: x :: l).

(** [Local-part]: a dot-string or a quoted string. *)
Definition smtp_local (na : bool) (l : list N) : Prop := dot_atom na l \/ exists q, l = [34] ++ q ++ [34] /\ qcontent na q.

(** [Domain]: labels of letters, digits and hyphens, with no hyphen at either end, separated by dots. *)
Definition let_dig (x : N) : Prop := 48 <= x <= 57 \/ 65 <= x <= 90 \/ 97 <= x <= 122.
Definition ldh_label (l : list N) : Prop :=
  l <> [] /\ Forall (fun x => let_dig x \/ x = 45) l /\ (forall r, l <> 45 :: r) /\ (forall u, l <> u ++ [45]).
Inductive sub_domains : list N -> Prop :=
| sd_one l : ldh_label l -> sub_domains l
| sd_dot l t : ldh_label l -> sub_domains t -> sub_domains (l ++ [46] ++ t).

(** A domain or an address literal, section 4.1.3. *)
Definition smtp_domain (d : list N) : Prop :=
  sub_domains d \/ (exists t a, d = [91] ++ t ++ [93] /\ v4_text t a) \/
  (exists t a, d = bs "[IPv6:" ++ t ++ [93] /\ v6_text t a).

(** [Mailbox]. *)
Definition mailbox (na : bool) (t l d : list N) : Prop := t = l ++ [64] ++ d /\ smtp_local na l /\ smtp_domain d.

(** A law of [to_ascii] with DNS length verification: there are no empty labels but the root. *)
Definition idna_full_labels (idna : list N -> option (list N)) : Prop :=
  forall x d, idna x = Some d -> (forall r, d <> 46 :: r) /\ ~ double_dot d.

(** No label has a hyphen at either end. *)
Definition inner_hyphens (d : list N) : Prop := forall u w, d = u ++ 45 :: w ->
  (exists u' y, u = u' ++ [y] /\ y <> 46) /\ (exists z w', w = z :: w' /\ z <> 46).

(** No tab, and no backslash that escapes a space or a character that is not ASCII. *)
Definition plain_pairs (l : list N) : Prop :=
  ~ In 9 l /\ forall u x w, l = u ++ 92 :: x :: w -> ~ escaped u -> x <> 32 /\ x < 128.

Lemma atext_range x : is_atext x -> 33 <= x <= 126 /\ x <> 34 /\ x <> 92 /\ x <> 46 /\ x <> 64 /\ x <> 62.
Proof.
  intros [H|[H|[H|H]]]; [lia|lia|lia|]. cbn in H.
  repeat destruct H as [<- | H]; try lia.
Qed.
Lemma special_range x : is_special x -> 33 <= x <= 126 /\ x <> 92.
Proof. intros [H| ->]; [|lia]. cbn in H. repeat destruct H as [<- | H]; try lia. Qed.

(** The quoted loop accepts quoted content. *)
Lemma run_content na : forall n l p, (List.length l <= n)%nat -> qrun na p false l -> est false l = false -> ~ In 9 l ->
  (forall u x w, l = u ++ 92 :: x :: w -> est false u = false -> x <> 32 /\ x < 128) -> qcontent na l.
Proof.
  induction n as [|n IH]; intros l p Hn Hq He Ht Hp.
  { destruct l; [constructor|cbn in Hn; lia]. }
  destruct l as [|x l]; [constructor|]. cbn [List.length] in Hn. cbn [qrun] in Hq. destruct Hq as (Hx & _ & Hq).
  cbn [est] in He. destruct Hx as [Hx|[Hx|[_ Hx]]]; [| |discriminate].
  - assert (NB : ~ blank x).
    { destruct Hx as [X|[X|[_ X]]]; unfold blank; [apply atext_range in X|..]; lia. }
    rewrite (step_nonblank _ _ NB) in *. apply qc_text.
    + unfold qtext. destruct Hx as [X|[X|X]]; [apply atext_range in X; lia|lia|tauto].
    + apply (IH l (S p)); [lia|exact Hq|exact He|intros X; apply Ht; right; exact X|].
      intros u y w E Eu. apply (Hp (x :: u) y w); [rewrite E; reflexivity|]. cbn [est]. rewrite (step_nonblank _ _ NB). exact Eu.
  - destruct Hx as [-> |[-> | ->]].
    + change (step 92 false) with true in *. destruct l as [|y l]; [discriminate|].
      destruct (Hp [] y l eq_refl eq_refl) as [Y1 Y2]. assert (Y3 : y <> 9) by (intros ->; apply Ht; right; left; reflexivity).
      cbn [qrun] in Hq. destruct Hq as (Hy & _ & Hq). cbn [est] in He. assert (S0 : step y true = false).
      { unfold step. destruct (N.eqb_spec y 92); [reflexivity|].
        replace ((y =? 32) || (y =? 9)) with false; [reflexivity|]. symmetry. apply orb_false_iff. rewrite !N.eqb_neq. lia. }
      rewrite S0 in *. apply qc_pair.
      * destruct Hy as [[X|[X|[_ X]]]|[X|[X _]]]; [apply atext_range in X; lia|lia|lia|unfold blank in X; lia|apply special_range in X; lia].
      * apply (IH l (S (S p))); [cbn [List.length] in Hn; lia|exact Hq|exact He|intros X; apply Ht; right; right; exact X|].
        intros u z w E Eu. apply (Hp (92 :: y :: u) z w); [rewrite E; reflexivity|]. cbn [est].
        change (step 92 false) with true. rewrite S0. exact Eu.
    + change (step 32 false) with false in *. apply qc_text; [unfold qtext; lia|].
      apply (IH l (S p)); [lia|exact Hq|exact He|intros X; apply Ht; right; exact X|].
      intros u y w E Eu. apply (Hp (32 :: u) y w); [rewrite E; reflexivity|exact Eu].
    + destruct Ht. left. reflexivity.
Qed.

Lemma quoted_content na o l : quoted na o l -> plain_pairs l -> qcontent na l.
Proof.
  intros Hq [Ht Hp]. destruct l as [|x b]; [constructor|]. apply quoted_body in Hq as (H1 & H2 & H3 & H4).
  apply (run_content na (List.length (x :: b)) (x :: b) (o + 1)%nat (le_n _)).
  - cbn [qrun]. split; [destruct H1; [left|right; left]; assumption|]. split; [intros _; exact H2|].
    replace (S (o + 1)) with (o + 2)%nat by lia. exact H3.
  - exact H4.
  - exact Ht.
  - intros u y w E Eu. apply (Hp u y w E). rewrite escaped_est, Eu. discriminate.
Qed.

(** Without the need for quotes there are no special characters. *)
Lemma needless_chars na o l : quoted na o l -> ~ needs_quotes l -> Forall (local_char na) l.
Proof.
  intros (_ & Hq & _) Hn. apply Forall_forall. intros e He. apply in_split in He as (u & w & E).
  destruct (Hq u e w E) as [X|[X|[_ X]]]; [exact X| |]; exfalso; apply Hn; right; left.
  - exists e. split; [rewrite E; apply in_elt|exact X].
  - destruct X as (u' & t & -> & _ & _ & Ho). exists 92. split; [|left; reflexivity].
    rewrite E. apply in_or_app. left. apply in_or_app. right. apply (count_occ_In N.eq_dec). destruct Ho as [k Ho]. lia.
Qed.

Lemma sub_domains_intro : forall n d, (List.length d <= n)%nat -> d <> [] -> Forall idna_char d -> (forall r, d <> 46 :: r) ->
  (forall u, d <> u ++ [46]) -> ~ double_dot d -> inner_hyphens d -> sub_domains d.
Proof.
  assert (L : forall a, Forall idna_char a -> ~ In 46 a -> Forall (fun x => let_dig x \/ x = 45) a).
  { intros a F I. rewrite Forall_forall in *. intros x X. specialize (F x X). unfold idna_char, let_dig in *.
    assert (x <> 46) by (intros ->; contradiction). lia. }
  induction n as [|n IH]; intros d Hl Hne Hf Hh Ht Hd Hy.
  - destruct d; [contradiction|cbn in Hl; lia].
  - destruct (first_split 46 d) as [(a & b & -> & Ha)|Hn].
    + apply Forall_app in Hf as [F1 F2]. apply Forall_inv_tail in F2.
      assert (Ne : a <> []) by (intros ->; exact (Hh b eq_refl)).
      apply (sd_dot a b).
      * split; [exact Ne|]. split; [apply L; assumption|]. split.
        -- intros r ->. destruct (Hy [] (r ++ 46 :: b) eq_refl) as [(u' & y & E & _) _]. destruct u'; discriminate.
        -- intros u ->. destruct (Hy u (46 :: b)) as [_ (z & w & E & N46)]; [rewrite <- app_assoc; reflexivity|].
           injection E as <- _. contradiction.
      * apply IH.
        -- rewrite app_length in Hl. cbn [List.length] in Hl. lia.
        -- intros ->. exact (Ht a eq_refl).
        -- exact F2.
        -- intros r ->. apply Hd. exists a, r. reflexivity.
        -- intros u ->. apply (Ht (a ++ 46 :: u)). rewrite <- app_assoc. reflexivity.
        -- intros (u & w & E). apply Hd. exists (a ++ 46 :: u), w. rewrite E, <- app_assoc. reflexivity.
        -- intros u w E. destruct (Hy (a ++ 46 :: u) w) as [(u' & y & E1 & N1) R]; [rewrite E, <- app_assoc; reflexivity|].
           split; [|exact R]. destruct u as [|c u _] using rev_ind.
           ++ exfalso. apply (app_inj_tail a u' 46 y) in E1 as [_ E1]. congruence.
           ++ exists u, c. split; [reflexivity|]. rewrite app_comm_cons, app_assoc in E1. apply app_inj_tail in E1 as [_ ->]. exact N1.
    + apply sd_one. split; [exact Hne|]. split; [apply L; assumption|]. split.
      * intros r ->. destruct (Hy [] r eq_refl) as [(u' & y & E & _) _]. destruct u'; discriminate.
      * intros u ->. destruct (Hy u [] eq_refl) as [_ (z & w & E & _)]. discriminate.
Qed.

(** The local part and the domain part as printed. *)
Definition local_printed (v : email_val) : list N := if ev_need_quoted v then [34] ++ ev_local v ++ [34] else ev_local v.

(** C108. An accepted address without comments prints a mailbox, if the quotes it needs are printed at all, the local part
    has no final dot, the quotes hold no tab and no escaped space, and the name has neither a final dot nor outer hyphens. *)
Theorem C108_mailbox_partial : forall idna prof c s v, idna_laws idna -> idna_full_labels idna -> valid_str s ->
  email_parse_str idna prof c s = Ok v ->
  ev_c1 v = None -> ev_c2 v = None -> ev_c3 v = None -> ev_c4 v = None ->
  e_comment c = true \/ ev_need_quoted v = false ->
  (ev_need_quoted v = false -> forall u, ev_local v <> u ++ [46]) ->
  (ev_need_quoted v = true -> plain_pairs (ev_local v)) ->
  (forall d, ev_domain v = HDomain d -> inner_hyphens d /\ forall u, d <> u ++ [46]) ->
  mailbox (e_non_ascii c) (to_email_string c v) (local_printed v) (e_host_text (ev_domain v)).
Proof.
  intros idna prof c s v Li Lf Hv H C1 C2 C3 C4 Hc Hdot Hp Hd.
  apply email_parse_spec in H; [|exact Hv].
  destruct H as (lt & q & dt & tail & canon & _ & _ & HL & _ & _ & _ & _ & _ & HH & _).
  split; [|split].
  - unfold to_email_string, local_printed. rewrite C1, C2, C3, C4. cbn [e_comment_text app]. rewrite app_nil_r.
    destruct (e_comment c); cbn [negb]; [destruct (ev_need_quoted v); cbn [app]; rewrite <- ?app_assoc; reflexivity|].
    destruct Hc as [Hc| ->]; [discriminate|reflexivity].
  - unfold smtp_local, local_printed. destruct HL as [(_ & _ & (H1 & H2 & H3 & H4 & _) & N0)|(_ & _ & HQ & N0)].
    + rewrite N0 in *. left. destruct (dotted_runs _ _ _ (le_n _) H1 H2 H3 H4) as [X|(t & E & _)]; [exact X|].
      destruct (Hdot eq_refl t E).
    + destruct (ev_need_quoted v) eqn:EN.
      * right. exists (ev_local v). split; [reflexivity|]. exact (quoted_content _ _ _ HQ (Hp eq_refl)).
      * left. assert (NN : ~ needs_quotes (ev_local v)) by (intros X; apply N0 in X; discriminate).
        pose proof (needless_chars _ _ _ HQ NN) as F. destruct HQ as (Ne & _).
        assert (X1 : forall r, ev_local v <> 46 :: r) by (intros r E; apply NN; left; exists r; exact E).
        assert (X2 : ~ double_dot (ev_local v)) by (intros X; apply NN; right; right; exact X).
        destruct (dotted_runs _ _ _ (le_n _) Ne X1 F X2) as [X|(t & E & _)]; [exact X|]. destruct (Hdot eq_refl t E).
  - destruct (ev_domain v) as [d|a|a]; cbn [e_host_text host_text] in *.
    + left. destruct HH as (_ & _ & _ & _ & _ & E & _). destruct (Hd d eq_refl) as [D1 D2].
      destruct (Lf _ _ E) as [D3 D4]. destruct (Li _ _ E) as [D5 D6].
      apply (sub_domains_intro _ d (le_n _)); try assumption. intros ->. destruct (D6 []) as [X _]; [|contradiction].
      right. split; [reflexivity|]. intros u X. destruct u; discriminate.
    + right. left. destruct HH as (_ & _ & t & _ & A & _). exists (ipv4_display a), a. split; [reflexivity|].
      apply ipv4_display_text. exact (v4_text_addr _ _ A).
    + right. right. destruct HH as (_ & _ & t & _ & A & _). exists (ipv6_display a), a. split; [reflexivity|].
      apply ipv6_display_text. exact (v6_text_addr _ _ A).
Qed.

(** Characters of the parts. *)
Lemma dot_atom_chars na l : dot_atom na l -> l <> [] /\ Forall (fun x => atom_char na x \/ x = 46) l /\ (forall u, l <> u ++ [46]).
Proof.
  assert (W : forall r, Forall (atom_char na) r -> Forall (fun x => atom_char na x \/ x = 46) r) by (intros r; apply Forall_impl; auto).
  assert (A : ~ atom_char na 46) by (intros [X|[_ X]]; [apply atext_range in X|]; lia).
  induction 1 as [r Ne F|r t Ne F D (IH1 & IH2 & IH3)].
  - split; [exact Ne|]. split; [apply W, F|]. intros u ->. apply Forall_app in F as [_ F]. apply Forall_inv in F. contradiction.
  - split; [destruct r; [contradiction|discriminate]|]. split.
    + apply Forall_app. split; [apply W, F|]. constructor; [right; reflexivity|exact IH2].
    + intros u E. destruct t as [|y t _] using rev_ind; [contradiction|]. rewrite !app_assoc in E.
      apply app_inj_tail in E as [_ ->]. exact (IH3 t eq_refl).
Qed.
Lemma dot_atom_no na l x : dot_atom na l -> In x [34; 62; 64; 92; 32; 9; 40; 41] -> ~ In x l.
Proof.
  intros D Hx I. apply dot_atom_chars in D as (_ & F & _). apply (proj1 (Forall_forall _ _) F) in I.
  assert (X : atom_char na x -> False).
  { intros [X|[_ X]]; [apply atext_spec in X|]; cbn in Hx; repeat destruct Hx as [<- |Hx]; try contradiction; try lia;
    vm_compute in X; discriminate. }
  destruct I as [I| ->]; [exact (X I)|]. cbn in Hx. repeat destruct Hx as [Hx|Hx]; try discriminate; contradiction.
Qed.

Lemma sub_domains_no d x : sub_domains d -> In x [62; 64; 91; 93; 40; 58] -> ~ In x d.
Proof.
  intros D Hx. assert (L : forall l, ldh_label l -> ~ In x l).
  { intros l (_ & F & _) I. apply (proj1 (Forall_forall _ _) F) in I. unfold let_dig in I. cbn in Hx.
    repeat destruct Hx as [<- |Hx]; try contradiction; lia. }
  induction D as [l H|l t H _ IH]; [exact (L l H)|]. intros I. apply in_app_or in I as [I|[<- |I]]; [exact (L l H I)| |exact (IH I)].
  cbn in Hx. repeat destruct Hx as [Hx|Hx]; try discriminate; contradiction.
Qed.

Lemma domain_no d x : smtp_domain d -> x = 62 \/ x = 64 -> ~ In x d.
Proof.
  intros D Hx. assert (L : forall t, Forall PropUri.literal_char t -> ~ In x t).
  { intros t F I. apply (proj1 (Forall_forall _ _) F) in I. unfold PropUri.literal_char in I. lia. }
  destruct D as [D|[(t & a & -> & A)|(t & a & -> & A)]].
  - apply (sub_domains_no d x D). destruct Hx as [-> | ->]; cbn; auto.
  - apply PropUri.v4_literal in A. intros I. apply in_app_or in I as [[I|[]]|I]; [lia|].
    apply in_app_or in I as [I|[I|[]]]; [exact (L t A I)|lia].
  - apply PropUri.v6_literal in A. intros I. apply in_app_or in I as [I|I].
    + cbn in I. repeat destruct I as [I|I]; lia || contradiction.
    + apply in_app_or in I as [I|[I|[]]]; [exact (L t A I)|lia].
Qed.

(** A mailbox has one local part and one domain. *)
Theorem C108_unique : forall na na' t l d l' d', mailbox na t l d -> mailbox na' t l' d' -> l = l' /\ d = d'.
Proof.
  intros na na' t l d l' d' (E & _ & D) (E' & _ & D'). rewrite E in E'.
  exact (PropInject.last_split 64 l d l' d' (domain_no _ _ D (or_intror eq_refl)) (domain_no _ _ D' (or_intror eq_refl)) E').
Qed.

Lemma content_prefix na na' : forall a, qcontent na a -> forall b r r', qcontent na' b -> a ++ 34 :: r = b ++ 34 :: r' -> a = b /\ r = r'.
Proof.
  assert (T : forall m x, qtext m x -> x <> 34 /\ x <> 92) by (unfold qtext; intros; lia).
  induction 1 as [|x a X A IH|x a X A IH]; intros b r r' B E.
  - destruct B as [|y b Y B|y b Y B]; cbn in E; injection E; [auto| |discriminate]. intros _ <-. apply T in Y. lia.
  - destruct B as [|y b Y B|y b Y B]; cbn in E; injection E.
    + intros _ ->. apply T in X. lia.
    + intros E1 ->. destruct (IH b r r' B E1) as [-> ->]. auto.
    + intros _ ->. apply T in X. lia.
  - destruct B as [|y b Y B|y b Y B]; cbn in E; injection E; [discriminate| |].
    + intros _ <-. apply T in Y. lia.
    + intros E1 ->. destruct (IH b r r' B E1) as [-> ->]. auto.
Qed.

Lemma first_split_unique (c : N) a b a' b' : ~ In c a -> ~ In c a' -> a ++ c :: b = a' ++ c :: b' -> a = a' /\ b = b'.
Proof.
  revert a'. induction a as [|x a IH]; intros [|y a'] A A' E; cbn in E; injection E.
  - auto.
  - intros _ <-. destruct A'. left. reflexivity.
  - intros _ ->. destruct A. left. reflexivity.
  - intros E1 ->. destruct (IH a') as [-> ->]; [intros I; apply A; right; exact I|intros I; apply A'; right; exact I|exact E1|auto].
Qed.

(** Written between angle brackets, as in [MAIL FROM:<...>], a mailbox ends where it should, whatever its quotes hold. *)
Theorem C108_in_brackets : forall na na' t l d t' l' d' r r', mailbox na t l d -> mailbox na' t' l' d' ->
  t ++ [62] ++ r = t' ++ [62] ++ r' -> t = t' /\ r = r'.
Proof.
  intros na na' t l d t' l' d' r r' (-> & L & D) (-> & L' & D') E.
  assert (P : l = l' /\ d ++ 62 :: r = d' ++ 62 :: r').
  { rewrite <- !app_assoc in E. cbn [app] in E. destruct L as [L|(q & -> & L)], L' as [L'|(q' & -> & L')].
    - apply (first_split_unique 64) in E; [exact E|apply (dot_atom_no _ _ 64 L)|apply (dot_atom_no _ _ 64 L')]; cbn; auto.
    - exfalso. destruct l as [|x l]; [exact (proj1 (dot_atom_chars _ _ L) eq_refl)|]. cbn in E. injection E as -> _.
      apply (dot_atom_no _ _ 34 L); cbn; auto.
    - exfalso. destruct l' as [|x l']; [exact (proj1 (dot_atom_chars _ _ L') eq_refl)|]. cbn in E. injection E as <- _.
      apply (dot_atom_no _ _ 34 L'); cbn; auto.
    - cbn [app] in E. injection E as E. rewrite <- !app_assoc in E. cbn [app] in E.
      apply (content_prefix _ _ _ L _ _ _ L') in E as [-> E]. injection E as E. auto. }
  destruct P as [-> P].
  apply (first_split_unique 62) in P; [|apply (domain_no _ _ D); auto|apply (domain_no _ _ D'); auto].
  destruct P as [-> ->]. auto.
Qed.

Definition is_mailbox (t : list N) : Prop := exists na l d, mailbox na t l d.

(** A text whose part before the last at-sign is no local part is no mailbox. *)
Lemma no_mailbox t l d : t = l ++ 64 :: d -> ~ In 64 d -> (forall na, ~ smtp_local na l) -> ~ is_mailbox t.
Proof.
  intros E D L (na & l' & d' & E' & L' & D'). rewrite E in E'. cbn [app] in E'.
  apply PropInject.last_split in E' as [<- _]; [exact (L na L')|exact D|apply (domain_no _ _ D'); auto].
Qed.

(** The fragment of [to_ascii] used as a witness meets the law. *)
Lemma labels_double u w : In [] (tl (labels (u ++ 46 :: 46 :: w))).
Proof.
  induction u as [|c u IH]; [left; reflexivity|]. cbn [app labels]. destruct (c =? 46).
  - cbn [tl]. destruct (labels (u ++ 46 :: 46 :: w)); [contradiction|right; exact IH].
  - destruct (labels (u ++ 46 :: 46 :: w)); [contradiction|exact IH].
Qed.
Lemma frag_full : idna_full_labels idna_frag.
Proof.
  intros x d H. unfold idna_frag in H. destruct (map_dots x) as [e|]; [|discriminate].
  destruct (ok_name (strip_last 46 e)) eqn:Ok; [|discriminate]. injection H as ->.
  unfold ok_name in Ok. apply andb_true_iff in Ok as [Ok _]. rewrite forallb_forall in Ok.
  assert (NE : ~ In [] (labels (strip_last 46 d))) by (intros I; apply Ok in I; discriminate).
  split.
  - intros r ->. destruct (strip_cases (46 :: r)) as [E|E].
    + rewrite <- E in NE. apply NE. left. reflexivity.
    + destruct (strip_last 46 (46 :: r)) as [|y t]; [apply NE; left; reflexivity|]. injection E as <- _. apply NE. left. reflexivity.
  - intros (u & w & E). destruct (strip_cases d) as [S|S].
    + rewrite <- S, E in NE. pose proof (labels_double u w) as I. cbn [app] in NE. destruct (labels (u ++ 46 :: 46 :: w)); [exact I|].
      apply NE. right. exact I.
    + rewrite S in E. destruct w as [|c w _] using rev_ind.
      * cbn [app] in E. change [46; 46] with ([46] ++ [46]) in E. rewrite app_assoc in E. apply app_inj_tail in E as [E _].
        rewrite E, labels_dot in NE. apply NE. apply in_or_app. right. left. reflexivity.
      * rewrite !app_assoc in E. apply app_inj_tail in E as [E _]. rewrite E, <- app_assoc in NE. cbn [app] in NE.
        pose proof (labels_double u w) as I. destruct (labels (u ++ 46 :: 46 :: w)); [exact I|]. apply NE. right. exact I.
Qed.
Lemma ascii_full : idna_full_labels idna_ascii.
Proof. intros x d H. apply idna_ascii_frag in H as [H _]. exact (frag_full x d H). Qed.

(** The name has one label after another and no hyphen. *)
Lemma no_hyphens d : ~ In 45 d -> inner_hyphens d.
Proof. intros H u w ->. destruct H. apply in_elt. Qed.

Ltac notin := let I := fresh in intros I; vm_compute in I; repeat destruct I as [I|I]; try discriminate I; contradiction.
Ltac cqc H := repeat (let X := fresh in let Y := fresh in inversion H as [|? ? X Y|? ? X Y]; clear H; subst; rename Y into H; try (unfold qtext in X; lia)).

(** C108, refuted in general: a final dot in the local part is printed as it is ... *)
Theorem C108_final_dot_refuted : exists idna c v, idna_laws idna /\ idna_full_labels idna /\ valid_str (bs "a.@example.com") /\
  email_parse_str idna Debug c (bs "a.@example.com") = Ok v /\ to_email_string c v = bs "a.@example.com" /\
  ~ is_mailbox (to_email_string c v).
Proof.
  exists idna_ascii, (ecfg true Disallow Disallow Must false). eexists. split; [exact idna_ascii_laws|]. split; [exact ascii_full|].
  split; [ascii_str|]. split; [vm_compute; reflexivity|]. split; [reflexivity|].
  apply (no_mailbox _ (bs "a.") (bs "example.com")); [reflexivity|notin|]. intros na [D|(q & E & _)].
  - destruct (dot_atom_chars _ _ D) as (_ & _ & X). exact (X (bs "a") eq_refl).
  - vm_compute in E. discriminate.
Qed.

(** ... with [comment(Disallow)] quotes are not printed, so that there may be a second at-sign ... *)
Theorem C108_quotes_refuted : exists idna c s v, idna_laws idna /\ idna_full_labels idna /\ valid_str s /\ e_comment c = false /\
  s = [34; 97; 92; 64; 98; 34] ++ bs "@example.com" /\ email_parse_str idna Debug c s = Ok v /\
  to_email_string c v = [97; 92; 64; 98] ++ bs "@example.com" /\ ~ is_mailbox (to_email_string c v).
Proof.
  exists idna_ascii, (ecfg false Disallow Disallow Must false), ([34; 97; 92; 64; 98; 34] ++ bs "@example.com"). eexists.
  split; [exact idna_ascii_laws|]. split; [exact ascii_full|]. split; [ascii_str|]. split; [reflexivity|]. split; [reflexivity|].
  split; [vm_compute; reflexivity|]. split; [reflexivity|].
  apply (no_mailbox _ [97; 92; 64; 98] (bs "example.com")); [reflexivity|notin|]. intros na [D|(q & E & _)].
  - apply (dot_atom_no _ _ 92 D); cbn; auto.
  - discriminate.
Qed.

(** ... a tab in the quotes stays ... *)
Theorem C108_tab_refuted : exists idna c s v, idna_laws idna /\ idna_full_labels idna /\ valid_str s /\
  s = [34; 97; 9; 34] ++ bs "@example.com" /\ email_parse_str idna Debug c s = Ok v /\
  to_email_string c v = s /\ ~ is_mailbox s.
Proof.
  exists idna_ascii, (ecfg true Disallow Disallow Must false), ([34; 97; 9; 34] ++ bs "@example.com"). eexists.
  split; [exact idna_ascii_laws|]. split; [exact ascii_full|]. split; [ascii_str|]. split; [reflexivity|].
  split; [vm_compute; reflexivity|]. split; [reflexivity|].
  apply (no_mailbox _ [34; 97; 9; 34] (bs "example.com")); [reflexivity|notin|]. intros na [D|(q & E & C)].
  - apply (dot_atom_no _ _ 34 D); cbn; auto.
  - apply (app_inj_tail [34; 97; 9] ([34] ++ q)) in E as [E _]. injection E as <-. cqc C.
Qed.

(** ... and a bare quote after an escaped space too, which ends the quoted string for every other reader. *)
Theorem C108_escape_refuted : exists idna c s v, idna_laws idna /\ idna_full_labels idna /\ valid_str s /\
  s = [34; 97; 92; 32; 34; 98; 34] ++ bs "@example.com" /\ email_parse_str idna Debug c s = Ok v /\
  to_email_string c v = s /\ ~ is_mailbox s.
Proof.
  exists idna_ascii, (ecfg true Disallow Disallow Must false), ([34; 97; 92; 32; 34; 98; 34] ++ bs "@example.com"). eexists.
  split; [exact idna_ascii_laws|]. split; [exact ascii_full|]. split; [ascii_str|]. split; [reflexivity|].
  split; [vm_compute; reflexivity|]. split; [reflexivity|].
  apply (no_mailbox _ [34; 97; 92; 32; 34; 98; 34] (bs "example.com")); [reflexivity|notin|]. intros na [D|(q & E & C)].
  - apply (dot_atom_no _ _ 34 D); cbn; auto.
  - apply (app_inj_tail [34; 97; 92; 32; 34; 98] ([34] ++ q)) in E as [E _]. injection E as <-. cqc C.
Qed.

Example C108_example : exists v w x,
  idna_laws idna_ascii /\ idna_full_labels idna_ascii /\
  email_parse_str idna_ascii Debug (ecfg true Allow Allow Allow true) ([34] ++ bs "a b@c" ++ [34] ++ bs "@Example.com") = Err EInvalid /\
  email_parse_str idna_ascii Debug (ecfg true Allow Allow Allow true) ([34] ++ bs "a >\@c" ++ [34] ++ bs "@Example.com") = Err EInvalid /\
  email_parse_str idna_ascii Debug (ecfg true Allow Allow Allow true) ([34] ++ bs "a \>\@c" ++ [34] ++ bs "@Example.com") = Ok v /\
  ev_need_quoted v = true /\ plain_pairs (ev_local v) /\
  to_email_string (ecfg true Allow Allow Allow true) v = [34] ++ bs "a \>\@c" ++ [34] ++ bs "@example.com" /\
  mailbox true (to_email_string (ecfg true Allow Allow Allow true) v) ([34] ++ bs "a \>\@c" ++ [34]) (bs "example.com") /\
  email_parse_str idna_ascii Debug (ecfg false Allow Allow Allow true) ([34] ++ bs "len.me" ++ [34] ++ bs "@[IPv6:0::1]") = Ok w /\
  mailbox true (to_email_string (ecfg false Allow Allow Allow true) w) (bs "len.me") (bs "[IPv6:::1]") /\
  email_parse_str idna_ascii Debug (ecfg false Allow Allow Allow false) (bs "a+b@x-1.org") = Ok x /\
  mailbox false (to_email_string (ecfg false Allow Allow Allow false) x) (bs "a+b") (bs "x-1.org") /\
  ~ is_mailbox (bs "a b@example.com").
Proof.
  assert (PP : plain_pairs (bs "a \>\@c")).
  { split; [notin|]. intros u y r E _. vm_compute in E.
    do 7 (destruct u as [|? u]; [cbn in E; first [discriminate E | injection E as E1 _; rewrite <- E1; split; [discriminate|lia]]|
      cbn in E; injection E as _ E]).
    destruct u; discriminate. }
  assert (ND : forall d u, (d = bs "example.com" \/ d = bs "x-1.org") -> d <> u ++ [46]).
  { intros d u D E. apply (f_equal (fun l => last l 0)) in E. rewrite last_last in E. destruct D as [-> | ->]; vm_compute in E; discriminate. }
  assert (IH : inner_hyphens (bs "x-1.org")).
  { intros u r E. vm_compute in E.
    do 7 (destruct u as [|? u]; [cbn in E; first [discriminate E |
      injection E as <-; split; [exists [], 120; split; [reflexivity|discriminate]|eexists; eexists; split; [reflexivity|discriminate]]]|
      cbn in E; injection E as <- E]).
    destruct u; discriminate. }
  do 3 eexists. split; [exact idna_ascii_laws|]. split; [exact ascii_full|].
  split; [vm_compute; reflexivity|]. split; [vm_compute; reflexivity|]. split; [vm_compute; reflexivity|].
  split; [reflexivity|]. split; [exact PP|]. split; [reflexivity|].
  split.
  { apply (C108_mailbox_partial idna_ascii Debug (ecfg true Allow Allow Allow true) ([34] ++ bs "a \>\@c" ++ [34] ++ bs "@Example.com"));
      try reflexivity; [exact idna_ascii_laws|exact ascii_full|ascii_str|left; reflexivity|discriminate|intros _; exact PP|].
    intros d D. injection D as <-. split; [apply no_hyphens; notin|]. intros u. apply ND. auto. }
  split; [vm_compute; reflexivity|]. split.
  { apply (C108_mailbox_partial idna_ascii Debug (ecfg false Allow Allow Allow true) ([34] ++ bs "len.me" ++ [34] ++ bs "@[IPv6:0::1]"));
      try reflexivity; [exact idna_ascii_laws|exact ascii_full|ascii_str|right; reflexivity| |discriminate|discriminate].
    intros _ u E. apply (f_equal (fun l => last l 0)) in E. rewrite last_last in E. vm_compute in E. discriminate. }
  split; [vm_compute; reflexivity|]. split.
  { apply (C108_mailbox_partial idna_ascii Debug (ecfg false Allow Allow Allow false) (bs "a+b@x-1.org"));
      try reflexivity; [exact idna_ascii_laws|exact ascii_full|ascii_str|right; reflexivity| |discriminate|].
    - intros _ u E. apply (f_equal (fun l => last l 0)) in E. rewrite last_last in E. vm_compute in E. discriminate.
    - intros d D. injection D as <-. split; [exact IH|]. intros u. apply ND. auto. }
  apply (no_mailbox _ (bs "a b") (bs "example.com")); [reflexivity|notin|]. intros na [D|(q & E & _)].
  - apply (dot_atom_no _ _ 32 D); cbn; auto 8.
  - vm_compute in E. discriminate.
Qed.

Print Assumptions C108_mailbox_partial.
Print Assumptions C108_unique.
Print Assumptions C108_in_brackets.
Print Assumptions C108_final_dot_refuted.
Print Assumptions C108_quotes_refuted.
Print Assumptions C108_tab_refuted.
Print Assumptions C108_escape_refuted.
