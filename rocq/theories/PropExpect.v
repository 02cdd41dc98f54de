(** The description that a deserialiser gives of what it expects, and what the validator accepts. *)
From Coq Require Import Floats.SpecFloat.
From Verif Require Import Base Utf8 IntStr IntStrProofs RangeModel IntModel NumberModel NumberSpec LengthModel LineModel BaseModel
  MacModel SizeModel NetModel NetSpec IpSpec DomainModel DomainSpec HostModel EmailModel EmailSpec NetProofs LocalProofs IpProofs StrFacts
  IdnaFrag PropDomain PropHost PropEmail PropNumber ExpectModel.
Local Open Scope N_scope.

Ltac texts H := first [reflexivity | exfalso; apply eqbs_eq in H; vm_compute in H; discriminate H].

Lemma net_inj l p l' p' : expect_net l p = expect_net l' p' -> l = l' /\ p = p'.
Proof.
  destruct l, p, l', p'; intros H; first [split; reflexivity | exfalso; apply eqbs_eq in H; vm_compute in H; discriminate H].
Qed.

(** ** Descriptions that leave nothing out *)
Theorem C83_ip_text : forall p l p' l',
  (ip_expect p l = ip_expect p' l' -> p = p' /\ l = l') /\
  (ipv4_expect p l = ipv4_expect p' l' -> p = p' /\ l = l') /\
  (ipv6_expect p l = ipv6_expect p' l' -> p = p' /\ l = l').
Proof.
  intros p l p' l'.
  split; [|split]; intros H; apply app_inv_head, net_inj in H as [<- <-]; split; reflexivity.
Qed.

Theorem C83_host_text : forall c c', host_expect c = host_expect c' -> c = c'.
Proof.
  intros [l p t] [l' p' t'] H. unfold host_expect in H. cbn [h_two h_local h_port] in H.
  destruct t, t'; try (exfalso; apply (f_equal (firstn 32)) in H; vm_compute in H; discriminate H);
    repeat apply app_inv_head in H; apply net_inj in H as [<- <-]; reflexivity.
Qed.

Theorem C83_url_text : forall l l',
  (http_expect l = http_expect l' -> l = l') /\ (http_ftp_expect l = http_ftp_expect l' -> l = l').
Proof. intros [] []; split; intros H; texts H. Qed.

Theorem C83_base_text : forall f p f' p', base_expect f p = base_expect f' p' -> f = f' /\ p = p'.
Proof.
  intros [] [] [] [] H; first [split; reflexivity | exfalso; apply eqbs_eq in H; vm_compute in H; discriminate H].
Qed.

(** The separator is a byte. *)
Definition sep_is_byte (s : sep_option) : Prop :=
  match s with SepMust c | SepAllow c => c < 256 | SepDisallow => True end.

Lemma char_debug_inj a b : a < 256 -> b < 256 -> char_debug a = char_debug b -> a = b.
Proof.
  intros Ha Hb H.
  assert (T : forallb (fun i => forallb (fun j => (i =? j)%nat ||
     negb (eqbs (char_debug (N.of_nat i)) (char_debug (N.of_nat j)))) (seq 0 256)) (seq 0 256) = true)
    by (vm_compute; reflexivity).
  rewrite forallb_forall in T. specialize (T (N.to_nat a)). rewrite forallb_forall in T.
  assert (Ia : In (N.to_nat a) (seq 0 256)) by (apply in_seq; lia).
  assert (Ib : In (N.to_nat b) (seq 0 256)) by (apply in_seq; lia).
  specialize (T Ia (N.to_nat b) Ib). rewrite !N2Nat.id in T. apply Bool.orb_true_iff in T as [E|E].
  - apply Nat.eqb_eq in E. lia.
  - apply Bool.negb_true_iff in E. apply eqbs_eq in H. congruence.
Qed.

Lemma sep_text_inj s s' : sep_is_byte s -> sep_is_byte s' -> expect_sep s = expect_sep s' -> s = s'.
Proof.
  intros B B' H. destruct s as [a|a|], s' as [b|b|]; try reflexivity; cbn [expect_sep] in H;
    try (exfalso; revert H; let x := fresh in intros x;
         apply (f_equal (firstn 8)) in x; vm_compute in x; discriminate x).
  - apply app_inv_head in H. f_equal. exact (char_debug_inj _ _ B B' H).
  - apply app_inv_head in H. f_equal. exact (char_debug_inj _ _ B B' H).
Qed.

Theorem C83_hex_text : forall c s c' s', sep_is_byte s -> sep_is_byte s' ->
  (mac_expect c s = mac_expect c' s' -> c = c' /\ s = s') /\
  (uuid_expect c s = uuid_expect c' s' -> c = c' /\ s = s').
Proof.
  intros c s c' s' B B'. unfold mac_expect, uuid_expect.
  split; intros H; apply app_inv_head in H.
  all: assert (E : c = c') by (destruct c, c'; first [reflexivity |
      exfalso; apply (f_equal (firstn 1)) in H; vm_compute in H; discriminate H]).
  all: subst c'; apply app_inv_head in H; apply app_inv_head in H; split; [reflexivity|exact (sep_text_inj _ _ B B' H)].
Qed.

(** ** Ranges *)

(** What is used of the text of the literal tokens of a set of numbers: different numbers have different texts; a text is
    not empty, does not begin with an equals sign, has a digit after every dot and has no letter w. *)
Definition literal_text {T} (P : T -> Prop) (show : T -> list N) : Prop :=
  (forall a b, P a -> P b -> show a = show b -> a = b) /\
  (forall a, P a -> show a <> [] /\ (forall r, show a <> 61 :: r) /\
     (forall u v, show a = u ++ 46 :: v -> exists d r, v = d :: r /\ 48 <= d <= 57) /\ ~ In 119 (show a)).

(** The bounds of an attribute are in the set. *)
Definition bounds_in {T} (P : T -> Prop) (r : range_option T) : Prop :=
  match r with
  | Inside a b _ | Outside a b _ => (forall x, a = Some x -> P x) /\ (forall x, b = Some x -> P x)
  | Unlimited => True
  end.

Lemma dots_split (m m' r r' : list N) :
  (forall u v, m = u ++ 46 :: v -> exists d x, v = d :: x /\ 48 <= d <= 57) ->
  (forall u v, m' = u ++ 46 :: v -> exists d x, v = d :: x /\ 48 <= d <= 57) ->
  m ++ [46; 46] ++ r = m' ++ [46; 46] ++ r' -> m = m' /\ r = r'.
Proof.
  revert m'. induction m as [|a m IH]; intros m' L L' H.
  - destruct m' as [|b m']; [injection H as H; auto|]. exfalso. cbn in H. injection H as <- H.
    destruct (L' [] m' eq_refl) as (d & x & -> & D). cbn in H. injection H as <- H. lia.
  - destruct m' as [|b m'].
    + exfalso. cbn in H. injection H as -> H.
      destruct (L [] m eq_refl) as (d & x & -> & D). cbn in H. injection H as -> H. lia.
    + cbn in H. injection H as -> H. destruct (IH m') as [E R]; [| |exact H|split; [congruence|exact R]].
      * intros u v E. apply (L (b :: u) v). rewrite E. reflexivity.
      * intros u v E. apply (L' (b :: u) v). rewrite E. reflexivity.
Qed.

(** The text up to the first w. *)
Lemma w_split (a a' b b' : list N) : ~ In 119 a -> ~ In 119 a' -> a ++ 119 :: b = a' ++ 119 :: b' -> a = a' /\ b = b'.
Proof.
  revert a'. induction a as [|x a IH]; intros a' A A' H.
  - destruct a' as [|y a']; [injection H as H; auto|]. injection H as H _. elim A'. left. auto.
  - destruct a' as [|y a']; [injection H as H _; elim A; left; auto|]. injection H as -> H.
    destruct (IH a') as [E R]; [intros X; apply A; right; exact X|intros X; apply A'; right; exact X|exact H|].
    split; congruence.
Qed.

Section Texts.
Context {T : Type} (P : T -> Prop) (show : T -> list N) (L : literal_text P show).

Lemma opt_dots (x : option T) : (forall a, x = Some a -> P a) ->
  forall u v, expect_opt show x = u ++ 46 :: v -> exists d r, v = d :: r /\ 48 <= d <= 57.
Proof.
  destruct x as [a|]; intros H u v E; [|destruct u; discriminate E].
  exact (proj1 (proj2 (proj2 (proj2 L a (H a eq_refl)))) u v E).
Qed.

Lemma opt_inj (x y : option T) : (forall a, x = Some a -> P a) -> (forall a, y = Some a -> P a) ->
  expect_opt show x = expect_opt show y -> x = y.
Proof.
  destruct x as [a|], y as [b|]; intros Hx Hy E; cbn in E.
  - f_equal. exact (proj1 L a b (Hx a eq_refl) (Hy b eq_refl) E).
  - elim (proj1 (proj2 L a (Hx a eq_refl)) E).
  - elim (proj1 (proj2 L b (Hy b eq_refl)) (eq_sym E)).
  - reflexivity.
Qed.

(** The inclusive flag of a range without an upper bound has no effect. *)
Definition same_bounds (a b : option T) (i : bool) (a' b' : option T) (i' : bool) : Prop :=
  a = a' /\ b = b' /\ (b = None \/ i = i').

Lemma bounds_inj a b i a' b' i' :
  (forall x, a = Some x -> P x) -> (forall x, b = Some x -> P x) ->
  (forall x, a' = Some x -> P x) -> (forall x, b' = Some x -> P x) ->
  expect_bounds show a b i = expect_bounds show a' b' i' -> same_bounds a b i a' b' i'.
Proof.
  intros A B A' B' H. unfold expect_bounds in H. change (bs "..") with [46; 46] in H.
  apply dots_split in H as [H1 H2]; [|exact (opt_dots a A)|exact (opt_dots a' A')].
  split; [exact (opt_inj a a' A A' H1)|]. clear H1 A A' a a'.
  destruct b as [b|], b' as [b'|].
  - destruct (proj2 L b (B b eq_refl)) as (_ & N1 & _), (proj2 L b' (B' b' eq_refl)) as (_ & N2 & _).
    assert (E : i = i').
    { destruct i, i'; try reflexivity; exfalso; change (bs "=") with [61] in H2; cbn [app] in H2;
        [exact (N2 _ (eq_sym H2))|exact (N1 _ H2)]. }
    subst i'. apply app_inv_head in H2. split; [f_equal; exact (proj1 L b b' (B b eq_refl) (B' b' eq_refl) H2)|auto].
  - exfalso. apply app_eq_nil in H2 as [_ H2]. exact (proj1 (proj2 L b (B b eq_refl)) H2).
  - exfalso. symmetry in H2. apply app_eq_nil in H2 as [_ H2]. exact (proj1 (proj2 L b' (B' b' eq_refl)) H2).
  - auto.
Qed.

Definition same_range (r r' : range_option T) : Prop :=
  match r, r' with
  | Inside a b i, Inside a' b' i' | Outside a b i, Outside a' b' i' => same_bounds a b i a' b' i'
  | Unlimited, Unlimited => True
  | _, _ => False
  end.

Context (eqb : T -> T -> bool) (inc : T -> option T) (fl : bool).
Notation tokens := (to_tokens T eqb inc fl).

Lemma range_inj r r' : bounds_in P r -> bounds_in P r' ->
  expect_range show (tokens r) = expect_range show (tokens r') -> same_range r r'.
Proof.
  intros B B' H.
  destruct r as [a b i|a b i|], r' as [a' b' i'|a' b' i'|]; cbn in B, B'; cbn [to_tokens expect_range] in H; try exact I;
    try (exfalso; apply (f_equal (firstn 2)) in H; vm_compute in H; discriminate H).
  - apply app_inv_head in H. destruct B, B'. cbn. apply bounds_inj; assumption.
  - apply app_inv_head in H. destruct B, B'. cbn. apply bounds_inj; assumption.
Qed.

Lemma range_no_w r : bounds_in P r -> ~ In 119 (expect_range show (tokens r)).
Proof.
  assert (O : forall x, (forall a, x = Some a -> P a) -> ~ In 119 (expect_opt show x)).
  { intros [a|] H; [exact (proj2 (proj2 (proj2 (proj2 L a (H a eq_refl)))))|intros []]. }
  assert (B : forall a b i, (forall x, a = Some x -> P x) -> (forall x, b = Some x -> P x) -> ~ In 119 (expect_bounds show a b i)).
  { intros a b i A Bd X. unfold expect_bounds in X. apply in_app_iff in X as [X|X]; [exact (O a A X)|].
    apply in_app_iff in X as [X|X]; [vm_compute in X; intuition discriminate|].
    destruct b as [b|]; [|destruct X]. apply in_app_iff in X as [X|X].
    - destruct i; vm_compute in X; intuition discriminate.
    - exact (O (Some b) Bd X). }
  intros H X. destruct r as [a b i|a b i|]; cbn in H; cbn [to_tokens expect_range] in X.
  - destruct H as [H1 H2]. apply in_app_iff in X as [X|X]; [vm_compute in X; intuition discriminate|exact (B a b i H1 H2 X)].
  - destruct H as [H1 H2]. apply in_app_iff in X as [X|X]; [vm_compute in X; intuition discriminate|exact (B a b i H1 H2 X)].
  - destruct X.
Qed.
End Texts.

Theorem C83_integer_text : forall sg pw t P show r r', literal_text P show -> bounds_in P r -> bounds_in P r' ->
  int_expect sg show (to_tokens Z Z.eqb (int_inc sg pw t) false r) =
  int_expect sg show (to_tokens Z Z.eqb (int_inc sg pw t) false r') ->
  forall s, int_parse_str sg pw t r s = int_parse_str sg pw t r' s.
Proof.
  intros sg pw t P show r r' L B B' H s. unfold int_expect in H. apply app_inv_head in H.
  apply (range_inj P show L) in H; [|exact B|exact B'].
  destruct r as [a b i|a b i|], r' as [a' b' i'|a' b' i'|]; try destruct H; try reflexivity.
  - destruct H0 as [<- [-> | <-]]; subst; destruct a'; reflexivity.
  - destruct H0 as [<- [-> | <-]]; subst; destruct a'; reflexivity.
Qed.

Theorem C83_number_text : forall P show r n r' n', literal_text P show -> bounds_in P r -> bounds_in P r' ->
  number_expect show (to_tokens spec_float SFeqb float_inc true r) n =
  number_expect show (to_tokens spec_float SFeqb float_inc true r') n' ->
  n = n' /\ forall from_str s, num_parse_str from_str r n s = num_parse_str from_str r' n' s.
Proof.
  intros P show r n r' n' L B B' H. unfold number_expect in H. apply app_inv_head in H.
  pose proof (range_no_w P show L SFeqb float_inc true r B) as W.
  pose proof (range_no_w P show L SFeqb float_inc true r' B') as W'.
  set (x := expect_range show (to_tokens spec_float SFeqb float_inc true r)) in *.
  set (x' := expect_range show (to_tokens spec_float SFeqb float_inc true r')) in *.
  assert (NW : forall y, ~ In 119 y -> ~ In 119 (y ++ [32])).
  { intros y Y X. apply in_app_iff in X as [X|X]; [exact (Y X)|]. cbn in X. intuition discriminate. }
  assert (E : n = n' /\ x = x').
  { destruct n, n'; try (rewrite !app_nil_r in H; auto; fail).
    all: repeat match type of H with
      | context [?y ++ bs " which must be NaN"] =>
          change (y ++ bs " which must be NaN") with (y ++ [32] ++ 119 :: bs "hich must be NaN") in H; rewrite (app_assoc y) in H
      | context [?y ++ bs " which must not be NaN"] =>
          change (y ++ bs " which must not be NaN") with (y ++ [32] ++ 119 :: bs "hich must not be NaN") in H; rewrite (app_assoc y) in H
      end.
    all: try (apply w_split in H as [H1 H2]; [|apply NW; assumption|apply NW; assumption]; apply app_inv_tail in H1;
       first [split; [reflexivity|exact H1]|exfalso; apply eqbs_eq in H2; vm_compute in H2; discriminate H2]).
    all: exfalso; rewrite app_nil_r in H;
      first [apply W'; rewrite <- H; apply in_app_iff; right; left; reflexivity
            |apply W; rewrite H; apply in_app_iff; right; left; reflexivity]. }
  destruct E as [-> E]. split; [reflexivity|]. intros from_str s. subst x x'. clear H.
  apply (range_inj P show L) in E; [|exact B|exact B'].
  assert (V : forall f, v_parse_f r n' f = v_parse_f r' n' f).
  { intros f. destruct r as [a b i|a b i|], r' as [a' b' i'|a' b' i'|]; try destruct E; try reflexivity.
    - destruct H0 as [<- [-> | <-]]; subst; destruct a'; reflexivity.
    - destruct H0 as [<- [-> | <-]]; subst; destruct a'; reflexivity. }
  unfold num_parse_str, num_v_parse_str. destruct (from_str s); [rewrite V|]; reflexivity.
Qed.

(** ** Descriptions that leave something out *)

(** Domain: a policy that forbids two labels is told only when IPv4 texts are allowed. *)
Theorem C83_domain_text_refuted : exists c c' s, idna_laws idna_ascii /\
  domain_expect c = domain_expect c' /\ is_ok (domain_parse_str idna_ascii c s) /\
  domain_parse_str idna_ascii c' s = Err DTwoLabelsDisallow.
Proof.
  exists (cfg Disallow Allow Allow Allow), (cfg Disallow Allow Allow Disallow), (bs "magiclen.org").
  split; [exact idna_ascii_laws|]. split; [reflexivity|]. split; vm_compute; auto. eexists. reflexivity.
Qed.

Theorem C83_domain_ipv4_text_refuted : exists c c' s, idna_laws idna_ascii /\
  domain_expect c = domain_expect c' /\ is_ok (domain_parse_str idna_ascii c s) /\
  forall s v, domain_parse_str idna_ascii c' s <> Ok v.
Proof.
  exists (cfg Must Allow Disallow Allow), (cfg Must Allow Disallow Disallow), (bs "127.0.0.1").
  split; [exact idna_ascii_laws|]. split; [reflexivity|]. split; [vm_compute; eexists; reflexivity|].
  intros s v H. unfold domain_parse_str, domain_v_parse_str in H. destruct s as [|e s]; [discriminate H|].
  destruct (d_split (cfg Must Allow Disallow Disallow) (e :: s)) as [[d p]| |]; try discriminate H. cbn [obind] in H.
  unfold d_rest in H. change (all_allow (cfg Must Allow Disallow Disallow)) with false in H. cbv iota in H.
  destruct (parse_ipv4_allow_an_ended_dot d); discriminate H.
Qed.

Theorem C83_domain_text_partial : forall c c', domain_expect c = domain_expect c' ->
  (d_ipv4 c <> Allow -> (d_two c = Disallow <-> d_two c' = Disallow)) ->
  forall idna s, domain_validate_str idna c s = domain_validate_str idna c' s.
Proof.
  intros [i l p t] [i' l' p' t'] H D idna s.
  assert (E : i = i' /\ l = l' /\ p = p' /\ (t = t' \/ (i = Must /\ t <> Disallow /\ t' <> Disallow))).
  { cbn [d_two d_ipv4] in D. unfold domain_expect in H. cbn [d_ipv4 d_local d_port d_two] in H.
    destruct i, i', t, t'; try (exfalso; specialize (D ltac:(discriminate)); intuition discriminate);
      try (exfalso; apply (f_equal (firstn 32)) in H; vm_compute in H; discriminate H);
      repeat apply app_inv_head in H; apply net_inj in H as [<- <-];
      (split; [reflexivity|split; [reflexivity|split; [reflexivity|]]]);
      first [left; reflexivity|right; split; [reflexivity|split; discriminate]]. }
  clear H D. destruct E as (<- & <- & <- & [<- | (-> & T & T')]); [reflexivity|].
  unfold domain_validate_str, domain_v_parse_str. destruct s as [|e s]; [reflexivity|].
  assert (SP : d_split {| d_ipv4 := Must; d_local := l; d_port := p; d_two := t |} (e :: s) =
               d_split {| d_ipv4 := Must; d_local := l; d_port := p; d_two := t' |} (e :: s)) by reflexivity.
  rewrite SP. destruct (d_split {| d_ipv4 := Must; d_local := l; d_port := p; d_two := t' |} (e :: s)) as [[d q]| |]; try reflexivity.
  cbn [obind]. unfold d_rest, all_allow. cbn [d_ipv4 d_two d_local d_port is_allow_only andb is_disallow is_must].
  destruct (parse_ipv4_allow_an_ended_dot d) as [a|]; [|reflexivity].
  destruct t, t'; try reflexivity; try (exfalso; congruence); cbn [is_disallow].
  all: change (d_parse_port {| d_ipv4 := Must; d_local := l; d_port := p; d_two := Must |} q)
       with (d_parse_port {| d_ipv4 := Must; d_local := l; d_port := p; d_two := Allow |} q).
  all: destruct (d_parse_port {| d_ipv4 := Must; d_local := l; d_port := p; d_two := Allow |} q); try reflexivity.
  all: cbn [obind]; unfold d_flag, d_check_local; cbn [d_local d_two]; destruct l; try reflexivity;
    cbn [is_allow_only andb]; destruct (is_local_ipv4 a); reflexivity.
Qed.

(** Email: the local and comment policies are never told. *)
Theorem C83_email_text_refuted :
  (exists c c' s, idna_laws idna_ascii /\ email_expect c = email_expect c' /\
     is_ok (email_parse_str idna_ascii Debug c s) /\ email_parse_str idna_ascii Debug c' s = Err ELocalDisallow) /\
  (exists c c' s, idna_laws idna_ascii /\ email_expect c = email_expect c' /\
     is_ok (email_parse_str idna_ascii Debug c s) /\ email_parse_str idna_ascii Debug c' s = Err ECommentDisallow).
Proof.
  split.
  - exists (ecfg false Allow Allow Must false), (ecfg false Allow Disallow Must false), (bs "me@localhost").
    split; [exact idna_ascii_laws|]. split; [reflexivity|]. split; [vm_compute; eexists; reflexivity|vm_compute; reflexivity].
  - exists (ecfg true Allow Allow Must false), (ecfg false Allow Allow Must false), (bs "(x)me@magiclen.org").
    split; [exact idna_ascii_laws|]. split; [reflexivity|]. split; [vm_compute; eexists; reflexivity|vm_compute; reflexivity].
Qed.

Theorem C83_email_text_partial : forall c c', email_expect c = email_expect c' ->
  e_comment c = e_comment c' -> e_local c = e_local c' -> (e_ip c = Must -> (e_two c = Disallow <-> e_two c' = Disallow)) ->
  forall idna prof s, valid_str s ->
    (is_ok (email_parse_str idna prof c s) <-> is_ok (email_parse_str idna prof c' s)).
Proof.
  intros [k i l t n] [k' i' l' t' n'] H K Lo D idna prof s Hs. cbn in K, Lo, D. subst k' l'.
  assert (E : i = i' /\ n = n' /\ (t = t' \/ (i = Must /\ t <> Disallow /\ t' <> Disallow))).
  { destruct i, i', t, t', n, n'; try (exfalso; specialize (D eq_refl); destruct D; intuition discriminate);
      try (exfalso; apply eqbs_eq in H; vm_compute in H; discriminate H);
      (split; [reflexivity|split; [reflexivity|]]);
      first [left; reflexivity|right; split; [reflexivity|split; discriminate]]. }
  clear H D. destruct E as (<- & <- & [<- | (-> & T & T')]); [reflexivity|].
  assert (G : forall t t', t <> Disallow -> t' <> Disallow ->
    is_ok (email_parse_str idna prof {| e_comment := k; e_ip := Must; e_local := l; e_two := t; e_non_ascii := n |} s) ->
    is_ok (email_parse_str idna prof {| e_comment := k; e_ip := Must; e_local := l; e_two := t'; e_non_ascii := n |} s));
    [|split; apply G; assumption].
  clear t t' T T'. intros t t' T T' [v H]. apply C44_email_accepts_exactly in H; [|exact Hs].
  set (c' := {| e_comment := k; e_ip := Must; e_local := l; e_two := t'; e_non_ascii := n |}).
  destruct H as (lt & q & dt & tail & canon & A1 & A2 & A3 & A4 & A5 & A6 & A7 & A8 & A9 & A10 & A11 & A12).
  assert (F : exists f, field (email_field c') (literal_local (ev_domain v)) f).
  { destruct (email_field c') eqn:EF; [|exists None; reflexivity].
    destruct (ev_domain v) as [d|a|a]; [destruct A9 as [A9 _]; elim A9; reflexivity| |].
    - destruct A9 as (_ & _ & u & _ & U & _).
      exists (Some (is_local_ipv4 a)). split; [reflexivity|]. apply is_local_ipv4_spec, (v4_text_addr _ _ U).
    - destruct A9 as (_ & _ & u & _ & U & _).
      exists (Some (is_local_ipv6 a)). split; [reflexivity|]. apply is_local_ipv6_spec, (v6_text_addr _ _ U). }
  destruct F as [f F].
  exists {| ev_local := ev_local v; ev_need_quoted := ev_need_quoted v; ev_domain := ev_domain v; ev_c1 := ev_c1 v; ev_c2 := ev_c2 v;
            ev_c3 := ev_c3 v; ev_c4 := ev_c4 v; ev_is_local := f |}.
  apply C44_email_accepts_exactly; [exact Hs|].
  exists lt, q, dt, tail, canon. cbn [ev_local ev_need_quoted ev_domain ev_c1 ev_c2 ev_c3 ev_c4 ev_is_local].
  repeat (split; [first [assumption|idtac]|]); try assumption.
  unfold host_text in A9 |- *. cbn [e_ip e_two c'] in A9 |- *. destruct (ev_domain v); [exact A9 || (destruct A9 as [A9 _]; elim A9; reflexivity)| |];
    destruct A9 as (X & Y & Z); (split; [exact X|split; [exact T'|exact Z]]).
Qed.

(** Line and text: the description says neither which of the two it is nor the unit of the lengths. *)
Theorem C83_line_text_refuted :
  (exists s, line_expect Line None = line_expect Text None /\
     is_ok (line_parse_str Text None s) /\ line_parse_str Line None s = Err LInvalid) /\
  (exists k l s, line_expect k (Some (false, l)) = line_expect k (Some (true, l)) /\
     is_ok (line_parse_str k (Some (false, l)) s) /\ line_parse_str k (Some (true, l)) s = Err LTooLong).
Proof.
  split.
  - exists (bs "a" ++ [10] ++ bs "b"). split; [reflexivity|]. split; [eexists; reflexivity|reflexivity].
  - exists Line, (mk_len None None (Some 1)), [20320]. split; [reflexivity|]. split; [eexists; reflexivity|reflexivity].
Qed.

Lemma dec_inj a b : dec_of_N a = dec_of_N b -> a = b.
Proof.
  intros H. pose proof (dec_of_N_denotes a) as A. pose proof (dec_of_N_denotes b) as B.
  apply denotes_digits_iff in A as (_ & _ & A). apply denotes_digits_iff in B as (_ & _ & B). rewrite H in A. lia.
Qed.

Definition line_opts (a : line_attr) : len_attr := match a with Some (_, l) => l | None => mk_len None None None end.

Lemma digits_then a b (x y : list N) : Forall is_digit a -> Forall is_digit b ->
  match x with c :: _ => ~ is_digit c | [] => True end -> match y with c :: _ => ~ is_digit c | [] => True end ->
  a ++ x = b ++ y -> a = b /\ x = y.
Proof.
  intros A. revert b. induction A as [|c a C A IH]; intros b B X Y H.
  - destruct B as [|d b D B]; [auto|]. exfalso. cbn in H. destruct x as [|e x]; [discriminate H|]. injection H as -> H. exact (X D).
  - destruct B as [|d b D B].
    + exfalso. cbn in H. destruct y as [|e y]; [discriminate H|]. injection H as <- H. exact (Y C).
    + cbn in H. injection H as -> H. destruct (IH b B X Y H) as [-> ->]. auto.
Qed.

Lemma opt_dec_digits x : Forall is_digit (expect_opt dec_of_N x).
Proof. destruct x as [n|]; [exact (proj1 (dec_of_N_digits n))|constructor]. Qed.

Lemma opt_dec_inj x y : expect_opt dec_of_N x = expect_opt dec_of_N y -> x = y.
Proof.
  destruct x as [a|], y as [b|]; cbn; intros H; [f_equal; exact (dec_inj a b H)| | |reflexivity]; exfalso.
  - exact (proj2 (dec_of_N_digits a) H).
  - exact (proj2 (dec_of_N_digits b) (eq_sym H)).
Qed.

Definition line_body (l : len_attr) : list N :=
  expect_opt dec_of_N (l_min l) ++
  match l_tmin l with Some t => bs "(" ++ dec_of_N t ++ bs ")" | None => [] end ++ bs ".." ++
  match l_max l with Some m => bs "=" ++ dec_of_N m | None => [] end.

Lemma line_body_inj l l' : line_body l = line_body l' -> l = l'.
Proof.
  destruct l as [a t m], l' as [a' t' m']. unfold line_body. cbn [l_min l_tmin l_max]. intros H.
  apply digits_then in H as [H1 H]; [|apply opt_dec_digits|apply opt_dec_digits| |];
    [|destruct t; unfold is_digit; cbn; lia|destruct t'; unfold is_digit; cbn; lia].
  apply opt_dec_inj in H1 as ->.
  assert (E : t = t' /\ match m with Some m => bs "=" ++ dec_of_N m | None => [] end =
                        match m' with Some m => bs "=" ++ dec_of_N m | None => [] end).
  { destruct t as [t|], t' as [t'|]; cbn [app] in H.
    - rewrite <- !app_assoc in H. apply app_inv_head in H.
      apply digits_then in H as [H1 H]; [|apply dec_of_N_digits|apply dec_of_N_digits| |]; [|unfold is_digit; cbn; lia|unfold is_digit; cbn; lia].
      apply dec_inj in H1 as ->. apply app_inv_head in H. apply app_inv_head in H. auto.
    - exfalso. injection H as H. discriminate H.
    - exfalso. injection H as H. discriminate H.
    - apply app_inv_head in H. auto. }
  destruct E as [-> E]. f_equal. destruct m as [m|], m' as [m'|]; try discriminate E; [|reflexivity].
  apply app_inv_head in E. f_equal. exact (dec_inj m m' E).
Qed.

Lemma line_expect_opts k a a' : line_expect k a = line_expect k a' -> line_opts a = line_opts a'.
Proof.
  assert (G : forall a, line_expect k a = bs "a line" ++
    match line_opts a with mk_len None None None => [] | l => bs " in " ++ line_body l end).
  { intros b. unfold line_expect, line_body, line_opts. destruct b as [[u [[x|] [y|] [z|]]]|]; reflexivity. }
  intros H. rewrite !G in H. apply app_inv_head in H.
  destruct (line_opts a) as [x y z] eqn:E, (line_opts a') as [x' y' z'] eqn:E'.
  destruct x, y, z, x', y', z'; try discriminate H; try reflexivity; apply app_inv_head in H; exact (line_body_inj _ _ H).
Qed.

(** The unit of the lengths, when there is one. *)
Definition same_unit (a a' : line_attr) : Prop :=
  match a, a' with Some (b, _), Some (b', _) => b = b' | _, _ => True end.

Theorem C83_line_text_partial : forall k a a', line_expect k a = line_expect k a' -> same_unit a a' ->
  forall s, line_parse_str k a s = line_parse_str k a' s.
Proof.
  intros k a a' H U s. apply line_expect_opts in H. destruct a as [[b l]|], a' as [[b' l']|]; cbn in U, H.
  - subst. reflexivity.
  - subst l. destruct b; reflexivity.
  - subst l'. destruct b'; reflexivity.
  - reflexivity.
Qed.

(** Byte: the range is not told. *)
Theorem C83_byte_text_refuted : exists r r' v, byte_expect r = byte_expect r' /\
  size_parse_u64 r v = Ok v /\ size_parse_u64 r' v = Err STooLarge.
Proof.
  exists size_default, (mk_range None (Some 10) true), 11. split; [reflexivity|]. split; reflexivity.
Qed.

(** ** Examples *)
Definition i8_text (z : Z) : list N := dec_of_Z z ++ bs "i8".

Lemma i8_literal : literal_text (fun _ => True) i8_text.
Proof.
  assert (D : forall z, exists (neg : bool) n, dec_of_Z z = (if neg then [45] else []) ++ dec_of_N n /\ z = (if neg then - Z.of_N n else Z.of_N n)%Z
      /\ (neg = true -> n <> 0)).
  { intros z. unfold dec_of_Z. destruct (z <? 0)%Z eqn:E.
    - exists true, (Z.to_N (- z)). split; [reflexivity|]. split; [lia|lia].
    - exists false, (Z.to_N z). split; [reflexivity|]. split; [lia|discriminate]. }
  split.
  - intros a b _ _ H. unfold i8_text in H. apply app_inv_tail in H.
    destruct (D a) as ([] & n & E & -> & A), (D b) as ([] & m & F & -> & B); rewrite E, F in H.
    + apply (app_inv_head [45]) in H. apply dec_inj in H. lia.
    + exfalso. destruct (dec_of_N_digits m) as [X Y]. cbn [app] in H. destruct X as [|c l C X]; [elim Y; reflexivity|].
      injection H as <- H. unfold is_digit in C. lia.
    + exfalso. destruct (dec_of_N_digits n) as [X Y]. cbn [app] in H. destruct X as [|c l C X]; [elim Y; reflexivity|].
      injection H as -> H. unfold is_digit in C. lia.
    + cbn [app] in H. apply dec_inj in H. lia.
  - intros a _. unfold i8_text. destruct (D a) as (neg & n & E & _ & _). destruct (dec_of_N_digits n) as [X Y].
    assert (F : Forall (fun c => c = 45 \/ c = 105 \/ (48 <= c <= 57)) (dec_of_Z a ++ bs "i8")).
    { rewrite E. apply Forall_app. split; [apply Forall_app; split|].
      - destruct neg; [constructor; [left; reflexivity|constructor]|constructor].
      - eapply Forall_impl; [|exact X]. unfold is_digit. intros c C. right. right. exact C.
      - change (bs "i8") with [105; 56]. apply Forall_cons; [right; left; reflexivity|]. apply Forall_cons; [right; right; lia|apply Forall_nil]. }
    split; [|split; [|split]].
    + intros H. apply app_eq_nil in H as [_ H]. discriminate H.
    + intros r H. rewrite H in F. inversion F as [|? ? G _]. lia.
    + intros u v H. exfalso. rewrite H in F. apply Forall_app in F as [_ F]. inversion F as [|? ? G _]. lia.
    + intros H. rewrite Forall_forall in F. specialize (F _ H). lia.
Qed.

Example C83_example :
  ip_expect Must Disallow = bs "an IP string which must not be local and must be with a port" /\
  host_expect (hcfg Must Allow Must) =
    bs "a non-fully-qualified and at-least-two-labels domain name or an IP string which must be local" /\
  domain_expect (cfg Disallow Allow Disallow Must) = bs "a correct at-least-two-labels and non-IPv4 domain name without ports" /\
  domain_expect (cfg Must Allow Allow Must) = domain_expect (cfg Must Allow Allow Allow) /\
  email_expect (ecfg false Disallow Allow Must false) =
    bs "an ASCII email whose domain part must be non-IP and at-least-two-labels" /\
  http_ftp_expect Disallow = bs "a http/https/ftp url which must not be local" /\
  base_expect B64Url Disallow = bs "a Base64-url string or data without padding" /\
  mac_expect UpperCase (SepAllow 58) = bs "a valid upper-case MacAddress string with optional separators ':'" /\
  uuid_expect AnyCase (SepMust 39) = bs "a valid UUID string with separators '\''" /\
  sep_is_byte (SepMust 39) /\
  line_expect Text (Some (true, mk_len (Some 5) (Some 3) (Some 10))) = bs "a line in 5(3)..=10" /\
  literal_text (fun _ => True) i8_text /\
  int_expect true i8_text (to_tokens Z Z.eqb (int_inc true W64 I8) false (Outside (Some (-5)%Z) (Some 10%Z) true)) =
    bs "a signed integer not in -5i8..=10i8" /\
  int_expect true i8_text (to_tokens Z Z.eqb (int_inc true W64 I8) false (Inside (Some 1%Z) None true)) =
  int_expect true i8_text (to_tokens Z Z.eqb (int_inc true W64 I8) false (Inside (Some 1%Z) None false)).
Proof. repeat (split; [first [exact i8_literal|reflexivity]|]). reflexivity. Qed.

Definition one_two_text (f : spec_float) : list N := if SFeqb f f64_one then bs "1.0f64" else bs "2.0f64".

Example C83_number_example :
  literal_text (fun f => f = f64_one \/ f = f64_two) one_two_text /\
  bounds_in (fun f => f = f64_one \/ f = f64_two) (Inside (Some f64_one) (Some f64_two) false) /\
  number_expect one_two_text (to_tokens spec_float SFeqb float_inc true (Inside (Some f64_one) (Some f64_two) false)) Disallow =
    bs "a number in 1.0f64..2.0f64 which must not be NaN".
Proof.
  split; [|split; [cbn; split; intros x E; injection E as <-; auto|vm_compute; reflexivity]].
  split.
  - intros a b [-> | ->] [-> | ->] H; try reflexivity; exfalso; apply eqbs_eq in H; vm_compute in H; discriminate H.
  - intros a [-> | ->].
    + change (one_two_text f64_one) with (bs "1.0f64"). split; [discriminate|]. split; [discriminate|]. split.
      * intros u v H. vm_compute in H. destruct u as [|? [|? [|? [|? [|? [|? [|? u]]]]]]]; inversion H; subst.
        eexists _, _. split; [reflexivity|lia].
      * vm_compute. intuition discriminate.
    + change (one_two_text f64_two) with (bs "2.0f64"). split; [discriminate|]. split; [discriminate|]. split.
      * intros u v H. vm_compute in H. destruct u as [|? [|? [|? [|? [|? [|? [|? u]]]]]]]; inversion H; subst.
        eexists _, _. split; [reflexivity|lia].
      * vm_compute. intuition discriminate.
Qed.

Print Assumptions C83_integer_text.
Print Assumptions C83_number_text.
Print Assumptions C83_domain_text_partial.
Print Assumptions C83_email_text_partial.
Print Assumptions C83_line_text_partial.
Print Assumptions C83_hex_text.
