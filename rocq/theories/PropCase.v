(** C100: two texts that differ only in the case of ASCII letters are treated alike where no attribute
    asks about case. *)
From Coq Require Import SpecFloat.
From Verif Require Import Base IntStr MacModel MacSpec NetModel Serde IpModel DomainModel HostModel
  EmailModel BooleanModel RangeModel NumberModel FloatModel BooleanProofs PropBoolean PropMac.
From Verif Require HttpModel.
Local Open Scope N_scope.

(** One byte is an upper case ASCII letter and the other the same letter in lower case, or they are equal. *)
Definition same_letter (a b : N) : Prop :=
  a = b \/ (65 <= a <= 90 /\ b = a + 32) \/ (65 <= b <= 90 /\ a = b + 32).
(** The texts differ at most in the case of ASCII letters. *)
Definition same_text : list N -> list N -> Prop := Forall2 same_letter.
(** The byte is not an ASCII letter. *)
Definition not_letter (c : N) : Prop := c < 65 \/ 90 < c < 97 \/ 122 < c.

Ltac sl := unfold same_letter, not_letter in *.
Ltac beq := repeat match goal with
  | |- context [?a =? ?b] => destruct (N.eqb_spec a b)
  | |- context [?a <=? ?b] => destruct (N.leb_spec a b)
  | |- context [?a <? ?b] => destruct (N.ltb_spec a b)
  end.

Lemma sl_refl a : same_letter a a.
Proof. left. reflexivity. Qed.
Lemma sl_sym a b : same_letter a b -> same_letter b a.
Proof. sl. lia. Qed.
Lemma st_refl s : same_text s s.
Proof. induction s; constructor; auto using sl_refl. Qed.
Lemma st_sym s t : same_text s t -> same_text t s.
Proof. induction 1; constructor; auto using sl_sym. Qed.
Lemma st_len s t : same_text s t -> List.length s = List.length t.
Proof. induction 1; cbn [List.length]; congruence. Qed.
Lemma sl_eqb a b c : same_letter a b -> not_letter c -> (a =? c) = (b =? c).
Proof. sl. intros. beq; trivial; lia. Qed.
Lemma sl_eq a b : same_letter a b -> not_letter a -> a = b.
Proof. sl. intros. lia. Qed.
Lemma sl_lower a b : same_letter a b -> lower a = lower b.
Proof. sl. unfold lower. intros. beq; cbn; lia. Qed.
Lemma sl_cont a b : same_letter a b -> is_cont a = is_cont b.
Proof. sl. unfold is_cont. intros. beq; cbn; trivial; lia. Qed.
Lemma sl_hex a b : same_letter a b -> hex_digit AnyCase a = hex_digit AnyCase b.
Proof.
  assert (forall c, 65 <= c <= 90 -> hex_digit AnyCase c = hex_digit AnyCase (c + 32)) as K.
  { intros c L. unfold hex_digit.
    replace (c <=? 57) with false by (symmetry; apply N.leb_gt; lia).
    replace (c + 32 <=? 57) with false by (symmetry; apply N.leb_gt; lia).
    replace (97 <=? c) with false by (symmetry; apply N.leb_gt; lia).
    replace (97 <=? c + 32) with true by (symmetry; apply N.leb_le; lia).
    replace (65 <=? c) with true by (symmetry; apply N.leb_le; lia).
    replace (c + 32 <=? 70) with false by (symmetry; apply N.leb_gt; lia).
    rewrite !andb_false_r. cbn [andb]. destruct (N.leb_spec c 70), (N.leb_spec (c + 32) 102); trivial; try lia.
    f_equal. lia. }
  sl. intros [->|[[A ->]|[A ->]]]; trivial; [now apply K | symmetry; now apply K].
Qed.
Lemma sl_digit a b : same_letter a b -> digit a = digit b.
Proof. sl. unfold digit. intros. beq; cbn; try (f_equal; lia); trivial; lia. Qed.
Lemma sl_fdigit a b : same_letter a b -> fdigit a = fdigit b.
Proof. sl. unfold fdigit. intros. beq; cbn; trivial; lia. Qed.

Lemma nl_dot : not_letter 46. Proof. sl; lia. Qed.
Lemma nl_colon : not_letter 58. Proof. sl; lia. Qed.
Lemma nl_open : not_letter 91. Proof. sl; lia. Qed.
Lemma nl_close : not_letter 93. Proof. sl; lia. Qed.
Lemma nl_zero : not_letter 48. Proof. sl; lia. Qed.
Lemma nl_plus : not_letter 43. Proof. sl; lia. Qed.
Lemma nl_minus : not_letter 45. Proof. sl; lia. Qed.
#[local] Hint Resolve nl_dot nl_colon nl_open nl_close nl_zero nl_plus nl_minus st_refl sl_refl : nl.

(** ** Texts *)

Lemma st_of_lower s t : map lower s = map lower t -> same_text s t.
Proof.
  revert t. induction s as [|a s IH]; intros [|b t]; cbn [map]; try discriminate; [constructor|].
  intro E. injection E as E F. constructor; [|now apply IH]. clear - E. unfold lower in E. sl.
  destruct (N.leb_spec 65 a), (N.leb_spec a 90), (N.leb_spec 65 b), (N.leb_spec b 90); cbn in E; lia.
Qed.

Lemma st_nth s t i : same_text s t ->
  match nth_error s i, nth_error t i with
  | Some a, Some b => same_letter a b
  | None, None => True
  | _, _ => False
  end.
Proof. intro H. revert i. induction H; intros [|i]; cbn; trivial; apply IHForall2. Qed.

Lemma st_firstn n s t : same_text s t -> same_text (firstn n s) (firstn n t).
Proof. intro H. revert n. induction H; intros [|n]; cbn; constructor; trivial; apply IHForall2. Qed.
Lemma st_skipn n s t : same_text s t -> same_text (skipn n s) (skipn n t).
Proof. intro H. revert n. induction H; intros [|n]; cbn; try constructor; trivial; apply IHForall2. Qed.

Lemma st_boundary s t i : same_text s t -> is_char_boundary s i = is_char_boundary t i.
Proof.
  intro H. unfold is_char_boundary. destruct i; trivial. pose proof (st_nth _ _ (S i) H) as K.
  destruct (nth_error s (S i)), (nth_error t (S i)); try easy; [now rewrite (sl_cont _ _ K) | now rewrite (st_len _ _ H)].
Qed.

(** Outcomes alike up to [R] on the values. *)
Definition orel {E A} (R : A -> A -> Prop) (x y : outcome E A) : Prop :=
  match x, y with
  | Ok a, Ok b => R a b
  | Err e, Err f => e = f
  | Panic, Panic => True
  | _, _ => False
  end.

Lemma st_slice {E} s t a b : same_text s t -> orel (E := E) same_text (str_slice s a b) (str_slice t a b).
Proof.
  intro H. unfold str_slice. rewrite (st_len _ _ H), (st_boundary _ _ a H), (st_boundary _ _ b H).
  destruct (_ && _)%bool; cbn; trivial. apply st_firstn, st_skipn, H.
Qed.
Lemma st_slice_from {E} s t a : same_text s t -> orel (E := E) same_text (str_slice_from s a) (str_slice_from t a).
Proof. intro H. unfold str_slice_from. rewrite (st_len _ _ H). apply st_slice, H. Qed.
Lemma st_idx {E} s t i : same_text s t -> orel (E := E) same_letter (idx s i) (idx t i).
Proof. intro H. unfold idx. pose proof (st_nth _ _ i H) as K. destruct (nth_error s i), (nth_error t i); easy. Qed.

Lemma bind_rel {E A B} (R : A -> A -> Prop) (x y : outcome E A) (k l : A -> outcome E B) :
  orel R x y -> (forall a b, R a b -> k a = l b) -> obind x k = obind y l.
Proof. intros H K. destruct x, y; cbn in *; try easy; [now apply K | congruence]. Qed.

Lemma st_rposition c s t : not_letter c -> same_text s t -> rposition c s = rposition c t.
Proof.
  intros N. induction 1; cbn [rposition]; trivial. rewrite IHForall2, (sl_eqb _ _ _ H N). trivial.
Qed.
Lemma st_strip c s t : not_letter c -> same_text s t -> same_text (strip_last c s) (strip_last c t).
Proof.
  intros N. induction 1 as [|a b s t H K IH]; cbn; [constructor|].
  destruct K; [rewrite (sl_eqb _ _ _ H N); destruct (b =? c); [constructor | constructor; [exact H | constructor]]|].
  constructor; trivial.
Qed.
Lemma st_ends c s t : not_letter c -> same_text s t -> ends_with c s = ends_with c t.
Proof.
  intros N. induction 1 as [|a b s t H K IH]; cbn; trivial.
  destruct K; [apply (sl_eqb _ _ _ H N)|]. exact IH.
Qed.
Lemma st_ignore s t w : same_text s t -> eq_ignore_case s w = eq_ignore_case t w.
Proof.
  intro H. revert w. induction H; intros [|d w]; cbn; trivial. now rewrite (sl_lower _ _ H), IHForall2.
Qed.

Lemma st_acc_pos hi s t r : same_text s t -> acc_pos hi s r = acc_pos hi t r.
Proof.
  intro H. revert r. induction H; intro r; cbn [acc_pos]; trivial. rewrite (sl_digit _ _ H).
  destruct (digit y); trivial. destruct (hi <? r * 10)%Z; trivial. destruct (hi <? _)%Z; trivial.
Qed.
Lemma st_acc_neg lo s t r : same_text s t -> acc_neg lo s r = acc_neg lo t r.
Proof.
  intro H. revert r. induction H; intro r; cbn [acc_neg]; trivial. rewrite (sl_digit _ _ H).
  destruct (digit y); trivial. destruct (r * 10 <? lo)%Z; trivial. destruct (_ <? lo)%Z; trivial.
Qed.
Lemma st_int lo hi s t : same_text s t -> int_from_str lo hi s = int_from_str lo hi t.
Proof.
  intro H. pose proof H as H0. destruct H as [|a b s t L H]; trivial. unfold int_from_str.
  rewrite (sl_eqb _ _ 43 L), (sl_eqb _ _ 45 L) by auto with nl.
  rewrite (st_acc_pos hi _ _ 0 H0), (st_acc_pos hi _ _ 0 H), (st_acc_neg lo _ _ 0 H). now destruct H.
Qed.
Lemma st_u16 s t : same_text s t -> parse_u16 s = parse_u16 t.
Proof. intro H. unfold parse_u16. now rewrite (st_int _ _ _ _ H). Qed.

(** ** Addresses *)

(** A parser that reads the same value and leaves the same text. *)
Definition prel {A} (x y : option (A * list N)) : Prop :=
  match x, y with
  | Some (a, s), Some (b, t) => a = b /\ same_text s t
  | None, None => True
  | _, _ => False
  end.

Lemma num_loop_st radix m s t r n : same_text s t ->
  prel (num_loop radix m s r n) (num_loop radix m t r n).
Proof.
  intro H. revert r n. induction H as [|a b s t L H IH]; intros r n; cbn [num_loop]; [split; [trivial | constructor]|].
  unfold to_digit. rewrite (sl_hex _ _ L).
  destruct (hex_digit AnyCase b) as [d|]; [|split; [trivial | constructor; trivial]].
  destruct (d <? radix); [|split; [trivial | constructor; trivial]].
  destruct (m <? S n)%nat; [easy|]. apply IH.
Qed.

Lemma read_number_st radix m z hi s t : same_text s t -> prel (read_number radix m z hi s) (read_number radix m z hi t).
Proof.
  intro H. unfold read_number. pose proof (num_loop_st radix m s t 0 0 H) as K.
  assert (match s with c :: _ => c =? 48 | [] => false end = match t with c :: _ => c =? 48 | [] => false end) as ->
    by (destruct H; trivial; apply sl_eqb; auto with nl).
  destruct (num_loop radix m s 0 0) as [[[r n] u]|], (num_loop radix m t 0 0) as [[[r' n'] u']|]; cbn in K; try easy.
  destruct K as [E K]. injection E as <- <-.
  destruct (n =? 0)%nat; [easy|]. destruct (_ && _ && _)%bool; [easy|]. destruct (r <=? hi); easy.
Qed.

Lemma given_st c s t : not_letter c -> same_text s t -> prel (read_given_char c s) (read_given_char c t).
Proof.
  intros N H. destruct H as [|a b s t L H]; cbn; [easy|]. rewrite (sl_eqb _ _ _ L N). destruct (b =? c); easy.
Qed.

Lemma separator_st {A} c i (p : parser A) : not_letter c ->
  (forall s t, same_text s t -> prel (p s) (p t)) ->
  forall s t, same_text s t -> prel (read_separator c i p s) (read_separator c i p t).
Proof.
  intros N P s t H. unfold read_separator. destruct (0 <? i)%nat; [|apply P, H].
  pose proof (given_st c s t N H) as K. destruct (read_given_char c s) as [[[] u]|], (read_given_char c t) as [[[] v]|];
    cbn in K; try easy. now apply P.
Qed.

Lemma octets_st n i : forall s t, same_text s t -> prel (read_octets n i s) (read_octets n i t).
Proof.
  revert i. induction n as [|n IH]; intros i s t H; cbn [read_octets]; [easy|].
  pose proof (separator_st 46 i _ nl_dot (fun s t => read_number_st 10 3 false 255 s t) s t H) as K.
  destruct (read_separator _ _ _ s) as [[x u]|], (read_separator _ _ _ t) as [[y v]|]; cbn in K; try easy.
  destruct K as [<- K]. pose proof (IH (S i) _ _ K) as L.
  destruct (read_octets n (S i) u) as [[xs u']|], (read_octets n (S i) v) as [[ys v']|]; cbn in L; try easy.
  destruct L as [<- L]. easy.
Qed.

Lemma groups_st n i s t : same_text s t ->
  fst (read_groups n i s) = fst (read_groups n i t) /\ same_text (snd (read_groups n i s)) (snd (read_groups n i t)).
Proof.
  revert i s t. induction n as [|n IH]; intros i s t H; cbn [read_groups]; [easy|].
  assert (prel (if (1 <? S n)%nat then read_separator 58 i read_ipv4_addr s else None)
               (if (1 <? S n)%nat then read_separator 58 i read_ipv4_addr t else None)) as K.
  { destruct (1 <? S n)%nat; [|easy]. apply separator_st; auto with nl. apply octets_st. }
  destruct (if (1 <? S n)%nat then read_separator 58 i read_ipv4_addr s else None) as [[x u]|],
    (if (1 <? S n)%nat then read_separator 58 i read_ipv4_addr t else None) as [[y v]|]; cbn in K; try easy.
  - destruct K as [<- K]. destruct x as [|? [|? [|? [|? [|? ?]]]]]; cbn; easy.
  - pose proof (separator_st 58 i _ nl_colon (fun s t => read_number_st 16 4 true 65535 s t) s t H) as L.
    destruct (read_separator 58 i (read_number 16 4 true 65535) s) as [[x u]|],
      (read_separator 58 i (read_number 16 4 true 65535) t) as [[y v]|]; cbn in L; try easy.
    destruct L as [<- L]. destruct (IH (S i) _ _ L) as [E M].
    destruct (read_groups n (S i) u) as [[gs a] u'], (read_groups n (S i) v) as [[hs b] v']. cbn in *.
    injection E as <- <-. easy.
Qed.

Lemma ipv6_addr_st s t : same_text s t -> prel (read_ipv6_addr s) (read_ipv6_addr t).
Proof.
  intro H. unfold read_ipv6_addr. destruct (groups_st 8 0 s t H) as [E M].
  destruct (read_groups 8 0 s) as [[gs a] u], (read_groups 8 0 t) as [[hs b] v]. cbn [fst snd] in *. injection E as <- <-.
  destruct (List.length gs =? 8)%nat; [easy|]. destruct a; [easy|].
  pose proof (given_st 58 u v nl_colon M) as K.
  destruct (read_given_char 58 u) as [[[] u']|], (read_given_char 58 v) as [[[] v']|]; cbn in K; try easy.
  destruct K as [_ K]. pose proof (given_st 58 u' v' nl_colon K) as L.
  destruct (read_given_char 58 u') as [[[] w]|], (read_given_char 58 v') as [[[] w']|]; cbn in L; try easy.
  destruct L as [_ L]. destruct (groups_st (8 - (List.length gs + 1)) 0 w w' L) as [E P].
  destruct (read_groups _ 0 w) as [[gs' a] w1], (read_groups _ 0 w') as [[hs' b] w1']. cbn [fst snd] in *. injection E as <- <-. easy.
Qed.

Lemma parse_with_st {A} (p : parser A) : (forall s t, same_text s t -> prel (p s) (p t)) ->
  forall s t, same_text s t -> parse_with p s = parse_with p t.
Proof.
  intros P s t H. unfold parse_with. pose proof (P s t H) as K.
  destruct (p s) as [[a u]|], (p t) as [[b v]|]; cbn in K; try easy. destruct K as [<- K]. now destruct K.
Qed.
Lemma ipv6_st s t : same_text s t -> ipv6_from_str s = ipv6_from_str t.
Proof. apply parse_with_st, ipv6_addr_st. Qed.
Lemma ipv4_st s t : same_text s t -> ipv4_from_str s = ipv4_from_str t.
Proof.
  intro H. unfold ipv4_from_str. rewrite (st_len _ _ H). destruct (15 <? _)%nat; trivial.
  apply (parse_with_st _ (octets_st 4 0)), H.
Qed.
Lemma ipv4_dot_st s t : same_text s t -> parse_ipv4_allow_an_ended_dot s = parse_ipv4_allow_an_ended_dot t.
Proof. intro H. apply ipv4_st, st_strip; auto with nl. Qed.

Lemma ipv6_without_port_st port local s t i : same_text s t ->
  ipv6_without_port port local s i = ipv6_without_port port local t i.
Proof.
  intro H. unfold ipv6_without_port.
  assert (forall k, obind (str_slice (E := ip_err) s 1 i) (fun x => match ipv6_from_str x with Some ip => k ip | None => Err IpInvalid end)
    = obind (str_slice (E := ip_err) t 1 i) (fun x => match ipv6_from_str x with Some ip => k ip | None => @Err _ (list N * option N * bool) IpInvalid end)) as E
    by (intro k; apply (bind_rel _ _ _ _ _ (st_slice _ _ _ _ H)); intros a b K; now rewrite (ipv6_st _ _ K)).
  destruct port; trivial; apply E.
Qed.

Lemma ipv6_with_port_st port local s t : same_text s t ->
  ipv6_with_port port local s = ipv6_with_port port local t.
Proof.
  intro H. unfold ipv6_with_port. rewrite (st_rposition _ _ _ nl_colon H). destruct (rposition 58 t) as [i|]; trivial.
  match goal with |- match port with Must => ?a | Allow => ?a' | Disallow => _ end
                   = match port with Must => ?b | Allow => ?b' | Disallow => _ end =>
    assert (a = b) as E end.
  2: destruct port; trivial; apply E.
  apply (bind_rel eq).
  - destruct (2 <? i)%nat; [|easy]. pose proof (st_idx (E := ip_err) s t (i - 1) H) as K.
    destruct (idx s (i - 1)), (idx t (i - 1)); cbn in *; try easy. apply sl_eqb; auto with nl.
  - intros ok ? <-. destruct ok; trivial.
    apply (bind_rel _ _ _ _ _ (st_slice _ _ _ _ H)). intros a b K. rewrite (ipv6_st _ _ K).
    destruct (ipv6_from_str b); trivial.
    apply (bind_rel _ _ _ _ _ (st_slice_from _ _ _ H)). intros p q L. now rewrite (st_u16 _ _ L).
Qed.

Lemma ipv6_bracket_st port local s t : same_text s t -> ipv6_bracket port local s = ipv6_bracket port local t.
Proof.
  intro H. unfold ipv6_bracket. rewrite (st_len _ _ H).
  apply (bind_rel _ _ _ _ _ (st_idx _ _ _ H)). intros a b K. rewrite (sl_eqb _ _ _ K nl_close).
  destruct (b =? 93); [apply ipv6_without_port_st, H | apply ipv6_with_port_st, H].
Qed.

Lemma ipv4_rest_st port local s t : same_text s t -> ipv4_rest port local s = ipv4_rest port local t.
Proof.
  intro H. unfold ipv4_rest. rewrite (st_rposition _ _ _ nl_colon H), (ipv4_st _ _ H).
  destruct (rposition 58 t) as [i|]; trivial.
  match goal with |- match port with Must => ?a | Allow => ?a' | Disallow => _ end
                   = match port with Must => ?b | Allow => ?b' | Disallow => _ end =>
    assert (a = b) as E end.
  2: destruct port; trivial; apply E.
  apply (bind_rel _ _ _ _ _ (st_slice _ _ _ _ H)). intros a b K. rewrite (ipv4_st _ _ K).
  destruct (ipv4_from_str b); trivial.
  apply (bind_rel _ _ _ _ _ (st_slice_from _ _ _ H)). intros p q L. now rewrite (st_u16 _ _ L).
Qed.

Lemma ip_v_st port local s t : same_text s t ->
  ip_v_parse_str port local s = ip_v_parse_str port local t /\
  ipv4_v_parse_str port local s = ipv4_v_parse_str port local t /\
  ipv6_v_parse_str port local s = ipv6_v_parse_str port local t.
Proof.
  intro H. pose proof H as H0. destruct H as [|a b s t L H]; [auto|].
  unfold ip_v_parse_str, ipv4_v_parse_str, ipv6_v_parse_str.
  rewrite (sl_eqb _ _ _ L nl_open), (ipv6_st _ _ H0), (ipv6_bracket_st _ _ _ _ H0), (ipv4_rest_st _ _ _ _ H0). auto.
Qed.

(** C100: an IP address means the same in either case, with the same answer and the same error, under
    every policy. *)
Theorem C100_ip : forall port local s t, same_text s t ->
  ip_parse_str port local s = ip_parse_str port local t /\
  ip_validate_str port local s = ip_validate_str port local t /\
  ipv4_parse_str port local s = ipv4_parse_str port local t /\
  ipv4_validate_str port local s = ipv4_validate_str port local t /\
  ipv6_parse_str port local s = ipv6_parse_str port local t /\
  ipv6_validate_str port local s = ipv6_validate_str port local t.
Proof.
  intros port local s t H. destruct (ip_v_st port local s t H) as (A & B & C).
  unfold ip_parse_str, ip_validate_str, ipv4_parse_str, ipv4_validate_str, ipv6_parse_str, ipv6_validate_str.
  rewrite A, B, C. repeat split.
Qed.

(** ** Names *)

(** A text of digits, dots, colons and plus signs has one spelling only. *)
Definition plain (s : list N) : Prop := Forall not_letter s.
Lemma plain_eq s t : same_text s t -> plain s -> s = t.
Proof. induction 1; intro P; inversion P; subst; [trivial|]. f_equal; [now apply sl_eq | auto]. Qed.

Lemma to_digit_nl c d : to_digit 10 c = Some d -> not_letter c.
Proof.
  unfold to_digit, hex_digit. sl. destruct (N.leb_spec 48 c), (N.leb_spec c 57); cbn; try lia;
  destruct (N.leb_spec 97 c), (N.leb_spec c 102); cbn; intro K; try lia;
  destruct (N.leb_spec 65 c), (N.leb_spec c 70); cbn in *; try discriminate; try lia;
  repeat match type of K with context [?a <? ?b] => destruct (N.ltb_spec a b) end; try discriminate; lia.
Qed.
(** What was read before the rest [r] of the text [s] holds no letter. *)
Definition read_plain (s r : list N) : Prop := exists p, s = p ++ r /\ plain p.
Lemma rp_refl s : read_plain s s. Proof. exists []. split; [trivial | constructor]. Qed.
Lemma rp_cons c s r : not_letter c -> read_plain s r -> read_plain (c :: s) r.
Proof. intros N (p & -> & P). exists (c :: p). split; [trivial | now constructor]. Qed.
Lemma rp_trans s r u : read_plain s r -> read_plain r u -> read_plain s u.
Proof. intros (p & -> & P) (q & -> & Q). exists (p ++ q). split; [apply app_assoc | now apply Forall_app]. Qed.

Lemma num_loop_plain m s r n r' n' u : num_loop 10 m s r n = Some (r', n', u) -> read_plain s u.
Proof.
  revert r n. induction s as [|c s IH]; intros r n; cbn [num_loop]; [intros [= <- <- <-]; apply rp_refl|].
  destruct (to_digit 10 c) as [d|] eqn:E.
  - destruct (m <? S n)%nat; [easy|]. intro K. apply rp_cons; [apply (to_digit_nl _ _ E) | apply (IH _ _ K)].
  - intros [= <- <- <-]. apply rp_refl.
Qed.
Lemma octets_plain n i s x u : read_octets n i s = Some (x, u) -> read_plain s u.
Proof.
  revert i s x u. induction n as [|n IH]; intros i s x u; cbn [read_octets]; [intros [= <- <-]; apply rp_refl|].
  destruct (read_separator 46 i (read_number 10 3 false 255) s) as [[y v]|] eqn:E; [|easy].
  destruct (read_octets n (S i) v) as [[ys w]|] eqn:F; [|easy]. intros [= <- <-].
  refine (rp_trans _ _ _ _ (IH _ _ _ _ F)).
  assert (forall s, read_number 10 3 false 255 s = Some (y, v) -> read_plain s v) as K.
  { intro s0. unfold read_number. destruct (num_loop 10 3 s0 0 0) as [[[r0 n0] u0]|] eqn:G; [|easy].
    destruct (n0 =? 0)%nat; [easy|]. destruct (_ && _ && _)%bool; [easy|]. destruct (r0 <=? 255); [|easy].
    intros [= <- <-]. apply (num_loop_plain _ _ _ _ _ _ _ G). }
  unfold read_separator in E. destruct (0 <? i)%nat; [|now apply K].
  unfold read_given_char in E. destruct s as [|c s]; [easy|]. destruct (N.eqb_spec c 46) as [->|]; [|easy].
  apply rp_cons; [apply nl_dot | now apply K].
Qed.
Lemma ipv4_plain s ip : ipv4_from_str s = Some ip -> plain s.
Proof.
  unfold ipv4_from_str, parse_with, read_ipv4_addr. destruct (15 <? _)%nat; [easy|].
  destruct (read_octets 4 0 s) as [[x u]|] eqn:E; [|easy]. destruct u; [|easy]. intros _.
  destruct (octets_plain _ _ _ _ _ E) as (p & -> & P). now rewrite app_nil_r.
Qed.
Lemma strip_plain c s : not_letter c -> plain (strip_last c s) -> plain s.
Proof.
  intros N. induction s as [|a s IH]; cbn; [intros _; constructor|]. destruct s as [|b s].
  - destruct (N.eqb_spec a c) as [->|]; [|trivial]. intros _. constructor; [exact N | constructor].
  - intro P. inversion P; subst. constructor; [assumption | apply IH; assumption].
Qed.
Lemma acc_pos_plain hi s r x : acc_pos hi s r = Ok x -> plain s.
Proof.
  revert r. induction s as [|c s IH]; intros r; cbn [acc_pos]; [constructor|].
  destruct (digit c) as [d|] eqn:E; [|easy]. destruct (hi <? r * 10)%Z; [easy|]. destruct (hi <? _)%Z; [easy|].
  intro K. constructor; [|apply (IH _ K)]. unfold digit in E. sl.
  destruct (N.leb_spec 48 c), (N.leb_spec c 57); cbn in E; try discriminate; lia.
Qed.
Lemma u16_plain s p : parse_u16 s = Some p -> plain s.
Proof.
  unfold parse_u16, int_from_str. destruct s as [|c [|d s]]; [easy| |].
  - destruct (_ || _)%bool; [easy|]. destruct (acc_pos 65535 [c] 0) eqn:E; try easy. intros _. apply (acc_pos_plain _ _ _ _ E).
  - destruct (N.eqb_spec c 43) as [->|].
    + destruct (acc_pos 65535 (d :: s) 0) eqn:E; try easy. intros _. constructor; [apply nl_plus | apply (acc_pos_plain _ _ _ _ E)].
    + replace ((c =? 45) && (0 <? 0)%Z)%bool with false by now destruct (c =? 45).
      destruct (acc_pos 65535 (c :: d :: s) 0) eqn:E; try easy. intros _. apply (acc_pos_plain _ _ _ _ E).
Qed.

(** The two parts of the split are alike. *)
Definition parts_rel (x y : list N * option (list N)) : Prop :=
  same_text (fst x) (fst y) /\
  match snd x, snd y with Some a, Some b => same_text a b | None, None => True | _, _ => False end.

Lemma rposition_at c s i : rposition c s = Some i -> s = firstn i s ++ c :: skipn (i + 1) s /\ (i < List.length s)%nat.
Proof.
  revert i. induction s as [|a s IH]; intros i; cbn [rposition]; [easy|].
  destruct (rposition c s) as [j|].
  - intros [= <-]. destruct (IH j eq_refl) as [E L]. cbn. split; [congruence | lia].
  - destruct (N.eqb_spec a c) as [->|]; [|easy]. intros [= <-]. cbn. split; [trivial | lia].
Qed.

Section Names.
Variable idna : list N -> option (list N).
(** [to_ascii] of the crate idna maps ASCII letters to lower case first. *)
Hypothesis idna_case : forall s t, same_text s t -> idna s = idna t.

Lemma d_parse_port_st c p q : match p, q with Some a, Some b => same_text a b | None, None => True | _, _ => False end ->
  d_parse_port c p = d_parse_port c q.
Proof. intro H. unfold d_parse_port. destruct p, q; try easy. now rewrite (st_u16 _ _ H). Qed.

Lemma d_split_st c s t : same_text s t -> orel parts_rel (d_split c s) (d_split c t).
Proof.
  intro H. unfold d_split. rewrite (st_rposition _ _ _ nl_colon H). destruct (rposition 58 t) as [i|].
  - pose proof (st_slice (E := domain_err) s t 0 i H) as K. pose proof (st_slice_from (E := domain_err) s t (i + 1) H) as L.
    destruct (d_port c); cbn; trivial;
      destruct (str_slice s 0 i), (str_slice t 0 i); cbn in *; try easy;
      destruct (str_slice_from s (i + 1)), (str_slice_from t (i + 1)); cbn in *; try easy.
  - destruct (d_port c); cbn; trivial; now split.
Qed.

(** The whole text is the two parts and at most a colon. *)
Lemma d_split_parts c s n p : d_split c s = Ok (n, p) ->
  match p with Some q => s = n ++ 58 :: q | None => s = n end.
Proof.
  unfold d_split. destruct (rposition 58 s) as [i|] eqn:E.
  - destruct (rposition_at _ _ _ E) as [F L].
    assert (obind (str_slice (E := domain_err) s 0 i) (fun d => obind (str_slice_from s (i + 1)) (fun q => Ok (d, Some q))) = Ok (n, p)
      -> match p with Some q => s = n ++ 58 :: q | None => s = n end) as K.
    { unfold str_slice_from, str_slice. destruct (_ && _)%bool; cbn; [|easy]. destruct (_ && _)%bool; cbn; [|easy].
      intros [= <- <-]. rewrite F at 1. rewrite Nat.sub_0_r. f_equal. f_equal. symmetry. apply firstn_all2.
      rewrite skipn_length. lia. }
    destruct (d_port c); trivial. discriminate.
  - destruct (d_port c); [discriminate| |]; now intros [= <- <-].
Qed.

Lemma d_rest_st c s t n p m q : same_text s t -> d_split c s = Ok (n, p) -> d_split c t = Ok (m, q) -> parts_rel (n, p) (m, q) ->
  d_rest idna c s n p = d_rest idna c t m q.
Proof.
  intros H S T [N P]. cbn [fst snd] in *. unfold d_rest.
  rewrite (idna_case _ _ N), (ipv4_dot_st _ _ N), (d_parse_port_st c _ _ P). destruct (all_allow c); trivial.
  destruct (parse_ipv4_allow_an_ended_dot m) as [ip|] eqn:E; trivial.
  destruct (is_disallow (d_ipv4 c)); trivial. destruct (is_disallow (d_two c)); trivial.
  destruct (d_parse_port c q) as [x| |] eqn:F; cbn; trivial.
  destruct (d_check_local c _); cbn; trivial. f_equal. f_equal. f_equal. f_equal.
  apply ipv4_plain, strip_plain in E; [|apply nl_dot].
  apply st_sym in H. symmetry. apply (plain_eq _ _ H).
  pose proof (d_split_parts _ _ _ _ T) as G. destruct q as [q|]; [|congruence].
  subst t. apply Forall_app. split; trivial. constructor; [apply nl_colon|].
  unfold d_parse_port in F. unfold d_split in T.
  destruct (d_port c) eqn:D; try (destruct (parse_u16 q) eqn:G; [apply (u16_plain _ _ G) | discriminate]).
  exfalso. destruct (rposition 58 (m ++ 58 :: q)); discriminate.
Qed.

Lemma domain_v_st c s t : same_text s t -> domain_v_parse_str idna c s = domain_v_parse_str idna c t.
Proof.
  intro H. pose proof H as H0. unfold domain_v_parse_str. destruct H as [|a b s t L H]; trivial.
  pose proof (d_split_st c _ _ H0) as K.
  destruct (d_split c (a :: s)) as [[n p]| |] eqn:A, (d_split c (b :: t)) as [[m q]| |] eqn:B; cbn in K; try easy.
  - cbn [obind]. apply (d_rest_st _ _ _ _ _ _ _ H0 A B K).
  - cbn. congruence.
Qed.

(** C100: a domain means the same in either case, given that [to_ascii] does. *)
Lemma domain_st c s t : same_text s t ->
  domain_parse_str idna c s = domain_parse_str idna c t /\ domain_validate_str idna c s = domain_validate_str idna c t.
Proof. intro H. unfold domain_parse_str, domain_validate_str. rewrite (domain_v_st c _ _ H). auto. Qed.

Lemma h_parse_port_st c p q : match p, q with Some a, Some b => same_text a b | None, None => True | _, _ => False end ->
  h_parse_port c p = h_parse_port c q.
Proof. intro H. unfold h_parse_port. destruct p, q; try easy. now rewrite (st_u16 _ _ H). Qed.

Lemma h_split_st c s t : same_text s t -> orel parts_rel (h_split c s) (h_split c t).
Proof.
  intro H. unfold h_split. rewrite (st_rposition _ _ _ nl_colon H). destruct (rposition 58 t) as [i|].
  - pose proof (st_slice (E := host_err) s t 0 i H) as K. pose proof (st_slice_from (E := host_err) s t (i + 1) H) as L.
    destruct (h_port c); cbn; trivial;
      destruct (str_slice s 0 i), (str_slice t 0 i); cbn in *; try easy;
      destruct (str_slice_from s (i + 1)), (str_slice_from t (i + 1)); cbn in *; try easy.
  - destruct (h_port c); cbn; trivial; now split.
Qed.

Lemma h_rest_st c s t : same_text s t -> h_rest idna c s = h_rest idna c t.
Proof.
  intro H. unfold h_rest. apply (bind_rel _ _ _ _ _ (h_split_st c _ _ H)). intros [n p] [m q] [N P]. cbn [fst snd] in *.
  unfold h_name. rewrite (st_ends _ _ _ nl_dot N), (ipv4_st _ _ N), (idna_case _ _ N), (h_parse_port_st c _ _ P). trivial.
Qed.

Lemma h_without_st c s t i : same_text s t -> h_ipv6_without_port c s i = h_ipv6_without_port c t i.
Proof.
  intro H. unfold h_ipv6_without_port. pose proof (st_slice (E := host_err) s t 1 i H) as K.
  destruct (str_slice s 1 i), (str_slice t 1 i); cbn in *; try easy; try (now rewrite (ipv6_st _ _ K)); now subst.
Qed.

Lemma h_with_st c s t : same_text s t -> h_ipv6_with_port c s = h_ipv6_with_port c t.
Proof.
  intro H. unfold h_ipv6_with_port. rewrite (st_rposition _ _ _ nl_colon H). destruct (rposition 58 t) as [i|]; trivial.
  match goal with |- match h_port c with Must => ?a | Allow => ?a' | Disallow => _ end
                   = match h_port c with Must => ?b | Allow => ?b' | Disallow => _ end =>
    assert (a = b) as E end.
  2: destruct (h_port c); trivial; apply E.
  apply (bind_rel eq).
  - destruct (2 <? i)%nat; [|easy]. pose proof (st_idx (E := host_err) s t (i - 1) H) as K.
    destruct (idx s (i - 1)), (idx t (i - 1)); cbn in *; try easy. apply sl_eqb; auto with nl.
  - intros ok ? <-. destruct ok; trivial.
    apply (bind_rel _ _ _ _ _ (st_slice _ _ _ _ H)). intros a b K. rewrite (ipv6_st _ _ K).
    destruct (ipv6_from_str b); trivial.
    apply (bind_rel _ _ _ _ _ (st_slice_from _ _ _ H)). intros p q L. now rewrite (st_u16 _ _ L).
Qed.

Lemma host_st c s t : same_text s t ->
  host_parse_str idna c s = host_parse_str idna c t /\ host_validate_str idna c s = host_validate_str idna c t.
Proof.
  intro H. assert (host_v_parse_str idna c s = host_v_parse_str idna c t) as E.
  { pose proof H as H0. unfold host_v_parse_str. destruct H as [|a b s t L H]; trivial.
    rewrite (sl_eqb _ _ _ L nl_open), (ipv6_st _ _ H0), (h_rest_st c _ _ H0).
    destruct (b =? 91); trivial. unfold h_ipv6_bracket. rewrite (st_len _ _ H0). destruct (is_disallow (h_two c)); trivial.
    apply (bind_rel _ _ _ _ _ (st_idx _ _ _ H0)). intros x y K. rewrite (sl_eqb _ _ _ K nl_close).
    destruct (y =? 93); [apply h_without_st, H0 | apply h_with_st, H0]. }
  unfold host_parse_str, host_validate_str. rewrite E. auto.
Qed.
End Names.

(** C100: given that [to_ascii] of the crate idna does not look at the case of ASCII letters, a domain
    and a host mean the same in either case, under every policy: the same value, or the same error. *)
Theorem C100_names : forall idna, (forall s t, same_text s t -> idna s = idna t) ->
  forall s t, same_text s t ->
  (forall c, domain_parse_str idna c s = domain_parse_str idna c t /\
             domain_validate_str idna c s = domain_validate_str idna c t) /\
  (forall c, host_parse_str idna c s = host_parse_str idna c t /\
             host_validate_str idna c s = host_validate_str idna c t).
Proof. intros idna I s t H. split; intro c; [apply domain_st | apply host_st]; trivial. Qed.

(** ** Numbers and booleans *)

Lemma take_sign_st s t : same_text s t ->
  fst (take_sign s) = fst (take_sign t) /\ same_text (snd (take_sign s)) (snd (take_sign t)).
Proof.
  intro H. pose proof H as H0. destruct H as [|a b s t L H]; [easy|]. unfold take_sign.
  rewrite (sl_eqb _ _ _ L nl_minus), (sl_eqb _ _ _ L nl_plus).
  destruct (b =? 45); [easy|]. destruct (b =? 43); easy.
Qed.
Lemma span_st s t : same_text s t ->
  fst (span_digits s) = fst (span_digits t) /\ same_text (snd (span_digits s)) (snd (span_digits t)).
Proof.
  induction 1 as [|a b s t L H IH]; cbn [span_digits]; [split; [trivial | constructor]|].
  rewrite (sl_fdigit _ _ L). destruct (fdigit b) eqn:E; [|split; [trivial | constructor; trivial]].
  destruct (span_digits s), (span_digits t). cbn in *. destruct IH as [-> IH]. split; trivial. f_equal.
  symmetry. apply sl_eq; [now apply sl_sym|]. unfold fdigit in E. sl.
  destruct (N.leb_spec 48 b), (N.leb_spec b 57); cbn in E; try discriminate; lia.
Qed.
Lemma exponent_st s t : same_text s t -> read_exponent s = read_exponent t.
Proof.
  intro H. destruct H as [|a b s t L H]; trivial. unfold read_exponent.
  replace ((a =? 101) || (a =? 69))%bool with ((b =? 101) || (b =? 69))%bool by (sl; beq; cbn; trivial; lia).
  destruct (_ || _)%bool; trivial. destruct (take_sign_st _ _ H) as [E K].
  destruct (take_sign s) as [n u], (take_sign t) as [m v]. cbn in *. subst n.
  destruct (span_st _ _ K) as [E M]. destruct (span_digits u) as [d w], (span_digits v) as [d' w']. cbn in *. subst d.
  destruct d'; trivial. now destruct M.
Qed.
Lemma decimal_st s t : same_text s t -> read_decimal s = read_decimal t.
Proof.
  intro H. unfold read_decimal. destruct (span_st _ _ H) as [E M].
  destruct (span_digits s) as [d u], (span_digits t) as [d' v]. cbn in *. subst d.
  destruct M as [|a b u v L M]; trivial. rewrite (sl_eqb _ _ _ L nl_dot). destruct (b =? 46).
  - destruct (span_st _ _ M) as [E K]. destruct (span_digits u) as [f w], (span_digits v) as [f' w']. cbn in *. subst f.
    now rewrite (exponent_st _ _ K).
  - rewrite (exponent_st (a :: u) (b :: v)); [trivial | constructor; trivial].
Qed.
Lemma float_st k s t : same_text s t -> float_of_text k s = float_of_text k t.
Proof.
  intro H. unfold float_of_text. destruct (take_sign_st _ _ H) as [E M].
  destruct (take_sign s) as [n u], (take_sign t) as [m v]. cbn in E, M. subst n.
  now rewrite (decimal_st _ _ M), !(st_ignore _ _ _ M).
Qed.

Lemma bool_case s t b : same_text s t -> bool_parse_str s = Ok b -> bool_parse_str t = Ok b.
Proof.
  intros H A. apply C16_boolean_words in A. destruct A as (w & I & K). apply C16_boolean_words. exists w. split; trivial.
  assert (Forall (fun y => ~ 65 <= y <= 90) w) as U.
  { clear - I. apply (in_map fst) in I. cbn [fst] in I.
    assert (forallb (forallb (fun y => negb ((65 <=? y) && (y <=? 90)))) (map fst bool_words) = true) as F by reflexivity.
    rewrite forallb_forall in F. specialize (F _ I). rewrite forallb_forall in F. apply Forall_forall. intros y Y.
    specialize (F _ Y). destruct (N.leb_spec 65 y), (N.leb_spec y 90); cbn in F; try discriminate; lia. }
  clear I. unfold same_but_case in *. revert w K U. induction H as [|x y s t L H IH]; intros w K U; inversion K; subst; constructor.
  - inversion U; subst. sl. lia.
  - inversion U; subst. now apply IH.
Qed.

(** C100: a floating-point number means the same in either case ([1e5] and [1E5], [nan] and [NaN],
    [infinity] and [Infinity]), and so does a boolean word. *)
Theorem C100_numbers : forall s t, same_text s t ->
  (forall k r nan, num_parse_str (float_of_text k) r nan s = num_parse_str (float_of_text k) r nan t /\
                   num_validate_str (float_of_text k) r nan s = num_validate_str (float_of_text k) r nan t) /\
  bool_parse_str s = bool_parse_str t /\ bool_validate_str s = bool_validate_str t.
Proof.
  intros s t H. split.
  - intros k r nan. unfold num_parse_str, num_validate_str, num_v_parse_str. rewrite (float_st k _ _ H). auto.
  - assert (bool_parse_str s = bool_parse_str t) as E.
    { destruct (C16_boolean_otherwise s) as [A|[b A]], (C16_boolean_otherwise t) as [B|[b' B]].
      - congruence.
      - pose proof (bool_case _ _ _ (st_sym _ _ H) B). congruence.
      - pose proof (bool_case _ _ _ H A). congruence.
      - pose proof (bool_case _ _ _ H A). congruence. }
    split; [exact E|]. destruct (C17_boolean_entry_points s 0 true) as (_ & -> & _).
    destruct (C17_boolean_entry_points t 0 true) as (_ & -> & _). now rewrite E.
Qed.

(** ** MAC addresses and UUIDs *)

Lemma obind_rel {E A B} (R : A -> A -> Prop) (S : B -> B -> Prop) (x y : outcome E A) (k l : A -> outcome E B) :
  orel R x y -> (forall a b, R a b -> orel S (k a) (l b)) -> orel S (obind x k) (obind y l).
Proof. intros H K. destruct x, y; cbn in *; try easy. now apply K. Qed.
Lemma st_bslice {E} s t a b : same_text s t -> orel (E := E) same_text (slice s a b) (slice t a b).
Proof.
  intro H. unfold slice. rewrite (st_len _ _ H). destruct (_ && _)%bool; cbn; trivial. apply st_firstn, st_skipn, H.
Qed.
Lemma st_bslice_from {E} s t a : same_text s t -> orel (E := E) same_text (slice_from s a) (slice_from t a).
Proof. intro H. unfold slice_from. rewrite (st_len _ _ H). destruct (_ <=? _)%nat; cbn; trivial. apply st_skipn, H. Qed.

(** The separator of the attribute is not a letter. *)
Definition sep_no_letter (sep : sep_option) : Prop :=
  match sep with SepMust c | SepAllow c => not_letter c | SepDisallow => True end.

Ltac walk H N := repeat first
  [ apply (obind_rel _ _ _ _ _ _ (st_bslice _ _ _ _ H)); intros ? ? ?
  | apply (obind_rel _ _ _ _ _ _ (st_bslice_from _ _ _ H)); intros ? ? ?
  | apply (obind_rel _ _ _ _ _ _ (st_idx _ _ _ H));
    let a := fresh in let b := fresh in let K := fresh in intros a b K; rewrite (sl_eqb _ _ _ K N); clear K ].

Lemma mac_iter_st sep s t : sep_no_letter sep -> same_text s t -> orel same_text (mac_iter sep s) (mac_iter sep t).
Proof.
  intros N H. destruct sep as [c|c|]; cbn [sep_no_letter] in N; unfold mac_iter; rewrite (st_len _ _ H).
  - destruct (negb _); [easy|]. walk H N. destruct (_ || _ || _ || _ || _)%bool; [easy|]. walk H N.
    cbn. repeat apply Forall2_app; trivial.
  - destruct (negb _); [easy|]. walk H N.
    match goal with K : same_text ?x ?y |- orel _ (if negb (List.length ?x =? 2)%nat then _ else _) _ => rewrite (st_len _ _ K) end.
    destruct (negb _); [easy|]. cbn. repeat apply Forall2_app; trivial.
  - destruct (negb _); easy.
Qed.
Lemma uuid_iter_st sep s t : sep_no_letter sep -> same_text s t -> orel same_text (uuid_iter sep s) (uuid_iter sep t).
Proof.
  intros N H. destruct sep as [c|c|]; cbn [sep_no_letter] in N; unfold uuid_iter; rewrite (st_len _ _ H).
  - destruct (negb _); [easy|]. walk H N. destruct (_ || _ || _ || _)%bool; [easy|]. walk H N.
    cbn. repeat apply Forall2_app; trivial.
  - destruct (negb _); [easy|]. walk H N.
    match goal with K : same_text ?x ?y |- orel _ (if negb (List.length ?x =? 12)%nat then _ else _) _ => rewrite (st_len _ _ K) end.
    destruct (negb _); [easy|]. cbn. repeat apply Forall2_app; trivial.
  - destruct (negb _); easy.
Qed.
Lemma decode_st w s t x : same_text s t -> handle_decode w AnyCase s x = handle_decode w AnyCase t x.
Proof.
  intro H. revert x. induction H as [|a b s t L H IH]; intro x; cbn [handle_decode]; trivial.
  rewrite (sl_hex _ _ L). destruct (hex_digit AnyCase b); trivial.
Qed.
Lemma check_st s t : same_text s t -> handle_check AnyCase s = handle_check AnyCase t.
Proof.
  induction 1 as [|a b s t L H IH]; cbn [handle_check]; trivial. rewrite (sl_hex _ _ L). now rewrite IH.
Qed.

(** C100: under [case(Any)] and a separator that is not a letter, a MAC address or a UUID means the same
    in either case, with the same answer and the same error. *)
Theorem C100_hex : forall sep s t, sep_no_letter sep -> same_text s t ->
  mac_parse_str AnyCase sep s = mac_parse_str AnyCase sep t /\
  mac_validate_str AnyCase sep s = mac_validate_str AnyCase sep t /\
  uuid_parse_str AnyCase sep s = uuid_parse_str AnyCase sep t /\
  uuid_validate_str AnyCase sep s = uuid_validate_str AnyCase sep t.
Proof.
  intros sep s t N H. unfold mac_parse_str, mac_validate_str, mac_v_parse_str, mac_v_validate_str,
    uuid_parse_str, uuid_validate_str, uuid_v_parse_str, uuid_v_validate_str.
  pose proof (mac_iter_st sep s t N H) as A. pose proof (uuid_iter_st sep s t N H) as B.
  repeat split.
  - f_equal. apply (bind_rel _ _ _ _ _ A). intros a b K. apply (decode_st _ _ _ _ K).
  - f_equal. apply (bind_rel _ _ _ _ _ A). intros a b K. now rewrite (check_st _ _ K).
  - f_equal. apply (bind_rel _ _ _ _ _ B). intros a b K. apply (decode_st _ _ _ _ K).
  - f_equal. apply (bind_rel _ _ _ _ _ B). intros a b K. now rewrite (check_st _ _ K).
Qed.

(** C100 does not extend to a letter as the separator, which the attribute takes: its case counts. *)
Theorem C100_hex_refuted : exists c s t, same_text s t /\
  is_ok (mac_parse_str AnyCase (SepMust c) s) /\ mac_parse_str AnyCase (SepMust c) t = Err HInvalid.
Proof.
  exists 120, (bs "08x00x27xB4x6Ax2B"), (bs "08x00x27xB4x6AX2B"). split; [|split; [|vm_compute; reflexivity]].
  - apply st_of_lower. reflexivity.
  - eexists. vm_compute. reflexivity.
Qed.

(** ** E-mail addresses *)

Lemma st_position c s t : not_letter c -> same_text s t -> position c s = position c t.
Proof. intros N. induction 1; cbn [position]; trivial. rewrite IHForall2, (sl_eqb _ _ _ H N). trivial. Qed.
Lemma sl_atext a b : same_letter a b -> atext a = atext b.
Proof.
  sl. intros [->|[[A ->]|[A ->]]]; trivial; unfold atext;
  match goal with |- ?x = ?y => transitivity true; [|symmetry] end; rewrite !orb_true_iff, !andb_true_iff, !N.leb_le; lia.
Qed.
Lemma sl_special a b : same_letter a b -> special a = special b.
Proof.
  sl. intros [->|[[A ->]|[A ->]]]; trivial; unfold special;
  repeat match goal with |- context [?x =? ?y] => replace (x =? y) with false by (symmetry; apply N.eqb_neq; lia) end;
  repeat match goal with |- context [?x <=? 60] => replace (x <=? 60) with false by (symmetry; apply N.leb_gt; lia) end;
  now rewrite ?andb_false_r.
Qed.
Lemma sl_other c a b : same_letter a b -> other_ok c a = other_ok c b.
Proof. sl. unfold other_ok. intro. beq; trivial; lia. Qed.

Ltac nlc := sl; lia.
Ltac byte K := repeat match type of K with same_letter ?a ?b =>
  match goal with |- context [a =? ?c] => rewrite (sl_eqb a b c K) by nlc end end.

Lemma quoted_st c s t p x y z : same_text s t -> e_quoted_loop c s p x y z = e_quoted_loop c t p x y z.
Proof.
  intro H. revert p x y z. induction H as [|a b s t L H IH]; intros p x y z; cbn [e_quoted_loop]; trivial.
  rewrite (sl_atext _ _ L), (sl_special _ _ L), (sl_other c _ _ L). byte L. now rewrite !IH.
Qed.
Lemma unquoted_st c s t p z : same_text s t -> e_unquoted_loop c s p z = e_unquoted_loop c t p z.
Proof.
  intro H. revert p z. induction H as [|a b s t L H IH]; intros p z; cbn [e_unquoted_loop]; trivial.
  rewrite (sl_atext _ _ L), (sl_other c _ _ L). byte L. now rewrite !IH.
Qed.

(** Comments alike. *)
Definition opt_text (x y : option (list N)) : Prop :=
  match x, y with Some a, Some b => same_text a b | None, None => True | _, _ => False end.

Lemma leading_st c n s t : same_text s t ->
  orel (fun x y => fst x = fst y /\ opt_text (snd x) (snd y)) (e_leading_comment c n s) (e_leading_comment c n t).
Proof.
  intro H. unfold e_leading_comment. apply (obind_rel _ _ _ _ _ _ (st_idx _ _ _ H)). intros a b K. byte K.
  destruct (b =? 40); [|easy]. destruct (negb _); [easy|]. rewrite (st_len _ _ H). destruct (1 <? _)%nat; [|easy].
  apply (obind_rel _ _ _ _ _ _ (st_bslice_from _ _ _ H)). intros u v L.
  rewrite (st_position 41 _ _ ltac:(nlc) (st_firstn n _ _ L)). destruct (position 41 (firstn n v)); [|easy].
  apply (obind_rel _ _ _ _ _ _ (st_slice _ _ _ _ H)). intros w w' M. destruct (_ =? _)%nat; easy.
Qed.

Lemma local_part_st c s t n : same_text s t ->
  orel (fun x y => same_text (fst (fst (fst x))) (fst (fst (fst y))) /\ snd (fst (fst x)) = snd (fst (fst y)) /\
                   snd (fst x) = snd (fst y) /\ snd x = snd y)
    (e_local_part c s n) (e_local_part c t n).
Proof.
  intro H. unfold e_local_part. apply (obind_rel _ _ _ _ _ _ (st_idx _ _ _ H)). intros a b K. byte K. rewrite (st_len _ _ H).
  destruct (b =? 34).
  - destruct (_ || _)%bool; [easy|]. apply (obind_rel _ _ _ _ _ _ (st_idx _ _ _ H)). intros d e L.
    apply (obind_rel eq).
    + unfold e_quoted_first. rewrite (sl_atext _ _ L), (sl_other c _ _ L). byte L.
      destruct (atext e); [easy|]. destruct (e =? 46); [easy|]. destruct (e =? 92); [easy|].
      destruct (_ || _)%bool; [easy|]. now destruct (other_ok c e).
    + intros [[x y] z] ? <-. rewrite (quoted_st c _ _ _ x y z (st_skipn (n + 1 + 1) _ _ H)).
      destruct (e_quoted_loop _ _ _ _ _ _) as [[q m]| |]; cbn [obind]; [|easy|easy].
      apply (obind_rel _ _ _ _ _ _ (st_slice _ _ _ _ H)). intros u v M. destruct (_ =? _)%nat; easy.
  - apply (obind_rel _ _ _ _ _ _ (st_idx _ _ _ H)). intros d e L. rewrite (sl_atext _ _ L), (sl_other c _ _ L).
    destruct (_ || _)%bool; [|easy]. rewrite (unquoted_st c _ _ _ false (st_skipn (n + 1) _ _ H)).
    destruct (e_unquoted_loop _ _ _ _); cbn [obind]; [|easy|easy].
    apply (obind_rel _ _ _ _ _ _ (st_slice _ _ _ _ H)). intros u v M. easy.
Qed.

Lemma comment2_st prof c s t n : same_text s t ->
  orel (fun x y => fst x = fst y /\ opt_text (snd x) (snd y)) (e_comment2 prof c s n) (e_comment2 prof c t n).
Proof.
  intro H. unfold e_comment2, e_take2. apply (obind_rel _ _ _ _ _ _ (st_idx _ _ _ H)). intros a b K. byte K. rewrite (st_len _ _ H).
  destruct (b =? 40); [|easy]. destruct (negb _); [easy|]. destruct (_ <? _)%nat; [|easy].
  apply (obind_rel _ _ _ _ _ _ (st_bslice_from _ _ _ H)). intros u v L.
  apply (obind_rel eq); [destruct (_ <=? _)%nat; [easy | now destruct prof]|]. intros k ? <-.
  rewrite (st_position 41 _ _ ltac:(nlc) (st_firstn k _ _ L)). destruct (position 41 (firstn k v)); [|easy].
  apply (obind_rel _ _ _ _ _ _ (st_slice _ _ _ _ H)). intros w w' M. destruct (_ =? _)%nat; easy.
Qed.

Lemma comment4_st c s t n : same_text s t -> orel opt_text (e_comment4 c s n) (e_comment4 c t n).
Proof.
  intro H. unfold e_comment4. rewrite (st_len _ _ H). destruct (_ <? _)%nat; [|easy]. destruct (negb _); [easy|].
  apply (obind_rel _ _ _ _ _ _ (st_idx _ _ _ H)). intros a b K. byte K. destruct (b =? 40); [|easy].
  destruct (_ <? _)%nat; [|easy]. apply (obind_rel _ _ _ _ _ _ (st_bslice_from _ _ _ H)). intros u v L.
  rewrite (st_position 41 _ _ ltac:(nlc) L). destruct (position 41 v); [|easy].
  apply (obind_rel _ _ _ _ _ _ (st_slice _ _ _ _ H)). intros w w' M. easy.
Qed.

(** The five bytes after each opening bracket are the same in the two texts. *)
Definition same_tags (s t : list N) : Prop :=
  forall i, nth_error s i = Some 91 -> firstn 5 (skipn (S i) s) = firstn 5 (skipn (S i) t).

Lemma nth_skip n (s : list N) i : nth_error (skipn n s) i = nth_error s (n + i).
Proof. revert s. induction n as [|n IH]; intros [|a s]; cbn; trivial. now destruct i. Qed.
Lemma skip_skip n m (s : list N) : skipn m (skipn n s) = skipn (n + m) s.
Proof. revert s. induction n as [|n IH]; intros [|a s]; cbn; trivial. now destruct m. Qed.
Lemma slice_from_ok {E} s n r : slice_from (E := E) s n = Ok r -> r = skipn n s.
Proof. unfold slice_from. destruct (_ <=? _)%nat; [now intros [= <-] | discriminate]. Qed.
Lemma str_slice_from_ok {E} s n r : str_slice_from (E := E) s n = Ok r -> r = skipn n s.
Proof.
  unfold str_slice_from, str_slice. destruct (_ && _)%bool; [|discriminate]. intros [= <-].
  apply firstn_all2. rewrite skipn_length. lia.
Qed.

Lemma handle_ip_st c s t n : same_text s t -> nth_error s n = Some 91 -> e_ip c = Disallow \/ same_tags s t ->
  e_handle_ip c s n = e_handle_ip c t n.
Proof.
  intros H B [D|T]; unfold e_handle_ip; [now rewrite D|]. rewrite (st_len _ _ H).
  match goal with |- match e_ip c with Must => ?a | Allow => _ | Disallow => _ end
                   = match e_ip c with Must => ?b | Allow => _ | Disallow => _ end => assert (a = b) as E end.
  2: destruct (e_ip c); trivial; exact E.
  destruct (is_disallow _); trivial. destruct (_ <? _)%nat; trivial.
  pose proof (st_bslice_from (E := email_err) s t (n + 1) H) as K.
  destruct (slice_from s (n + 1)) as [u| |] eqn:U, (slice_from t (n + 1)) as [v| |] eqn:V; cbn in K; try easy; cbn [obind]; [|congruence].
  apply slice_from_ok in U, V. specialize (T n B).
  replace (S n) with (n + 1)%nat in T by lia. rewrite <- U, <- V in T. rewrite T.
  destruct (eqbs (firstn 5 v) (bs "IPv6:")).
  - destruct (_ <? _)%nat; trivial. apply (bind_rel _ _ _ _ _ (st_bslice_from _ _ _ H)). intros x y L.
    rewrite (st_position 93 _ _ ltac:(nlc) L). destruct (position 93 y); trivial.
    apply (bind_rel _ _ _ _ _ (st_slice _ _ _ _ H)). intros p q M. now rewrite (ipv6_st _ _ M), (st_len _ _ M).
  - rewrite (st_position 93 _ _ ltac:(nlc) K). destruct (position 93 v); trivial.
    apply (bind_rel _ _ _ _ _ (st_slice _ _ _ _ H)). intros p q M. now rewrite (ipv4_st _ _ M).
Qed.

(** What is kept as written agrees up to case; everything else is the same. *)
Definition same_email (v w : email_val) : Prop :=
  same_text (ev_local v) (ev_local w) /\ ev_need_quoted v = ev_need_quoted w /\ ev_domain v = ev_domain w /\
  opt_text (ev_c1 v) (ev_c1 w) /\ opt_text (ev_c2 v) (ev_c2 w) /\ opt_text (ev_c3 v) (ev_c3 w) /\
  opt_text (ev_c4 v) (ev_c4 w) /\ ev_is_local v = ev_is_local w.

Section Email.
Variable idna : list N -> option (list N).
Hypothesis idna_case : forall s t, same_text s t -> idna s = idna t.

Lemma handle_domain_st c s t n : same_text s t -> e_handle_domain idna c s n = e_handle_domain idna c t n.
Proof.
  intro H. unfold e_handle_domain.
  match goal with |- match e_ip c with Must => _ | Allow => ?a | Disallow => _ end
                   = match e_ip c with Must => _ | Allow => ?b | Disallow => _ end => assert (a = b) as E end.
  2: destruct (e_ip c); trivial; exact E.
  apply (bind_rel _ _ _ _ _ (st_bslice_from _ _ _ H)). intros u v K. rewrite (st_position 40 _ _ ltac:(nlc) K).
  apply (bind_rel same_text).
  - destruct (position 40 v); [apply (st_slice _ _ _ _ H) | apply (st_slice_from _ _ _ H)].
  - intros x y L. now rewrite (st_ends _ _ _ nl_dot L), (idna_case _ _ L), (st_len _ _ L).
Qed.

Lemma domain_part_st c s t b : same_text s t -> e_ip c = Disallow \/ same_tags s t ->
  orel (fun x y => fst (fst x) = fst (fst y) /\ opt_text (snd (fst x)) (snd (fst y)) /\ opt_text (snd x) (snd y))
    (e_domain_part idna c s b) (e_domain_part idna c t b).
Proof.
  intros H T. unfold e_domain_part. rewrite (st_len _ _ H). destruct (_ <? _)%nat; [easy|].
  apply (obind_rel _ _ _ _ _ _ (leading_st c 253 _ _ H)). intros [n o] [m p] [E O]. cbn [fst snd] in *. subst m.
  assert (forall e, idx (E := email_err) s n = Ok e -> nth_error s n = Some e) as I
    by (intro e; unfold idx; destruct (nth_error s n); [now intros [= <-] | discriminate]).
  pose proof (st_idx (E := email_err) s t n H) as K.
  destruct (idx s n) as [x| |] eqn:X, (idx t n) as [y| |]; cbn in K; try easy; cbn [obind].
  byte K. assert ((if y =? 40 then Err EInvalid else if y =? 91 then e_handle_ip c s n else e_handle_domain idna c s n)
    = (if y =? 40 then Err EInvalid else if y =? 91 then e_handle_ip c t n else e_handle_domain idna c t n)) as ->.
  { destruct (y =? 40); trivial. destruct (N.eqb_spec y 91) as [->|].
    - apply handle_ip_st; trivial. rewrite (I _ eq_refl). f_equal. sl. lia.
    - now apply handle_domain_st. }
  destruct (if y =? 40 then _ else _) as [[[[h l] k] z]| |]; cbn [obind]; [|easy|easy].
  destruct (e_check_local c l); cbn [obind]; [|easy|easy]. destruct (_ && _)%bool; [easy|].
  apply (obind_rel _ _ _ _ _ _ (comment4_st c _ _ k H)). intros u v L. easy.
Qed.

Lemma email_st prof c s t : same_text s t -> e_ip c = Disallow \/ same_tags s t ->
  orel same_email (email_parse_str idna prof c s) (email_parse_str idna prof c t).
Proof.
  intros H T. unfold email_parse_str.
  apply (obind_rel (fun x y => same_text (er_local x) (er_local y) /\ er_need_quoted x = er_need_quoted y /\
    er_host x = er_host y /\ opt_text (er_c1 x) (er_c1 y) /\ opt_text (er_c2 x) (er_c2 y) /\ opt_text (er_c3 x) (er_c3 y) /\
    opt_text (er_c4 x) (er_c4 y) /\ er_is_local x = er_is_local y)).
  - unfold email_v_parse_str. rewrite (st_len _ _ H). destruct (_ || _)%bool; [easy|].
    apply (obind_rel _ _ _ _ _ _ (leading_st c 62 _ _ H)). intros [n o] [m p] [E O]. cbn [fst snd] in *. subst m.
    apply (obind_rel _ _ _ _ _ _ (local_part_st c _ _ n H)). intros [[[l q] qd] k] [[[l' q'] qd'] k'] (L & E1 & E2 & E3).
    cbn [fst snd] in *. subst q' qd' k'.
    apply (obind_rel _ _ _ _ _ _ (comment2_st prof c _ _ k H)). intros [n2 o2] [m2 p2] [E O2]. cbn [fst snd] in *. subst m2.
    apply (obind_rel _ _ _ _ _ _ (st_idx _ _ _ H)). intros a b K. byte K. destruct (_ || _)%bool; [easy|].
    pose proof (st_slice_from (E := email_err) s t (n2 + 1) H) as M.
    destruct (str_slice_from s (n2 + 1)) as [d| |] eqn:D, (str_slice_from t (n2 + 1)) as [d'| |] eqn:F; cbn in M; try easy; cbn [obind].
    apply str_slice_from_ok in D, F.
    assert (e_ip c = Disallow \/ same_tags d d') as T'.
    { destruct T as [T|T]; [now left | right]. intros i I. subst d d'. rewrite nth_skip in I. specialize (T _ I).
      rewrite !skip_skip. replace (n2 + 1 + S i)%nat with (S (n2 + 1 + i)) by lia. exact T. }
    apply (obind_rel _ _ _ _ _ _ (domain_part_st c _ _ (qd && q) M T')). intros [[[h il] c3] c4] [[[h' il'] c3'] c4'] (E1 & O3 & O4).
    cbn [fst snd] in *. injection E1 as <- <-. cbn. repeat split; trivial.
  - intros x y (A & B & C & D & E & F & G & I). unfold e_create. rewrite C.
    assert (forall o p, opt_text o p -> opt_text (if e_comment c then o else None) (if e_comment c then p else None)) as FC
      by (intros; now destruct (e_comment c)).
    destruct (e_ip c), (er_host y); cbn [orel]; trivial; unfold same_email; cbn; rewrite ?B, ?I; repeat split; auto.
Qed.
End Email.

(** C100: an e-mail address written in another case is accepted or refused alike, with the same error; the
    domain of the value is the same and what is kept as written (the local part and the comments) agrees
    up to case.  Required of the text: IP addresses are not allowed, or the bytes where the tag [IPv6:]
    would stand are the same. *)
Theorem C100_email_partial : forall idna, (forall s t, same_text s t -> idna s = idna t) ->
  forall prof c s t, same_text s t -> e_ip c = Disallow \/ same_tags s t ->
  match email_parse_str idna prof c s, email_parse_str idna prof c t with
  | Ok v, Ok w => same_email v w
  | Err e, Err f => e = f
  | Panic, Panic => True
  | _, _ => False
  end.
Proof. intros idna I prof c s t H T. apply (email_st idna I prof c s t H T). Qed.

(** C100 fails for the tag of an IPv6 address: [IPv6:] is recognised in this spelling only, though the
    strings of RFC 5321 are case-insensitive. *)
Theorem C100_email_refuted : exists c s t, same_text s t /\
  forall idna prof, is_ok (email_parse_str idna prof c s) /\ email_parse_str idna prof c t = Err EInvalid.
Proof.
  exists {| e_comment := false; e_ip := Allow; e_local := Allow; e_two := Allow; e_non_ascii := false |}.
  exists (bs "a@[IPv6:fe80::1]"), (bs "a@[ipv6:fe80::1]").
  split; [apply st_of_lower; reflexivity|]. intros idna prof. split; [eexists|]; vm_compute; reflexivity.
Qed.

(** ** URLs *)

Lemma starts_st p s t : same_text s t -> HttpModel.starts_with_lower p s = HttpModel.starts_with_lower p t.
Proof.
  intro H. revert p. induction H as [|a b s t L H IH]; intros [|d p]; cbn; trivial. now rewrite (sl_lower _ _ L), IH.
Qed.
Lemma starts_multiple_st ps s t : same_text s t -> HttpModel.starts_with_multiple ps s = HttpModel.starts_with_multiple ps t.
Proof. intro H. induction ps as [|p ps IH]; cbn; trivial. now rewrite (starts_st _ _ _ H), IH. Qed.

(** C100: the protocol of a URL is recognised in either case: two spellings that [Url::parse] reads as
    the same URL give the same value, or the same error. *)
Theorem C100_urls : forall url (url_parse : list N -> option url) host local s t,
  same_text s t -> url_parse s = url_parse t ->
  HttpModel.http_parse_str url url_parse host local s = HttpModel.http_parse_str url url_parse host local t /\
  HttpModel.http_validate_str url url_parse host local s = HttpModel.http_validate_str url url_parse host local t /\
  HttpModel.http_ftp_parse_str url url_parse host local s = HttpModel.http_ftp_parse_str url url_parse host local t /\
  HttpModel.http_ftp_validate_str url url_parse host local s = HttpModel.http_ftp_validate_str url url_parse host local t.
Proof.
  intros url url_parse host local s t H U.
  unfold HttpModel.http_parse_str, HttpModel.http_validate_str, HttpModel.http_ftp_parse_str, HttpModel.http_ftp_validate_str,
    HttpModel.http_v_parse_str, HttpModel.http_ftp_v_parse_str.
  rewrite !(starts_multiple_st _ _ _ H), U. repeat split.
Qed.

Example C100_example :
  same_text (bs "[FE80::AbCd]:80") (bs "[fe80::aBcD]:80") /\
  ip_parse_str Must Allow (bs "[FE80::AbCd]:80") = Ok (V6 [65152; 0; 0; 0; 0; 0; 0; 43981], Some 80) /\
  ip_parse_str Must Allow (bs "[fe80::aBcD]:80") = Ok (V6 [65152; 0; 0; 0; 0; 0; 0; 43981], Some 80) /\
  (forall s t, same_text s t -> Some (map lower s) = Some (map lower t)) /\
  domain_parse_str (fun s => Some (map lower s)) {| d_ipv4 := Allow; d_local := Allow; d_port := Allow; d_two := Allow |} (bs "MAGIClen.org:443")
    = domain_parse_str (fun s => Some (map lower s)) {| d_ipv4 := Allow; d_local := Allow; d_port := Allow; d_two := Allow |} (bs "magiclen.ORG:443") /\
  num_parse_str (float_of_text F64) Unlimited Allow (bs "1.5E2") = num_parse_str (float_of_text F64) Unlimited Allow (bs "1.5e2") /\
  is_ok (num_parse_str (float_of_text F64) Unlimited Allow (bs "1.5e2")) /\
  sep_no_letter (SepAllow 58) /\
  mac_parse_str AnyCase (SepAllow 58) (bs "08:00:27:b4:6A:2B") = Ok 8796759157291 /\
  mac_parse_str AnyCase (SepAllow 58) (bs "08:00:27:B4:6a:2b") = Ok 8796759157291.
Proof.
  split; [apply st_of_lower; reflexivity|].
  split; [vm_compute; reflexivity|]. split; [vm_compute; reflexivity|].
  split. { intros s t H. f_equal. induction H; cbn [map]; trivial. f_equal; [now apply sl_lower | trivial]. }
  split; [vm_compute; reflexivity|]. split; [vm_compute; reflexivity|].
  split; [eexists; vm_compute; reflexivity|]. split; [cbn; sl; lia|]. split; vm_compute; reflexivity.
Qed.

Example C100_email_example :
  let c := {| e_comment := true; e_ip := Allow; e_local := Allow; e_two := Allow; e_non_ascii := false |} in
  let idna := fun s => Some (map lower s) in
  same_text (bs "Len(Hi)@[IPv6:FE80::1]") (bs "lEN(hi)@[IPv6:fe80::1]") /\
  same_tags (bs "Len(Hi)@[IPv6:FE80::1]") (bs "lEN(hi)@[IPv6:fe80::1]") /\
  is_ok (email_parse_str idna Debug c (bs "Len(Hi)@[IPv6:FE80::1]")) /\
  omap ev_domain (email_parse_str idna Debug c (bs "Len(Hi)@MAGIClen.org")) = Ok (HDomain (bs "magiclen.org")) /\
  omap ev_domain (email_parse_str idna Debug c (bs "lEN(hi)@magiclen.ORG")) = Ok (HDomain (bs "magiclen.org")).
Proof.
  intros c idna. split; [apply st_of_lower; reflexivity|]. split.
  { intros i I. do 9 (destruct i as [|i]; [vm_compute in I |- *; first [discriminate I | reflexivity]|]).
    do 14 (destruct i as [|i]; [vm_compute in I; discriminate I|]). destruct i; vm_compute in I; discriminate I. }
  split; [eexists; vm_compute; reflexivity|]. split; vm_compute; reflexivity.
Qed.

Print Assumptions C100_ip.
Print Assumptions C100_names.
Print Assumptions C100_numbers.
Print Assumptions C100_hex.
Print Assumptions C100_hex_refuted.
Print Assumptions C100_urls.
Print Assumptions C100_email_partial.
Print Assumptions C100_email_refuted.
