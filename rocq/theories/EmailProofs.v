(** The email validator: exact acceptance. *)
From Verif Require Import Base IntStr IntStrProofs NetModel NetSpec NetProofs IpModel IpSpec LocalProofs IpProofs
  Utf8 StrFacts Serde DomainModel DomainSpec DomainProofs HostModel HostSpec HostProofs EmailModel EmailSpec.
Local Open Scope N_scope.

(** Character classes. *)
Lemma below_128 (P : N -> bool) : forallb P (List.map N.of_nat (seq 0 128)) = true -> forall e, e < 128 -> P e = true.
Proof.
  intros H e He. rewrite forallb_forall in H. apply H. apply in_map_iff. exists (N.to_nat e).
  split; [apply N2Nat.id|]. apply in_seq. lia.
Qed.

Definition inb (e : N) (l : list N) : bool := existsb (N.eqb e) l.
Lemma inb_spec e l : inb e l = true <-> In e l.
Proof.
  unfold inb. rewrite existsb_exists. split.
  - intros (x & Hx & E). apply N.eqb_eq in E. subst. exact Hx.
  - intros H. exists e. split; [exact H|apply N.eqb_refl].
Qed.

Lemma atext_spec e : atext e = true <-> is_atext e.
Proof.
  unfold is_atext. rewrite <- inb_spec. destruct (N.lt_ge_cases e 128) as [H|H].
  - assert (X : Bool.eqb (atext e) (((65 <=? e) && (e <=? 90)) || ((97 <=? e) && (e <=? 122)) || ((48 <=? e) && (e <=? 57))
      || inb e (bs "!#$%&'*+-/=?^_`{|}~")) = true).
    { revert e H. apply below_128. vm_compute. reflexivity. }
    apply eqb_prop in X. rewrite X. rewrite !orb_true_iff, !andb_true_iff, !N.leb_le. tauto.
  - split.
    + unfold atext. rewrite !orb_true_iff, !andb_true_iff, !N.eqb_eq, !N.leb_le. lia.
    + intros [X|[X|[X|X]]]; [lia|lia|lia|]. apply inb_spec in X. cbn in X. repeat destruct X as [X|X]; try lia.
Qed.

Lemma special_spec e : special e = true <-> In e (bs "(),:;<>@[]").
Proof.
  rewrite <- inb_spec. destruct (N.lt_ge_cases e 128) as [H|H].
  - assert (X : Bool.eqb (special e) (inb e (bs "(),:;<>@[]")) = true).
    { revert e H. apply below_128. vm_compute. reflexivity. }
    apply eqb_prop in X. rewrite X. tauto.
  - split.
    + unfold special. rewrite !orb_true_iff, !andb_true_iff, !N.eqb_eq, !N.leb_le. lia.
    + intros X. apply inb_spec in X. cbn in X. repeat destruct X as [X|X]; try lia.
Qed.

(** The classes are disjoint. *)
Inductive byte_kind (na : bool) (e : N) : Prop :=
| k_atext : is_atext e -> atext e = true -> e < 128 -> byte_kind na e
| k_dot : e = 46 -> atext e = false -> byte_kind na e
| k_back : e = 92 -> atext e = false -> byte_kind na e
| k_space : e = 32 \/ e = 9 -> atext e = false -> byte_kind na e
| k_special : In e (bs "(),:;<>@[]") -> special e = true -> atext e = false -> e < 128 ->
    e <> 46 -> e <> 92 -> e <> 32 -> e <> 9 -> e <> 34 -> byte_kind na e
| k_quote : e = 34 -> atext e = false -> special e = false -> byte_kind na e
| k_high : 128 <= e -> na = true -> atext e = false -> special e = false -> byte_kind na e
| k_bad : ~ local_char na e -> ~ blank e -> ~ is_special e -> atext e = false -> special e = false ->
    (na && (128 <=? e) = false) -> byte_kind na e.

Lemma kind na e : byte_kind na e.
Proof.
  destruct (atext e) eqn:EA.
  { apply k_atext; [apply atext_spec, EA|exact EA|].
    unfold atext in EA. rewrite !orb_true_iff, !andb_true_iff, !N.eqb_eq, !N.leb_le in EA. lia. }
  destruct (N.eq_dec e 46) as [->|N1]; [apply k_dot; reflexivity|].
  destruct (N.eq_dec e 92) as [->|N2]; [apply k_back; reflexivity|].
  destruct (N.eq_dec e 32) as [->|N3]; [apply k_space; [auto|reflexivity]|].
  destruct (N.eq_dec e 9) as [->|N4]; [apply k_space; [auto|reflexivity]|].
  destruct (N.eq_dec e 34) as [->|N5]; [apply k_quote; reflexivity|].
  destruct (special e) eqn:ES.
  { apply k_special; auto; [apply special_spec, ES|].
    unfold special in ES. rewrite !orb_true_iff, !andb_true_iff, !N.eqb_eq, !N.leb_le in ES. lia. }
  destruct (na && (128 <=? e)) eqn:EH.
  { apply andb_true_iff in EH as [H1 H2]. apply N.leb_le in H2. apply k_high; auto. }
  apply k_bad; auto.
  - intros [X|[X|[X Y]]]; [apply atext_spec in X; congruence|congruence|].
    subst na. apply N.leb_le in Y. cbn in EH. congruence.
  - unfold blank. lia.
  - intros [X|X]; [apply special_spec in X; congruence|congruence].
Qed.

(** Positions. *)
Lemma position_firstn : forall c l n i, position c (firstn n l) = Some i <-> position c l = Some i /\ (i < n)%nat.
Proof.
  intros c l. induction l as [|x l IH]; intros n i; destruct n as [|n]; cbn [firstn position].
  - split; [discriminate|intros [H _]; discriminate].
  - split; [discriminate|intros [H _]; discriminate].
  - split; [discriminate|]. intros [_ H]. lia.
  - destruct (x =? c).
    + split; [intros E; injection E as <-; split; [reflexivity|lia]|intros [E _]; exact E].
    + specialize (IH n). destruct (position c (firstn n l)) as [j|] eqn:E1; destruct (position c l) as [k|] eqn:E2.
      * pose proof (proj1 (IH j) eq_refl) as [X Y]. injection X as ->.
        split; [intros E; injection E as <-; split; [reflexivity|lia]|intros [E _]; exact E].
      * pose proof (proj1 (IH j) eq_refl) as [X Y]. discriminate.
      * split; [discriminate|]. intros [E H]. injection E as <-.
        assert (L : (k < n)%nat) by lia. pose proof (proj2 (IH k) (conj eq_refl L)). discriminate.
      * split; [discriminate|intros [E _]; discriminate].
Qed.

Lemma position_firstn_none c l n : position c (firstn n l) = None -> forall a b, l = a ++ c :: b -> ~ In c a -> (n <= List.length a)%nat.
Proof.
  intros H a b E Ha. destruct (Nat.le_gt_cases n (List.length a)) as [L|L]; [exact L|].
  assert (X : position c (firstn n l) = Some (List.length a)).
  { apply position_firstn. split; [apply position_some; exists a, b; auto|exact L]. }
  congruence.
Qed.

(** Slices between characters. *)
Definition ascii_end (a : list N) : Prop := a = [] \/ exists u x, a = u ++ [x] /\ x < 128.

Lemma boundary_end a r : valid_str (a ++ r) -> ascii_end a -> is_char_boundary (a ++ r) (List.length a) = true.
Proof.
  intros Hv [->|(u & x & -> & Hx)]; [reflexivity|].
  replace (List.length (u ++ [x])) with (S (List.length u)) by (rewrite app_length; cbn; lia).
  rewrite <- app_assoc in *. cbn [app] in *. apply boundary_after; assumption.
Qed.

Lemma slice_between {E} a m x b : valid_str (a ++ m ++ x :: b) -> ascii_end a -> x < 128 ->
  @str_slice E (a ++ m ++ x :: b) (List.length a) (List.length a + List.length m) = Ok m.
Proof.
  intros Hv Ha Hx. apply str_slice_mid; [apply boundary_end; assumption|].
  rewrite app_assoc. rewrite <- app_length. apply boundary_at. exact Hx.
Qed.

Lemma slice_end {E} a m : valid_str (a ++ m) -> ascii_end a -> @str_slice_from E (a ++ m) (List.length a) = Ok m.
Proof.
  intros Hv Ha. unfold str_slice_from.
  pose proof (@str_slice_mid E a m []) as X. rewrite app_nil_r in X.
  rewrite app_length. apply X; [apply boundary_end; assumption|].
  rewrite <- app_length. apply boundary_len.
Qed.

Lemma skipn_app_len {A} (a b : list A) : skipn (List.length a) (a ++ b) = b.
Proof. induction a; cbn; auto. Qed.

Lemma slice_from_app {E} a b : @slice_from E (a ++ b) (List.length a) = Ok b.
Proof.
  unfold slice_from. rewrite app_length. replace (List.length a <=? List.length a + List.length b)%nat with true.
  - rewrite skipn_app_len. reflexivity.
  - symmetry. apply Nat.leb_le. lia.
Qed.

Lemma idx_app {E} a x b : @idx E (a ++ x :: b) (List.length a) = Ok x.
Proof.
  unfold idx. rewrite nth_error_app2 by lia. rewrite Nat.sub_diag. reflexivity.
Qed.

Lemma idx_end {E} a : @idx E a (List.length a) = Panic.
Proof. unfold idx. rewrite (proj2 (nth_error_None a (List.length a))) by lia. reflexivity. Qed.

(** The comments at the start of the local part and of the domain part. *)
Lemma ctext_ascii_end k : ascii_end (ctext k).
Proof.
  destruct k as [t|]; [right|left; reflexivity]. exists (40 :: t), 41. split; [reflexivity|lia].
Qed.

Lemma leading_some c lim t r : valid_str (40 :: t ++ 41 :: r) -> ~ In 41 t ->
  e_leading_comment c lim (40 :: t ++ 41 :: r) =
  if negb (e_comment c) then Err ECommentDisallow
  else if (List.length t <? lim)%nat
  then match r with [] => Err EInvalid | _ => Ok (List.length (ctext (Some t)), Some t) end
  else Err EInvalid.
Proof.
  intros Hv Ht. unfold e_leading_comment. change (@idx email_err (40 :: t ++ 41 :: r) 0) with (Ok (E := email_err) 40).
  cbn [obind]. change (40 =? 40) with true. cbn iota. destruct (negb (e_comment c)); [reflexivity|].
  replace (1 <? List.length (40 :: t ++ 41 :: r)%N)%nat with true.
  2: { symmetry. apply Nat.ltb_lt. cbn [List.length]. rewrite app_length. cbn. lia. }
  pose proof (@slice_from_app email_err [40] (t ++ 41 :: r)) as X. cbn [List.length app] in X. rewrite X. cbn [obind].
  assert (P : position 41 (t ++ 41 :: r) = Some (List.length t)) by (apply position_some; exists t, r; auto).
  destruct (Nat.ltb_spec (List.length t) lim) as [L|L].
  - rewrite (proj2 (position_firstn 41 (t ++ 41 :: r) lim (List.length t)) (conj P L)).
    replace (List.length t + 1)%nat with (List.length [40%N] + List.length t)%nat by (cbn; lia).
    change 1%nat with (List.length [40]) at 1.
    pose proof (@slice_between email_err [40] t 41 r Hv) as Y. cbn [app] in Y. rewrite Y; [|right; exists [], 40; split; [reflexivity|lia]|lia].
    cbn [obind].
    replace (List.length [40%N] + List.length t + 1)%nat with (List.length (ctext (Some t)))
      by (cbn [ctext List.length app]; rewrite app_length; cbn; lia).
    destruct r as [|y r].
    + replace (40 :: t ++ [41]) with (ctext (Some t)) by reflexivity. rewrite Nat.eqb_refl. reflexivity.
    + replace (List.length (ctext (Some t)) =? List.length (40 :: t ++ 41 :: y :: r)%N)%nat with false; [reflexivity|].
      symmetry. apply Nat.eqb_neq. cbn [ctext List.length app]. rewrite !app_length. cbn. lia.
  - destruct (position 41 (firstn lim (t ++ 41 :: r))) as [i|] eqn:E; [|reflexivity].
    apply position_firstn in E as [E1 E2]. rewrite P in E1. injection E1 as <-. lia.
Qed.

Lemma leading_open c lim r : ~ In 41 r ->
  exists e, e_leading_comment c lim (40 :: r) = Err e.
Proof.
  intros Hr. unfold e_leading_comment. change (@idx email_err (40 :: r) 0) with (Ok (E := email_err) 40). cbn [obind].
  change (40 =? 40) with true. cbn iota. destruct (negb (e_comment c)); [eauto|].
  destruct (1 <? List.length (40 :: r)%N)%nat eqn:E; [|eauto].
  pose proof (@slice_from_app email_err [40] r) as X. cbn [List.length app] in X. rewrite X. cbn [obind].
  destruct (position 41 (firstn lim r)) as [i|] eqn:EP; [|eauto]. apply position_firstn in EP as [EP _].
  apply position_some in EP as (a & b & -> & _). exfalso. apply Hr. apply in_or_app. right. left. reflexivity.
Qed.

Lemma leading_none c lim x r : x <> 40 -> e_leading_comment c lim (x :: r) = Ok (O, None).
Proof.
  intros Hx. unfold e_leading_comment. change (@idx email_err (x :: r) 0) with (Ok (E := email_err) x). cbn [obind].
  destruct (N.eqb_spec x 40); [contradiction|reflexivity].
Qed.

Lemma first_split c (l : list N) : (exists a b, l = a ++ c :: b /\ ~ In c a) \/ ~ In c l.
Proof.
  destruct (position c l) as [i|] eqn:E.
  - left. apply position_some in E as (a & b & H1 & _ & H2). eauto.
  - right. apply position_none, E.
Qed.

Definition leading (c : email_cfg) (lim : nat) (s : list N) (k : option (list N)) (r : list N) : Prop :=
  s = ctext k ++ r /\ r <> [] /\ comment_ok c lim k /\ (k = None -> forall r', r <> 40 :: r').

Lemma split_unique c (a b a' b' : list N) : a ++ c :: b = a' ++ c :: b' -> ~ In c a -> ~ In c a' -> a = a' /\ b = b'.
Proof.
  revert a'. induction a as [|x a IH]; intros [|y a'] E H1 H2; cbn in E.
  - injection E as ->. auto.
  - injection E as -> _. exfalso. apply H2. left. reflexivity.
  - injection E as -> _. exfalso. apply H1. left. reflexivity.
  - injection E as -> E. destruct (IH a' E) as [-> ->]; [|intros X; apply H2; right; exact X|auto].
    intros X. apply H1. right. exact X.
Qed.

Lemma leading_spec c lim s n k : valid_str s ->
  (e_leading_comment c lim s = Ok (n, k) <-> exists r, leading c lim s k r /\ n = List.length (ctext k)).
Proof.
  intros Hv. unfold leading. destruct s as [|x s].
  { split; [discriminate|]. intros (r & (E & Hr & _) & _). symmetry in E. apply app_eq_nil in E as [_ E]. contradiction. }
  destruct (N.eq_dec x 40) as [->|Hx].
  - destruct (first_split 41 s) as [(t & r & -> & Ht)|Hs].
    + rewrite leading_some by assumption. split.
      * destruct (e_comment c) eqn:EC; cbn [negb]; [|discriminate].
        destruct (Nat.ltb_spec (List.length t) lim) as [L|L]; [|discriminate].
        destruct r as [|y r]; [discriminate|]. intros E. injection E as <- <-.
        exists (y :: r). split; [|reflexivity]. split; [cbn; rewrite <- app_assoc; reflexivity|]. split; [discriminate|].
        split; [|discriminate]. intros t' E. injection E as <-. auto.
      * intros (r' & (E & Hr & Hk & Hn) & ->). destruct k as [t'|].
        -- cbn [ctext app] in E. rewrite <- app_assoc in E. cbn [app] in E. injection E as E.
           destruct (Hk t' eq_refl) as (C1 & C2 & C3).
           apply split_unique in E as [-> ->]; [|assumption|assumption]. rewrite C1. cbn [negb].
           rewrite (proj2 (Nat.ltb_lt _ _) C3). destruct r'; [contradiction|reflexivity].
        -- cbn in E. exfalso. exact (Hn eq_refl _ (eq_sym E)).
    + destruct (leading_open c lim s Hs) as [e ->]. split; [discriminate|]. intros (r & (E & Hr & Hk & Hn) & _). exfalso.
      destruct k as [t'|]; cbn in E.
      * injection E as E. apply Hs. rewrite E. apply in_or_app. left. apply in_or_app. right. left. reflexivity.
      * exact (Hn eq_refl _ (eq_sym E)).
  - rewrite leading_none by exact Hx. split.
    + intros E. injection E as <- <-. exists (x :: s). split; [|reflexivity]. split; [reflexivity|]. split; [discriminate|].
      split; [intros t E; discriminate|]. intros _ r' E. injection E as E _. contradiction.
    + intros (r & (E & Hr & Hk & Hn) & ->). destruct k as [t'|]; cbn in E.
      * injection E as E _. contradiction.
      * reflexivity.
Qed.

Lemma leading_no_panic c lim s : valid_str s -> s <> [] -> e_leading_comment c lim s <> Panic.
Proof.
  intros Hv Hs. destruct s as [|x s]; [contradiction|]. destruct (N.eq_dec x 40) as [->|Hx].
  - destruct (first_split 41 s) as [(t & r & -> & Ht)|H].
    + rewrite leading_some by assumption. destruct (negb (e_comment c)); [discriminate|].
      destruct (_ <? _)%nat; [destruct r; discriminate|discriminate].
    + destruct (leading_open c lim s H) as [e ->]. discriminate.
  - rewrite leading_none by exact Hx. discriminate.
Qed.

(** The unquoted loop. *)
Definition pos_free (lim p : nat) (b : list N) : Prop :=
  forall i e, nth_error b i = Some e -> e < 128 -> (p + i <> lim)%nat.
Lemma pos_free_nil lim p : pos_free lim p [].
Proof. intros [|i] e H; discriminate. Qed.
Lemma pos_free_cons lim p x b : pos_free lim p (x :: b) <-> (x < 128 -> p <> lim) /\ pos_free lim (S p) b.
Proof.
  unfold pos_free. split.
  - intros H. split; [intros Hx; specialize (H O x eq_refl Hx); lia|].
    intros i e Hi He. specialize (H (S i) e Hi He). lia.
  - intros [H1 H2] [|i] e Hi He.
    + injection Hi as ->. specialize (H1 He). lia.
    + specialize (H2 i e Hi He). lia.
Qed.

Lemma double_dot_nil : ~ double_dot [].
Proof. intros (u & v & E). destruct u as [|? [|? u]]; discriminate. Qed.
Lemma double_dot_one x : ~ double_dot [x].
Proof. intros (u & v & E). destruct u as [|? [|? u]]; discriminate. Qed.
Lemma double_dot_cons x y l : double_dot (x :: y :: l) <-> (x = 46 /\ y = 46) \/ double_dot (y :: l).
Proof.
  split.
  - intros (u & v & E). destruct u as [|z u]; cbn in E.
    + injection E as -> -> _. auto.
    + injection E as -> E. right. exists u, v. exact E.
  - intros [[-> ->]|(u & v & E)].
    + exists [], l. reflexivity.
    + exists (x :: u), v. rewrite E. reflexivity.
Qed.
Lemma double_dot_skip x l : x <> 46 -> (double_dot (x :: l) <-> double_dot l).
Proof.
  intros Hx. destruct l as [|y l].
  - split; intros H; [destruct (double_dot_one _ H)|destruct (double_dot_nil H)].
  - rewrite double_dot_cons. split; [intros [[E _]|H]; [contradiction|exact H]|auto].
Qed.

Definition dotted (dot : bool) (b : list N) : list N := if dot then 46 :: b else b.

Definition unq_tail (na : bool) (p : nat) (dot : bool) (b : list N) : Prop :=
  Forall (local_char na) b /\ ~ double_dot (dotted dot b) /\ pos_free 64 p b.

Lemma unq_tail_nil na p dot : unq_tail na p dot [].
Proof.
  split; [constructor|]. split; [destruct dot; [apply double_dot_one|apply double_dot_nil]|apply pos_free_nil].
Qed.

Lemma unq_tail_cons na p dot x b : unq_tail na p dot (x :: b) <->
  local_char na x /\ (x = 46 -> dot = false) /\ (x < 128 -> p <> 64%nat) /\ unq_tail na (S p) (x =? 46) b.
Proof.
  unfold unq_tail. rewrite pos_free_cons. split.
  - intros (F & D & P1 & P2). inversion F as [|? ? F1 F2]. split; [exact F1|].
    destruct (N.eqb_spec x 46) as [->|Hx].
    + split.
      { intros _. destruct dot; [|reflexivity]. exfalso. apply D. apply double_dot_cons. auto. }
      split; [exact P1|]. split; [exact F2|]. split; [|exact P2]. intros X. apply D. destruct dot; cbn [dotted] in *; [|exact X].
      apply double_dot_cons. auto.
    + split; [contradiction|]. split; [exact P1|]. split; [exact F2|]. split; [|exact P2]. cbn [dotted]. intros X. apply D.
      destruct dot; cbn [dotted]; [apply double_dot_cons; right|]; apply double_dot_skip; assumption.
  - intros (F1 & Hd & P1 & F2 & D & P2). split; [constructor; assumption|]. split; [|split; assumption].
    intros X. apply D. destruct (N.eqb_spec x 46) as [->|Hx]; cbn [dotted].
    + rewrite (Hd eq_refl) in X. exact X.
    + destruct dot; cbn [dotted] in X; [apply double_dot_cons in X as [[_ E]|X]; [contradiction|]|];
        apply double_dot_skip in X; assumption.
Qed.

Definition stop_char (x : N) : Prop := x = 64 \/ x = 40.

Lemma unquoted_loop_spec c : forall l p dot q,
  e_unquoted_loop c l p dot = Ok q <->
  exists b x r, l = b ++ x :: r /\ stop_char x /\ q = (p + List.length b)%nat /\ unq_tail (e_non_ascii c) p dot b.
Proof.
  induction l as [|e l IH]; intros p dot q.
  { split; [discriminate|]. intros (b & x & r & E & _). destruct b; discriminate. }
  (* the two ways to read the right-hand side *)
  assert (Step : ~ stop_char e -> local_char (e_non_ascii c) e -> (e = 46 -> dot = false) -> (e < 128 -> p <> 64%nat) ->
    (e_unquoted_loop c l (S p) (e =? 46) = Ok q <->
     exists b x r, e :: l = b ++ x :: r /\ stop_char x /\ q = (p + List.length b)%nat /\ unq_tail (e_non_ascii c) p dot b)).
  { intros Hs H1 H2 H3. rewrite IH. split.
    - intros (b & x & r & -> & Hx & -> & Hb). exists (e :: b), x, r. split; [reflexivity|]. split; [exact Hx|].
      split; [cbn; lia|]. apply unq_tail_cons. auto.
    - intros (b & x & r & E & Hx & -> & Hb). destruct b as [|y b]; cbn in E.
      + injection E as -> _. contradiction.
      + injection E as <- ->. apply unq_tail_cons in Hb as (_ & _ & _ & Hb). exists b, x, r. split; [reflexivity|].
        split; [exact Hx|]. split; [cbn; lia|exact Hb]. }
  assert (Bad : ~ stop_char e -> ~ (local_char (e_non_ascii c) e /\ (e = 46 -> dot = false) /\ (e < 128 -> p <> 64%nat)) ->
    ~ exists b x r, e :: l = b ++ x :: r /\ stop_char x /\ q = (p + List.length b)%nat /\ unq_tail (e_non_ascii c) p dot b).
  { intros Hs H (b & x & r & E & Hx & _ & Hb). destruct b as [|y b]; cbn in E.
    - injection E as -> _. contradiction.
    - injection E as <- _. apply unq_tail_cons in Hb as (A1 & A2 & A3 & _). tauto. }
  cbn [e_unquoted_loop]. unfold stop_char in *. destruct (kind (e_non_ascii c) e) as [H A L|H A|H A|H A|H S A L|H A S|H H' A S|H1 H2 H3 A S O].
  - rewrite A. assert (NS : ~ (e = 64 \/ e = 40)) by (intros [->| ->]; vm_compute in A; discriminate).
    assert (N46 : e <> 46) by (intros ->; vm_compute in A; discriminate).
    destruct (Nat.eqb_spec p 64) as [->|Hp].
    + split; [discriminate|]. intros X. exfalso. revert X. apply Bad; [exact NS|]. intros (_ & _ & X). exact (X L eq_refl).
    + replace false with (e =? 46) by (apply N.eqb_neq; exact N46). apply Step; auto; [left; exact H|contradiction].
  - rewrite A. subst e. change (46 =? 46) with true in *. cbn iota.
    assert (NS : ~ (46 = 64 \/ 46 = 40)) by lia.
    destruct (Nat.eqb_spec p 64) as [->|Hp]; cbn [orb].
    + split; [discriminate|]. intros X. exfalso. revert X. apply Bad; [exact NS|]. intros (_ & _ & X). apply X; [lia|reflexivity].
    + destruct dot.
      * split; [discriminate|]. intros X. exfalso. revert X. apply Bad; [exact NS|]. intros (_ & X & _). discriminate (X eq_refl).
      * apply Step; auto. right. left. reflexivity.
  - rewrite A. subst e. cbn [N.eqb Pos.eqb orb]. unfold other_ok. replace (128 <=? 92) with false by reflexivity. rewrite andb_false_r.
    split; [discriminate|]. intros X. exfalso. revert X. apply Bad; [lia|]. intros (X & _). destruct X as [X|[X|[_ X]]]; [|lia|lia].
    apply atext_spec in X. congruence.
  - rewrite A. replace (e =? 46) with false by (symmetry; apply N.eqb_neq; lia).
    replace (e =? 64) with false by (symmetry; apply N.eqb_neq; lia).
    replace (e =? 40) with false by (symmetry; apply N.eqb_neq; lia). cbn [orb].
    unfold other_ok. replace (128 <=? e) with false by (symmetry; apply N.leb_gt; lia). rewrite andb_false_r.
    split; [discriminate|]. intros X. exfalso. revert X. apply Bad; [lia|]. intros (X & _). destruct X as [X|[X|[_ X]]]; [|lia|lia].
    apply atext_spec in X. congruence.
  - rewrite A. replace (e =? 46) with false by (symmetry; apply N.eqb_neq; assumption).
    destruct ((e =? 64) || (e =? 40)) eqn:ES.
    + apply orb_true_iff in ES. rewrite !N.eqb_eq in ES. split.
      * intros E. injection E as <-. exists [], e, l. split; [reflexivity|]. split; [exact ES|]. split; [cbn; lia|apply unq_tail_nil].
      * intros (b & x & r & E & Hx & -> & Hb). destruct b as [|y b]; [cbn; rewrite Nat.add_0_r; reflexivity|].
        cbn in E. injection E as <- _. apply unq_tail_cons in Hb as (X & _). destruct X as [X|[X|[_ X]]]; [|lia|lia].
        apply atext_spec in X. congruence.
    + apply orb_false_iff in ES. rewrite !N.eqb_neq in ES. unfold other_ok.
      replace (128 <=? e) with false by (symmetry; apply N.leb_gt; lia). rewrite andb_false_r.
      split; [discriminate|]. intros X. exfalso. revert X. apply Bad; [lia|]. intros (X & _). destruct X as [X|[X|[_ X]]]; [|lia|lia].
      apply atext_spec in X. congruence.
  - rewrite A. subst e. cbn [N.eqb Pos.eqb orb]. unfold other_ok. replace (128 <=? 34) with false by reflexivity. rewrite andb_false_r.
    split; [discriminate|]. intros X. exfalso. revert X. apply Bad; [lia|]. intros (X & _). destruct X as [X|[X|[_ X]]]; [|lia|lia].
    apply atext_spec in X. congruence.
  - rewrite A. replace (e =? 46) with false by (symmetry; apply N.eqb_neq; lia).
    replace (e =? 64) with false by (symmetry; apply N.eqb_neq; lia).
    replace (e =? 40) with false by (symmetry; apply N.eqb_neq; lia). cbn [orb].
    replace (other_ok c e) with true by (unfold other_ok; rewrite H'; symmetry; apply N.leb_le; lia).
    replace false with (e =? 46) by (apply N.eqb_neq; lia). apply Step; [lia| |lia|lia]. right. right. split; [exact H'|exact H].
  - rewrite A. assert (N46 : e <> 46) by (intros ->; apply H1; right; left; reflexivity).
    replace (e =? 46) with false by (symmetry; apply N.eqb_neq; exact N46).
    assert (NS : ~ (e = 64 \/ e = 40)) by (intros [->| ->]; vm_compute in S; discriminate).
    replace ((e =? 64) || (e =? 40)) with false.
    2: { symmetry. apply orb_false_iff. rewrite !N.eqb_neq. lia. }
    unfold other_ok. rewrite O. split; [discriminate|]. intros X. exfalso. revert X. apply Bad; [exact NS|]. tauto.
Qed.

Lemma unquoted_loop_no_panic c : forall l p dot, e_unquoted_loop c l p dot <> Panic.
Proof.
  induction l as [|e l IH]; intros p dot; cbn [e_unquoted_loop]; [discriminate|].
  repeat match goal with |- context [if ?b then _ else _] => destruct b end; try discriminate; apply IH.
Qed.

(** The quoted loop. *)
Definition step (e : N) (st : bool) : bool :=
  if e =? 92 then negb st else if (e =? 32) || (e =? 9) then st else false.
Fixpoint est (st : bool) (b : list N) : bool := match b with [] => st | e :: r => est (step e st) r end.

Lemma est_app st a b : est st (a ++ b) = est (est st a) b.
Proof. revert st. induction a as [|x a IH]; intros st; cbn; auto. Qed.
Lemma step_nonblank e st : ~ blank e -> step e st = false.
Proof.
  intros H. unfold step, blank in *. destruct (N.eqb_spec e 92); [tauto|]. destruct (N.eqb_spec e 32); [tauto|].
  destruct (N.eqb_spec e 9); [tauto|reflexivity].
Qed.
Lemma est_blanks t : Forall blank t -> forall st, est st t = xorb st (Nat.odd (count_occ N.eq_dec t 92)).
Proof.
  induction t as [|x t IH]; intros F st; [cbn; destruct st; reflexivity|]. inversion F as [|? ? F1 F2].
  cbn [est count_occ]. rewrite (IH F2). unfold step. destruct (N.eq_dec x 92) as [->|Hx].
  - change (92 =? 92) with true. cbn iota. rewrite Nat.odd_succ, <- Nat.negb_odd. destruct st, (Nat.odd _); reflexivity.
  - replace (x =? 92) with false by (symmetry; apply N.eqb_neq; exact Hx). replace ((x =? 32) || (x =? 9)) with true; [reflexivity|].
    symmetry. apply orb_true_iff. rewrite !N.eqb_eq. unfold blank in F1. tauto.
Qed.

Lemma escaped_est u : escaped u <-> est false u = true.
Proof.
  assert (D : forall w t, (w = [] \/ exists w' x, w = w' ++ [x] /\ ~ blank x) -> Forall blank t ->
    est false (w ++ t) = Nat.odd (count_occ N.eq_dec t 92)).
  { intros w t Hw Ht. rewrite est_app. replace (est false w) with false.
    - rewrite est_blanks by exact Ht. destruct (Nat.odd _); reflexivity.
    - destruct Hw as [->|(w' & x & -> & Hx)]; [reflexivity|]. rewrite est_app. cbn. rewrite step_nonblank by exact Hx. reflexivity. }
  split.
  - intros (w & t & -> & Hw & Ht & Ho). rewrite D by assumption. apply Nat.odd_spec. exact Ho.
  - assert (X : exists w t, u = w ++ t /\ (w = [] \/ exists w' x, w = w' ++ [x] /\ ~ blank x) /\ Forall blank t).
    { induction u as [|x u IH] using rev_ind.
      - exists [], []. split; [reflexivity|]. split; [left; reflexivity|constructor].
      - assert (Y : blank x \/ ~ blank x) by (unfold blank; lia). destruct Y as [Y|Y].
        + destruct IH as (w & t & -> & Hw & Ht). exists w, (t ++ [x]). split; [rewrite app_assoc; reflexivity|].
          split; [exact Hw|]. apply Forall_app. auto.
        + exists (u ++ [x]), []. split; [rewrite app_nil_r; reflexivity|]. split; [right; eauto|constructor]. }
    destruct X as (w & t & -> & Hw & Ht). rewrite D by assumption. intros Ho. exists w, t. split; [reflexivity|].
    split; [exact Hw|]. split; [exact Ht|]. apply Nat.odd_spec. exact Ho.
Qed.

Definition q_char (na : bool) (st : bool) (e : N) : Prop := local_char na e \/ blank e \/ (is_special e /\ st = true).
Fixpoint qrun (na : bool) (p : nat) (st : bool) (b : list N) : Prop :=
  match b with
  | [] => True
  | e :: r => q_char na st e /\ (e < 128 -> p <> 63%nat) /\ qrun na (S p) (step e st) r
  end.
Fixpoint nqr (nq dot : bool) (b : list N) : bool :=
  match b with
  | [] => nq
  | e :: r =>
      if atext e || (128 <=? e) then nqr nq false r
      else if e =? 46 then nqr (if dot then true else nq) true r
      else if (e =? 92) || (e =? 32) || (e =? 9) then nqr true dot r
      else nqr nq dot r
  end.

Lemma special_not_local na e : is_special e -> ~ local_char na e /\ ~ blank e /\ e < 128.
Proof.
  intros H. destruct (kind na e) as [K A L|K A|K A|K A|K S A L N1 N2 N3 N4 N5|K A S|K K' A S|K1 K2 K3 A S O].
  - exfalso. destruct H as [H| ->]; [|vm_compute in A; discriminate].
    apply special_spec in H.
    assert (X : forall e, e < 128 -> negb (atext e && special e) = true) by (apply below_128; vm_compute; reflexivity).
    specialize (X e L). rewrite A, H in X. discriminate.
  - exfalso. subst e. destruct H as [H|H]; [|discriminate]. cbn in H. repeat destruct H as [H|H]; try discriminate H; contradiction.
  - exfalso. subst e. destruct H as [H|H]; [|discriminate]. cbn in H. repeat destruct H as [H|H]; try discriminate H; contradiction.
  - exfalso. destruct H as [H|H]; [|lia]. cbn in H. repeat destruct H as [H|H]; try lia.
  - split; [|split; [unfold blank; lia|exact L]]. intros [X|[X|[_ X]]]; [|lia|lia]. apply atext_spec in X. congruence.
  - subst e. split; [|split; [unfold blank; lia|lia]]. intros [X|[X|[_ X]]]; [|lia|lia]. apply atext_spec in X. discriminate.
  - exfalso. destruct H as [H|H]; [|lia]. cbn in H. repeat destruct H as [H|H]; try lia.
  - contradiction.
Qed.

Lemma quoted_loop_spec c : forall l p st nq dot q n,
  e_quoted_loop c l p st nq dot = Ok (q, n) <->
  exists b r, l = b ++ 34 :: r /\ q = (p + List.length b)%nat /\ qrun (e_non_ascii c) p st b /\ est st b = false /\
    n = nqr nq dot b.
Proof.
  induction l as [|e l IH]; intros p st nq dot q n.
  { split; [discriminate|]. intros (b & r & E & _). destruct b; discriminate. }
  assert (Step : forall st' nq' dot', step e st = st' -> ~ (e = 34 /\ st = false) -> q_char (e_non_ascii c) st e -> (e < 128 -> p <> 63%nat) ->
    (forall b, nqr nq dot (e :: b) = nqr nq' dot' b) ->
    (e_quoted_loop c l (S p) st' nq' dot' = Ok (q, n) <->
     exists b r, e :: l = b ++ 34 :: r /\ q = (p + List.length b)%nat /\ qrun (e_non_ascii c) p st b /\ est st b = false /\
       n = nqr nq dot b)).
  { intros st' nq' dot' <- H0 H1 H2 H3. rewrite IH. split.
    - intros (b & r & -> & -> & Hb & He & ->). exists (e :: b), r. split; [reflexivity|]. split; [cbn; lia|].
      split; [cbn; auto|]. split; [exact He|]. symmetry. apply H3.
    - intros (b & r & E & -> & Hb & He & ->). destruct b as [|y b]; cbn in E.
      + injection E as -> _. cbn in He. tauto.
      + injection E as <- ->. destruct Hb as (_ & _ & Hb). exists b, r. split; [reflexivity|]. split; [cbn; lia|].
        split; [exact Hb|]. split; [exact He|]. apply H3. }
  assert (Bad : ~ (e = 34 /\ st = false) -> ~ (q_char (e_non_ascii c) st e /\ (e < 128 -> p <> 63%nat)) ->
    ~ exists b r, e :: l = b ++ 34 :: r /\ q = (p + List.length b)%nat /\ qrun (e_non_ascii c) p st b /\ est st b = false /\
       n = nqr nq dot b).
  { intros H0 H (b & r & E & _ & Hb & He & _). destruct b as [|y b]; cbn in E.
    - injection E as -> _. cbn in He. tauto.
    - injection E as <- _. destruct Hb as (A1 & A2 & _). tauto. }
  cbn [e_quoted_loop].
  destruct (kind (e_non_ascii c) e) as [H A L|H A|H A|H A|H S A L N1 N2 N3 N4 N5|H A S|H H' A S|H1 H2 H3 A S O].
  - rewrite A. assert (N34 : e <> 34) by (intros ->; vm_compute in A; discriminate).
    assert (NB : ~ blank e) by (intros [->|[->| ->]]; vm_compute in A; discriminate).
    destruct (Nat.eqb_spec p 63) as [->|Hp].
    + split; [discriminate|]. intros X. exfalso. revert X. apply Bad; [tauto|]. intros [_ X]. exact (X L eq_refl).
    + apply Step; [exact (step_nonblank e st NB)|tauto|left; left; exact H|auto|]. intros b. cbn [nqr]. rewrite A. reflexivity.
  - rewrite A. subst e. change (46 =? 46) with true. cbn iota. destruct (Nat.eqb_spec p 63) as [->|Hp].
    + split; [discriminate|]. intros X. exfalso. revert X. apply Bad; [lia|]. intros [_ X]. apply X; [lia|reflexivity].
    + apply Step; [reflexivity|lia|left; right; left; reflexivity|auto|]. intros b. reflexivity.
  - rewrite A. subst e. change (92 =? 46) with false. change (92 =? 92) with true. cbn iota. destruct (Nat.eqb_spec p 63) as [->|Hp].
    + split; [discriminate|]. intros X. exfalso. revert X. apply Bad; [lia|]. intros [_ X]. apply X; [lia|reflexivity].
    + apply Step; [reflexivity|lia|right; left; left; reflexivity|auto|]. intros b. reflexivity.
  - rewrite A. replace (e =? 46) with false by (symmetry; apply N.eqb_neq; lia).
    replace (e =? 92) with false by (symmetry; apply N.eqb_neq; lia).
    assert (EB : (e =? 32) || (e =? 9) = true) by (apply orb_true_iff; rewrite !N.eqb_eq; exact H). rewrite EB.
    destruct (Nat.eqb_spec p 63) as [->|Hp].
    + split; [discriminate|]. intros X. exfalso. revert X. apply Bad; [lia|]. intros [_ X]. apply X; [lia|reflexivity].
    + apply Step; [|lia|right; left; unfold blank; tauto|auto|].
      * unfold step. rewrite EB. replace (e =? 92) with false by (symmetry; apply N.eqb_neq; lia). reflexivity.
      * intros b. cbn [nqr]. rewrite A.
        replace (128 <=? e) with false by (symmetry; apply N.leb_gt; lia). cbn [orb].
        replace (e =? 46) with false by (symmetry; apply N.eqb_neq; lia). rewrite <- orb_assoc, EB, orb_true_r. reflexivity.
  - rewrite A, S. replace (e =? 46) with false by (symmetry; apply N.eqb_neq; lia).
    replace (e =? 92) with false by (symmetry; apply N.eqb_neq; lia).
    replace ((e =? 32) || (e =? 9)) with false by (symmetry; apply orb_false_iff; rewrite !N.eqb_neq; auto).
    assert (SP : is_special e) by (left; exact H).
    destruct (special_not_local (e_non_ascii c) e SP) as (NL & NB & _).
    destruct (Nat.eqb_spec p 63) as [->|Hp]; cbn [orb].
    + split; [discriminate|]. intros X. exfalso. revert X. apply Bad; [lia|]. intros [_ X]. apply X; [lia|reflexivity].
    + destruct st; cbn [negb].
      * apply Step; [exact (step_nonblank e true NB)|lia|right; right; auto|auto|]. intros b. cbn [nqr]. rewrite A.
        replace (128 <=? e) with false by (symmetry; apply N.leb_gt; lia). cbn [orb].
        replace (e =? 46) with false by (symmetry; apply N.eqb_neq; lia).
        replace ((e =? 92) || (e =? 32) || (e =? 9)) with false; [reflexivity|].
        symmetry. rewrite !orb_false_iff, !N.eqb_neq. auto.
      * split; [discriminate|]. intros X. exfalso. revert X. apply Bad; [tauto|]. intros [[X|[X|[_ X]]] _]; [tauto|tauto|discriminate].
  - rewrite A, S. subst e. change (34 =? 46) with false. change (34 =? 92) with false. change (34 =? 32) with false.
    change (34 =? 9) with false. change (34 =? 34) with true. cbn [orb]. cbn iota. destruct st.
    + destruct (Nat.eqb_spec p 63) as [->|Hp].
      * split; [discriminate|]. intros X. exfalso. revert X. apply Bad; [intros [_ X]; discriminate|]. intros [_ X]. apply X; [lia|reflexivity].
      * apply Step; [reflexivity|intros [_ X]; discriminate|right; right; split; [right; reflexivity|reflexivity]|auto|].
        intros b. reflexivity.
    + split.
      * intros E. injection E as <- <-. exists [], l. cbn. split; [reflexivity|]. split; [lia|]. auto.
      * intros (b & r & E & -> & Hb & He & ->). destruct b as [|y b]; [cbn; rewrite Nat.add_0_r; reflexivity|]. cbn in E.
        injection E as <- _. destruct Hb as ([X|[X|[_ X]]] & _); [| |discriminate].
        -- exfalso. apply (proj1 (special_not_local (e_non_ascii c) 34 (or_intror eq_refl))). exact X.
        -- exfalso. unfold blank in X. lia.
  - rewrite A, S. replace (e =? 46) with false by (symmetry; apply N.eqb_neq; lia).
    replace (e =? 92) with false by (symmetry; apply N.eqb_neq; lia).
    replace ((e =? 32) || (e =? 9)) with false by (symmetry; apply orb_false_iff; rewrite !N.eqb_neq; lia).
    replace (e =? 34) with false by (symmetry; apply N.eqb_neq; lia).
    assert (HL : 128 <=? e = true) by (apply N.leb_le; lia). replace (other_ok c e) with true by (unfold other_ok; rewrite H', HL; reflexivity).
    assert (NB : ~ blank e) by (unfold blank; lia). apply Step; [exact (step_nonblank e st NB)|lia|left; right; right; auto|lia|]. intros b. cbn [nqr]. rewrite HL, orb_true_r. reflexivity.
  - rewrite A, S. assert (N46 : e <> 46) by (intros ->; apply H1; right; left; reflexivity).
    replace (e =? 46) with false by (symmetry; apply N.eqb_neq; exact N46).
    unfold blank in H2. replace (e =? 92) with false by (symmetry; apply N.eqb_neq; tauto).
    replace ((e =? 32) || (e =? 9)) with false by (symmetry; apply orb_false_iff; rewrite !N.eqb_neq; tauto).
    assert (N34 : e <> 34) by (intros ->; apply H3; right; reflexivity).
    replace (e =? 34) with false by (symmetry; apply N.eqb_neq; exact N34).
    unfold other_ok. rewrite O. split; [discriminate|]. intros X. exfalso. revert X. apply Bad; [tauto|].
    intros [[X|[X|[X _]]] _]; [tauto|unfold blank in X; tauto|tauto].
Qed.

Lemma quoted_loop_no_panic c : forall l p st nq dot, e_quoted_loop c l p st nq dot <> Panic.
Proof.
  induction l as [|e l IH]; intros p st nq dot; cbn [e_quoted_loop]; [discriminate|].
  repeat match goal with |- context [if ?b then _ else _] => destruct b end; try discriminate; apply IH.
Qed.

Lemma nqr_true : forall b dot, nqr true dot b = true.
Proof.
  induction b as [|e b IH]; intros dot; cbn [nqr]; [reflexivity|]. destruct dot;
  repeat match goal with |- context [if ?b then _ else _] => destruct b end; apply IH.
Qed.

Lemma nqr_spec na : forall b p st nq dot, (st = true -> nq = true) -> qrun na p st b ->
  (nqr nq dot b = true <-> nq = true \/ (exists e, In e b /\ blank e) \/ double_dot (dotted dot b)).
Proof.
  induction b as [|e b IH]; intros p st nq dot Hst Hq.
  { cbn [nqr]. split; [auto|]. intros [H|[(e & He & _)|H]]; [exact H|contradiction|].
    exfalso. destruct dot; [exact (double_dot_one _ H)|exact (double_dot_nil H)]. }
  destruct nq.
  { rewrite nqr_true. split; auto. }
  destruct st; [discriminate (Hst eq_refl)|]. destruct Hq as (Hc & Hp & Hq).
  assert (LC : local_char na e \/ blank e) by (destruct Hc as [X|[X|[_ X]]]; [auto|auto|discriminate]).
  cbn [nqr]. destruct LC as [LC|LC].
  - destruct (N.eq_dec e 46) as [->|N46].
    + change (atext 46 || (128 <=? 46)) with false. change (46 =? 46) with true. cbn iota. destruct dot.
      * rewrite nqr_true. split; [intros _|auto]. right. right. apply double_dot_cons. auto.
      * rewrite (IH (S p) (step 46 false)) by (assumption || discriminate). cbn [dotted]. split.
        -- intros [X|[(y & Y1 & Y2)|X]]; [auto| |auto]. right. left. exists y. split; [right; exact Y1|exact Y2].
        -- intros [X|[(y & [<-|Y1] & Y2)|X]]; [auto| | |auto].
           ++ unfold blank in Y2. lia.
           ++ right. left. exists y. auto.
    + replace (atext e || (128 <=? e)) with true.
      2: { symmetry. apply orb_true_iff. destruct LC as [X|[X|[_ X]]]; [left; apply atext_spec, X|contradiction|right; apply N.leb_le, X]. }
      assert (NB : ~ blank e).
      { intros B. destruct LC as [X|[X|[_ X]]]; [|contradiction|unfold blank in B; lia].
        apply atext_spec in X. destruct B as [->|[->| ->]]; vm_compute in X; discriminate. }
      rewrite (IH (S p) (step e false)); [|rewrite (step_nonblank _ _ NB); discriminate|exact Hq].
      assert (DD : double_dot (dotted dot (e :: b)) <-> double_dot b).
      { rewrite <- (double_dot_skip e b N46). destruct dot; cbn [dotted]; [|tauto]. rewrite double_dot_cons. tauto. }
      cbn [dotted]. rewrite DD. split.
      * intros [X|[(y & Y1 & Y2)|X]]; [auto| |auto]. right. left. exists y. split; [right; exact Y1|exact Y2].
      * intros [X|[(y & [<-|Y1] & Y2)|X]]; [auto|contradiction| |auto]. right. left. exists y. auto.
  - assert (NA : atext e = false).
    { apply not_true_iff_false. intros X. destruct LC as [->|[->| ->]]; vm_compute in X; discriminate. }
    rewrite NA. replace (128 <=? e) with false by (symmetry; apply N.leb_gt; unfold blank in LC; lia). cbn [orb].
    replace (e =? 46) with false by (symmetry; apply N.eqb_neq; unfold blank in LC; lia).
    replace ((e =? 92) || (e =? 32) || (e =? 9)) with true.
    2: { symmetry. rewrite !orb_true_iff, !N.eqb_eq. unfold blank in LC. tauto. }
    rewrite nqr_true. split; [intros _|auto]. right. left. exists e. split; [left; reflexivity|exact LC].
Qed.

Lemma qrun_spec na : forall b p st, qrun na p st b <->
  (forall u e v, b = u ++ e :: v -> local_char na e \/ blank e \/ (is_special e /\ est st u = true)) /\ pos_free 63 p b.
Proof.
  induction b as [|x b IH]; intros p st; cbn [qrun].
  - split; [|auto]. intros _. split; [|apply pos_free_nil]. intros u e v E. destruct u; discriminate.
  - rewrite IH, pos_free_cons. split.
    + intros (H1 & H2 & H3 & H4). split; [|auto]. intros [|y u] e v E; cbn in E.
      * injection E as <- _. exact H1.
      * injection E as <- E. exact (H3 u e v E).
    + intros (H1 & H2 & H3). split; [exact (H1 [] x b eq_refl)|]. split; [exact H2|]. split; [|exact H3].
      intros u e v E. apply (H1 (x :: u) e v). rewrite E. reflexivity.
Qed.

(** The whole quoted local part. *)
Definition first_state (x : N) : bool * bool * bool := (step x false, (x =? 46) || (x =? 92) || (x =? 32) || (x =? 9), x =? 46).

Lemma quoted_first_spec c x r : e_quoted_first c x = Ok r <->
  (local_char (e_non_ascii c) x \/ blank x) /\ r = first_state x.
Proof.
  unfold e_quoted_first, first_state.
  destruct (kind (e_non_ascii c) x) as [H A L|H A|H A|H A|H S A L N1 N2 N3 N4 N5|H A S|H H' A S|H1 H2 H3 A S O]; rewrite A.
  - assert (X : step x false = false /\ (x =? 46) || (x =? 92) || (x =? 32) || (x =? 9) = false /\ (x =? 46) = false).
    { assert (N46 : x <> 46) by (intros ->; vm_compute in A; discriminate).
      assert (NB : ~ blank x) by (intros [->|[->| ->]]; vm_compute in A; discriminate).
      split; [apply step_nonblank, NB|]. unfold blank in NB. rewrite !orb_false_iff, !N.eqb_neq. tauto. }
    destruct X as (-> & -> & ->). split; [intros E; injection E as <-; split; [left; left; exact H|reflexivity]|].
    intros [_ ->]. reflexivity.
  - subst x. split; [intros E; injection E as <-; split; [left; right; left; reflexivity|reflexivity]|]. intros [_ ->]. reflexivity.
  - subst x. split; [intros E; injection E as <-; split; [right; left; reflexivity|reflexivity]|]. intros [_ ->]. reflexivity.
  - assert (X : x = 32 \/ x = 9) by exact H. destruct X as [-> | ->];
    (split; [intros E; injection E as <-; split; [right; unfold blank; auto|reflexivity]|]; intros [_ ->]; reflexivity).
  - replace (x =? 46) with false by (symmetry; apply N.eqb_neq; exact N1).
    replace (x =? 92) with false by (symmetry; apply N.eqb_neq; exact N2).
    replace (x =? 32) with false by (symmetry; apply N.eqb_neq; exact N3).
    replace (x =? 9) with false by (symmetry; apply N.eqb_neq; exact N4). cbn [orb].
    unfold other_ok. replace (128 <=? x) with false by (symmetry; apply N.leb_gt; exact L). rewrite andb_false_r.
    destruct (special_not_local (e_non_ascii c) x (or_introl H)) as (X1 & X2 & _). split; [discriminate|tauto].
  - subst x. cbn [N.eqb Pos.eqb orb]. unfold other_ok. change (128 <=? 34) with false. rewrite andb_false_r.
    destruct (special_not_local (e_non_ascii c) 34 (or_intror eq_refl)) as (X1 & X2 & _). split; [discriminate|tauto].
  - replace (x =? 46) with false by (symmetry; apply N.eqb_neq; lia).
    replace (x =? 92) with false by (symmetry; apply N.eqb_neq; lia).
    replace (x =? 32) with false by (symmetry; apply N.eqb_neq; lia).
    replace (x =? 9) with false by (symmetry; apply N.eqb_neq; lia). cbn [orb].
    replace (other_ok c x) with true by (unfold other_ok; rewrite H'; symmetry; apply N.leb_le; exact H).
    rewrite step_nonblank by (unfold blank; lia).
    split; [intros E; injection E as <-; split; [left; right; right; auto|reflexivity]|]. intros [_ ->]. reflexivity.
  - assert (N46 : x <> 46) by (intros ->; apply H1; right; left; reflexivity). unfold blank in H2.
    replace (x =? 46) with false by (symmetry; apply N.eqb_neq; exact N46).
    replace (x =? 92) with false by (symmetry; apply N.eqb_neq; tauto).
    replace (x =? 32) with false by (symmetry; apply N.eqb_neq; tauto).
    replace (x =? 9) with false by (symmetry; apply N.eqb_neq; tauto). cbn [orb]. unfold other_ok. rewrite O.
    split; [discriminate|]. unfold blank. tauto.
Qed.

Lemma quoted_body na o x b : quoted na o (x :: b) <->
  (local_char na x \/ blank x) /\ (o + 1 <> 63)%nat /\ qrun na (o + 2) (step x false) b /\ est (step x false) b = false.
Proof.
  unfold quoted. rewrite qrun_spec, escaped_est. cbn [est]. rewrite not_true_iff_false. split.
  - intros (_ & H1 & H2 & H3). split.
    { destruct (H1 [] x b eq_refl) as [X|[X|[_ X]]]; [auto|auto|]. apply escaped_est in X. discriminate. }
    split; [pose proof (H3 O x eq_refl (or_intror eq_refl)); lia|]. split; [|exact H2]. split.
    + intros u e v E. destruct (H1 (x :: u) e v) as [X|[X|[X Y]]]; [rewrite E; reflexivity|auto|auto|].
      apply escaped_est in Y. right. right. split; [exact X|exact Y].
    + intros i e Hi He. specialize (H3 (S i) e Hi (or_introl He)). lia.
  - intros (H1 & H2 & (H3 & H4) & H5). split; [discriminate|]. split; [|split; [exact H5|]].
    + intros [|y u] e v E; cbn in E; injection E as <- E; [tauto|].
      destruct (H3 u e v E) as [X|[X|[X Y]]]; [auto|auto|]. right. right. split; [exact X|]. apply escaped_est. exact Y.
    + intros [|i] e Hi He; [lia|]. cbn in Hi. destruct He as [He|He]; [|discriminate]. specialize (H4 i e Hi He). lia.
Qed.

Lemma needs_spec na p x b : (local_char na x \/ blank x) -> qrun na p (step x false) b ->
  (nqr ((x =? 46) || (x =? 92) || (x =? 32) || (x =? 9)) (x =? 46) b = true <-> needs_quotes (x :: b)).
Proof.
  intros Hx Hq.
  assert (Hst : step x false = true -> (x =? 46) || (x =? 92) || (x =? 32) || (x =? 9) = true).
  { unfold step. destruct (N.eqb_spec x 92) as [->|]; [reflexivity|]. destruct ((x =? 32) || (x =? 9)); discriminate. }
  rewrite (nqr_spec na b p _ _ _ Hst Hq). unfold needs_quotes. rewrite !orb_true_iff, !N.eqb_eq.
  assert (DD : double_dot (x :: b) <-> double_dot (dotted (x =? 46) b)).
  { destruct (N.eqb_spec x 46) as [->|N46]; cbn [dotted]; [tauto|]. apply double_dot_skip, N46. }
  rewrite DD. split.
  - intros [H|[(e & H1 & H2)|H]]; [|right; left; exists e; split; [right; exact H1|exact H2]|auto].
    destruct H as [[[->|H]|H]|H]; [left; eauto| | |]; right; left; exists x; (split; [left; reflexivity|unfold blank; tauto]).
  - intros [(r & E)|[(e & [<-|H1] & H2)|H]].
    + injection E as -> _. auto.
    + left. unfold blank in H2. tauto.
    + right. left. eauto.
    + auto.
Qed.
