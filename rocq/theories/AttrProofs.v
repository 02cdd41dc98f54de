(** Proofs about attribute parameters. *)
From Verif Require Import Base RangeModel LengthModel AttrSpec.
From Coq Require Import Permutation.

(** A generic loop over parameters with a state. *)
Section Loop.
Context {E S P : Type} (h : S -> P -> outcome E S).

Fixpoint loop (st : S) (ps : list P) : outcome E S :=
  match ps with
  | [] => Ok st
  | p :: ps => obind (h st p) (fun st => loop st ps)
  end.

Hypothesis comm : forall st p q st1 st2, h st p = Ok st1 -> h st1 q = Ok st2 ->
  exists st1', h st q = Ok st1' /\ h st1' p = Ok st2.

Lemma loop_perm1 : forall ps qs, Permutation ps qs ->
  forall st r, loop st ps = Ok r -> loop st qs = Ok r.
Proof.
  induction 1 as [|x ps qs H IH|x y ps|ps qs rs H1 IH1 H2 IH2]; intros st r Hl; simpl in *.
  - exact Hl.
  - destruct (h st x) as [st'| |]; simpl in *; try discriminate. auto.
  - destruct (h st y) as [st1| |] eqn:E1; simpl in Hl; try discriminate.
    destruct (h st1 x) as [st2| |] eqn:E2; simpl in Hl; try discriminate.
    destruct (comm _ _ _ _ _ E1 E2) as (st1' & H1 & H2). rewrite H1. simpl. rewrite H2. exact Hl.
  - auto.
Qed.

Lemma loop_perm : forall ps qs st, Permutation ps qs -> agree (loop st ps) (loop st qs).
Proof.
  intros ps qs st H a. split; apply loop_perm1; [|symmetry]; exact H.
Qed.
End Loop.

Lemma agree_bind : forall E A B (x y : outcome E A) (k : A -> outcome E B),
  agree x y -> agree (obind x k) (obind y k).
Proof.
  intros E A B x y k H b. destruct x as [a|e|].
  - pose proof (proj1 (H a) eq_refl) as ->. tauto.
  - destruct y as [a'|e'|]; simpl; try (split; discriminate).
    pose proof (proj2 (H a') eq_refl). discriminate.
  - destruct y as [a'|e'|]; simpl; try (split; discriminate).
    pose proof (proj2 (H a') eq_refl). discriminate.
Qed.

Section RangeAttr.
Variable T : Type.
Variables ltb leb : T -> T -> bool.

Lemma range_params_loop : forall ps st, range_params T st ps = loop (range_handler T) st ps.
Proof.
  induction ps as [|p ps IH]; intros st; simpl; [reflexivity|].
  destruct (range_handler T st p); simpl; auto.
Qed.

Lemma range_handler_comm : forall st p q st1 st2,
  range_handler T st p = Ok st1 -> range_handler T st1 q = Ok st2 ->
  exists st1', range_handler T st q = Ok st1' /\ range_handler T st1' p = Ok st2.
Proof.
  intros [mn mx inc s1 s2 s3] p q st1 st2 H1 H2.
  destruct p as [[v|]|[v|]|[v|]|]; simpl in H1; try discriminate;
  destruct q as [[w|]|[w|]|[w|]|];
    destruct s1, s2, s3; simpl in *; try discriminate; inversion H1; subst; clear H1;
    simpl in *; try discriminate; inversion H2; subst; clear H2;
    eexists; split; reflexivity.
Qed.

Lemma range_perm_lemma : forall full ps qs, Permutation ps qs ->
  agree (range_from_meta T ltb leb full (RList None (Some ps)))
        (range_from_meta T ltb leb full (RList None (Some qs))).
Proof.
  intros full ps qs H.
  assert (Hx : forall l, range_from_meta T ltb leb full (RList None (Some l)) =
     obind (range_params T (rstate0 T) l) (fun st => range_check T ltb leb (st_min st) (st_max st) (st_incl st)))
    by (intros l; destruct full; reflexivity).
  rewrite !Hx. apply agree_bind. rewrite !range_params_loop.
  apply loop_perm; [exact range_handler_comm | exact H].
Qed.

(** The result of the loop, as a function of the parameters. *)
Lemma range_params_result : forall ps st r, range_params T st ps = Ok r ->
  (count is_min ps = 0 /\ st_min r = st_min st /\ st_min_set r = st_min_set st \/
   count is_min ps = 1 /\ st_min_set st = false /\ st_min_set r = true /\
     exists v, In (PMin (Some v)) ps /\ st_min r = Some v) /\
  (count is_max ps = 0 /\ st_max r = st_max st /\ st_max_set r = st_max_set st \/
   count is_max ps = 1 /\ st_max_set st = false /\ st_max_set r = true /\
     exists v, In (PMax (Some v)) ps /\ st_max r = Some v) /\
  (count is_inclusive ps = 0 /\ st_incl r = st_incl st /\ st_incl_set r = st_incl_set st \/
   count is_inclusive ps = 1 /\ st_incl_set st = false /\ st_incl_set r = true /\
     exists v, In (PInclusive (Some v)) ps /\ st_incl r = v) /\
  ~ In POther ps.
Proof.
  induction ps as [|p ps IH]; intros st r H; simpl in H.
  - injection H as <-. unfold count; simpl. repeat split; auto.
  - destruct (range_handler T st p) as [st'| |] eqn:E; simpl in H; try discriminate.
    apply IH in H. destruct H as (H1 & H2 & H3 & H4).
    destruct p as [[v|]|[v|]|[v|]|]; simpl in E; try discriminate.
    + destruct (st_min_set st) eqn:Es; [discriminate|]. injection E as <-. simpl in *.
      unfold count in *; simpl in *. split; [|split; [|split]].
      * right. destruct H1 as [(C & A & B)|(C & A & _)]; [|discriminate].
        rewrite C, A, B. repeat split; auto. exists v. auto.
      * destruct H2 as [(C & A & B)|(C & A & B & w & Hw & Hw')]; [left; auto|].
        right. repeat split; auto. exists w. auto.
      * destruct H3 as [(C & A & B)|(C & A & B & w & Hw & Hw')]; [left; auto|].
        right. repeat split; auto. exists w. auto.
      * intros [Hx|Hx]; [discriminate|auto].
    + destruct (st_max_set st) eqn:Es; [discriminate|]. injection E as <-. simpl in *.
      unfold count in *; simpl in *. split; [|split; [|split]].
      * destruct H1 as [(C & A & B)|(C & A & B & w & Hw & Hw')]; [left; auto|].
        right. repeat split; auto. exists w. auto.
      * right. destruct H2 as [(C & A & B)|(C & A & _)]; [|discriminate].
        rewrite C, A, B. repeat split; auto. exists v. auto.
      * destruct H3 as [(C & A & B)|(C & A & B & w & Hw & Hw')]; [left; auto|].
        right. repeat split; auto. exists w. auto.
      * intros [Hx|Hx]; [discriminate|auto].
    + destruct (st_incl_set st) eqn:Es; [discriminate|]. injection E as <-. simpl in *.
      unfold count in *; simpl in *. split; [|split; [|split]].
      * destruct H1 as [(C & A & B)|(C & A & B & w & Hw & Hw')]; [left; auto|].
        right. repeat split; auto. exists w. auto.
      * destruct H2 as [(C & A & B)|(C & A & B & w & Hw & Hw')]; [left; auto|].
        right. repeat split; auto. exists w. auto.
      * right. destruct H3 as [(C & A & B)|(C & A & _)]; [|discriminate].
        rewrite C, A, B. repeat split; auto. exists v. auto.
      * intros [Hx|Hx]; [discriminate|auto].
Qed.

Lemma range_check_ok : forall mn mx i r, range_check T ltb leb mn mx i = Ok r -> r = mk_range mn mx i.
Proof.
  intros mn mx i r H. unfold range_check in H. destruct mn, mx; try (injection H as <-; reflexivity).
  destruct i; [destruct (ltb t0 t) | destruct (leb t0 t)]; congruence.
Qed.

Lemma range_defaults_lemma : forall full ps r,
  range_from_meta T ltb leb full (RList None (Some ps)) = Ok r ->
  (count is_min ps <= 1 /\ count is_max ps <= 1 /\ count is_inclusive ps <= 1)%nat /\
  ~ In POther ps /\
  (count is_min ps = 0 -> r_min r = None)%nat /\
  (count is_max ps = 0 -> r_max r = None)%nat /\
  (count is_inclusive ps = 0 -> r_incl r = true)%nat /\
  (forall v, In (PMin v) ps -> r_min r = v) /\
  (forall v, In (PMax v) ps -> r_max r = v) /\
  (forall v, In (PInclusive v) ps -> v = Some (r_incl r)).
Proof.
  intros full ps r H.
  assert (Hx : obind (range_params T (rstate0 T) ps)
     (fun st => range_check T ltb leb (st_min st) (st_max st) (st_incl st)) = Ok r)
    by (destruct full; exact H). clear H.
  destruct (range_params T (rstate0 T) ps) as [st| |] eqn:E; simpl in Hx; try discriminate.
  apply range_check_ok in Hx. subst r. simpl.
  apply range_params_result in E. simpl in E. destruct E as (H1 & H2 & H3 & H4).
  assert (Huniq : forall (key : rparam T -> bool) p q l, count key l = 1%nat -> key p = true -> key q = true ->
            In p l -> In q l -> p = q).
  { intros key p q l Hc Hp Hq Ip Iq. unfold count in Hc.
    assert (In p (filter key l)) by (apply filter_In; auto).
    assert (In q (filter key l)) by (apply filter_In; auto).
    destruct (filter key l) as [|x [|y f]]; simpl in *; try discriminate.
    destruct H as [<-|[]], H0 as [<-|[]]. reflexivity. }
  assert (Hzero : forall (key : rparam T -> bool) p l, count key l = 0%nat -> key p = true -> In p l -> False).
  { intros key p l Hc Hp Ip. unfold count in Hc.
    assert (In p (filter key l)) by (apply filter_In; auto).
    destruct (filter key l); simpl in *; [auto|discriminate]. }
  split; [destruct H1 as [[-> _]|[-> _]], H2 as [[-> _]|[-> _]], H3 as [[-> _]|[-> _]]; lia|].
  split; [exact H4|].
  split; [intros Hc; destruct H1 as [(_ & A & _)|(C & _)]; [exact A|lia]|].
  split; [intros Hc; destruct H2 as [(_ & A & _)|(C & _)]; [exact A|lia]|].
  split; [intros Hc; destruct H3 as [(_ & A & _)|(C & _)]; [exact A|lia]|].
  split; [|split].
  - intros v Hv. destruct H1 as [(C & _)|(C & _ & _ & w & Hw & A)].
    + exfalso. apply (Hzero _ _ _ C (eq_refl : is_min (PMin v) = true) Hv).
    + pose proof (Huniq is_min _ _ _ C (eq_refl : is_min (PMin v) = true) (eq_refl : is_min (PMin (Some w)) = true) Hv Hw) as Hu.
      congruence.
  - intros v Hv. destruct H2 as [(C & _)|(C & _ & _ & w & Hw & A)].
    + exfalso. apply (Hzero _ _ _ C (eq_refl : is_max (PMax v) = true) Hv).
    + pose proof (Huniq is_max _ _ _ C (eq_refl : is_max (PMax v) = true) (eq_refl : is_max (PMax (Some w)) = true) Hv Hw) as Hu.
      congruence.
  - intros v Hv. destruct H3 as [(C & _)|(C & _ & _ & w & Hw & A)].
    + exfalso. apply (Hzero _ _ _ C (eq_refl : is_inclusive (PInclusive v) = true) Hv).
    + pose proof (Huniq is_inclusive _ _ _ C (eq_refl : is_inclusive (PInclusive v) = true) (eq_refl : is_inclusive (PInclusive (Some w)) = true) Hv Hw) as Hu.
      congruence.
Qed.
End RangeAttr.

(** Length attributes. *)
Lemma length_params_loop : forall ps st, length_params st ps = loop length_handler st ps.
Proof.
  induction ps as [|p ps IH]; intros st; simpl; [reflexivity|].
  destruct (length_handler st p); simpl; auto.
Qed.

Lemma length_handler_comm : forall st p q st1 st2,
  length_handler st p = Ok st1 -> length_handler st1 q = Ok st2 ->
  exists st1', length_handler st q = Ok st1' /\ length_handler st1' p = Ok st2.
Proof.
  intros [mn mx inc s1 s2 s3] p q st1 st2 H1 H2.
  destruct p as [[v|]|[v|]|[v|]|]; simpl in H1; try discriminate;
  destruct q as [[w|]|[w|]|[w|]|];
    destruct s1, s2, s3; simpl in *; try discriminate; inversion H1; subst; clear H1;
    simpl in *; try discriminate; inversion H2; subst; clear H2;
    eexists; split; reflexivity.
Qed.

Lemma length_perm_lemma : forall ps qs, Permutation ps qs ->
  agree (length_from_meta ps) (length_from_meta qs).
Proof.
  intros ps qs H. unfold length_from_meta. apply agree_bind. rewrite !length_params_loop.
  apply loop_perm; [exact length_handler_comm | exact H].
Qed.

Lemma utf8_params_loop : forall ps st, utf8_params st ps = loop utf8_handler st ps.
Proof.
  induction ps as [|p ps IH]; intros st; simpl; [reflexivity|].
  destruct (utf8_handler st p); simpl; auto.
Qed.

Lemma utf8_handler_comm : forall st p q st1 st2,
  utf8_handler st p = Ok st1 -> utf8_handler st1 q = Ok st2 ->
  exists st1', utf8_handler st q = Ok st1' /\ utf8_handler st1' p = Ok st2.
Proof.
  intros [l s1 s2 s3] p q st1 st2 H1 H2.
  destruct p as [ps|ps|[]|[]|]; cbn [utf8_handler] in H1; try discriminate;
  destruct q as [qs|qs|[]|[]|]; cbn [utf8_handler] in *; try discriminate;
  repeat match goal with
         | H : obind (length_from_meta ?x) _ = _ |- _ =>
             destruct (length_from_meta x) as [?| |] eqn:?; cbn [obind] in *; try discriminate
         end;
  destruct s1, s2, s3; simpl in *; try discriminate; inversion H1; subst; clear H1;
    simpl in *; try discriminate; inversion H2; subst; clear H2;
    eexists; split; reflexivity.
Qed.

Lemma utf8_perm_lemma : forall ps qs, Permutation ps qs ->
  agree (utf8_attribute (Some ps)) (utf8_attribute (Some qs)).
Proof.
  intros ps qs H. unfold utf8_attribute. apply agree_bind. rewrite !utf8_params_loop.
  apply loop_perm; [exact utf8_handler_comm | exact H].
Qed.

Lemma coll_params_loop : forall ps st, coll_params st ps = loop coll_handler st ps.
Proof.
  induction ps as [|p ps IH]; intros st; simpl; [reflexivity|].
  destruct (coll_handler st p); simpl; auto.
Qed.

Lemma coll_handler_comm : forall st p q st1 st2,
  coll_handler st p = Ok st1 -> coll_handler st1 q = Ok st2 ->
  exists st1', coll_handler st q = Ok st1' /\ coll_handler st1' p = Ok st2.
Proof.
  intros [mn mx s1 s2 s3] p q st1 st2 H1 H2.
  destruct p as [[v|]|[v|]|[]|]; simpl in H1; try discriminate;
  destruct q as [[w|]|[w|]|[]|];
    destruct s1, s2, s3; simpl in *; try discriminate; inversion H1; subst; clear H1;
    simpl in *; try discriminate; inversion H2; subst; clear H2;
    eexists; split; reflexivity.
Qed.

Lemma coll_perm_lemma : forall ps qs, Permutation ps qs ->
  agree (coll_attribute (Some ps)) (coll_attribute (Some qs)).
Proof.
  intros ps qs H. unfold coll_attribute. apply agree_bind. rewrite !coll_params_loop.
  apply loop_perm; [exact coll_handler_comm | exact H].
Qed.

(** A key that occurs exactly once determines its value; one that does not occur has none. *)
Lemma count_one : forall P (key : P -> bool) p q l, count key l = 1%nat -> key p = true -> key q = true ->
  In p l -> In q l -> p = q.
Proof.
  intros P key p q l Hc Hp Hq Ip Iq. unfold count in Hc.
  assert (H : In p (filter key l)) by (apply filter_In; auto).
  assert (H0 : In q (filter key l)) by (apply filter_In; auto).
  destruct (filter key l) as [|x [|y f]]; simpl in *; try discriminate.
  destruct H as [<-|[]], H0 as [<-|[]]. reflexivity.
Qed.

Lemma count_zero : forall P (key : P -> bool) p l, count key l = 0%nat -> key p = true -> In p l -> False.
Proof.
  intros P key p l Hc Hp Ip. unfold count in Hc.
  assert (H : In p (filter key l)) by (apply filter_In; auto).
  destruct (filter key l); simpl in *; [auto|discriminate].
Qed.

Lemma length_params_result : forall ps st r, length_params st ps = Ok r ->
  (count is_lmin ps = 0 /\ ls_min r = ls_min st /\ ls_min_set r = ls_min_set st \/
   count is_lmin ps = 1 /\ ls_min_set st = false /\ ls_min_set r = true /\
     exists v, In (LMin (Some v)) ps /\ ls_min r = Some v)%nat /\
  (count is_ltmin ps = 0 /\ ls_tmin r = ls_tmin st /\ ls_tmin_set r = ls_tmin_set st \/
   count is_ltmin ps = 1 /\ ls_tmin_set st = false /\ ls_tmin_set r = true /\
     exists v, In (LTrimmedMin (Some v)) ps /\ ls_tmin r = Some v)%nat /\
  (count is_lmax ps = 0 /\ ls_max r = ls_max st /\ ls_max_set r = ls_max_set st \/
   count is_lmax ps = 1 /\ ls_max_set st = false /\ ls_max_set r = true /\
     exists v, In (LMax (Some v)) ps /\ ls_max r = Some v)%nat /\
  ~ In LOther ps.
Proof.
  induction ps as [|p ps IH]; intros st r H; simpl in H.
  - injection H as <-. unfold count; simpl. repeat split; auto.
  - destruct (length_handler st p) as [st'| |] eqn:E; simpl in H; try discriminate.
    apply IH in H. destruct H as (H1 & H2 & H3 & H4).
    assert (HO : p <> LOther -> ~ In LOther (p :: ps)) by (intros Hp [Hx|Hx]; congruence || auto).
    destruct p as [[v|]|[v|]|[v|]|]; simpl in E; try discriminate;
      [destruct (ls_min_set st) eqn:Es | destruct (ls_tmin_set st) eqn:Es | destruct (ls_max_set st) eqn:Es];
      try discriminate; injection E as <-; simpl in *; unfold count in *; simpl in *;
      (split; [|split; [|split]]); try (apply HO; discriminate).
    all: match goal with
         | |- context [S (List.length _)] => right
         | _ => idtac
         end.
    all: repeat match goal with
         | H : _ \/ _ |- _ => destruct H as [(? & ? & ?)|(? & ? & ? & ? & ? & ?)]
         end; try discriminate.
    all: try (left; repeat split; assumption).
    all: try (right; repeat split; try assumption; eexists; split; [right; eassumption | assumption]).
    all: repeat split; try congruence; eexists; split; [left; reflexivity | congruence].
Qed.

Lemma length_check_ok : forall mn t mx l, length_check mn t mx = Ok l ->
  l = mk_len mn t mx /\
  (forall a b, t = Some a -> mn = Some b -> a <= b)%N /\
  (forall a b, mn = Some a -> mx = Some b -> a <= b)%N /\
  (forall a b, t = Some a -> mx = Some b -> a <= b)%N.
Proof.
  intros mn t mx l H. unfold length_check in H.
  destruct mn as [mn|], t as [t|], mx as [mx|]; simpl in H;
    repeat match type of H with
    | context [if ?c then _ else _] => destruct c eqn:?; simpl in H; try discriminate
    end;
    injection H as <-; repeat split; intros a b Ha Hb; try discriminate;
    injection Ha as <-; injection Hb as <-; lia.
Qed.

Lemma length_defaults_lemma : forall ps l, length_from_meta ps = Ok l ->
  (count is_lmin ps <= 1 /\ count is_ltmin ps <= 1 /\ count is_lmax ps <= 1)%nat /\
  ~ In LOther ps /\
  (count is_lmin ps = 0 -> l_min l = None)%nat /\
  (count is_ltmin ps = 0 -> l_tmin l = None)%nat /\
  (count is_lmax ps = 0 -> l_max l = None)%nat /\
  (forall v, In (LMin v) ps -> l_min l = v) /\
  (forall v, In (LTrimmedMin v) ps -> l_tmin l = v) /\
  (forall v, In (LMax v) ps -> l_max l = v).
Proof.
  intros ps l H. unfold length_from_meta in H.
  destruct (length_params lstate0 ps) as [st| |] eqn:E; simpl in H; try discriminate.
  apply length_check_ok in H. destruct H as [-> _]. simpl.
  apply length_params_result in E. simpl in E. destruct E as (H1 & H2 & H3 & H4).
  split; [destruct H1 as [[-> _]|[-> _]], H2 as [[-> _]|[-> _]], H3 as [[-> _]|[-> _]]; lia|].
  split; [exact H4|].
  split; [intros Hc; destruct H1 as [(_ & A & _)|(C & _)]; [exact A|lia]|].
  split; [intros Hc; destruct H2 as [(_ & A & _)|(C & _)]; [exact A|lia]|].
  split; [intros Hc; destruct H3 as [(_ & A & _)|(C & _)]; [exact A|lia]|].
  split; [|split]; intros v Hv.
  - destruct H1 as [(C & _)|(C & _ & _ & w & Hw & A)].
    + exfalso. exact (count_zero _ is_lmin (LMin v) _ C eq_refl Hv).
    + pose proof (count_one _ is_lmin (LMin v) (LMin (Some w)) _ C eq_refl eq_refl Hv Hw). congruence.
  - destruct H2 as [(C & _)|(C & _ & _ & w & Hw & A)].
    + exfalso. exact (count_zero _ is_ltmin (LTrimmedMin v) _ C eq_refl Hv).
    + pose proof (count_one _ is_ltmin (LTrimmedMin v) (LTrimmedMin (Some w)) _ C eq_refl eq_refl Hv Hw). congruence.
  - destruct H3 as [(C & _)|(C & _ & _ & w & Hw & A)].
    + exfalso. exact (count_zero _ is_lmax (LMax v) _ C eq_refl Hv).
    + pose proof (count_one _ is_lmax (LMax v) (LMax (Some w)) _ C eq_refl eq_refl Hv Hw). congruence.
Qed.

(** char_length and byte_length exclude each other. *)
Definition is_ulen (p : uparam) : bool :=
  match p with UCharLength _ | UByteLength _ => true | _ => false end.

Lemma utf8_params_result : forall ps st r, utf8_params st ps = Ok r ->
  (count is_ulen ps = 0 /\ us_length r = us_length st /\ us_length_set r = us_length_set st \/
   count is_ulen ps = 1 /\ us_length_set st = false /\ us_length_set r = true /\
     exists q l, length_from_meta q = Ok l /\
       (In (UCharLength q) ps /\ us_length r = Some (false, l) \/
        In (UByteLength q) ps /\ us_length r = Some (true, l)))%nat /\
  ~ In UOther ps.
Proof.
  induction ps as [|p ps IH]; intros st r H; simpl in H.
  - injection H as <-. unfold count; simpl. split; [left; auto | auto].
  - destruct (utf8_handler st p) as [st'| |] eqn:E; simpl in H; try discriminate.
    apply IH in H. destruct H as (H1 & H4).
    assert (HO : p <> UOther -> ~ In UOther (p :: ps)) by (intros Hp [Hx|Hx]; congruence || auto).
    split; [|apply HO; intros ->; discriminate].
    destruct p as [q|q|[]|[]|]; cbn [utf8_handler] in E; try discriminate.
    + destruct (length_from_meta q) as [l| |] eqn:El; simpl in E; try discriminate.
      destruct (us_length_set st) eqn:Es; [discriminate|]. injection E as <-.
      right. destruct H1 as [(C & A & B)|(C & A & _)]; [|discriminate].
      unfold count in *; simpl in *. rewrite C. repeat split; auto.
      exists q, l. split; auto.
    + destruct (length_from_meta q) as [l| |] eqn:El; simpl in E; try discriminate.
      destruct (us_length_set st) eqn:Es; [discriminate|]. injection E as <-.
      right. destruct H1 as [(C & A & B)|(C & A & _)]; [|discriminate].
      unfold count in *; simpl in *. rewrite C. repeat split; auto.
      exists q, l. split; auto.
    + destruct (us_serde_set st); [discriminate|]. injection E as <-. unfold count in *; simpl in *.
      destruct H1 as [(C & A & B)|(C & A & B & q & l & Hl & Hx)]; [left; auto|right].
      repeat split; auto. exists q, l. tauto.
    + destruct (us_rocket_set st); [discriminate|]. injection E as <-. unfold count in *; simpl in *.
      destruct H1 as [(C & A & B)|(C & A & B & q & l & Hl & Hx)]; [left; auto|right].
      repeat split; auto. exists q, l. tauto.
Qed.

Lemma utf8_one_length_lemma : forall ps r, utf8_attribute (Some ps) = Ok r ->
  (count is_ulen ps <= 1)%nat /\ ~ In UOther ps /\
  (r = None <-> count is_ulen ps = 0%nat) /\
  (forall q, In (UCharLength q) ps -> exists l, length_from_meta q = Ok l /\ r = Some (false, l)) /\
  (forall q, In (UByteLength q) ps -> exists l, length_from_meta q = Ok l /\ r = Some (true, l)).
Proof.
  intros ps r H. unfold utf8_attribute in H.
  destruct (utf8_params (mk_ustate None false false false) ps) as [st| |] eqn:E; simpl in H; try discriminate.
  injection H as <-. apply utf8_params_result in E. simpl in E. destruct E as [H1 H2].
  split; [destruct H1 as [[-> _]|[-> _]]; lia|]. split; [auto|].
  split; [|split].
  - destruct H1 as [(C & A & _)|(C & _ & _ & q & l & Hl & [[_ A]|[_ A]])]; rewrite A, C; split; congruence.
  - intros q Hq. destruct H1 as [(C & A & _)|(C & _ & _ & q' & l & Hl & [[Hi A]|[Hi A]])].
    + exfalso. exact (count_zero _ is_ulen (UCharLength q) _ C eq_refl Hq).
    + pose proof (count_one _ is_ulen (UCharLength q) (UCharLength q') _ C eq_refl eq_refl Hq Hi) as Hu. injection Hu as ->. eauto.
    + pose proof (count_one _ is_ulen (UCharLength q) (UByteLength q') _ C eq_refl eq_refl Hq Hi) as Hu. discriminate.
  - intros q Hq. destruct H1 as [(C & A & _)|(C & _ & _ & q' & l & Hl & [[Hi A]|[Hi A]])].
    + exfalso. exact (count_zero _ is_ulen (UByteLength q) _ C eq_refl Hq).
    + pose proof (count_one _ is_ulen (UByteLength q) (UCharLength q') _ C eq_refl eq_refl Hq Hi) as Hu. discriminate.
    + pose proof (count_one _ is_ulen (UByteLength q) (UByteLength q') _ C eq_refl eq_refl Hq Hi) as Hu. injection Hu as ->. eauto.
Qed.

(** C10: the keyword form. *)
Local Open Scope Z_scope.
Lemma range_nonempty_lemma : forall full ps r,
  range_from_meta Z Z.ltb Z.leb full (RList None (Some ps)) = Ok r ->
  exists i : Z, (forall m, r_min r = Some m -> m <= i) /\
                (forall m, r_max r = Some m -> if r_incl r then i <= m else i < m).
Proof.
  intros full ps r H.
  assert (Hx : obind (range_params Z (rstate0 Z) ps)
     (fun st => range_check Z Z.ltb Z.leb (st_min st) (st_max st) (st_incl st)) = Ok r)
    by (destruct full; exact H). clear H.
  destruct (range_params Z (rstate0 Z) ps) as [st| |]; simpl in Hx; try discriminate.
  pose proof (range_check_ok Z Z.ltb Z.leb _ _ _ _ Hx) as Hr. subst r. unfold range_check in Hx. simpl.
  destruct (st_min st) as [mn|], (st_max st) as [mx|], (st_incl st).
  - destruct (mx <? mn) eqn:E; [discriminate|].
    exists mn. split; intros m Hm; injection Hm as <-; lia.
  - destruct (mx <=? mn) eqn:E; [discriminate|].
    exists mn. split; intros m Hm; injection Hm as <-; lia.
  - exists mn. split; intros m Hm; [injection Hm as <-; lia|discriminate].
  - exists mn. split; intros m Hm; [injection Hm as <-; lia|discriminate].
  - exists mx. split; intros m Hm; [discriminate|injection Hm as <-; lia].
  - exists (mx - 1). split; intros m Hm; [discriminate|injection Hm as <-; lia].
  - exists 0. split; intros m Hm; discriminate.
  - exists 0. split; intros m Hm; discriminate.
Qed.

(** The literal form: what it does accept. *)
Lemma range_literal_lemma : forall a b h,
  from_expr_range Z (mk_expr_range (LitBound (Some a)) (LitBound (Some b)) h) =
  Ok (mk_range (Some a) (Some b) (negb h)).
Proof. reflexivity. Qed.
