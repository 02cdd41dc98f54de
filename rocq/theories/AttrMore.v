(** Completeness of the attribute parsers: what is refused is refused for a reason. *)
From Verif Require Import Base RangeModel LengthModel AttrSpec AttrProofs.

(** The remaining keys of the line/text and collection-length attributes. *)
Definition is_userde (p : uparam) : bool := match p with USerde _ => true | _ => false end.
Definition is_urocket (p : uparam) : bool := match p with URocket _ => true | _ => false end.
Definition is_cmin (p : cparam) : bool := match p with CMin _ => true | _ => false end.
Definition is_cmax (p : cparam) : bool := match p with CMax _ => true | _ => false end.
Definition is_cserde (p : cparam) : bool := match p with CSerde _ => true | _ => false end.

(** A parameter that has a known key and a value of the right kind. *)
Definition rgood {T} (p : rparam T) : Prop :=
  match p with PMin v => v <> None | PMax v => v <> None | PInclusive v => v <> None | POther => False end.
Definition lgood (p : lparam) : Prop :=
  match p with LMin v => v <> None | LTrimmedMin v => v <> None | LMax v => v <> None | LOther => False end.
Definition cgood (p : cparam) : Prop :=
  match p with CMin v => v <> None | CMax v => v <> None | CSerde ok => ok = true | COther => False end.
Definition ugood (p : uparam) : Prop :=
  match p with
  | UCharLength q | UByteLength q => exists l, length_from_meta q = Ok l
  | USerde ok | URocket ok => ok = true
  | UOther => False
  end.

Lemma count_cons : forall P (key : P -> bool) p l,
  count key (p :: l) = ((if key p then 1 else 0) + count key l)%nat.
Proof. intros P key p l. unfold count. simpl. destruct (key p); reflexivity. Qed.

Definition slot (set : bool) (n : nat) : Prop := ((if set then 1 else 0) + n <= 1)%nat.

Lemma slot_cons : forall set n, slot set (S n) -> set = false /\ slot true n.
Proof. intros [] n H; unfold slot in *; simpl in *; [lia|split; [reflexivity|lia]]. Qed.

Section Range.
Variable T : Type.
Variables ltb leb : T -> T -> bool.

Lemma range_loop_total : forall (ps : list (rparam T)) st,
  Forall rgood ps ->
  slot (st_min_set st) (count is_min ps) -> slot (st_max_set st) (count is_max ps) ->
  slot (st_incl_set st) (count is_inclusive ps) ->
  exists r, range_params T st ps = Ok r.
Proof.
  induction ps as [|p ps IH]; intros st G S1 S2 S3; [eexists; reflexivity|].
  inversion G as [|? ? G1 G2]; subst. rewrite !count_cons in *.
  destruct p as [[v|]|[v|]|[v|]|]; simpl in G1; try congruence; try contradiction; simpl in *.
  - apply slot_cons in S1. destruct S1 as [-> S1]. simpl. apply IH; auto.
  - apply slot_cons in S2. destruct S2 as [-> S2]. simpl. apply IH; auto.
  - apply slot_cons in S3. destruct S3 as [-> S3]. simpl. apply IH; auto.
Qed.

Lemma range_loop_good : forall (ps : list (rparam T)) st r,
  range_params T st ps = Ok r -> Forall rgood ps.
Proof.
  induction ps as [|p ps IH]; intros st r H; [constructor|]. cbn [range_params] in H.
  destruct (range_handler T st p) as [st'| |] eqn:E; simpl in H; try discriminate.
  constructor; [|eapply IH; exact H].
  destruct p as [[v|]|[v|]|[v|]|]; simpl in E |- *; congruence.
Qed.

Lemma range_from_list : forall full ps,
  range_from_meta T ltb leb full (RList None (Some ps)) =
  obind (range_params T (rstate0 T) ps) (fun st => range_check T ltb leb (st_min st) (st_max st) (st_incl st)).
Proof. intros [] ps; reflexivity. Qed.

(** A list of parameters is accepted exactly when every parameter is readable, no key is
    repeated and the two bounds are in order. *)
Lemma range_accepts_lemma : forall full (ps : list (rparam T)),
  (exists r, range_from_meta T ltb leb full (RList None (Some ps)) = Ok r) <->
  Forall rgood ps /\
  (count is_min ps <= 1 /\ count is_max ps <= 1 /\ count is_inclusive ps <= 1)%nat /\
  (forall a b, In (PMin (Some a)) ps -> In (PMax (Some b)) ps ->
     (In (PInclusive (Some false)) ps -> leb b a = false) /\
     (~ In (PInclusive (Some false)) ps -> ltb b a = false)).
Proof.
  intros full ps. split.
  - intros [r H]. pose proof (range_defaults_lemma T ltb leb _ _ _ H) as
      (C & _ & _ & _ & D3 & V1 & V2 & V3).
    rewrite range_from_list in H.
    destruct (range_params T (rstate0 T) ps) as [st| |] eqn:E; cbn [obind] in H; try discriminate.
    split; [eapply range_loop_good; exact E|]. split; [exact C|].
    intros a b Ha Hb. apply V1 in Ha. apply V2 in Hb.
    pose proof (range_check_ok T ltb leb _ _ _ _ H) as ->. cbn [r_min r_max r_incl] in *.
    unfold range_check in H. rewrite Ha, Hb in H. split.
    + intros Hi. apply V3 in Hi. injection Hi as Hi. rewrite <- Hi in H.
      destruct (leb b a); [discriminate|reflexivity].
    + intros Hi. destruct (st_incl st) eqn:Ei.
      * destruct (ltb b a); [discriminate|reflexivity].
      * exfalso. destruct (count is_inclusive ps) eqn:Ec.
        -- specialize (D3 eq_refl). discriminate.
        -- unfold count in Ec. destruct (filter is_inclusive ps) as [|p l] eqn:Ef; [discriminate|].
           assert (Hp : In p (filter is_inclusive ps)) by (rewrite Ef; left; reflexivity).
           apply filter_In in Hp. destruct Hp as [Hp Hk].
           destruct p as [v|v|v|]; simpl in Hk; try discriminate.
           pose proof (V3 _ Hp) as ->. auto.
  - intros (G & (C1 & C2 & C3) & O).
    destruct (range_loop_total ps (rstate0 T) G C1 C2 C3) as [st E].
    rewrite range_from_list, E. cbn [obind]. pose proof E as E'.
    apply range_params_result in E. cbn in E. destruct E as (H1 & H2 & H3 & _).
    unfold range_check.
    destruct H1 as [(_ & -> & _)|(_ & _ & _ & a & Ia & ->)]; [eexists; reflexivity|].
    destruct H2 as [(_ & -> & _)|(_ & _ & _ & b & Ib & ->)]; [eexists; reflexivity|].
    specialize (O a b Ia Ib). destruct O as [O1 O2].
    destruct H3 as [(Cz & -> & _)|(C1' & _ & _ & i & Ii & ->)].
    + rewrite O2; [eexists; reflexivity|]. intros Hx. exact (count_zero _ is_inclusive (PInclusive (Some false)) _ Cz eq_refl Hx).
    + destruct i.
      * rewrite O2; [eexists; reflexivity|]. intros Hx.
        pose proof (count_one _ is_inclusive (PInclusive (Some false)) (PInclusive (Some true)) _ C1' eq_refl eq_refl Hx Ii). discriminate.
      * rewrite O1; [eexists; reflexivity|exact Ii].
Qed.

(** The literal form. *)
Lemma range_literal_exact : forall (e : expr_range T) r,
  from_expr_range T e = Ok r <->
  (e_start e = NoBound /\ r_min r = None \/ exists a, e_start e = LitBound (Some a) /\ r_min r = Some a) /\
  (e_end e = NoBound /\ r_max r = None /\ r_incl r = true \/
   exists b, e_end e = LitBound (Some b) /\ r_max r = Some b /\ r_incl r = negb (e_half_open e)).
Proof.
  intros [s e h] [mn mx i]. cbn [e_start e_end e_half_open r_min r_max r_incl]. unfold from_expr_range.
  cbn [e_start e_end e_half_open]. split.
  - destruct s as [|[a|]|]; destruct e as [|[b|]|]; cbn; intros H; try discriminate;
      injection H as <- <- <-; (split; [first [left; split; reflexivity | right; eexists; split; reflexivity]
        | first [left; repeat split; reflexivity | right; eexists; repeat split; reflexivity]]).
  - intros [[(-> & ->)|(a & -> & ->)] [(-> & -> & ->)|(b & -> & -> & ->)]]; reflexivity.
Qed.
End Range.

(** Length attributes. *)
Lemma length_loop_total : forall ps st,
  Forall lgood ps ->
  slot (ls_min_set st) (count is_lmin ps) -> slot (ls_tmin_set st) (count is_ltmin ps) ->
  slot (ls_max_set st) (count is_lmax ps) ->
  exists r, length_params st ps = Ok r.
Proof.
  induction ps as [|p ps IH]; intros st G S1 S2 S3; [eexists; reflexivity|].
  inversion G as [|? ? G1 G2]; subst. rewrite !count_cons in *.
  destruct p as [[v|]|[v|]|[v|]|]; simpl in G1; try congruence; try contradiction; simpl in *.
  - apply slot_cons in S1. destruct S1 as [-> S1]. simpl. apply IH; auto.
  - apply slot_cons in S2. destruct S2 as [-> S2]. simpl. apply IH; auto.
  - apply slot_cons in S3. destruct S3 as [-> S3]. simpl. apply IH; auto.
Qed.

Lemma length_loop_good : forall ps st r, length_params st ps = Ok r -> Forall lgood ps.
Proof.
  induction ps as [|p ps IH]; intros st r H; [constructor|]. cbn [length_params] in H.
  destruct (length_handler st p) as [st'| |] eqn:E; simpl in H; try discriminate.
  constructor; [|eapply IH; exact H].
  destruct p as [[v|]|[v|]|[v|]|]; simpl in E |- *; congruence.
Qed.

Lemma length_check_total : forall mn t mx,
  (forall a b, t = Some a -> mn = Some b -> a <= b)%N ->
  (forall a b, mn = Some a -> mx = Some b -> a <= b)%N ->
  (forall a b, t = Some a -> mx = Some b -> a <= b)%N ->
  exists l, length_check mn t mx = Ok l.
Proof.
  intros mn t mx H1 H2 H3. unfold length_check.
  destruct mn as [mn|], t as [t|], mx as [mx|];
    try specialize (H1 _ _ eq_refl eq_refl); try specialize (H2 _ _ eq_refl eq_refl);
    try specialize (H3 _ _ eq_refl eq_refl); simpl;
    repeat match goal with
    | |- context [if ?c then _ else _] => destruct c eqn:?; simpl; try lia
    end; eexists; reflexivity.
Qed.

Lemma length_accepts_lemma : forall ps,
  (exists l, length_from_meta ps = Ok l) <->
  Forall lgood ps /\
  (count is_lmin ps <= 1 /\ count is_ltmin ps <= 1 /\ count is_lmax ps <= 1)%nat /\
  (forall a b, In (LTrimmedMin (Some a)) ps -> In (LMin (Some b)) ps -> a <= b)%N /\
  (forall a b, In (LMin (Some a)) ps -> In (LMax (Some b)) ps -> a <= b)%N /\
  (forall a b, In (LTrimmedMin (Some a)) ps -> In (LMax (Some b)) ps -> a <= b)%N.
Proof.
  intros ps. split.
  - intros [l H]. pose proof (length_defaults_lemma _ _ H) as (C & _ & _ & _ & _ & V1 & V2 & V3).
    unfold length_from_meta in H.
    destruct (length_params lstate0 ps) as [st| |] eqn:E; cbn [obind] in H; try discriminate.
    apply length_check_ok in H. destruct H as (-> & O1 & O2 & O3). cbn [l_min l_tmin l_max] in *.
    split; [eapply length_loop_good; exact E|]. split; [exact C|].
    split; [|split]; intros a b Ha Hb;
      first [apply V1 in Ha | apply V2 in Ha | apply V3 in Ha];
      first [apply V1 in Hb | apply V2 in Hb | apply V3 in Hb]; eauto.
  - intros (G & (C1 & C2 & C3) & O1 & O2 & O3).
    destruct (length_loop_total ps lstate0 G C1 C2 C3) as [st E].
    unfold length_from_meta. rewrite E. cbn [obind].
    apply length_params_result in E. cbn in E. destruct E as (H1 & H2 & H3 & _).
    apply length_check_total; intros a b Ha Hb.
    + destruct H1 as [(_ & X & _)|(_ & _ & _ & v & Iv & X)]; [congruence|].
      destruct H2 as [(_ & Y & _)|(_ & _ & _ & w & Iw & Y)]; [congruence|].
      assert (v = b) by congruence. assert (w = a) by congruence. subst. auto.
    + destruct H1 as [(_ & X & _)|(_ & _ & _ & v & Iv & X)]; [congruence|].
      destruct H3 as [(_ & Y & _)|(_ & _ & _ & w & Iw & Y)]; [congruence|].
      assert (v = a) by congruence. assert (w = b) by congruence. subst. auto.
    + destruct H2 as [(_ & X & _)|(_ & _ & _ & v & Iv & X)]; [congruence|].
      destruct H3 as [(_ & Y & _)|(_ & _ & _ & w & Iw & Y)]; [congruence|].
      assert (v = a) by congruence. assert (w = b) by congruence. subst. auto.
Qed.

(** Line/text attributes. *)
Lemma utf8_loop_exact : forall ps st,
  (exists r, utf8_params st ps = Ok r) <->
  Forall ugood ps /\ slot (us_length_set st) (count is_ulen ps) /\
  slot (us_serde_set st) (count is_userde ps) /\ slot (us_rocket_set st) (count is_urocket ps).
Proof.
  induction ps as [|p ps IH]; intros st.
  - split; [|intros _; eexists; reflexivity]. intros _. unfold slot. cbn.
    destruct (us_length_set st), (us_serde_set st), (us_rocket_set st); repeat split; auto.
  - rewrite !count_cons. cbn [utf8_params]. split.
    + intros [r H]. destruct (utf8_handler st p) as [st'| |] eqn:E; cbn [obind] in H; try discriminate.
      destruct (proj1 (IH st') (ex_intro _ r H)) as (G & S1 & S2 & S3).
      destruct p as [q|q|ok|ok|]; cbn [utf8_handler] in E; cbn [is_ulen is_userde is_urocket Nat.add].
      * destruct (length_from_meta q) as [l| |] eqn:El; cbn [obind] in E; try discriminate.
        destruct (us_length_set st) eqn:Es; [discriminate|]. injection E as <-. cbn in S1, S2, S3.
        split; [constructor; [exists l; exact El|exact G]|auto].
      * destruct (length_from_meta q) as [l| |] eqn:El; cbn [obind] in E; try discriminate.
        destruct (us_length_set st) eqn:Es; [discriminate|]. injection E as <-. cbn in S1, S2, S3.
        split; [constructor; [exists l; exact El|exact G]|auto].
      * destruct ok; [|discriminate]. destruct (us_serde_set st) eqn:Es; [discriminate|].
        injection E as <-. cbn in S1, S2, S3. split; [constructor; [reflexivity|exact G]|auto].
      * destruct ok; [|discriminate]. destruct (us_rocket_set st) eqn:Es; [discriminate|].
        injection E as <-. cbn in S1, S2, S3. split; [constructor; [reflexivity|exact G]|auto].
      * discriminate.
    + intros (G & S1 & S2 & S3). inversion G as [|? ? G1 G2]; subst.
      destruct p as [q|q|ok|ok|]; cbn [utf8_handler]; cbn [ugood] in G1;
        cbn [is_ulen is_userde is_urocket Nat.add] in S1, S2, S3.
      * destruct G1 as [l El]. rewrite El. cbn [obind]. apply slot_cons in S1. destruct S1 as [-> S1].
        apply IH. auto.
      * destruct G1 as [l El]. rewrite El. cbn [obind]. apply slot_cons in S1. destruct S1 as [-> S1].
        apply IH. auto.
      * subst ok. apply slot_cons in S2. destruct S2 as [-> S2]. apply IH. auto.
      * subst ok. apply slot_cons in S3. destruct S3 as [-> S3]. apply IH. auto.
      * destruct G1.
Qed.

Lemma utf8_accepts_lemma : forall ps,
  (exists r, utf8_attribute (Some ps) = Ok r) <->
  Forall ugood ps /\
  (count is_ulen ps <= 1 /\ count is_userde ps <= 1 /\ count is_urocket ps <= 1)%nat.
Proof.
  intros ps. unfold utf8_attribute.
  pose proof (utf8_loop_exact ps (mk_ustate None false false false)) as H. cbn in H.
  unfold slot in H. cbn in H. rewrite <- H. split.
  - intros [r E]. destruct (utf8_params _ ps) as [st| |]; try discriminate. eexists; reflexivity.
  - intros [r E]. rewrite E. eexists; reflexivity.
Qed.

(** Collection-length attributes. *)
Lemma coll_loop_exact : forall ps st,
  (exists r, coll_params st ps = Ok r) <->
  Forall cgood ps /\ slot (cs_min_set st) (count is_cmin ps) /\
  slot (cs_max_set st) (count is_cmax ps) /\ slot (cs_serde_set st) (count is_cserde ps).
Proof.
  induction ps as [|p ps IH]; intros st.
  - split; [|intros _; eexists; reflexivity]. intros _. unfold slot. cbn.
    destruct (cs_min_set st), (cs_max_set st), (cs_serde_set st); repeat split; auto.
  - rewrite !count_cons. cbn [coll_params]. split.
    + intros [r H]. destruct (coll_handler st p) as [st'| |] eqn:E; cbn [obind] in H; try discriminate.
      destruct (proj1 (IH st') (ex_intro _ r H)) as (G & S1 & S2 & S3).
      destruct p as [[v|]|[v|]|ok|]; cbn [coll_handler] in E; cbn [is_cmin is_cmax is_cserde Nat.add];
        try discriminate.
      * destruct (cs_min_set st) eqn:Es; [discriminate|]. injection E as <-. cbn in S1, S2, S3.
        split; [constructor; [discriminate|exact G]|auto].
      * destruct (cs_max_set st) eqn:Es; [discriminate|]. injection E as <-. cbn in S1, S2, S3.
        split; [constructor; [discriminate|exact G]|auto].
      * destruct ok; [|discriminate]. destruct (cs_serde_set st) eqn:Es; [discriminate|].
        injection E as <-. cbn in S1, S2, S3. split; [constructor; [reflexivity|exact G]|auto].
    + intros (G & S1 & S2 & S3). inversion G as [|? ? G1 G2]; subst.
      destruct p as [[v|]|[v|]|ok|]; cbn [coll_handler]; cbn [cgood] in G1; try congruence; try contradiction;
        cbn [is_cmin is_cmax is_cserde Nat.add] in S1, S2, S3.
      * apply slot_cons in S1. destruct S1 as [-> S1]. apply IH. auto.
      * apply slot_cons in S2. destruct S2 as [-> S2]. apply IH. auto.
      * subst ok. apply slot_cons in S3. destruct S3 as [-> S3]. apply IH. auto.
Qed.

Lemma coll_params_result : forall ps st r, coll_params st ps = Ok r ->
  (count is_cmin ps = 0 /\ cs_min r = cs_min st \/
   count is_cmin ps = 1 /\ exists v, In (CMin (Some v)) ps /\ cs_min r = Some v)%nat /\
  (count is_cmax ps = 0 /\ cs_max r = cs_max st \/
   count is_cmax ps = 1 /\ exists v, In (CMax (Some v)) ps /\ cs_max r = Some v)%nat.
Proof.
  induction ps as [|p ps IH]; intros st r H; cbn [coll_params] in H.
  - injection H as <-. unfold count. cbn. auto.
  - destruct (coll_handler st p) as [st'| |] eqn:E; cbn [obind] in H; try discriminate.
    pose proof (proj1 (coll_loop_exact ps st') (ex_intro _ r H)) as (_ & S1 & S2 & _).
    apply IH in H. destruct H as [H1 H2]. rewrite !count_cons.
    destruct p as [[v|]|[v|]|ok|]; cbn [coll_handler] in E; cbn [is_cmin is_cmax Nat.add]; try discriminate.
    + destruct (cs_min_set st); [discriminate|]. injection E as <-. cbn in *. unfold slot in *. cbn in *.
      split.
      * right. destruct H1 as [(-> & ->)|(C & _)]; [|lia]. split; [reflexivity|]. exists v. auto.
      * destruct H2 as [(C & A)|(C & w & Hw & A)]; [left; auto|right]. split; [exact C|]. exists w. auto.
    + destruct (cs_max_set st); [discriminate|]. injection E as <-. cbn in *. unfold slot in *. cbn in *.
      split.
      * destruct H1 as [(C & A)|(C & w & Hw & A)]; [left; auto|right]. split; [exact C|]. exists w. auto.
      * right. destruct H2 as [(-> & ->)|(C & _)]; [|lia]. split; [reflexivity|]. exists v. auto.
    + destruct ok; [|discriminate]. destruct (cs_serde_set st); [discriminate|]. injection E as <-. cbn in *.
      split.
      * destruct H1 as [(C & A)|(C & w & Hw & A)]; [left; auto|right]. split; [exact C|]. exists w. auto.
      * destruct H2 as [(C & A)|(C & w & Hw & A)]; [left; auto|right]. split; [exact C|]. exists w. auto.
Qed.

(** Exactly when a collection-length attribute is accepted, and with which bounds. *)
Lemma coll_exact_lemma : forall ps mn mx,
  coll_attribute (Some ps) = Ok (mn, mx) <->
  Forall cgood ps /\
  (count is_cmin ps <= 1 /\ count is_cmax ps <= 1 /\ count is_cserde ps <= 1)%nat /\
  (forall a, mn = Some a <-> In (CMin (Some a)) ps) /\
  (forall b, mx = Some b <-> In (CMax (Some b)) ps) /\
  (forall a b, mn = Some a -> mx = Some b -> a <= b)%N.
Proof.
  intros ps mn mx. unfold coll_attribute.
  set (s0 := mk_cstate None None false false false).
  assert (V : forall st, coll_params s0 ps = Ok st ->
    (forall a, cs_min st = Some a <-> In (CMin (Some a)) ps) /\
    (forall b, cs_max st = Some b <-> In (CMax (Some b)) ps)).
  { intros st E. apply coll_params_result in E. cbn in E. destruct E as [H1 H2]. split.
    - intros a. destruct H1 as [(C & ->)|(C & v & Iv & ->)]; split; intros Ha.
      + discriminate.
      + exfalso. exact (count_zero _ is_cmin (CMin (Some a)) _ C eq_refl Ha).
      + injection Ha as <-. exact Iv.
      + pose proof (count_one _ is_cmin (CMin (Some a)) (CMin (Some v)) _ C eq_refl eq_refl Ha Iv). congruence.
    - intros a. destruct H2 as [(C & ->)|(C & v & Iv & ->)]; split; intros Ha.
      + discriminate.
      + exfalso. exact (count_zero _ is_cmax (CMax (Some a)) _ C eq_refl Ha).
      + injection Ha as <-. exact Iv.
      + pose proof (count_one _ is_cmax (CMax (Some a)) (CMax (Some v)) _ C eq_refl eq_refl Ha Iv). congruence. }
  split.
  - destruct (coll_params s0 ps) as [st| |] eqn:E; cbn [obind]; try discriminate. intros H.
    pose proof (proj1 (coll_loop_exact ps s0) (ex_intro _ st E)) as (G & S1 & S2 & S3).
    destruct (V st eq_refl) as [V1 V2].
    assert (X : mn = cs_min st /\ mx = cs_max st /\
                (forall a b, mn = Some a -> mx = Some b -> a <= b)%N).
    { destruct (cs_min st) as [a|], (cs_max st) as [b|];
        try (injection H as <- <-; split; [reflexivity|split; [reflexivity|intros; discriminate]]).
      destruct (N.ltb_spec b a); [discriminate|]. injection H as <- <-.
      split; [reflexivity|split; [reflexivity|]]. intros x y Hx Hy. injection Hx as <-. injection Hy as <-. assumption. }
    destruct X as (-> & -> & X). split; [exact G|]. split; [split; [exact S1|split; [exact S2|exact S3]]|]. auto.
  - intros (G & (C1 & C2 & C3) & V1 & V2 & O).
    destruct (proj2 (coll_loop_exact ps s0) (conj G (conj C1 (conj C2 C3)))) as [st E].
    rewrite E. cbn [obind]. destruct (V st E) as [W1 W2].
    assert (M : cs_min st = mn).
    { destruct mn as [a|]; [apply W1, V1; reflexivity|]. destruct (cs_min st) as [a|] eqn:Ea; [|reflexivity].
      exfalso. pose proof (proj2 (V1 a) (proj1 (W1 a) eq_refl)). discriminate. }
    assert (M' : cs_max st = mx).
    { destruct mx as [a|]; [apply W2, V2; reflexivity|]. destruct (cs_max st) as [a|] eqn:Ea; [|reflexivity].
      exfalso. pose proof (proj2 (V2 a) (proj1 (W2 a) eq_refl)). discriminate. }
    rewrite M, M'. destruct mn as [a|], mx as [b|]; try reflexivity.
    specialize (O a b eq_refl eq_refl). destruct (N.ltb_spec b a); [lia|reflexivity].
Qed.
