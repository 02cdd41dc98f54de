(** Every [build_from_meta]: accepted exactly when well written, with the values written. *)
From Verif Require Import Base RangeModel LengthModel MacModel PhoneModel PhoneProofs MetaModel MetaSpec MetaProofs.
Local Open Scope N_scope.

Lemma in_cons_all : forall A (P : A -> Prop) a l, (forall x, In x (a :: l) -> P x) <-> P a /\ (forall x, In x l -> P x).
Proof.
  intros A P a l. split.
  - intros H. split; [apply H; left; reflexivity|]. intros x Hx. apply H. right. exact Hx.
  - intros [H1 H2] x [<-|Hx]; auto.
Qed.
Lemma in_nil_all : forall A (P : A -> Prop), (forall x, In x [] -> P x) <-> True.
Proof. intros A P. split; [intros; exact I|intros _ x []]. Qed.

(** Extensionality of a table, as a tactic. *)
Ltac table_ext :=
  let H := fresh "H" in
  intros [] [] H; unfold opts_params in H; repeat (rewrite in_cons_all in H);
  repeat match goal with o : opts |- _ => destruct o end; cbn in H;
  repeat match type of H with _ /\ _ => let E := fresh in destruct H as [E H] end; congruence.

Ltac good_tac :=
  split; [apply distinct_nodup; reflexivity|];
  split;
  [ let p := fresh "p" in let H := fresh "H" in
    intros p H; repeat (destruct H as [<-|H]; [intros ? ?; reflexivity|]); destruct H
  | split;
    [ let p := fresh "p" in let q := fresh "q" in let H := fresh "H" in let K := fresh "K" in
      intros p q H K;
      repeat (destruct H as [<-|H];
              [repeat (destruct K as [<-|K];
                       [let N := fresh in intros N ? ?; first [reflexivity|exfalso; apply N; reflexivity]|]);
               destruct K|]);
      destruct H
    | table_ext ] ].

Section F.
Variable f : features.

Lemma opts_effects : forall St (get : St -> opts) set ms d a,
  (forall p, In p (opts_params f get set) -> effect ms d a p) <->
  value ms (bs "serde") (serde_written f) (o_serde (get d)) (o_serde (get a)) /\
  value ms (bs "rocket") (rocket_written f) (o_rocket (get d)) (o_rocket (get a)).
Proof.
  intros St get set ms d a. unfold opts_params. rewrite !in_cons_all, in_nil_all.
  rewrite (effect_value St (mk_param (bs "serde") _ _ _ _) (serde_written f)) by apply serde_spec.
  rewrite (effect_value St (mk_param (bs "rocket") _ _ _ _) (rocket_written f)) by apply rocket_spec.
  cbn [p_get p_name]. tauto.
Qed.


Ltac eff n W sp := rewrite (effect_value _ (mk_param n _ _ _ _) W) by (cbn [p_read]; apply sp).
Ltac table :=
  rewrite build_ok by good_tac; apply Morphisms_Prop.ex_iff_morphism; intros ms;
  cbn [List.map p_name opts_params]; unfold opts_params; rewrite !in_cons_all, in_nil_all;
  eff (bs "serde") (serde_written f) serde_spec; eff (bs "rocket") (rocket_written f) rocket_spec;
  unfold opts_written.
Ltac done := cbn [p_get p_name]; tauto.

Lemma basic_lemma : forall m a,
  basic_attribute f m = Ok a <->
  exists ms, arguments m ms /\ well_named [bs "serde"; bs "rocket"] ms /\ opts_written f ms a.
Proof. intros m a. unfold basic_attribute. table. done. Qed.

Lemma base_lemma : forall m a,
  base_attribute f m = Ok a <->
  exists ms, arguments m ms /\ well_named [bs "padding"; bs "serde"; bs "rocket"] ms /\
    value ms (bs "padding") tri_written Allow (ba_padding a) /\ opts_written f ms (ba_opts a).
Proof. intros m a. unfold base_attribute. table. eff (bs "padding") tri_written tri_spec. done. Qed.

Lemma http_lemma : forall m a,
  http_attribute f m = Ok a <->
  exists ms, arguments m ms /\ well_named [bs "local"; bs "serde"; bs "rocket"] ms /\
    value ms (bs "local") tri_written Allow (ua_local a) /\ opts_written f ms (ua_opts a).
Proof. intros m a. unfold http_attribute. table. eff (bs "local") tri_written tri_spec. done. Qed.

Lemma ip_lemma : forall m a,
  ip_attribute f m = Ok a <->
  exists ms, arguments m ms /\ well_named [bs "local"; bs "port"; bs "serde"; bs "rocket"] ms /\
    value ms (bs "local") tri_written Allow (ia_local a) /\
    value ms (bs "port") tri_written Allow (ia_port a) /\ opts_written f ms (ia_opts a).
Proof.
  intros m a. unfold ip_attribute. table. eff (bs "local") tri_written tri_spec. eff (bs "port") tri_written tri_spec.
  done.
Qed.

Lemma host_lemma : forall m a,
  host_attribute f m = Ok a <->
  exists ms, arguments m ms /\
    well_named [bs "local"; bs "port"; bs "at_least_two_labels"; bs "serde"; bs "rocket"] ms /\
    value ms (bs "local") tri_written Allow (ha_local a) /\
    value ms (bs "port") tri_written Allow (ha_port a) /\
    value ms (bs "at_least_two_labels") tri_written Allow (ha_two a) /\ opts_written f ms (ha_opts a).
Proof.
  intros m a. unfold host_attribute. table. eff (bs "local") tri_written tri_spec. eff (bs "port") tri_written tri_spec.
  eff (bs "at_least_two_labels") tri_written tri_spec. done.
Qed.

Lemma domain_lemma : forall m a,
  domain_attribute f m = Ok a <->
  exists ms, arguments m ms /\
    well_named [bs "ipv4"; bs "local"; bs "port"; bs "at_least_two_labels"; bs "conflict"; bs "serde"; bs "rocket"] ms /\
    value ms (bs "ipv4") tri_written Allow (da_ipv4 a) /\
    value ms (bs "local") tri_written Allow (da_local a) /\
    value ms (bs "port") tri_written Allow (da_port a) /\
    value ms (bs "at_least_two_labels") tri_written Allow (da_two a) /\
    value ms (bs "conflict") allow_written false (da_conflict a) /\ opts_written f ms (da_opts a).
Proof.
  intros m a. unfold domain_attribute. table. eff (bs "ipv4") tri_written tri_spec.
  eff (bs "local") tri_written tri_spec. eff (bs "port") tri_written tri_spec.
  eff (bs "at_least_two_labels") tri_written tri_spec. eff (bs "conflict") allow_written allow_spec. done.
Qed.

Lemma email_lemma : forall m a,
  email_attribute f m = Ok a <->
  exists ms, arguments m ms /\
    well_named [bs "comment"; bs "ip"; bs "local"; bs "at_least_two_labels"; bs "non_ascii"; bs "conflict";
                bs "serde"; bs "rocket"] ms /\
    value ms (bs "comment") allow_written true (ea_comment a) /\
    value ms (bs "ip") tri_written Allow (ea_ip a) /\
    value ms (bs "local") tri_written Allow (ea_local a) /\
    value ms (bs "at_least_two_labels") tri_written Allow (ea_two a) /\
    value ms (bs "non_ascii") allow_written true (ea_non_ascii a) /\
    value ms (bs "conflict") allow_written false (ea_conflict a) /\ opts_written f ms (ea_opts a).
Proof.
  intros m a. unfold email_attribute. table. eff (bs "comment") allow_written allow_spec.
  eff (bs "ip") tri_written tri_spec. eff (bs "local") tri_written tri_spec.
  eff (bs "at_least_two_labels") tri_written tri_spec. eff (bs "non_ascii") allow_written allow_spec.
  eff (bs "conflict") allow_written allow_spec. done.
Qed.

Lemma hex_lemma : forall c m a,
  hex_attribute c f m = Ok a <->
  exists ms, arguments m ms /\ well_named [bs "case"; bs "separator"; bs "serde"; bs "rocket"] ms /\
    value ms (bs "case") case_written AnyCase (xa_case a) /\
    value ms (bs "separator") sep_written (SepAllow c) (xa_sep a) /\ opts_written f ms (xa_opts a).
Proof.
  intros c m a. unfold hex_attribute. table. eff (bs "case") case_written case_spec.
  eff (bs "separator") sep_written sep_spec. done.
Qed.

(** *** Ranges *)
Section Ranges.
Context {T : Type}.
Variable from_str : list N -> option T.
Variables ltb leb : T -> T -> bool.

(** The three parameters of a range as a table. *)
Definition range_table : list (param (range T)) :=
  [ mk_param (bs "min") (option T) (fun m => omap Some (meta_2_number from_str m))
      (fun v s => mk_range v (r_max s) (r_incl s)) r_min;
    mk_param (bs "max") (option T) (fun m => omap Some (meta_2_number from_str m))
      (fun v s => mk_range (r_min s) v (r_incl s)) r_max;
    mk_param (bs "inclusive") bool meta_2_bool
      (fun v s => mk_range (r_min s) (r_max s) v) r_incl ].

Definition range_of (st : rstate T) : range T := mk_range (st_min st) (st_max st) (st_incl st).

Lemma is_set_cons : forall i flags j, is_set (i :: flags) j = eqbs j i || is_set flags j.
Proof. reflexivity. Qed.

Lemma range_sim : forall ms flags st,
  st_min_set st = is_set flags (bs "min") -> st_max_set st = is_set flags (bs "max") ->
  st_incl_set st = is_set flags (bs "inclusive") ->
  match range_params T st (List.map (rparam_of_meta from_str) ms) with
  | Ok st' => attr_loop range_table flags (range_of st) ms = Ok (range_of st')
  | _ => forall r, attr_loop range_table flags (range_of st) ms <> Ok r
  end.
Proof.
  induction ms as [|m ms IH]; intros flags st F1 F2 F3; [reflexivity|].
  cbn [List.map range_params attr_loop]. unfold rparam_of_meta at 1.
  destruct (get_ident (meta_path m)) as [i|]; [|cbn; discriminate].
  unfold range_table. cbn [find p_name]. fold range_table.
  destruct (eqbs i (bs "min")) eqn:E1; [|destruct (eqbs i (bs "max")) eqn:E2; [|destruct (eqbs i (bs "inclusive")) eqn:E3]].
  - apply str_eqb_eq in E1. subst i. cbn [p_read p_set range_handler]. unfold number_opt.
    destruct (meta_2_number from_str m) as [v|e|]; cbn [omap obind]; try discriminate.
    rewrite F1. destruct (is_set flags (bs "min")); cbn [obind]; [discriminate|].
    refine (IH (bs "min" :: flags) (mk_rstate (Some v) (st_max st) (st_incl st) true (st_max_set st) (st_incl_set st)) _ _ _); cbn; rewrite ?F2, ?F3; reflexivity.
  - apply str_eqb_eq in E2. subst i. cbn [p_read p_set range_handler]. unfold number_opt.
    destruct (meta_2_number from_str m) as [v|e|]; cbn [omap obind]; try discriminate.
    rewrite F2. destruct (is_set flags (bs "max")); cbn [obind]; [discriminate|].
    refine (IH (bs "max" :: flags) (mk_rstate (st_min st) (Some v) (st_incl st) (st_min_set st) true (st_incl_set st)) _ _ _); cbn; rewrite ?F1, ?F3; reflexivity.
  - apply str_eqb_eq in E3. subst i. cbn [p_read p_set range_handler].
    destruct (meta_2_bool m) as [v|e|]; cbn [omap obind]; try discriminate.
    rewrite F3. destruct (is_set flags (bs "inclusive")); cbn [obind]; [discriminate|].
    refine (IH (bs "inclusive" :: flags) (mk_rstate (st_min st) (st_max st) v (st_min_set st) (st_max_set st) true) _ _ _); cbn; rewrite ?F1, ?F2; reflexivity.
  - cbn. discriminate.
Qed.

Lemma omap_some_spec : forall (W : meta -> T -> Prop) (g : meta -> outcome macro_err T),
  (forall m v, g m = Ok v <-> W m v) ->
  forall m v, omap Some (g m) = Ok v <-> exists x, W m x /\ v = Some x.
Proof.
  intros W g H m v. split.
  - destruct (g m) as [x| |] eqn:E; cbn [omap]; try discriminate. intros X. injection X as <-.
    exists x. split; [apply H, E|reflexivity].
  - intros (x & HW & ->). apply H in HW. rewrite HW. reflexivity.
Qed.

Definition opt_num (m : meta) (v : option T) : Prop := exists x, num_written from_str m x /\ v = Some x.

Lemma range_check_spec : forall mn mx i (r : range T),
  range_check T ltb leb mn mx i = Ok r <->
  r = mk_range mn mx i /\
  (forall a b, r_min r = Some a -> r_max r = Some b -> if r_incl r then ltb b a = false else leb b a = false).
Proof.
  intros mn mx i r. unfold range_check. split.
  - intros H. assert (R : r = mk_range mn mx i).
    { destruct mn as [a|], mx as [b|], i; try (injection H as <-; reflexivity).
      - destruct (ltb b a); [discriminate|injection H as <-; reflexivity].
      - destruct (leb b a); [discriminate|injection H as <-; reflexivity]. }
    split; [exact R|]. subst r. cbn [r_min r_max r_incl]. intros a b -> ->.
    destruct i; [destruct (ltb b a)|destruct (leb b a)]; [discriminate|reflexivity|discriminate|reflexivity].
  - intros [-> H]. cbn [r_min r_max r_incl] in H. destruct mn as [a|], mx as [b|]; try (destruct i; reflexivity).
    specialize (H a b eq_refl eq_refl). destruct i; rewrite H; reflexivity.
Qed.

Lemma bound_spec : forall b v, read_bound T (lit_bound_of from_str b) = Ok v <-> bound_written from_str b v.
Proof.
  intros b v. unfold lit_bound_of, bound_written. destruct b as [[l|]|]; cbn [read_bound].
  - destruct (lit_2_number from_str l) as [x| |] eqn:E.
    + apply (lit_num_spec from_str) in E. destruct E as (d & Hd & E). split.
      * intros H. injection H as <-. exists d, x. auto.
      * intros (d' & x' & Hd' & E' & ->). f_equal. f_equal.
        assert (d = d') by (destruct Hd, Hd'; congruence). subst d'. congruence.
    + split; [discriminate|]. intros (d & x & Hd & E' & _).
      assert (L : lit_2_number from_str l = Ok x) by (apply lit_num_spec; eauto). congruence.
    + split; [discriminate|]. intros (d & x & Hd & E' & _).
      assert (L : lit_2_number from_str l = Ok x) by (apply lit_num_spec; eauto). congruence.
  - split; [discriminate|intros []].
  - split; [intros H; injection H as <-; reflexivity|intros ->; reflexivity].
Qed.

Lemma expr_range_spec : forall rg r,
  from_expr_range T (expr_range_of from_str rg) = Ok r <->
  bound_written from_str (re_start rg) (r_min r) /\ bound_written from_str (re_end rg) (r_max r) /\
  (r_incl r = true <-> re_end rg = None \/ re_half_open rg = false).
Proof.
  intros rg r. unfold from_expr_range, expr_range_of. cbn [e_start e_end e_half_open].
  rewrite <- !bound_spec. split.
  - destruct (read_bound T (lit_bound_of from_str (re_start rg))) as [mn| |]; cbn [obind]; try discriminate.
    destruct (read_bound T (lit_bound_of from_str (re_end rg))) as [mx| |]; cbn [obind]; try discriminate.
    intros H. injection H as <-. cbn [r_min r_max r_incl]. split; [reflexivity|]. split; [reflexivity|].
    unfold lit_bound_of. destruct (re_end rg) as [[l|]|]; destruct (re_half_open rg); cbn [negb]; split; auto;
      intros [?|?]; try discriminate; auto.
  - intros (-> & -> & H). cbn [obind]. destruct r as [mn mx i]. cbn [r_min r_max r_incl] in *. do 2 f_equal.
    unfold lit_bound_of. destruct (re_end rg) as [[l|]|]; destruct (re_half_open rg); cbn [negb]; destruct i; auto;
      try (destruct (proj1 H eq_refl); discriminate); try (symmetry; apply H; auto).
Qed.

Lemma range_meta_spec : forall m r,
  range_meta from_str ltb leb f m = Ok r <-> range_written from_str ltb leb (f_full f) m r.
Proof.
  intros m r. unfold range_meta, range_written.
  assert (X : forall x, omap_err XAttr x = Ok r <-> x = Ok r)
    by (intros [| |]; cbn; split; intros H; inversion H; reflexivity).
  rewrite X. clear X. destruct m as [p|p e|p items tr]; cbn [rmeta_of range_from_meta].
  - split; [discriminate|]. intros [(q & rg & _ & [H|H] & _)|(q & i & t & ms & H & _)]; discriminate.
  - split.
    + destruct e as [| | | |rg|]; cbn [range_from_meta]; destruct (f_full f); try discriminate. intros H. apply expr_range_spec in H.
      left. exists p, rg. auto.
    + intros [(q & rg & -> & [H|H] & H2)|(q & i & t & ms & H & _)]; try discriminate.
      injection H as -> ->. apply expr_range_spec. exact H2.
  - destruct (args_range items tr) as [rg|] eqn:Er.
    + apply args_range_spec in Er. destruct Er as [-> ->]. cbn [args_metas all_metas]. destruct (f_full f).
      * rewrite expr_range_spec. split.
        -- intros H. left. exists p, rg. auto.
        -- intros [(q & rg' & _ & [H|H] & H2)|(q & i & t & ms & H & HA & _)]; try discriminate.
           ++ injection H as -> ->. exact H2.
           ++ cbn [arguments] in HA. destruct HA as [HA _]. destruct ms; discriminate.
      * split; [discriminate|].
        intros [(q & rg' & H & _)|(q & i & t & ms & H & HA & _)]; [discriminate|].
        cbn [arguments] in HA. destruct HA as [HA _]. destruct ms; discriminate.
    + transitivity (exists ms, args_metas items tr = Some ms /\
        exists r', attr_loop range_table [] (mk_range None None true) ms = Ok r' /\
                   range_check T ltb leb (r_min r') (r_max r') (r_incl r') = Ok r).
      { assert (Y : (if f_full f then @None (expr_range T) else None) = None) by (destruct (f_full f); reflexivity).
        assert (Z : match f_full f with true => None | false => None end = @None (expr_range T)) by exact Y.
        destruct (args_metas items tr) as [ms|].
        - pose proof (range_sim ms [] (rstate0 T) eq_refl eq_refl eq_refl) as S.
          destruct (range_params T (rstate0 T) (map (rparam_of_meta from_str) ms)) as [st'|e|] eqn:E.
          + destruct (f_full f); cbn [obind]; (split;
              [intros H; exists ms; split; [reflexivity|]; exists (range_of st'); split; [exact S|exact H]|
               intros (ms' & H1 & r' & H2 & H3); injection H1 as <-;
               change (range_of (rstate0 T)) with (mk_range (@None T) None true) in S;
               rewrite S in H2; injection H2 as <-; exact H3]).
          + destruct (f_full f); cbn [obind]; (split; [discriminate|]);
              intros (ms' & H1 & r' & H2 & H3); injection H1 as <-; exfalso; exact (S r' H2).
          + destruct (f_full f); cbn [obind]; (split; [discriminate|]);
              intros (ms' & H1 & r' & H2 & H3); injection H1 as <-; exfalso; exact (S r' H2).
        - destruct (f_full f); (split; [discriminate|]); intros (ms' & H1 & _); discriminate. }
      split.
      * intros (ms & H1 & r' & H2 & H3). apply range_check_spec in H3. destruct H3 as [-> H3].
        right. exists p, items, tr, ms. split; [reflexivity|]. apply args_metas_spec in H1.
        split; [exact H1|].
        assert (G : good_table range_table) by (unfold range_table; good_tac).
        apply (loop_ok _ _ G) in H2. destruct H2 as [(used & F & ND & IN & _) EF].
        split; [exists used; auto|]. unfold range_table in EF. rewrite !in_cons_all in EF.
        rewrite (effect_value _ (mk_param (bs "min") _ _ _ _) opt_num) in EF by (cbn [p_read p_ty]; apply omap_some_spec, num_spec).
        rewrite (effect_value _ (mk_param (bs "max") _ _ _ _) opt_num) in EF by (cbn [p_read p_ty]; apply omap_some_spec, num_spec).
        rewrite (effect_value _ (mk_param (bs "inclusive") _ _ _ _) bool_written) in EF by (cbn [p_read p_ty]; apply bool_spec).
        destruct EF as (E1 & E2 & E3 & _).
        destruct r'. repeat split; assumption.
      * intros [(q & rg & _ & [H|H] & _)|(q & i & t & ms & H & HA & HN & V1 & V2 & V3 & HC)]; try discriminate.
        { injection H as -> -> ->. cbn in Er. discriminate. }
        injection H as <- <- <-. exists ms. split; [apply args_metas_spec; exact HA|]. exists r.
        assert (G : good_table range_table) by (unfold range_table; good_tac). split.
        -- apply (loop_ok _ _ G). destruct HN as (used & F & ND & IN). split; [exists used; auto|].
           unfold range_table. rewrite !in_cons_all. split; [|split; [|split; [|intros ? []]]].
           ++ rewrite (effect_value _ (mk_param (bs "min") _ _ _ _) opt_num) by (cbn [p_read p_ty]; apply omap_some_spec, num_spec).
              exact V1.
           ++ rewrite (effect_value _ (mk_param (bs "max") _ _ _ _) opt_num) by (cbn [p_read p_ty]; apply omap_some_spec, num_spec).
              exact V2.
           ++ rewrite (effect_value _ (mk_param (bs "inclusive") _ _ _ _) bool_written) by (cbn [p_read p_ty]; apply bool_spec).
              exact V3.
        -- apply range_check_spec. split; [destruct r; reflexivity|exact HC].
Qed.

Lemma range_option_spec : forall m v,
  range_option_meta from_str ltb leb f m = Ok v <-> range_option_written from_str ltb leb (f_full f) m v.
Proof.
  intros m v. unfold range_option_meta, range_option_written.
  assert (X : forall a mk r, omap_err XAttr (let? r := range_from_meta T ltb leb (f_full f) (rmeta_of from_str a) in
                                        Ok (mk r)) = Ok r ->
                  exists x, range_meta from_str ltb leb f a = Ok x /\ r = mk x :> range_option T).
  { intros a mk r. unfold range_meta. destruct (range_from_meta T ltb leb (f_full f) (rmeta_of from_str a)) as [x| |];
      cbn; try discriminate. intros H. injection H as <-. eauto. }
  split.
  - destruct m as [p|p e|p items tr]; try discriminate.
    destruct (args_meta items tr) as [a|] eqn:E; [|discriminate]. apply args_meta_spec in E. destruct E as [-> ->].
    destruct (get_ident (meta_path a)) as [i|] eqn:Ei; [|discriminate]. apply get_ident_spec in Ei.
    intros H. exists p, a. split; [reflexivity|]. revert H.
    destruct (eqbs i (bs "Inside")) eqn:E1; [|destruct (eqbs i (bs "Outside")) eqn:E2; [|destruct (eqbs i (bs "Unlimited")) eqn:E3]].
    + apply str_eqb_eq in E1. subst i. intros H. cbn [range_option_from_meta] in H. apply X in H.
      destruct H as (x & H & ->). apply range_meta_spec in H. destruct x. split; [exact Ei|exact H].
    + apply str_eqb_eq in E2. subst i. intros H. cbn [range_option_from_meta] in H. apply X in H.
      destruct H as (x & H & ->). apply range_meta_spec in H. destruct x. split; [exact Ei|exact H].
    + apply str_eqb_eq in E3. subst i. intros H. injection H as <-. exact Ei.
    + discriminate.
  - intros (p & a & -> & H). cbn [args_meta]. destruct v as [mn mx i|mn mx i|].
    + destruct H as [Hn H]. unfold named in Hn. rewrite Hn. cbn [get_ident]. rewrite str_eqb_refl.
      apply range_meta_spec in H. unfold range_meta in H. cbn [range_option_from_meta].
      destruct (range_from_meta T ltb leb (f_full f) (rmeta_of from_str a)) as [x| |]; try discriminate.
      cbn in *. injection H as ->. reflexivity.
    + destruct H as [Hn H]. unfold named in Hn. rewrite Hn. cbn [get_ident].
      replace (eqbs (bs "Outside") (bs "Inside")) with false by reflexivity. rewrite str_eqb_refl.
      apply range_meta_spec in H. unfold range_meta in H. cbn [range_option_from_meta].
      destruct (range_from_meta T ltb leb (f_full f) (rmeta_of from_str a)) as [x| |]; try discriminate.
      cbn in *. injection H as ->. reflexivity.
    + unfold named in H. rewrite H. reflexivity.
Qed.

Lemma range_lemma : forall m (a : range_attr T),
  range_attribute from_str ltb leb f m = Ok a <->
  exists ms, arguments m ms /\ well_named [bs "range"; bs "serde"; bs "rocket"] ms /\
    value ms (bs "range") (range_option_written from_str ltb leb (f_full f)) Unlimited (ra_range a) /\
    opts_written f ms (ra_opts a).
Proof.
  intros m a. unfold range_attribute. table.
  eff (bs "range") (range_option_written from_str ltb leb (f_full f)) range_option_spec. done.
Qed.

Lemma number_lemma : forall m (a : number_attr T),
  number_attribute from_str ltb leb f m = Ok a <->
  exists ms, arguments m ms /\ well_named [bs "range"; bs "nan"; bs "conflict"; bs "serde"; bs "rocket"] ms /\
    value ms (bs "range") (range_option_written from_str ltb leb (f_full f)) Unlimited (na_range a) /\
    value ms (bs "nan") tri_written Allow (na_nan a) /\
    value ms (bs "conflict") allow_written false (na_conflict a) /\
    opts_written f ms (na_opts a).
Proof.
  intros m a. unfold number_attribute. table.
  eff (bs "range") (range_option_written from_str ltb leb (f_full f)) range_option_spec.
  eff (bs "nan") tri_written tri_spec. eff (bs "conflict") allow_written allow_spec. done.
Qed.

Lemma bit_lemma : forall m (a : bit_attr T),
  bit_attribute from_str ltb leb f m = Ok a <->
  exists ms, arguments m ms /\ well_named [bs "range"; bs "serde"; bs "rocket"] ms /\
    value ms (bs "range") (range_written from_str ltb leb (f_full f)) (mk_range None None false) (bi_range a) /\
    opts_written f ms (bi_opts a).
Proof.
  intros m a. unfold bit_attribute. table.
  eff (bs "range") (range_written from_str ltb leb (f_full f)) range_meta_spec. done.
Qed.

Lemma byte_lemma : forall m (a : byte_attr T),
  byte_attribute from_str ltb leb f m = Ok a <->
  exists ms, arguments m ms /\ well_named [bs "range"; bs "ignore_case"; bs "serde"; bs "rocket"] ms /\
    value ms (bs "range") (range_written from_str ltb leb (f_full f)) (mk_range None None false) (by_range a) /\
    value ms (bs "ignore_case") bool_written true (by_ignore_case a) /\
    opts_written f ms (by_opts a).
Proof.
  intros m a. unfold byte_attribute. table.
  eff (bs "range") (range_written from_str ltb leb (f_full f)) range_meta_spec.
  eff (bs "ignore_case") bool_written bool_spec. done.
Qed.
End Ranges.

(** *** Phone *)
Section Phone.
Context {cid : Type}.
Variable id_from_str : list N -> option cid.
Variable cid_eqb : cid -> cid -> bool.
Hypothesis cid_eqb_spec : forall a b, cid_eqb a b = true <-> a = b.

Lemma countries_meta_spec : forall m cs,
  countries_from_meta id_from_str cid_eqb m = Ok cs <-> countries_written id_from_str m cs.
Proof.
  intros m cs. unfold countries_from_meta, countries_written.
  assert (X : forall is cs, meta_2_countries cid cid_eqb id_from_str [] is = Some cs <->
              Forall2 (fun i c => id_from_str i = Some c) is cs /\ NoDup cs).
  { intros is cs'. rewrite (countries_spec cid cid_eqb cid_eqb_spec id_from_str is [] cs' (NoDup_nil _)). cbn [app].
    split.
    - intros (new & -> & H1 & H2). cbn [app] in H2. split; [|exact H2]. clear H2.
      revert new H1. induction is as [|i is IH]; intros [|c new] H1; try discriminate; constructor;
        cbn [List.map] in H1; injection H1 as H1 H3; auto.
    - intros [H1 H2]. exists cs'. split; [reflexivity|]. split; [|exact H2].
      clear H2. induction H1; cbn [List.map]; congruence. }
  split.
  - destruct m as [p|p e|p items tr]; try discriminate.
    destruct (args_idents items tr) as [is|] eqn:E; [|discriminate]. apply args_idents_spec in E.
    destruct E as (E1 & -> & ->). destruct (meta_2_countries cid cid_eqb id_from_str [] is) as [cs'|] eqn:E2; [|discriminate].
    intros H. injection H as <-. exists p, is. apply X in E2. tauto.
  - intros (p & is & H1 & -> & H2 & H3).
    assert (E : args_idents (map (fun i => IMeta (MPath [i])) is) false = Some is) by (apply args_idents_spec; auto).
    rewrite E. assert (E2 : meta_2_countries cid cid_eqb id_from_str [] is = Some cs) by (apply X; auto).
    rewrite E2. reflexivity.
Qed.

Lemma phone_lemma : forall m (a : phone_attr cid),
  phone_attribute id_from_str cid_eqb f m = Ok a <->
  exists ms, arguments m ms /\ well_named [bs "countries"; bs "serde"; bs "rocket"] ms /\
    value ms (bs "countries") (countries_written id_from_str) [] (pa_countries a) /\
    opts_written f ms (pa_opts a).
Proof.
  intros m a. unfold phone_attribute. table.
  eff (bs "countries") (countries_written id_from_str) countries_meta_spec. done.
Qed.
End Phone.

(** *** Regex *)
Section Regex.
Variable compiles : list N -> bool.

Lemma regex_meta_spec : forall m r, regex_from_meta compiles m = Ok r <-> regex_written compiles m r.
Proof.
  intros m r. unfold regex_written.
  assert (L : forall l, lit_2_regex compiles l = Ok r <-> exists s, l = LitStr s /\ compiles s = true /\ r = RePattern s).
  { intros l. unfold lit_2_regex. split.
    - destruct l as [| | | |s|]; try discriminate. destruct (compiles s) eqn:E; [|discriminate].
      intros H. injection H as <-. eauto.
    - intros (s & -> & -> & ->). reflexivity. }
  destruct m as [p|p e|p items tr].
  - cbn [regex_from_meta]. split; [discriminate|]. intros (q & H). destruct r.
    + destruct H as [_ [H|H]]; discriminate.
    + destruct H as [(e & H & _)|(i & H & _)]; discriminate.
  - assert (R : forall q, (exists e', MNameValue p e = MNameValue q e' /\ forall l, e' <> ELit l) \/
                          (exists i, MNameValue p e = MList q [i] false /\ forall l, i <> ILit l) ->
                          forall l, e <> ELit l).
    { intros q [(e' & H & N)|(i & H & _)] l; [injection H as _ ->; apply N|discriminate]. }
    destruct e as [l| | | | |]; cbn [regex_from_meta];
      try (split; [intros H; injection H as <-; exists p; left; eexists; split; [reflexivity|intros ?; discriminate]|];
           intros (q & H); destruct r as [s|]; [destruct H as [_ [H|H]]; discriminate|reflexivity]).
    rewrite L. split.
    + intros (s & -> & Hc & ->). exists p. split; [exact Hc|]. left. reflexivity.
    + intros (q & H). destruct r as [s|].
      * destruct H as [Hc [H|H]]; [injection H as -> ->; eauto|discriminate].
      * exfalso. exact (R q H l eq_refl).
  - assert (NO : (forall i, (items, tr) <> ([i], false)) ->
                 (regex_from_meta compiles (MList p items tr) = Ok r <->
                  exists q, match r with
                            | RePattern s => compiles s = true /\
                                (MList p items tr = MNameValue q (ELit (LitStr s)) \/
                                 MList p items tr = MList q [ILit (LitStr s)] false)
                            | ReExpr => (exists e, MList p items tr = MNameValue q e /\ forall l, e <> ELit l) \/
                                        (exists i, MList p items tr = MList q [i] false /\ forall l, i <> ILit l)
                            end)).
    { intros N. split.
      - destruct items as [|i [|j items]]; [discriminate| |].
        + destruct tr; [|exfalso; exact (N i eq_refl)]. destruct i; discriminate.
        + destruct i; discriminate.
      - intros (q & H). exfalso. destruct r as [s|].
        + destruct H as [_ [H|H]]; [discriminate|]. injection H as _ -> ->. exact (N _ eq_refl).
        + destruct H as [(e & H & _)|(i & H & _)]; [discriminate|]. injection H as _ -> ->. exact (N _ eq_refl). }
    destruct items as [|i [|j items]]; [apply NO; intros ?; discriminate| |apply NO; intros ?; discriminate].
    destruct tr; [apply NO; intros ?; discriminate|]. clear NO.
    destruct i as [m|l|rg|]; cbn [regex_from_meta];
      try (split; [intros H; injection H as <-; exists p; right; eexists; split; [reflexivity|intros ?; discriminate]|];
           intros (q & H); destruct r as [s|]; [destruct H as [_ [H|H]]; discriminate|reflexivity]).
    rewrite L. split.
    + intros (s & -> & Hc & ->). exists p. split; [exact Hc|]. right. reflexivity.
    + intros (q & H). destruct r as [s|].
      * destruct H as [Hc [H|H]]; [discriminate|injection H as -> ->; eauto].
      * exfalso. destruct H as [(e & H & _)|(x & H & N)]; [discriminate|]. injection H as -> <-. exact (N l eq_refl).
Qed.

Lemma regex_lemma : forall m r o,
  regex_attribute compiles f m = Ok (r, o) <->
  exists ms, arguments m ms /\ well_named [bs "regex"; bs "serde"; bs "rocket"] ms /\
    (exists a, In a ms /\ named (bs "regex") a /\ regex_written compiles a r) /\ opts_written f ms o.
Proof.
  intros m r o. unfold regex_attribute.
  transitivity (exists ms, arguments m ms /\ well_named [bs "regex"; bs "serde"; bs "rocket"] ms /\
    value ms (bs "regex") (fun m v => exists x, regex_written compiles m x /\ v = Some x) None (Some r) /\
    opts_written f ms o).
  2:{ apply Morphisms_Prop.ex_iff_morphism. intros ms. unfold value.
      assert (E : ((exists m0, In m0 ms /\ named (bs "regex") m0 /\ (exists x, regex_written compiles m0 x /\ Some r = Some x)) \/
                   (forall m0, In m0 ms -> ~ named (bs "regex") m0) /\ Some r = None) <->
                  exists a, In a ms /\ named (bs "regex") a /\ regex_written compiles a r).
      { split.
        - intros [(a & H1 & H2 & x & H3 & H4)|[_ H]]; [|discriminate]. injection H4 as <-. eauto.
        - intros (a & H1 & H2 & H3). left. exists a. eauto. }
      rewrite E. tauto. }
  match goal with |- obind (build_from_meta ?t ?d m) _ = _ <-> _ =>
    assert (B : forall a, build_from_meta t d m = Ok a <->
      exists ms, arguments m ms /\ well_named [bs "regex"; bs "serde"; bs "rocket"] ms /\
        value ms (bs "regex") (fun m v => exists x, regex_written compiles m x /\ v = Some x) None (ga_regex a) /\
        opts_written f ms (ga_opts a)) end.
  { intros a. table.
    rewrite (effect_value _ (mk_param (bs "regex") _ _ _ _) (fun m v => exists x, regex_written compiles m x /\ v = Some x)).
    2:{ cbn [p_read p_ty]. intros m0 v. split.
        - destruct (regex_from_meta compiles m0) as [x| |] eqn:E; cbn [omap]; try discriminate. intros X. injection X as <-.
          exists x. split; [apply regex_meta_spec, E|reflexivity].
        - intros (x & HW & ->). apply regex_meta_spec in HW. rewrite HW. reflexivity. }
    done. }
  split.
  - match goal with |- obind ?b _ = _ -> _ => destruct b as [a| |] eqn:E; cbn [obind]; try discriminate end.
    pose proof (proj1 (B a) eq_refl) as E'. destruct (ga_regex a) as [x|] eqn:Ex; [|discriminate].
    intros H. injection H as -> <-. exact E'.
  - intros H. pose proof (proj2 (B (mk_regex_attr (Some r) o)) H) as B'. rewrite B'. reflexivity.
Qed.
End Regex.

(** *** Lengths *)
Lemma usize_num_spec : forall m v, omap Some (meta_2_number usize_from_str m) = Ok v <-> usize_written m v.
Proof.
  intros m v. unfold usize_written. apply (omap_some_spec (num_written usize_from_str)). apply num_spec.
Qed.

Lemma coll_lemma : forall m a,
  coll_meta f m = Ok a <->
  exists ms, arguments m ms /\ well_named [bs "min"; bs "max"; bs "serde"] ms /\
    value ms (bs "min") usize_written None (ca_min a) /\
    value ms (bs "max") usize_written None (ca_max a) /\
    value ms (bs "serde") (serde_written f) (true, true) (ca_serde a) /\
    (forall x y, ca_min a = Some x -> ca_max a = Some y -> x <= y).
Proof.
  intros m a. unfold coll_meta.
  match goal with |- obind (build_from_meta ?t ?d m) _ = _ <-> _ =>
    assert (B : forall a, build_from_meta t d m = Ok a <->
      exists ms, arguments m ms /\ well_named [bs "min"; bs "max"; bs "serde"] ms /\
        value ms (bs "min") usize_written None (ca_min a) /\
        value ms (bs "max") usize_written None (ca_max a) /\
        value ms (bs "serde") (serde_written f) (true, true) (ca_serde a)) end.
  { intros b. rewrite build_ok by good_tac. apply Morphisms_Prop.ex_iff_morphism. intros ms.
    cbn [List.map p_name]. rewrite !in_cons_all, in_nil_all.
    eff (bs "min") usize_written usize_num_spec. eff (bs "max") usize_written usize_num_spec.
    eff (bs "serde") (serde_written f) serde_spec. done. }
  split.
  - match goal with |- obind ?b _ = _ -> _ => destruct b as [b'| |] eqn:E; cbn [obind]; try discriminate end.
    pose proof (proj1 (B b') eq_refl) as (ms & H). intros X.
    assert (b' = a /\ forall x y, ca_min b' = Some x -> ca_max b' = Some y -> x <= y) as [<- HC].
    { destruct (ca_min b') as [x|]; [destruct (ca_max b') as [y|]|].
      - destruct (y <? x) eqn:L; [discriminate|]. injection X as <-. apply N.ltb_ge in L.
        split; [reflexivity|]. intros ? ? E1 E2. injection E1 as <-. injection E2 as <-. exact L.
      - injection X as <-. split; [reflexivity|]. discriminate.
      - injection X as <-. split; [reflexivity|]. discriminate. }
    exists ms. tauto.
  - intros (ms & H1 & H2 & H3 & H4 & H5 & HC).
    pose proof (proj2 (B a)) as B'. rewrite B' by (exists ms; auto). cbn [obind].
    destruct (ca_min a) as [x|]; [destruct (ca_max a) as [y|]|]; try reflexivity.
    specialize (HC x y eq_refl eq_refl). apply N.ltb_ge in HC. rewrite HC. reflexivity.
Qed.

(** The three parameters of [char_length(..)] as a table. *)
Definition length_table : list (param len_attr) :=
  [ mk_param (bs "min") (option N) (fun m => omap Some (meta_2_number usize_from_str m))
      (fun v s => mk_len v (l_tmin s) (l_max s)) l_min;
    mk_param (bs "trimmed_min") (option N) (fun m => omap Some (meta_2_number usize_from_str m))
      (fun v s => mk_len (l_min s) v (l_max s)) l_tmin;
    mk_param (bs "max") (option N) (fun m => omap Some (meta_2_number usize_from_str m))
      (fun v s => mk_len (l_min s) (l_tmin s) v) l_max ].

Definition len_of (st : lstate) : len_attr := mk_len (ls_min st) (ls_tmin st) (ls_max st).

Lemma length_sim : forall ms flags st,
  ls_min_set st = is_set flags (bs "min") -> ls_tmin_set st = is_set flags (bs "trimmed_min") ->
  ls_max_set st = is_set flags (bs "max") ->
  match length_params st (List.map lparam_of_meta ms) with
  | Ok st' => attr_loop length_table flags (len_of st) ms = Ok (len_of st')
  | _ => forall r, attr_loop length_table flags (len_of st) ms <> Ok r
  end.
Proof.
  induction ms as [|m ms IH]; intros flags st F1 F2 F3; [reflexivity|].
  cbn [List.map length_params attr_loop]. unfold lparam_of_meta at 1.
  destruct (get_ident (meta_path m)) as [i|]; [|cbn; discriminate].
  unfold length_table. cbn [find p_name]. fold length_table.
  destruct (eqbs i (bs "min")) eqn:E1;
    [|destruct (eqbs i (bs "trimmed_min")) eqn:E2; [|destruct (eqbs i (bs "max")) eqn:E3]].
  - apply str_eqb_eq in E1. subst i. cbn [p_read p_set length_handler]. unfold number_opt.
    destruct (meta_2_number usize_from_str m) as [v|e|]; cbn [omap obind]; try discriminate.
    rewrite F1. destruct (is_set flags (bs "min")); cbn [obind]; [discriminate|].
    refine (IH (bs "min" :: flags) (mk_lstate (Some v) (ls_tmin st) (ls_max st) true (ls_tmin_set st) (ls_max_set st)) _ _ _);
      cbn; rewrite ?F2, ?F3; reflexivity.
  - apply str_eqb_eq in E2. subst i. cbn [p_read p_set length_handler]. unfold number_opt.
    destruct (meta_2_number usize_from_str m) as [v|e|]; cbn [omap obind]; try discriminate.
    rewrite F2. destruct (is_set flags (bs "trimmed_min")); cbn [obind]; [discriminate|].
    refine (IH (bs "trimmed_min" :: flags) (mk_lstate (ls_min st) (Some v) (ls_max st) (ls_min_set st) true (ls_max_set st)) _ _ _);
      cbn; rewrite ?F1, ?F3; reflexivity.
  - apply str_eqb_eq in E3. subst i. cbn [p_read p_set length_handler]. unfold number_opt.
    destruct (meta_2_number usize_from_str m) as [v|e|]; cbn [omap obind]; try discriminate.
    rewrite F3. destruct (is_set flags (bs "max")); cbn [obind]; [discriminate|].
    refine (IH (bs "max" :: flags) (mk_lstate (ls_min st) (ls_tmin st) (Some v) (ls_min_set st) (ls_tmin_set st) true) _ _ _);
      cbn; rewrite ?F1, ?F2; reflexivity.
  - cbn. discriminate.
Qed.

Lemma length_check_spec : forall mn t mx l,
  length_check mn t mx = Ok l <->
  l = mk_len mn t mx /\
  (forall a b, l_tmin l = Some a -> l_min l = Some b -> a <= b) /\
  (forall a b, l_min l = Some a -> l_max l = Some b -> a <= b) /\
  (forall a b, l_tmin l = Some a -> l_max l = Some b -> a <= b).
Proof.
  intros mn t mx l. unfold length_check. split.
  - intros H.
    destruct mn as [mn|], t as [t|], mx as [mx|]; cbn [obind] in H;
      repeat match type of H with context [if ?c then _ else _] =>
        let E := fresh "C" in destruct c eqn:E; cbn [obind] in H; [discriminate|]; apply N.ltb_ge in E end;
      injection H as <-; cbn [l_min l_tmin l_max]; (split; [reflexivity|]);
      (split; [|split]); intros ? ? E1 E2; inversion E1; inversion E2; subst; assumption.
  - intros (-> & H1 & H2 & H3). cbn [l_min l_tmin l_max] in *.
    destruct mn as [mn|], t as [t|], mx as [mx|]; cbn [obind];
      repeat match goal with |- context [if ?c then _ else _] =>
        let E := fresh "C" in destruct c eqn:E; cbn [obind]; [exfalso; apply N.ltb_lt in E|] end;
      try reflexivity;
      try (specialize (H1 _ _ eq_refl eq_refl)); try (specialize (H2 _ _ eq_refl eq_refl));
      try (specialize (H3 _ _ eq_refl eq_refl)); lia.
Qed.

Lemma length_meta_spec : forall m l, length_meta m = Ok l <-> length_written m l.
Proof.
  intros m l. unfold length_meta, length_written. destruct m as [p|p e|p items tr].
  - split; [discriminate|]. intros (q & i & t & ms & H & _). discriminate.
  - split; [discriminate|]. intros (q & i & t & ms & H & _). discriminate.
  - assert (G : good_table length_table) by (unfold length_table; good_tac).
    assert (EFF : forall ms l, (forall p, In p length_table -> effect ms (mk_len None None None) l p) <->
      value ms (bs "min") usize_written None (l_min l) /\
      value ms (bs "trimmed_min") usize_written None (l_tmin l) /\
      value ms (bs "max") usize_written None (l_max l)).
    { intros ms l'. unfold length_table. rewrite !in_cons_all, in_nil_all.
      eff (bs "min") usize_written usize_num_spec. eff (bs "trimmed_min") usize_written usize_num_spec.
      eff (bs "max") usize_written usize_num_spec. done. }
    assert (X : forall x, omap_err XAttr x = Ok l <-> x = Ok l)
      by (intros [| |]; cbn; split; intros H; inversion H; reflexivity).
    transitivity (exists ms, args_metas items tr = Some ms /\
      exists l', attr_loop length_table [] (mk_len None None None) ms = Ok l' /\
                 length_check (l_min l') (l_tmin l') (l_max l') = Ok l).
    { destruct (args_metas items tr) as [ms|].
      - rewrite X. unfold length_from_meta.
        pose proof (length_sim ms [] lstate0 eq_refl eq_refl eq_refl) as S.
        destruct (length_params lstate0 (map lparam_of_meta ms)) as [st'|e|]; cbn [obind].
        + split.
          * intros H. exists ms. split; [reflexivity|]. exists (len_of st'). split; [exact S|exact H].
          * intros (ms' & H1 & l' & H2 & H3). injection H1 as <-.
            change (len_of lstate0) with (mk_len None None None) in S. rewrite S in H2. injection H2 as <-. exact H3.
        + split; [discriminate|]. intros (ms' & H1 & l' & H2 & H3). injection H1 as <-. exfalso. exact (S l' H2).
        + split; [discriminate|]. intros (ms' & H1 & l' & H2 & H3). injection H1 as <-. exfalso. exact (S l' H2).
      - split; [discriminate|]. intros (ms & H & _). discriminate. }
    split.
    + intros (ms & H1 & l' & H2 & H3). apply length_check_spec in H3. destruct H3 as [-> H3].
      exists p, items, tr, ms. split; [reflexivity|]. apply args_metas_spec in H1. split; [exact H1|].
      apply (loop_ok _ _ G) in H2. destruct H2 as [(used & F & ND & IN & _) EF].
      split; [exists used; auto|]. apply EFF in EF. cbn [l_min l_tmin l_max] in *. tauto.
    + intros (q & i & t & ms & H & HA & HN & V1 & V2 & V3 & HC). injection H as <- <- <-.
      exists ms. split; [apply args_metas_spec; exact HA|]. exists l. split.
      * apply (loop_ok _ _ G). destruct HN as (used & F & ND & IN). split; [exists used; auto|]. apply EFF. auto.
      * apply length_check_spec. split; [destruct l; reflexivity|exact HC].
Qed.

(** Line and text: the flag [length_is_set] is shared by two names. *)
Definition utf8_effect (ms : list meta) (st a : utf8_attr) : Prop :=
  ((exists m b l, In m ms /\ named (if b : bool then bs "byte_length" else bs "char_length") m /\ length_written m l /\
      ta_length a = Some (b, l)) \/
   ((forall m, In m ms -> ~ named (bs "byte_length") m /\ ~ named (bs "char_length") m) /\ ta_length a = ta_length st)) /\
  value ms (bs "serde") (serde_written f) (o_serde (ta_opts st)) (o_serde (ta_opts a)) /\
  value ms (bs "rocket") (rocket_written f) (o_rocket (ta_opts st)) (o_rocket (ta_opts a)).

Definition utf8_names := [bs "char_length"; bs "byte_length"; bs "serde"; bs "rocket"].

Lemma value_skip : forall A ms m n (W : meta -> A -> Prop) d v, ~ named n m ->
  value (m :: ms) n W d v <-> value ms n W d v.
Proof.
  intros A ms m n W d v Hn. unfold value. split.
  - intros [(m' & [<-|H1] & H2 & H3)|[H1 H2]]; [contradiction|left; eauto|].
    right. split; [|exact H2]. intros m' Hm. apply H1. right. exact Hm.
  - intros [(m' & H1 & H2 & H3)|[H1 H2]]; [left; exists m'; split; [right; exact H1|auto]|].
    right. split; [|exact H2]. intros m' [<-|Hm]; auto.
Qed.

Lemma value_head : forall A ms m n (W : meta -> A -> Prop) d v, named n m -> (forall m', In m' ms -> ~ named n m') ->
  value (m :: ms) n W d v <-> W m v.
Proof.
  intros A ms m n W d v Hn HN. unfold value. split.
  - intros [(m' & [<-|H1] & H2 & H3)|[H1 H2]]; [exact H3|exfalso; exact (HN m' H1 H2)|].
    exfalso. apply (H1 m (or_introl eq_refl) Hn).
  - intros H. left. exists m. split; [left; reflexivity|auto].
Qed.

Lemma value_none : forall A ms n (W : meta -> A -> Prop) d v, (forall m', In m' ms -> ~ named n m') ->
  value ms n W d v <-> v = d.
Proof.
  intros A ms n W d v HN. unfold value. split.
  - intros [(m & H1 & H2 & _)|[_ H]]; [exfalso; exact (HN m H1 H2)|exact H].
  - intros H. right. auto.
Qed.

Lemma not_used : forall used ms n, Forall2 named used ms -> ~ In n used -> forall m, In m ms -> ~ named n m.
Proof. intros used ms n F H m Hm Hn. apply H. eapply used_in; eassumption. Qed.

Lemma named_neq : forall n n' m, named n m -> n <> n' -> ~ named n' m.
Proof. intros n n' m H N H'. apply N. exact (named_fun _ _ _ H H'). Qed.

Lemma utf8_lemma_aux : forall ms ls ss rs st a,
  utf8_loop f ls ss rs st ms = Ok a <->
  (exists used, Forall2 named used ms /\ NoDup used /\ incl used utf8_names /\
     ~ (In (bs "char_length") used /\ In (bs "byte_length") used) /\
     (ls = true -> ~ In (bs "char_length") used /\ ~ In (bs "byte_length") used) /\
     (ss = true -> ~ In (bs "serde") used) /\ (rs = true -> ~ In (bs "rocket") used)) /\
  utf8_effect ms st a.
Proof.
  induction ms as [|m ms IH]; intros ls ss rs st a.
  - cbn [utf8_loop]. unfold utf8_effect. rewrite !value_none by (intros ? []). split.
    + intros H. injection H as ->. split.
      * exists []. split; [constructor|]. split; [constructor|]. split; [intros x []|]. cbn [In]. tauto.
      * split; [right; split; [intros m []|reflexivity]|split; reflexivity].
    + intros [_ ([(m & b & l & [] & _)|[_ H1]] & H2 & H3)]. f_equal. destruct st as [s1 [s2 s3]], a as [a1 [a2 a3]].
      cbn in *. congruence.
  - cbn [utf8_loop]. destruct (get_ident (meta_path m)) as [i|] eqn:Ei.
    2:{ split; [discriminate|]. intros [(used & F & _) _]. inversion F as [|n ? ? ? Hn _]; subst.
        unfold named in Hn. rewrite Hn in Ei. discriminate. }
    apply get_ident_spec in Ei. change (named i m) in Ei.
    destruct (eqbs i (bs "char_length")) eqn:E1; [apply str_eqb_eq in E1; subst i|apply str_eqb_false in E1;
    destruct (eqbs i (bs "byte_length")) eqn:E2; [apply str_eqb_eq in E2; subst i|apply str_eqb_false in E2;
    destruct (eqbs i (bs "serde")) eqn:E3; [apply str_eqb_eq in E3; subst i|apply str_eqb_false in E3;
    destruct (eqbs i (bs "rocket")) eqn:E4; [apply str_eqb_eq in E4; subst i|apply str_eqb_false in E4]]]].
    + (* char_length *)
      split.
      * destruct (length_meta m) as [l| |] eqn:El; cbn [obind]; try discriminate. apply length_meta_spec in El.
        destruct ls; [discriminate|]. intros H. apply IH in H.
        destruct H as [(used & F & ND & IN & D & L & S & R) (H1 & H2 & H3)]. specialize (L eq_refl). split.
        -- exists (bs "char_length" :: used). split; [constructor; assumption|].
           split; [constructor; tauto|]. split; [intros x [<-|Hx]; [left; reflexivity|auto]|].
           cbn [In]. split; [intros [_ [H|H]]; [discriminate|tauto]|]. split; [discriminate|].
           split; intros X [H|H]; try discriminate; [exact (S X H)|exact (R X H)].
        -- unfold utf8_effect. rewrite !value_skip by (eapply named_neq; [exact Ei|discriminate]).
           split; [|split; [exact H2|exact H3]]. left. exists m, false, l. split; [left; reflexivity|].
           split; [exact Ei|]. split; [exact El|].
           destruct H1 as [(m' & b & l' & Hm & Hn & _)|[_ H1]]; [|exact H1].
           exfalso. apply (used_in used ms _ m' F Hm) in Hn. destruct b; tauto.
      * intros [(used & F & ND & IN & D & L & S & R) (H1 & H2 & H3)].
        inversion F as [|n ? us ? Hn F']; subst. assert (n = bs "char_length") by (exact (named_fun _ _ _ Hn Ei)). subst n.
        inversion ND as [|? ? NI ND']; subst. cbn [In] in *.
        assert (NB : ~ In (bs "byte_length") us) by tauto.
        rewrite value_skip in H2 by (eapply named_neq; [exact Ei|discriminate]).
        rewrite value_skip in H3 by (eapply named_neq; [exact Ei|discriminate]).
        destruct H1 as [(m' & b & l & [<-|Hm] & Hn' & Hl & Ha)|[H1 _]].
        2:{ exfalso. apply (used_in us ms _ m' F' Hm) in Hn'. destruct b; tauto. }
        2:{ exfalso. apply (H1 m (or_introl eq_refl)). exact Ei. }
        assert (b = false) by (destruct b; [|reflexivity]; pose proof (named_fun _ _ _ Hn' Ei) as X; discriminate X). subst b.
        apply length_meta_spec in Hl. rewrite Hl. cbn [obind].
        destruct ls; [exfalso; tauto|]. apply IH. split.
        -- exists us. split; [exact F'|]. split; [exact ND'|]. split; [intros x Hx; apply IN; right; exact Hx|].
           split; [tauto|]. split; [tauto|]. split; intros X Hx; [apply (S X)|apply (R X)]; right; exact Hx.
        -- split; [|split; [exact H2|exact H3]]. right. split; [|exact Ha].
           intros m' Hm. split; eapply not_used; eassumption.
    + (* byte_length *)
      split.
      * destruct (length_meta m) as [l| |] eqn:El; cbn [obind]; try discriminate. apply length_meta_spec in El.
        destruct ls; [discriminate|]. intros H. apply IH in H.
        destruct H as [(used & F & ND & IN & D & L & S & R) (H1 & H2 & H3)]. specialize (L eq_refl). split.
        -- exists (bs "byte_length" :: used). split; [constructor; assumption|].
           split; [constructor; tauto|]. split; [intros x [<-|Hx]; [right; left; reflexivity|auto]|].
           cbn [In]. split; [intros [[H|H] _]; [discriminate|tauto]|]. split; [discriminate|].
           split; intros X [H|H]; try discriminate; [exact (S X H)|exact (R X H)].
        -- unfold utf8_effect. rewrite !value_skip by (eapply named_neq; [exact Ei|discriminate]).
           split; [|split; [exact H2|exact H3]]. left. exists m, true, l. split; [left; reflexivity|].
           split; [exact Ei|]. split; [exact El|].
           destruct H1 as [(m' & b & l' & Hm & Hn & _)|[_ H1]]; [|exact H1].
           exfalso. apply (used_in used ms _ m' F Hm) in Hn. destruct b; tauto.
      * intros [(used & F & ND & IN & D & L & S & R) (H1 & H2 & H3)].
        inversion F as [|n ? us ? Hn F']; subst. assert (n = bs "byte_length") by (exact (named_fun _ _ _ Hn Ei)). subst n.
        inversion ND as [|? ? NI ND']; subst. cbn [In] in *.
        assert (NB : ~ In (bs "char_length") us) by tauto.
        rewrite value_skip in H2 by (eapply named_neq; [exact Ei|discriminate]).
        rewrite value_skip in H3 by (eapply named_neq; [exact Ei|discriminate]).
        destruct H1 as [(m' & b & l & [<-|Hm] & Hn' & Hl & Ha)|[H1 _]].
        2:{ exfalso. apply (used_in us ms _ m' F' Hm) in Hn'. destruct b; tauto. }
        2:{ exfalso. exact (proj1 (H1 m (or_introl eq_refl)) Ei). }
        assert (b = true) by (destruct b; [reflexivity|]; pose proof (named_fun _ _ _ Hn' Ei) as X; discriminate X). subst b.
        apply length_meta_spec in Hl. rewrite Hl. cbn [obind].
        destruct ls; [exfalso; tauto|]. apply IH. split.
        -- exists us. split; [exact F'|]. split; [exact ND'|]. split; [intros x Hx; apply IN; right; exact Hx|].
           split; [tauto|]. split; [tauto|]. split; intros X Hx; [apply (S X)|apply (R X)]; right; exact Hx.
        -- split; [|split; [exact H2|exact H3]]. right. split; [|exact Ha].
           intros m' Hm. split; eapply not_used; eassumption.
    + (* serde *)
      split.
      * destruct (serde_from_meta f m) as [v| |] eqn:El; cbn [obind]; try discriminate. apply serde_spec in El.
        destruct ss; [discriminate|]. intros H. apply IH in H.
        destruct H as [(used & F & ND & IN & D & L & S & R) (H1 & H2 & H3)]. specialize (S eq_refl). split.
        -- exists (bs "serde" :: used). split; [constructor; assumption|].
           split; [constructor; tauto|]. split; [intros x [<-|Hx]; [right; right; left; reflexivity|auto]|].
           cbn [In]. split; [intros [[H|H] [H'|H']]; try discriminate; tauto|].
           split; [intros X; specialize (L X); split; intros [H|H]; try discriminate; tauto|].
           split; [discriminate|]. intros X [H|H]; [discriminate|exact (R X H)].
        -- cbn [ta_opts ta_length o_serde o_rocket set_serde] in H2, H3.
           rewrite value_none in H2 by (eapply not_used; eassumption).
           unfold utf8_effect. rewrite value_head by (try exact Ei; eapply not_used; eassumption).
           rewrite value_skip by (eapply named_neq; [exact Ei|discriminate]).
           split; [|split; [rewrite H2; exact El|exact H3]].
           destruct H1 as [(m' & b & l' & Hm & Hn & X)|[H1 X]].
           ++ left. exists m', b, l'. split; [right; exact Hm|]. auto.
           ++ right. split; [|exact X]. intros m' [<-|Hm]; [|apply H1, Hm].
              split; (eapply named_neq; [exact Ei|discriminate]).
      * intros [(used & F & ND & IN & D & L & S & R) (H1 & H2 & H3)].
        inversion F as [|n ? us ? Hn F']; subst. assert (n = bs "serde") by (exact (named_fun _ _ _ Hn Ei)). subst n.
        inversion ND as [|? ? NI ND']; subst. cbn [In] in *.
        rewrite value_head in H2 by (try exact Ei; eapply not_used; eassumption).
        rewrite value_skip in H3 by (eapply named_neq; [exact Ei|discriminate]).
        apply serde_spec in H2. rewrite H2. cbn [obind].
        destruct ss; [exfalso; tauto|]. apply IH. split.
        -- exists us. split; [exact F'|]. split; [exact ND'|]. split; [intros x Hx; apply IN; right; exact Hx|].
           split; [tauto|]. split; [tauto|]. split; [tauto|]. intros X Hx. apply (R X). right. exact Hx.
        -- split; [|split; [rewrite value_none by (eapply not_used; eassumption); reflexivity|exact H3]].
           destruct H1 as [(m' & b & l' & Hm & Hn' & X)|[H1 X]].
           ++ destruct Hm as [<-|Hm].
              ** exfalso. pose proof (named_fun _ _ _ Hn' Ei) as Y. destruct b; discriminate Y.
              ** left. exists m', b, l'. auto.
           ++ right. split; [|exact X]. intros m' Hm. apply H1. right. exact Hm.
    + (* rocket *)
      split.
      * destruct (rocket_from_meta f m) as [v| |] eqn:El; cbn [obind]; try discriminate. apply rocket_spec in El.
        destruct rs; [discriminate|]. intros H. apply IH in H.
        destruct H as [(used & F & ND & IN & D & L & S & R) (H1 & H2 & H3)]. specialize (R eq_refl). split.
        -- exists (bs "rocket" :: used). split; [constructor; assumption|].
           split; [constructor; tauto|]. split; [intros x [<-|Hx]; [right; right; right; left; reflexivity|auto]|].
           cbn [In]. split; [intros [[H|H] [H'|H']]; try discriminate; tauto|].
           split; [intros X; specialize (L X); split; intros [H|H]; try discriminate; tauto|].
           split; [|discriminate]. intros X [H|H]; [discriminate|exact (S X H)].
        -- cbn [ta_opts ta_length o_serde o_rocket set_rocket] in H2, H3.
           rewrite value_none in H3 by (eapply not_used; eassumption).
           unfold utf8_effect. rewrite (value_head _ ms m (bs "rocket")) by (try exact Ei; eapply not_used; eassumption).
           rewrite value_skip by (eapply named_neq; [exact Ei|discriminate]).
           split; [|split; [exact H2|rewrite H3; exact El]].
           destruct H1 as [(m' & b & l' & Hm & Hn & X)|[H1 X]].
           ++ left. exists m', b, l'. split; [right; exact Hm|]. auto.
           ++ right. split; [|exact X]. intros m' [<-|Hm]; [|apply H1, Hm].
              split; (eapply named_neq; [exact Ei|discriminate]).
      * intros [(used & F & ND & IN & D & L & S & R) (H1 & H2 & H3)].
        inversion F as [|n ? us ? Hn F']; subst. assert (n = bs "rocket") by (exact (named_fun _ _ _ Hn Ei)). subst n.
        inversion ND as [|? ? NI ND']; subst. cbn [In] in *.
        rewrite value_head in H3 by (try exact Ei; eapply not_used; eassumption).
        rewrite value_skip in H2 by (eapply named_neq; [exact Ei|discriminate]).
        apply rocket_spec in H3. rewrite H3. cbn [obind].
        destruct rs; [exfalso; tauto|]. apply IH. split.
        -- exists us. split; [exact F'|]. split; [exact ND'|]. split; [intros x Hx; apply IN; right; exact Hx|].
           split; [tauto|]. split; [tauto|]. split; [|tauto]. intros X Hx. apply (S X). right. exact Hx.
        -- split; [|split; [exact H2|rewrite value_none by (eapply not_used; eassumption); reflexivity]].
           destruct H1 as [(m' & b & l' & Hm & Hn' & X)|[H1 X]].
           ++ destruct Hm as [<-|Hm].
              ** exfalso. pose proof (named_fun _ _ _ Hn' Ei) as Y. destruct b; discriminate Y.
              ** left. exists m', b, l'. auto.
           ++ right. split; [|exact X]. intros m' Hm. apply H1. right. exact Hm.
    + split; [discriminate|]. intros [(used & F & ND & IN & _) _].
      inversion F as [|n ? us ? Hn F']; subst. pose proof (named_fun _ _ _ Hn Ei). subst n.
      exfalso. destruct (IN i (or_introl eq_refl)) as [X|[X|[X|[X|[]]]]]; symmetry in X; contradiction.
Qed.

Lemma utf8_lemma : forall m a,
  utf8_meta f m = Ok a <->
  exists ms, arguments m ms /\ well_named utf8_names ms /\
    ((exists m b l, In m ms /\ named (if b : bool then bs "byte_length" else bs "char_length") m /\ length_written m l /\
        ta_length a = Some (b, l) /\
        (forall m', In m' ms -> ~ named (if b then bs "char_length" else bs "byte_length") m')) \/
     ((forall m, In m ms -> ~ named (bs "byte_length") m /\ ~ named (bs "char_length") m) /\ ta_length a = None)) /\
    opts_written f ms (ta_opts a).
Proof.
  intros m a. unfold utf8_meta. destruct m as [p|p e|p items tr]; cbn [arguments].
  - split.
    + intros H. injection H as <-. exists []. split; [reflexivity|].
      split; [exists []; split; [constructor|]; split; [constructor|intros x []]|].
      split; [right; split; [intros m []|reflexivity]|].
      unfold opts_written. rewrite !value_none by (intros ? []). split; reflexivity.
    + intros (ms & -> & _ & [(m & b & l & [] & _)|[_ H1]] & H2 & H3).
      rewrite value_none in H2 by (intros ? []). rewrite value_none in H3 by (intros ? []).
      destruct a as [x [y z]]. unfold opts0. cbn in *. congruence.
  - split; [discriminate|]. intros (ms & [] & _).
  - split.
    + destruct (args_metas items tr) as [ms|] eqn:E; [|discriminate]. apply args_metas_spec in E.
      intros H. apply utf8_lemma_aux in H. destruct H as [(used & F & ND & IN & D & _) (H1 & H2 & H3)].
      exists ms. split; [exact E|]. split; [exists used; auto|]. split; [|split; assumption].
      destruct H1 as [(m & b & l & Hm & Hn & Hl & Ha)|H1]; [|right; exact H1].
      left. exists m, b, l. repeat split; try assumption. intros m' Hm' Hn'. apply D.
      pose proof (used_in _ _ _ _ F Hm Hn). pose proof (used_in _ _ _ _ F Hm' Hn'). destruct b; tauto.
    + intros (ms & E & (used & F & ND & IN) & H1 & H2 & H3). apply args_metas_spec in E. rewrite E.
      apply utf8_lemma_aux. split.
      * exists used. split; [exact F|]. split; [exact ND|]. split; [exact IN|].
        split; [|split; [discriminate|split; discriminate]]. intros [X Y].
        destruct (in_used _ _ _ F X) as (m1 & I1 & N1). destruct (in_used _ _ _ F Y) as (m2 & I2 & N2).
        destruct H1 as [(m & b & l & Hm & Hn & Hl & Ha & HN)|[H1 _]].
        -- destruct b; [exact (HN m1 I1 N1)|exact (HN m2 I2 N2)].
        -- exact (proj2 (H1 m1 I1) N1).
      * split; [|split; assumption].
        destruct H1 as [(m & b & l & Hm & Hn & Hl & Ha & HN)|H1]; [left; exists m, b, l; auto|right; exact H1].
Qed.
End F.
