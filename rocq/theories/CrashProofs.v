(** Proofs about the panics of the derive macro (C113). *)
From Coq Require Import SpecFloat.
From Verif Require Import Base IntStr RangeModel SizeModel IntModel NumberModel LengthModel BaseModel MacModel PhoneModel
  DomainModel HostModel EmailModel MetaModel MacroModel TokensModel CrashModel CrashSpec MetaProofs.
Local Open Scope N_scope.

(** ** Nothing that is read from the attribute panics *)

Lemma np_bind {E A B} (x : outcome E A) (k : A -> outcome E B) :
  x <> Panic -> (forall a, x = Ok a -> k a <> Panic) -> obind x k <> Panic.
Proof. destruct x as [a|e|]; cbn [obind]; intros H K; [apply K; reflexivity|discriminate|congruence]. Qed.

Lemma np_omap {E A B} (g : A -> B) (x : outcome E A) : x <> Panic -> omap g x <> Panic.
Proof. destruct x; cbn; congruence. Qed.

Lemma np_omap_err {E E' A} (g : E -> E') (x : outcome E A) : x <> Panic -> omap_err g x <> Panic.
Proof. destruct x; cbn; congruence. Qed.

Ltac nosplit := repeat match goal with
  | |- _ <> Panic => first [discriminate | match goal with |- context [match ?e with _ => _ end] => destruct e end]
  end.

Lemma np_word A (r : ident -> outcome macro_err A) m : (forall i, r i <> Panic) -> word_from_meta r m <> Panic.
Proof. intros H. unfold word_from_meta. destruct m as [p|p e|p i t]; nosplit; apply H. Qed.

Lemma np_tri m : tri_from_meta m <> Panic.
Proof. apply np_word. intros i. unfold tri_from_ident. nosplit. Qed.

Lemma np_allow m : allow_from_meta m <> Panic.
Proof. apply np_word. intros i. unfold allow_from_ident. nosplit. Qed.

Lemma np_case m : case_from_meta m <> Panic.
Proof. apply np_word. intros i. unfold case_from_ident. nosplit. Qed.

Lemma np_sep m : sep_from_meta m <> Panic.
Proof. unfold sep_from_meta. nosplit. Qed.

Lemma np_bool m : meta_2_bool m <> Panic.
Proof. unfold meta_2_bool. nosplit. Qed.

Lemma np_number T (fs : list N -> option T) m : meta_2_number fs m <> Panic.
Proof. unfold meta_2_number, expr_2_number, lit_2_number, base10_parse. nosplit. Qed.

Lemma np_flags en a b m : meta_2_flags en a b m <> Panic.
Proof.
  assert (L : forall is x y, flags_loop en a b is x y <> Panic).
  { induction is as [|i is IH]; intros x y; cbn [flags_loop]; [discriminate|]. apply np_bind; [nosplit|]. intros s _.
    destruct en; [apply IH|discriminate]. }
  unfold meta_2_flags. destruct m as [p|p e|p i t]; nosplit. apply L.
Qed.

Lemma np_read_bound T (b : lit_bound T) : read_bound T b <> Panic.
Proof. unfold read_bound. nosplit. Qed.

Lemma np_range T ltb leb full (m : rmeta T) : range_from_meta T ltb leb full m <> Panic.
Proof.
  assert (X : forall r, from_expr_range T r <> Panic).
  { intros r. unfold from_expr_range. repeat (apply np_bind; [first [apply np_read_bound | nosplit]|intros ? _]); nosplit. }
  assert (H : forall ps st, range_params T st ps <> Panic).
  { induction ps as [|p ps IH]; intros st; cbn [range_params]; [discriminate|]. apply np_bind; [|intros; apply IH].
    unfold range_handler. nosplit. }
  assert (C : forall a b c, range_check T ltb leb a b c <> Panic) by (intros; unfold range_check; nosplit).
  unfold range_from_meta. destruct m; nosplit; try apply X; apply np_bind; try apply H; intros; apply C.
Qed.

Lemma np_range_meta T (fs : list N -> option T) ltb leb f m : range_meta fs ltb leb f m <> Panic.
Proof. apply np_omap_err, np_range. Qed.

Lemma np_range_option T (fs : list N -> option T) ltb leb f m : range_option_meta fs ltb leb f m <> Panic.
Proof.
  unfold range_option_meta, range_option_from_meta. destruct m as [p|p e|p i t]; nosplit;
    apply np_omap_err, np_bind; try apply np_range; discriminate.
Qed.

Lemma np_length m : length_meta m <> Panic.
Proof.
  assert (H : forall ps st, length_params st ps <> Panic).
  { induction ps as [|p ps IH]; intros st; cbn [length_params]; [discriminate|]. apply np_bind; [|intros; apply IH].
    unfold length_handler. nosplit. }
  unfold length_meta. nosplit. apply np_omap_err. unfold length_from_meta. apply np_bind; [apply H|].
  intros st _. unfold length_check. repeat (apply np_bind; [nosplit|intros ? _]); nosplit.
Qed.

Lemma np_loop St (tbl : list (param St)) :
  (forall p m, In p tbl -> p_read p m <> Panic) -> forall ms flags st, attr_loop tbl flags st ms <> Panic.
Proof.
  intros R. induction ms as [|m ms IH]; intros flags st; cbn [attr_loop]; [discriminate|].
  destruct (get_ident (meta_path m)) as [i|]; [|discriminate].
  destruct (find _ tbl) as [p|] eqn:F; [|discriminate]. apply find_some in F as [F _].
  apply np_bind; [apply R; exact F|]. intros v _. destruct (is_set flags i); [discriminate|apply IH].
Qed.

Lemma np_build St (tbl : list (param St)) d m :
  (forall p m, In p tbl -> p_read p m <> Panic) -> build_from_meta tbl d m <> Panic.
Proof. intros R. unfold build_from_meta. destruct m; nosplit. apply np_loop. exact R. Qed.

Ltac reads := intros p0 m0 I0; cbn [In opts_params app] in I0;
  repeat (destruct I0 as [<-|I0]; [cbn [p_read]; first
    [ apply np_tri | apply np_allow | apply np_case | apply np_sep | apply np_bool | apply np_flags | apply np_range_meta
    | apply np_range_option | apply np_length | apply np_omap, np_number | idtac ]|]); try contradiction I0.

Lemma np_basic f m : basic_attribute f m <> Panic.
Proof. apply np_build. reads. Qed.
Lemma np_base f m : base_attribute f m <> Panic.
Proof. apply np_build. reads. Qed.
Lemma np_http f m : http_attribute f m <> Panic.
Proof. apply np_build. reads. Qed.
Lemma np_ip f m : ip_attribute f m <> Panic.
Proof. apply np_build. reads. Qed.
Lemma np_host f m : host_attribute f m <> Panic.
Proof. apply np_build. reads. Qed.
Lemma np_domain f m : domain_attribute f m <> Panic.
Proof. apply np_build. reads. Qed.
Lemma np_email f m : email_attribute f m <> Panic.
Proof. apply np_build. reads. Qed.
Lemma np_hex s f m : hex_attribute s f m <> Panic.
Proof. apply np_build. reads. Qed.
Lemma np_bit f m : bit_attribute u128_lit N.ltb N.leb f m <> Panic.
Proof. apply np_build. reads. Qed.
Lemma np_byte f m : byte_attribute u128_lit N.ltb N.leb f m <> Panic.
Proof. apply np_build. reads. Qed.
Lemma np_number_attribute fs f m : number_attribute (T := spec_float) fs SFltb SFleb f m <> Panic.
Proof. apply np_build. reads. Qed.
Lemma np_range_attribute fs f m : range_attribute (T := Z) fs Z.ltb Z.leb f m <> Panic.
Proof. apply np_build. reads. Qed.
Lemma np_phone cid (ids : list N -> option cid) eqb f m : phone_attribute ids eqb f m <> Panic.
Proof. apply np_build. reads. unfold countries_from_meta. nosplit. Qed.
Lemma np_regex compiles f m : regex_attribute compiles f m <> Panic.
Proof.
  unfold regex_attribute. apply np_bind.
  - apply np_build. reads. apply np_omap. unfold regex_from_meta, lit_2_regex. nosplit.
  - intros a _. nosplit.
Qed.
Lemma np_coll f m : coll_meta f m <> Panic.
Proof. unfold coll_meta. apply np_bind; [apply np_build; reads|]. intros a _. nosplit. Qed.
Lemma np_utf8 f m : utf8_meta f m <> Panic.
Proof.
  assert (H : forall ms a b c st, utf8_loop f a b c st ms <> Panic).
  { induction ms as [|x ms IH]; intros a b c st; cbn [utf8_loop]; [discriminate|].
    destruct (get_ident _) as [i|]; [|discriminate].
    destruct (eqbs i _); [|destruct (eqbs i _); [|destruct (eqbs i _); [|destruct (eqbs i _); [|discriminate]]]];
      (apply np_bind; [first [apply np_length | apply np_flags]|]); intros v _; nosplit; apply IH. }
  unfold utf8_meta. destruct m; nosplit. apply H.
Qed.

Lemma np_find on attrs u : find_validator on attrs u <> Panic.
Proof. revert u. induction attrs as [|a attrs IH]; intros u; cbn [find_validator]; [discriminate|]. nosplit; apply IH. Qed.

(** ** The fields *)




Lemma check_named_eq names fs : has_names fs ->
  check_named names fs = if named_in names (plain_fields fs) then Ok tt else Err XShape.
Proof.
  destruct fs as [l|l|]; intros H; cbn [check_named plain_fields named_in fields_list]; try reflexivity.
  rewrite map_length. destruct (Nat.eqb _ _); [|reflexivity]. cbn [andb]. cbn [has_names] in H.
  induction H as [|x l Hx _ IH]; cbn [names_loop List.map forallb]; [reflexivity|].
  unfold name_of at 1. destruct (sf_ident x) as [i|]; [|congruence]. cbn [unwrap obind].
  destruct (existsb (eqbs i) names); [exact IH|reflexivity].
Qed.

Lemma check_tuple_eq fs : check_tuple fs = if tuple1 (plain_fields fs) then Ok tt else Err XShape.
Proof. destruct fs as [l|l|]; try reflexivity. destruct l as [|x [|y l]]; reflexivity. Qed.

Lemma check_two_eq fs : check_two fs = if two_named (plain_fields fs) then Ok tt else Err XShape.
Proof. destruct fs as [l|l|]; try reflexivity. destruct l as [|x [|y [|z l]]]; reflexivity. Qed.

Lemma ip_check_eq n p fs : has_names fs -> ip_check n p fs = if ip_shape n p (plain_fields fs) then Ok tt else Err XShape.
Proof. intros H. destruct p; cbn [ip_check ip_shape]; first [apply check_named_eq, H | apply check_tuple_eq]. Qed.

Lemma host_check_eq a fs : has_names fs -> host_check a fs = if host_shape a (plain_fields fs) then Ok tt else Err XShape.
Proof.
  intros H. unfold host_check, host_shape. destruct (tells_local _ _), (ha_port a);
    first [apply check_named_eq, H | apply check_tuple_eq].
Qed.

Lemma domain_check_eq a fs : has_names fs -> domain_check a fs = if domain_shape a (plain_fields fs) then Ok tt else Err XShape.
Proof.
  intros H. unfold domain_check, domain_shape. destruct (da_ipv4 a), (tells_local _ _), (da_port a);
    first [apply check_named_eq, H | apply check_tuple_eq].
Qed.

Lemma email_check_eq a fs : has_names fs -> email_check a fs = if email_shape a (plain_fields fs) then Ok tt else Err XShape.
Proof.
  intros H. unfold email_check, email_shape. destruct (ea_comment a), (ea_ip a), (tells_local _ _);
    rewrite check_named_eq by exact H; reflexivity.
Qed.

Lemma one_type fs : tuple1 (plain_fields fs) = true -> exists x, fields_list fs = [x] /\ plain_fields fs = FUnnamed [sf_ty x].
Proof.
  destruct fs as [l|l|]; try discriminate. destruct l as [|x [|y l]]; try discriminate. intros _. exists x. split; reflexivity.
Qed.

(** ** Turning ranges into tokens *)

Section Write.
Context {St : Type}.
Variable tbl : list (param St).
Variable write : ident -> St -> outcome macro_err unit.
Hypothesis reads_np : forall p m, In p tbl -> p_read p m <> Panic.
Hypothesis write_ok : forall i s, write i s <> Panic -> write i s = Ok tt.

Lemma write_loop_same : forall ms flags st, write_loop tbl write flags st ms <> Panic ->
  write_loop tbl write flags st ms = attr_loop tbl flags st ms.
Proof.
  induction ms as [|m ms IH]; intros flags st H; cbn [write_loop attr_loop] in *; [reflexivity|].
  destruct (get_ident _) as [i|]; [|reflexivity]. destruct (find _ tbl) as [p|]; [|reflexivity].
  destruct (p_read p m) as [v|e|]; cbn [obind] in *; try reflexivity. destruct (is_set flags i); [reflexivity|].
  destruct (write i (p_set p v st)) as [[]|e|] eqn:W; cbn [obind] in *.
  - apply IH. exact H.
  - rewrite write_ok in W by congruence. discriminate W.
  - congruence.
Qed.

(** The loop panics exactly at a parameter whose value cannot be written, everything before it being right. *)
Lemma write_loop_panics : forall ms flags st, write_loop tbl write flags st ms = Panic <->
  exists pre m post st' i p v, ms = pre ++ m :: post /\ write_loop tbl write flags st pre = Ok st' /\
    get_ident (meta_path m) = Some i /\ find (fun p => eqbs i (p_name p)) tbl = Some p /\ p_read p m = Ok v /\
    is_set flags i = false /\ Forall (fun x => get_ident (meta_path x) <> Some i) pre /\ write i (p_set p v st') = Panic.
Proof.
  induction ms as [|m ms IH]; intros flags st.
  - split; [discriminate|]. intros (pre & m & post & _ & _ & _ & _ & E & _). destruct pre; discriminate E.
  - cbn [write_loop]. split.
    + destruct (get_ident _) as [i|] eqn:G; [|discriminate]. destruct (find _ tbl) as [p|] eqn:F; [|discriminate].
      destruct (p_read p m) as [v|e|] eqn:R; cbn [obind]; try discriminate.
      2: { intros _. exfalso. apply find_some in F as [F _]. exact (reads_np p m F R). }
      destruct (is_set flags i) eqn:S; [discriminate|].
      destruct (write i (p_set p v st)) as [[]|e|] eqn:W; cbn [obind]; try discriminate.
      * intros H. apply IH in H as (pre & m' & post & st' & i' & p' & v' & -> & L & G' & F' & R' & S' & A & W').
        exists (m :: pre), m', post, st', i', p', v'. split; [reflexivity|]. cbn [write_loop]. rewrite G, F, R. cbn [obind].
        rewrite S, W. cbn [obind]. unfold is_set in S'. cbn [existsb] in S'. apply Bool.orb_false_iff in S' as [S1 S2].
        split; [exact L|]. split; [exact G'|]. split; [exact F'|]. split; [exact R'|]. split; [exact S2|]. split; [|exact W'].
        constructor; [|exact A]. rewrite G. intros X. injection X as ->. rewrite str_eqb_refl in S1. discriminate S1.
      * intros _. exists [], m, ms, st, i, p, v. repeat (split; [first [reflexivity | assumption | constructor]|]). exact W.
    + intros (pre & m' & post & st' & i' & p' & v' & E & L & G' & F' & R' & S' & A & W').
      destruct pre as [|x pre]; cbn [app] in E; injection E as <- ->.
      * cbn [write_loop] in L. injection L as <-. rewrite G', F', R'. cbn [obind]. rewrite S', W'. reflexivity.
      * cbn [write_loop] in L. apply Forall_cons_iff in A as [A1 A2].
        destruct (get_ident (meta_path m)) as [i|] eqn:G; [|discriminate]. destruct (find _ tbl) as [p|] eqn:F; [|discriminate].
        destruct (p_read p m) as [v|e|] eqn:R; cbn [obind] in *; try discriminate.
        destruct (is_set flags i) eqn:S; [discriminate|].
        destruct (write i (p_set p v st)) as [[]|e|] eqn:W; cbn [obind] in *; try discriminate.
        apply IH. exists pre, m', post, st', i', p', v'. split; [reflexivity|]. split; [exact L|]. split; [exact G'|].
        split; [exact F'|]. split; [exact R'|]. split; [|split; [exact A2|exact W']].
        unfold is_set in *. cbn [existsb]. rewrite S'. rewrite Bool.orb_false_r. apply str_eqb_neq. intros K. apply A1. congruence.
Qed.
End Write.

Lemma write_range_ok {T} lit tk (r : range_option T) : (forall x, lit x = Ok x \/ lit x = Panic) ->
  write_range lit tk r <> Panic -> omap (fun _ => tt) (write_range lit tk r) = Ok tt.
Proof.
  intros L. unfold write_range, bound_literal. destruct r as [mn mx b|mn mx b|]; try reflexivity;
    (destruct mn as [x|]; [destruct (L x) as [->| ->]|]; cbn [obind]; try congruence;
     (destruct mx as [y|]; [destruct (L y) as [->| ->]|]; cbn [obind omap]; first [reflexivity | congruence])).
Qed.

Lemma float_literal_or x : float_literal x = Ok x \/ float_literal x = Panic.
Proof. destruct x; cbn; auto. Qed.

Lemma write_int_ok {T} tk (r : range_option T) : omap (fun _ => tt) (write_range int_literal tk r) = Ok tt.
Proof. apply write_range_ok; [left; reflexivity|]. unfold write_range, bound_literal, int_literal. destruct r as [[] []|[] []|]; discriminate. Qed.

(** A range has a bound that cannot be written. *)
Lemma write_float_panics tk r : omap (fun _ => tt) (write_range float_literal tk r) = Panic <-> infinite_bound r.
Proof.
  assert (F : forall x, float_literal x = Panic <-> ~ finite x).
  { intros x. unfold finite. destruct x; cbn; split; intros H; try discriminate; try reflexivity; try (exfalso; apply H; exact I);
      try (intros K; exact K). }
  assert (O : forall x, float_literal x <> Panic -> float_literal x = Ok x) by (intros x H; destruct (float_literal_or x); congruence).
  assert (D : forall x, finite x \/ ~ finite x) by (intros x; unfold finite; destruct x; auto).
  assert (G : forall mn mx b, omap (fun _ : range_tokens spec_float => tt)
      (let? _ := bound_literal float_literal mn in let? _ := bound_literal float_literal mx in Ok (tk b)) = Panic <->
      exists x, ~ finite x /\ (mn = Some x \/ mx = Some x)).
  { intros mn mx b. unfold bound_literal. split.
    - destruct mn as [x|].
      + destruct (D x) as [Hx|Hx]; [|intros _; exists x; auto]. rewrite (O x) by (rewrite F; tauto). cbn [obind].
        destruct mx as [y|]; [|discriminate]. destruct (D y) as [Hy|Hy]; [|intros _; exists y; auto].
        rewrite (O y) by (rewrite F; tauto). discriminate.
      + cbn [obind]. destruct mx as [y|]; [|discriminate]. destruct (D y) as [Hy|Hy]; [|intros _; exists y; auto].
        rewrite (O y) by (rewrite F; tauto). discriminate.
    - intros (x & Hx & [->| ->]).
      + apply F in Hx. rewrite Hx. reflexivity.
      + destruct mn as [y|]; [destruct (float_literal_or y) as [->| ->]|]; cbn [obind]; try reflexivity;
          apply F in Hx; rewrite Hx; reflexivity. }
  destruct r as [mn mx b|mn mx b|]; cbn [write_range infinite_bound]; [apply G|apply G|].
  split; [discriminate|contradiction].
Qed.

Lemma write_size_ok r : write_size r = Ok tt.
Proof.
  unfold write_size, range_equal. destruct (r_min r) as [n|]; [|reflexivity].
  destruct (match r_max r with Some _ => _ | None => _ end); reflexivity.
Qed.

Lemma find_hd {A} (g : A -> bool) x l : g x = true -> find g (x :: l) = Some x.
Proof. intros H. cbn [find]. rewrite H. reflexivity. Qed.

(** The attribute of a number validator. *)
Lemma number_w_same fs f m : number_attribute_w fs f m <> Panic ->
  number_attribute_w fs f m = number_attribute fs SFltb SFleb f m.
Proof.
  unfold number_attribute_w, build_and_write, number_attribute, build_from_meta. destruct m as [p|p e|p items tr]; try reflexivity.
  destruct (args_metas items tr) as [ms|]; [|reflexivity]. apply write_loop_same; cycle 1.
  intros i s H. destruct (eqbs i _); [|reflexivity]. apply write_range_ok; [exact float_literal_or|].
  intros K. rewrite K in H. apply H. reflexivity.
Qed.

Lemma range_w_same fs inc f m : range_attribute_w fs inc f m = range_attribute fs Z.ltb Z.leb f m.
Proof.
  unfold range_attribute_w, build_and_write, range_attribute, build_from_meta. destruct m as [p|p e|p items tr]; try reflexivity.
  destruct (args_metas items tr) as [ms|]; [|reflexivity].
  assert (W : forall i s, (if eqbs i (bs "range")
      then omap (fun _ => tt) (write_range int_literal (to_tokens Z Z.eqb inc false) (ra_range s)) else Ok tt : outcome macro_err unit) = Ok tt).
  { intros i s. destruct (eqbs i _); [apply write_int_ok|reflexivity]. }
  apply write_loop_same; [intros; apply W|].
  intros H. apply write_loop_panics in H as (? & ? & ? & ? & ? & ? & ? & _ & _ & _ & _ & _ & _ & _ & H); [|reads].
  rewrite W in H. discriminate H.
Qed.

Lemma all_metas_map l : all_metas (List.map IMeta l) = Some l.
Proof. induction l as [|x l IH]; cbn [List.map all_metas]; [reflexivity|]. rewrite IH. reflexivity. Qed.

Lemma number_w_panics fs f m : number_attribute_w fs f m = Panic <->
  exists p items tr pre r post a ro, m = MList p items tr /\ args_metas items tr = Some (pre ++ r :: post) /\
    number_attribute fs SFltb SFleb f (MList p (List.map IMeta pre) false) = Ok a /\
    meta_path r = [bs "range"] /\ Forall (fun x => meta_path x <> [bs "range"]) pre /\
    range_option_meta fs SFltb SFleb f r = Ok ro /\ infinite_bound ro.
Proof.
  set (w := fun (i : ident) (s : number_attr spec_float) => if eqbs i (bs "range")
                then omap (fun _ => tt) (write_range float_literal (to_tokens spec_float SFeqb float_inc true) (na_range s))
                else Ok tt : outcome macro_err unit).
  assert (WO : forall i s, w i s <> Panic -> w i s = Ok tt).
  { intros i s H. unfold w in *. destruct (eqbs i _); [|reflexivity]. apply write_range_ok; [exact float_literal_or|].
    intros K. rewrite K in H. apply H. reflexivity. }
  assert (GI : forall q i, get_ident q = Some i <-> q = [i]).
  { intros q i. destruct q as [|y [|z q]]; cbn; split; intros H; try discriminate H; injection H as ->; reflexivity. }
  split.
  - destruct m as [p|p e|p items tr]; try discriminate. unfold number_attribute_w, build_and_write. fold w.
    destruct (args_metas items tr) as [ms|] eqn:A; [|discriminate]. intros H.
    apply write_loop_panics in H as (pre & r & post & st & i & q & v & -> & L & G & F & R & _ & NI & W); [|reads].
    unfold w in W. destruct (eqbs i (bs "range")) eqn:E; [|discriminate W]. apply str_eqb_eq in E as ->.
    erewrite find_hd in F by (cbn [p_name]; apply str_eqb_refl). injection F as <-. cbn [p_read p_set p_ty] in *.
    apply write_float_panics in W. cbn [na_range] in W.
    exists p, items, tr, pre, r, post, st, v. split; [reflexivity|]. split; [exact A|]. split.
    { unfold number_attribute, build_from_meta, args_metas.
      assert (X : match List.map IMeta pre, false with [], true => None | _, _ => all_metas (List.map IMeta pre) end = Some pre).
      { destruct pre; [reflexivity|apply all_metas_map]. }
      rewrite X. rewrite <- (write_loop_same _ w WO); [exact L|]. rewrite L. discriminate. }
    split; [apply GI; exact G|]. split; [|split; [exact R|exact W]].
    eapply Forall_impl; [|exact NI]. intros x Hx K. apply Hx, GI, K.
  - intros (p & items & tr & pre & r & post & a & ro & -> & A & L & PR & NI & R & I).
    unfold number_attribute_w, build_and_write. rewrite A. fold w. apply write_loop_panics; [reads|].
    unfold number_attribute, build_from_meta, args_metas in L.
    assert (X : match List.map IMeta pre, false with [], true => None | _, _ => all_metas (List.map IMeta pre) end = Some pre).
    { destruct pre; [reflexivity|apply all_metas_map]. }
    rewrite X in L. exists pre, r, post, a, (bs "range").
    exists (mk_param (bs "range") (range_option spec_float) (range_option_meta fs SFltb SFleb f)
       (fun v s => mk_number_attr v (na_nan s) (na_conflict s) (na_opts s)) na_range), ro.
    split; [reflexivity|]. split.
    { rewrite write_loop_same; [exact L|exact WO|]. intros K.
      apply write_loop_panics in K as (pre' & x & post' & st' & i' & q' & v' & -> & _ & G' & _ & _ & _ & _ & W'); [|reads].
      unfold w in W'. destruct (eqbs i' _) eqn:E; [|discriminate W']. apply str_eqb_eq in E as ->.
      apply GI in G'. rewrite Forall_forall in NI. apply (NI x); [|exact G']. apply in_or_app. right. left. reflexivity. }
    split; [apply GI; exact PR|]. split; [apply find_hd, str_eqb_refl|]. cbn [p_read p_set p_ty]. split; [exact R|].
    split; [reflexivity|]. split.
    { eapply Forall_impl; [|exact NI]. intros x Hx K. apply Hx, GI, K. }
    unfold w. rewrite str_eqb_refl. apply write_float_panics. exact I.
Qed.
