(** Lemmas for PropAdvice.v. *)
From Coq Require Import SpecFloat.
From Verif Require Import Base LocalProofs RangeModel IntModel NumberModel LengthModel MacModel PhoneModel MetaModel
  MetaSpec MetaProofs MacroModel MacroSpec MacroProofs AdviceModel.
Local Open Scope N_scope.

(** [s] stands between two marks [c] of the text, or between the last mark and the end. *)
Definition between (c : N) (s text : list N) : Prop :=
  exists pre post : list N, text = pre ++ c :: s ++ post /\ (post = [] \/ exists r : list N, post = c :: r).

Lemma skip_header : forall (c : N) (h r pre x : list N), ~ In c h -> h ++ r = pre ++ c :: x ->
  exists pre', pre = h ++ pre' /\ r = pre' ++ c :: x.
Proof.
  intros c h. induction h as [|b h IH]; intros r pre x Hn H; cbn [app] in H.
  - exists pre. auto.
  - destruct pre as [|a pre]; cbn [app] in H; injection H as Ha H.
    + exfalso. apply Hn. left. exact Ha.
    + subst a. destruct (IH r pre x) as (pre' & -> & E); [intros C; apply Hn; right; exact C|exact H|].
      exists pre'. auto.
Qed.

Definition ends (c : N) (r : list N) : Prop := r = [] \/ exists t, r = c :: t.

Lemma same_piece : forall (c : N) (s w r q : list N), ~ In c s -> ~ In c w -> ends c r -> ends c q -> s ++ r = w ++ q -> s = w /\ r = q.
Proof.
  intros c s. induction s as [|a s IH]; intros w r q Hs Hw Hr Hq H; cbn [app] in H.
  - destruct w as [|b w]; [auto|]. exfalso. cbn [app] in H.
    destruct Hr as [->|(t & ->)]; [discriminate H|]. injection H as -> _. apply Hw. left. reflexivity.
  - destruct w as [|b w]; cbn [app] in H.
    + exfalso. destruct Hq as [->|(t & ->)]; [discriminate H|]. injection H as -> _. apply Hs. left. reflexivity.
    + injection H as -> H. destruct (IH w r q) as [-> ->]; auto; intros C; [apply Hs|apply Hw]; right; exact C.
Qed.

Fixpoint marked (c : N) (l : list (list N)) : list N := match l with [] => [] | s :: l => c :: s ++ marked c l end.

Lemma marked_ends : forall c l, ends c (marked c l).
Proof. intros c [|s l]; [left|right; exists (s ++ marked c l)]; reflexivity. Qed.

Lemma between_iff : forall (c : N) (h : list N) l w, ~ In c h -> (forall s, In s l -> ~ In c s) -> ~ In c w ->
  (between c w (h ++ marked c l) <-> In w l).
Proof.
  intros c h l w Hh Hl Hw. split.
  - intros (pre & post & E & Hp). destruct (skip_header c h (marked c l) pre (w ++ post) Hh E) as (pre' & _ & E').
    clear E h Hh pre. rename pre' into pre. revert pre E'. induction l as [|s l IH]; intros pre E.
    + exfalso. destruct pre; discriminate E.
    + cbn [marked] in E. destruct pre as [|a pre]; cbn [app] in E; [injection E as E|injection E as Ea E].
      * left. refine (proj1 (same_piece c s w _ _ _ Hw (marked_ends c l) Hp E)). apply Hl. left. reflexivity.
      * destruct (skip_header c s _ _ _ (Hl s (or_introl eq_refl)) E) as (pre' & _ & E').
        right. apply (IH (fun x Hx => Hl x (or_intror Hx)) pre' E').
  - intros H. apply in_split in H. destruct H as (l1 & l2 & ->).
    assert (M : forall a b, marked c (a ++ b) = marked c a ++ marked c b).
    { intros a b. induction a as [|x a IH]; cbn [app marked]; [reflexivity|]. rewrite IH, app_assoc. reflexivity. }
    exists (h ++ marked c l1), (marked c l2). split; [|exact (marked_ends c l2)].
    rewrite M. cbn [marked]. rewrite <- app_assoc. reflexivity.
Qed.

Lemma slice_marked : forall l, display_slice l = marked 10 (List.map (fun s => bs "    " ++ s) l).
Proof.
  induction l as [|s l IH]; cbn [display_slice List.map marked]; [reflexivity|].
  unfold entry_start. cbn [app]. rewrite IH, <- app_assoc. reflexivity.
Qed.

Lemma clean_app : forall (c : N) a b, ~ In c a -> ~ In c b -> ~ In c (a ++ b).
Proof. intros c a b Ha Hb C. apply in_app_or in C. destruct C; auto. Qed.

Ltac clean := match goal with |- ~ In ?c ?l => intros X; vm_compute in X; intuition discriminate end.

Lemma path_clean : forall p, (forall i, In i p -> ~ In 10 i) -> ~ In 10 (path_text p).
Proof.
  induction p as [|i p IH]; intros H; [intros C; exact C|].
  assert (Hi : ~ In 10 i) by (apply H; left; reflexivity).
  assert (Hp : ~ In 10 (path_text p)) by (apply IH; intros j Hj; apply H; right; exact Hj).
  destruct p as [|j p]; [exact Hi|]. change (path_text (i :: j :: p)) with (i ++ bs "::" ++ path_text (j :: p)).
  apply clean_app; [exact Hi|apply clean_app; [clean|exact Hp]].
Qed.

Lemma slice_lines : forall h l n, ~ In 10 h -> (forall s, In s l -> ~ In 10 s) -> ~ In 10 n ->
  (between 10 (bs "    " ++ n) (h ++ display_slice l) <-> In n l).
Proof.
  intros h l n Hh Hl Hn. rewrite slice_marked. rewrite between_iff; [|exact Hh| |apply clean_app; [clean|exact Hn]].
  - split.
    + intros H. apply in_map_iff in H. destruct H as (s & E & H). apply app_inv_head in E. subst s. exact H.
    + intros H. apply in_map_iff. exists n. auto.
  - intros s H. apply in_map_iff in H. destruct H as (t & <- & H). apply clean_app; [clean|auto].
Qed.

(** ** The loop over the parameters *)

Lemma loop_err : forall St (tbl : list (param St)) ms flags st e, attr_loop tbl flags st ms = Err e ->
  (e = XUnknown /\ exists x, In x ms /\ forall n, In n (List.map p_name tbl) -> ~ named n x) \/
  (e = XReset /\ ((exists x n, In x ms /\ named n x /\ In n flags) \/ ~ NoDup (List.map meta_path ms))) \/
  (exists x p, In x ms /\ In p tbl /\ named (p_name p) x /\ p_read p x = Err e /\
     find (fun q => eqbs (p_name p) (p_name q)) tbl = Some p).
Proof.
  intros St tbl. induction ms as [|m ms IH]; intros flags st e H; cbn [attr_loop] in H; [discriminate H|].
  destruct (get_ident (meta_path m)) as [i|] eqn:G.
  - apply MetaProofs.get_ident_spec in G. assert (F := find_name St tbl i).
    destruct (find (fun p => eqbs i (p_name p)) tbl) as [p|] eqn:D.
    + destruct F as [Hp Hn]. destruct (p_read p m) as [v|e'| ] eqn:R; cbn [obind] in H.
      * destruct (is_set flags i) eqn:S.
        -- injection H as <-. right. left. split; [reflexivity|]. left. exists m, i.
           split; [left; reflexivity|]. split; [exact G|]. apply is_set_in. exact S.
        -- apply IH in H. destruct H as [[-> (x & Hx & Hu)]|[[-> [(x & n & Hx & Nx & Hf)|Hd]]|(x & q & Hx & Hq & Nq & Rq & Fq)]].
           ++ left. split; [reflexivity|]. exists x. split; [right; exact Hx|exact Hu].
           ++ right. left. split; [reflexivity|]. destruct Hf as [<-|Hf].
              ** right. cbn [List.map]. intros ND. inversion ND as [|a b Hni ND' E]. apply Hni.
                 apply in_map_iff. exists x. split; [|exact Hx]. unfold named in Nx. congruence.
              ** left. exists x, n. split; [right; exact Hx|auto].
           ++ right. left. split; [reflexivity|]. right. cbn [List.map]. intros ND. inversion ND. contradiction.
           ++ right. right. exists x, q. split; [right; exact Hx|auto].
      * injection H as ->. right. right. exists m, p. split; [left; reflexivity|]. split; [exact Hp|].
        split; [unfold named; rewrite Hn; exact G|]. split; [exact R|]. rewrite Hn. exact D.
      * discriminate H.
    + injection H as <-. left. split; [reflexivity|]. exists m. split; [left; reflexivity|].
      intros n Hin Nn. unfold named in Nn. rewrite G in Nn. injection Nn as ->. exact (F Hin).
  - injection H as <-. left. split; [reflexivity|]. exists m. split; [left; reflexivity|].
    intros n _ Nn. unfold named in Nn. rewrite Nn in G. discriminate G.
Qed.

Definition read_err {St} (tbl : list (param St)) (ms : list meta) (e : macro_err) : Prop :=
  exists x p, In x ms /\ In p tbl /\ named (p_name p) x /\ p_read p x = Err e /\
     find (fun q => eqbs (p_name p) (p_name q)) tbl = Some p.

Lemma build_err : forall St (tbl : list (param St)) d m e, build_from_meta tbl d m = Err e ->
  (e = XFormat /\ exists p v, m = MNameValue p v) \/
  (e = XSyntax /\ forall ms, ~ arguments m ms) \/
  (exists ms, arguments m ms /\
   ((e = XUnknown /\ exists x, In x ms /\ forall n, In n (List.map p_name tbl) -> ~ named n x) \/
    (e = XReset /\ ~ NoDup (List.map meta_path ms)) \/ read_err tbl ms e)).
Proof.
  intros St tbl d [p|p v|p items tr] e H; cbn [build_from_meta] in H.
  - discriminate H.
  - injection H as <-. left. split; [reflexivity|]. exists p, v. reflexivity.
  - destruct (args_metas items tr) as [ms|] eqn:A.
    + right. right. exists ms. split; [cbn [arguments]; apply args_metas_spec; exact A|].
      apply loop_err in H. destruct H as [H|[[-> H]|H]]; [left; exact H| |right; right; exact H].
      right. left. split; [reflexivity|]. destruct H as [(x & n & _ & _ & [])|H]. exact H.
    + injection H as <-. right. left. split; [reflexivity|]. intros ms Hm. cbn [arguments] in Hm.
      apply args_metas_spec in Hm. congruence.
Qed.

(** One refused value is refused on its own too. *)
Lemma alone_err : forall St (tbl : list (param St)) d p x q e, named (p_name q) x -> p_read q x = Err e ->
  find (fun r => eqbs (p_name q) (p_name r)) tbl = Some q ->
  build_from_meta tbl d (MList p [IMeta x] false) = Err e.
Proof.
  intros St tbl d p x q e Nx R F. cbn [build_from_meta args_metas all_metas attr_loop].
  unfold named in Nx. rewrite Nx. cbn [get_ident]. rewrite F, R. reflexivity.
Qed.

(** One parameter of an unknown name. *)
Lemma alone_unknown : forall St (tbl : list (param St)) d m x, arguments m [x] ->
  (forall n, In n (List.map p_name tbl) -> ~ named n x) -> build_from_meta tbl d m = Err XUnknown.
Proof.
  intros St tbl d [p|p v|p items tr] x A H; cbn [arguments] in A; [discriminate A|destruct A|].
  cbn [build_from_meta]. apply args_metas_spec in A. rewrite A. cbn [attr_loop].
  destruct (get_ident (meta_path x)) as [i|] eqn:G; [|reflexivity].
  apply MetaProofs.get_ident_spec in G. assert (F := find_name St tbl i).
  destruct (find (fun p => eqbs i (p_name p)) tbl) as [q|]; [|reflexivity].
  exfalso. destruct F as [Hq Hn]. apply (H i); [|exact G]. rewrite <- Hn. apply in_map. exact Hq.
Qed.

(** ** Which errors each value parser can give *)

Lemma word_err : forall A (fi : ident -> outcome macro_err A) m e, (forall i e, fi i = Err e -> e = XValue) ->
  word_from_meta fi m = Err e -> e = XValue.
Proof.
  intros A fi m e Hf H. destruct m as [p|p v|p items tr]; cbn [word_from_meta] in H; [congruence| |].
  - destruct v as [l|l|l|q|r|]; try congruence. destruct (get_ident q); [eauto|congruence].
  - destruct (args_ident items tr); [eauto|congruence].
Qed.
Lemma tri_err : forall m e, tri_from_meta m = Err e -> e = XValue.
Proof.
  intros m e. apply word_err. intros i e' H. unfold tri_from_ident in H.
  destruct (eqbs i (bs "Must")); [discriminate H|]. destruct (eqbs i (bs "Allow")); [discriminate H|].
  destruct (eqbs i (bs "Disallow")); congruence.
Qed.
Lemma allow_err : forall m e, allow_from_meta m = Err e -> e = XValue.
Proof.
  intros m e. apply word_err. intros i e' H. unfold allow_from_ident in H.
  destruct (eqbs i (bs "Allow")); [discriminate H|]. destruct (eqbs i (bs "Disallow")); congruence.
Qed.
Lemma case_err : forall m e, case_from_meta m = Err e -> e = XValue.
Proof.
  intros m e. apply word_err. intros i e' H. unfold case_from_ident in H.
  destruct (eqbs i (bs "Any")); [discriminate H|]. destruct (eqbs i (bs "Upper")); [discriminate H|].
  destruct (eqbs i (bs "Lower")); congruence.
Qed.

Definition of_value (e : macro_err) : Prop := e = XValue \/ e = XSyntax \/ exists a, e = XAttr a.

Ltac ovs := first [discriminate|unfold of_value; eauto; fail].

Lemma sep_err : forall m e, sep_from_meta m = Err e -> of_value e.
Proof.
  intros m e H. destruct m as [p|p v|p items tr]; cbn [sep_from_meta] in H; try (injection H as <-; ovs).
  destruct (args_meta items tr) as [[q|q v|q it tt]|]; try (injection H as <-; ovs).
  - destruct (get_ident q); [|injection H as <-; ovs]. destruct (eqbs i (bs "Disallow")); [discriminate H|injection H as <-; ovs].
  - destruct (get_ident q); [|injection H as <-; ovs]. destruct v as [[]|l|l|u|r|]; try (injection H as <-; ovs).
    destruct (eqbs i (bs "Must")); [discriminate H|]. destruct (eqbs i (bs "Allow")); [discriminate H|injection H as <-; ovs].
  - destruct (get_ident q); [|injection H as <-; ovs].
    destruct (eqbs i (bs "Must"));
      [destruct (args_lit it tt) as [[]|]; first [discriminate H|injection H as <-; ovs]|].
    destruct (eqbs i (bs "Allow"));
      [destruct (args_lit it tt) as [[]|]; first [discriminate H|injection H as <-; ovs]|].
    injection H as <-. ovs.
Qed.
Lemma bool_err : forall m e, meta_2_bool m = Err e -> of_value e.
Proof.
  intros m e H. destruct m as [p|p v|p items tr]; cbn [meta_2_bool] in H; try (injection H as <-; ovs).
  - destruct v as [[]|l|[]|u|r|]; first [discriminate H|injection H as <-; ovs].
  - destruct (args_lit items tr) as [[]|]; first [discriminate H|injection H as <-; ovs].
Qed.
Lemma base10_err : forall T (fs : list N -> option T) d e, base10_parse fs d = Err e -> of_value e.
Proof. intros T fs d e H. unfold base10_parse in H. destruct (fs d); [discriminate H|injection H as <-; ovs]. Qed.
Lemma number_err : forall T (fs : list N -> option T) m e, meta_2_number fs m = Err e -> of_value e.
Proof.
  intros T fs m e H. destruct m as [p|p v|p items tr]; cbn [meta_2_number] in H; try (injection H as <-; ovs).
  - destruct v as [[]|[]|[]|u|r|]; cbn [expr_2_number lit_2_number] in H;
      first [eapply base10_err; exact H|injection H as <-; ovs].
  - destruct (args_lit items tr) as [[]|]; first [eapply base10_err; exact H|injection H as <-; ovs].
Qed.
Lemma attr_of : forall A B (x : outcome attr_error A) (h : A -> B) e, omap_err XAttr x = Err e -> of_value e.
Proof. intros A B x h e H. destruct x; cbn in H; [discriminate H|injection H as <-; ovs|discriminate H]. Qed.
Lemma range_err : forall T (fs : list N -> option T) ltb leb f m e, range_meta fs ltb leb f m = Err e -> of_value e.
Proof. intros T fs ltb leb f m e H. unfold range_meta in H. eapply attr_of in H; [exact H|exact (fun x => x)]. Qed.
Lemma range_option_err : forall T (fs : list N -> option T) ltb leb f m e,
  range_option_meta fs ltb leb f m = Err e -> of_value e.
Proof.
  intros T fs ltb leb f m e H. destruct m as [p|p v|p items tr]; cbn [range_option_meta] in H; try (injection H as <-; ovs).
  destruct (args_meta items tr) as [a|]; [|injection H as <-; ovs].
  destruct (get_ident (meta_path a)); [|injection H as <-; ovs].
  destruct (eqbs i (bs "Inside")); [eapply attr_of in H; [exact H|exact (fun x => x)]|].
  destruct (eqbs i (bs "Outside")); [eapply attr_of in H; [exact H|exact (fun x => x)]|].
  destruct (eqbs i (bs "Unlimited")); [discriminate H|injection H as <-; ovs].
Qed.
Lemma countries_err : forall cid (ifs : list N -> option cid) ceq m e, countries_from_meta ifs ceq m = Err e -> of_value e.
Proof.
  intros cid ifs ceq m e H. destruct m as [p|p v|p items tr]; cbn [countries_from_meta] in H; try (injection H as <-; ovs).
  destruct (args_idents items tr); [|injection H as <-; ovs].
  destruct (meta_2_countries cid ceq ifs [] l); [discriminate H|injection H as <-; ovs].
Qed.
Lemma regex_err : forall compiles m e, regex_from_meta compiles m = Err e -> of_value e.
Proof.
  intros c m e H. assert (L : forall l e, lit_2_regex c l = Err e -> of_value e).
  { intros l e' J. destruct l; cbn [lit_2_regex] in J; try (injection J as <-; ovs).
    destruct (c s); [discriminate J|injection J as <-; ovs]. }
  destruct m as [p|p v|p items tr]; cbn [regex_from_meta] in H; try (injection H as <-; ovs).
  - destruct v; try discriminate H. eapply L. exact H.
  - destruct items as [|i [|j r]]; [injection H as <-; ovs| |].
    + destruct i; destruct tr; first [discriminate H|injection H as <-; ovs|eapply L; exact H].
    + destruct i; injection H as <-; ovs.
Qed.

(** The flags: what each error means. *)
Definition flags_cause (enabled : bool) (m : meta) (e : macro_err) : Prop :=
  e = XValue \/ e = XSyntax \/
  (e = XFeature /\ enabled = false /\ forall p, m <> MNameValue p (ELit (LitBool false))) \/
  (e = XReset /\ exists p is, m = MList p (List.map (fun i => IMeta (MPath [i])) is) false /\ ~ NoDup is).

Lemma flags_loop_err : forall en n1 n2 is a b e, flags_loop en n1 n2 is a b = Err e ->
  e = XValue \/ (e = XFeature /\ en = false) \/
  (e = XReset /\ ((a = true /\ In n1 is) \/ (b = true /\ In n2 is) \/ ~ NoDup is)).
Proof.
  intros en n1 n2. induction is as [|i is IH]; intros a b e H; cbn [flags_loop] in H; [discriminate H|].
  destruct (eqbs i n1) eqn:E1.
  - apply str_eqb_eq in E1. subst i. destruct a; cbn [obind fst snd] in H.
    + injection H as <-. right. right. split; [reflexivity|]. left. split; [reflexivity|left; reflexivity].
    + destruct en; [|injection H as <-; auto].
      apply IH in H. destruct H as [H|[H|[-> [[_ H]|[[B H]|H]]]]]; [auto|auto| | |].
      * right. right. split; [reflexivity|]. right. right. intros ND. inversion ND. contradiction.
      * right. right. split; [reflexivity|]. right. left. split; [exact B|right; exact H].
      * right. right. split; [reflexivity|]. right. right. intros ND. inversion ND. contradiction.
  - destruct (eqbs i n2) eqn:E2; cbn [obind] in H.
    + apply str_eqb_eq in E2. subst i. destruct b; cbn [obind fst snd] in H.
      * injection H as <-. right. right. split; [reflexivity|]. right. left. split; [reflexivity|left; reflexivity].
      * destruct en; [|injection H as <-; auto].
        apply IH in H. destruct H as [H|[H|[-> [[A H]|[[_ H]|H]]]]]; [auto|auto| | |].
        -- right. right. split; [reflexivity|]. left. split; [exact A|right; exact H].
        -- right. right. split; [reflexivity|]. right. right. intros ND. inversion ND. contradiction.
        -- right. right. split; [reflexivity|]. right. right. intros ND. inversion ND. contradiction.
    + injection H as <-. auto.
Qed.

Lemma flags_err : forall en n1 n2 m e, meta_2_flags en n1 n2 m = Err e -> flags_cause en m e.
Proof.
  intros en n1 n2 m e H. unfold flags_cause. destruct m as [p|p v|p items tr]; cbn [meta_2_flags] in H.
  - destruct en; [discriminate H|]. injection H as <-. right. right. left. repeat split; congruence.
  - destruct v as [[d|d|b|c|s|]|l|l|u|r|]; try (injection H as <-; left; reflexivity).
    destruct b, en; cbn [andb negb] in H; try discriminate H.
    injection H as <-. right. right. left. repeat split; congruence.
  - destruct (args_idents items tr) as [is|] eqn:A; [|injection H as <-; auto].
    apply args_idents_spec in A. destruct A as (_ & -> & ->).
    apply flags_loop_err in H. destruct H as [->|[[-> ->]|[-> [[C _]|[[C _]|ND]]]]]; try discriminate C.
    + left. reflexivity.
    + right. right. left. repeat split. congruence.
    + right. right. right. split; [reflexivity|]. exists p, is. auto.
Qed.

(** ** The faults *)

(** [fault] for the attributes that are read by [build_from_meta]. *)
Definition table_fault (names : list ident) (f : features) (m : meta) (e : macro_err) : Prop :=
  match e with
  | XFormat => exists p x, m = MNameValue p x
  | XUnknown => exists ms x, arguments m ms /\ In x ms /\ forall n, In n names -> ~ named n x
  | XReset => exists ms, arguments m ms /\
      (~ NoDup (List.map meta_path ms) \/
       (exists x p is, In x ms /\ (named (bs "serde") x \/ named (bs "rocket") x) /\
          x = MList p (List.map (fun i => IMeta (MPath [i])) is) false /\ ~ NoDup is))
  | XFeature =>
      exists ms x, arguments m ms /\ In x ms /\ (forall p, x <> MNameValue p (ELit (LitBool false))) /\
        ((named (bs "serde") x /\ f_serde f = false) \/ (named (bs "rocket") x /\ f_rocket f = false))
  | XSyntax => (forall ms, ~ arguments m ms) \/
      exists ms x n, arguments m ms /\ In x ms /\ In n names /\ named n x
  | XValue | XAttr _ => exists ms x n, arguments m ms /\ In x ms /\ In n names /\ named n x
  | _ => False
  end.

Definition honest {St} (f : features) (p : param St) : Prop := forall x e, p_read p x = Err e ->
  of_value e \/ (p_name p = bs "serde" /\ flags_cause (f_serde f) x e) \/
  (p_name p = bs "rocket" /\ flags_cause (f_rocket f) x e).

Lemma table_err : forall St (tbl : list (param St)) f d m e, Forall (honest f) tbl ->
  build_from_meta tbl d m = Err e -> table_fault (List.map p_name tbl) f m e.
Proof.
  intros St tbl f d m e HT H. apply build_err in H.
  destruct H as [[-> H]|[[-> H]|(ms & A & [[-> (x & Hx & Hu)]|[[-> ND]|(x & p & Hx & Hp & Nx & R & _)]])]].
  - exact H.
  - left. exact H.
  - exists ms, x. auto.
  - exists ms. auto.
  - rewrite Forall_forall in HT. assert (V : exists ms x n, arguments m ms /\ In x ms /\ In n (List.map p_name tbl) /\ named n x).
    { exists ms, x, (p_name p). split; [exact A|]. split; [exact Hx|]. split; [|exact Nx]. apply in_map. exact Hp. }
    destruct (HT p Hp x e R) as [[->|[->|(a & ->)]]|[[E C]|[E C]]]; [exact V|right; exact V|exact V| |];
      rewrite E in Nx; destruct C as [->|[->|[(-> & Hf & Hn)|(-> & q & is & Hi & ND)]]];
      first [exact V|right; exact V|idtac].
    + exists ms, x. auto 9.
    + exists ms. split; [exact A|]. right. exists x, q, is. auto.
    + exists ms, x. auto 9.
    + exists ms. split; [exact A|]. right. exists x, q, is. auto.
Qed.

Lemma opts_honest : forall St f (get : St -> opts) set, Forall (honest f) (opts_params f get set).
Proof.
  intros St f get set. apply Forall_cons; [|apply Forall_cons; [|apply Forall_nil]]; intros x e H; right; [left|right];
    (split; [reflexivity|exact (flags_err _ _ _ _ _ H)]).
Qed.

Lemma honest_value : forall St f (p : param St), (forall x e, p_read p x = Err e -> of_value e) -> honest f p.
Proof. intros St f p H x e R. left. eapply H. exact R. Qed.

Ltac own E := apply Forall_cons; [apply honest_value; intros ? ? R; cbn [p_read] in R; first [exact (E _ _ R)|eapply E; exact R|left; exact (E _ _ R)]|].

Lemma omap_some_err : forall A (x : outcome macro_err A) e, omap Some x = Err e -> x = Err e.
Proof. intros A [a|a|] e H; cbn in H; congruence. Qed.

Section Builders.
Variable f : features.

Lemma basic_fault : forall m e, basic_attribute f m = Err e -> table_fault [bs "serde"; bs "rocket"] f m e.
Proof. intros m e H. refine (table_err _ _ f _ m e _ H). apply opts_honest. Qed.
Lemma base_fault : forall m e, base_attribute f m = Err e -> table_fault [bs "padding"; bs "serde"; bs "rocket"] f m e.
Proof. intros m e H. refine (table_err _ _ f _ m e _ H). own tri_err. apply opts_honest. Qed.
Lemma http_fault : forall m e, http_attribute f m = Err e -> table_fault [bs "local"; bs "serde"; bs "rocket"] f m e.
Proof. intros m e H. refine (table_err _ _ f _ m e _ H). own tri_err. apply opts_honest. Qed.
Lemma ip_fault : forall m e, ip_attribute f m = Err e ->
  table_fault [bs "local"; bs "port"; bs "serde"; bs "rocket"] f m e.
Proof. intros m e H. refine (table_err _ _ f _ m e _ H). own tri_err. own tri_err. apply opts_honest. Qed.
Lemma host_fault : forall m e, host_attribute f m = Err e ->
  table_fault [bs "local"; bs "port"; bs "at_least_two_labels"; bs "serde"; bs "rocket"] f m e.
Proof. intros m e H. refine (table_err _ _ f _ m e _ H). do 3 own tri_err. apply opts_honest. Qed.
Lemma domain_fault : forall m e, domain_attribute f m = Err e ->
  table_fault [bs "ipv4"; bs "local"; bs "port"; bs "at_least_two_labels"; bs "conflict"; bs "serde"; bs "rocket"] f m e.
Proof. intros m e H. refine (table_err _ _ f _ m e _ H). do 4 own tri_err. own allow_err. apply opts_honest. Qed.
Lemma email_fault : forall m e, email_attribute f m = Err e ->
  table_fault [bs "comment"; bs "ip"; bs "local"; bs "at_least_two_labels"; bs "non_ascii"; bs "conflict"; bs "serde";
    bs "rocket"] f m e.
Proof.
  intros m e H. refine (table_err _ _ f _ m e _ H). own allow_err. do 3 own tri_err. do 2 own allow_err. apply opts_honest.
Qed.
Lemma hex_fault : forall c m e, hex_attribute c f m = Err e ->
  table_fault [bs "case"; bs "separator"; bs "serde"; bs "rocket"] f m e.
Proof. intros c m e H. refine (table_err _ _ f _ m e _ H). own case_err. own sep_err. apply opts_honest. Qed.
Lemma range_fault : forall T (fs : list N -> option T) ltb leb m e, range_attribute fs ltb leb f m = Err e ->
  table_fault [bs "range"; bs "serde"; bs "rocket"] f m e.
Proof. intros T fs ltb leb m e H. refine (table_err _ _ f _ m e _ H). own range_option_err. apply opts_honest. Qed.
Lemma number_fault : forall T (fs : list N -> option T) ltb leb m e, number_attribute fs ltb leb f m = Err e ->
  table_fault [bs "range"; bs "nan"; bs "conflict"; bs "serde"; bs "rocket"] f m e.
Proof.
  intros T fs ltb leb m e H. refine (table_err _ _ f _ m e _ H). own range_option_err. own tri_err. own allow_err.
  apply opts_honest.
Qed.
Lemma bit_fault : forall T (fs : list N -> option T) ltb leb m e, bit_attribute fs ltb leb f m = Err e ->
  table_fault [bs "range"; bs "serde"; bs "rocket"] f m e.
Proof. intros T fs ltb leb m e H. refine (table_err _ _ f _ m e _ H). own range_err. apply opts_honest. Qed.
Lemma byte_fault : forall T (fs : list N -> option T) ltb leb m e, byte_attribute fs ltb leb f m = Err e ->
  table_fault [bs "range"; bs "ignore_case"; bs "serde"; bs "rocket"] f m e.
Proof.
  intros T fs ltb leb m e H. refine (table_err _ _ f _ m e _ H). own range_err. own bool_err. apply opts_honest.
Qed.
Lemma phone_fault : forall cid (ifs : list N -> option cid) ceq m e, phone_attribute ifs ceq f m = Err e ->
  table_fault [bs "countries"; bs "serde"; bs "rocket"] f m e.
Proof. intros cid ifs ceq m e H. refine (table_err _ _ f _ m e _ H). own countries_err. apply opts_honest. Qed.
End Builders.
