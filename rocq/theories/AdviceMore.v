(** Lemmas for PropAdvice.v: the remaining attributes, and the handlers. *)
From Coq Require Import SpecFloat.
From Verif Require Import Base LocalProofs RangeModel IntModel NumberModel LengthModel MacModel PhoneModel MetaModel
  MetaSpec MetaProofs MetaTables MacroModel MacroSpec MacroProofs AdviceModel AdviceSpec AdviceProofs.
Local Open Scope N_scope.

Lemma regex_fault : forall f compiles m e, regex_attribute compiles f m = Err e ->
  table_fault [bs "regex"; bs "serde"; bs "rocket"] f m e \/
  (e = XMissing /\ exists ms, arguments m ms /\ forall x, In x ms -> ~ named (bs "regex") x).
Proof.
  intros f c m e H. unfold regex_attribute in H.
  match type of H with obind (build_from_meta ?t ?d m) _ = _ =>
    assert (B := build_ok _ t d m); destruct (build_from_meta t d m) as [a|e'|] eqn:D; cbn [obind] in H end.
  - right. destruct (ga_regex a) as [r|] eqn:G; [discriminate H|]. injection H as <-. split; [reflexivity|].
    destruct (proj1 (B a ltac:(good_tac)) eq_refl) as (ms & A & _ & E). exists ms. split; [exact A|].
    intros x Hx Nx. destruct (E _ (or_introl eq_refl)) as [(y & Hy & Ny & R)|[Hno _]].
    + cbn [p_read p_get] in R. rewrite G in R. destruct (regex_from_meta c y); cbn in R; discriminate R.
    + exact (Hno x Hx Nx).
  - left. injection H as <-. refine (table_err _ _ f _ m e' _ D).
    apply Forall_cons; [apply honest_value; intros x e R; cbn [p_read] in R; apply omap_some_err in R; exact (regex_err c x e R)|].
    apply opts_honest.
  - discriminate H.
Qed.

Lemma coll_fault : forall f m e, coll_meta f m = Err e -> table_fault [bs "min"; bs "max"; bs "serde"] f m e.
Proof.
  intros f m e H. unfold coll_meta in H.
  match type of H with obind (build_from_meta ?t ?d m) _ = _ =>
    assert (B := build_ok _ t d m); destruct (build_from_meta t d m) as [a|e'|] eqn:D; cbn [obind] in H end.
  - destruct (proj1 (B a ltac:(good_tac)) eq_refl) as (ms & A & _ & E).
    destruct (ca_min a) as [x|] eqn:M; [|discriminate H]. destruct (ca_max a) as [y|]; [|discriminate H].
    destruct (y <? x); [|discriminate H]. injection H as <-.
    destruct (E _ (or_introl eq_refl)) as [(z & Hz & Nz & _)|[_ C]].
    + exists ms, z, (bs "min"). split; [exact A|]. split; [exact Hz|]. split; [left; reflexivity|exact Nz].
    + cbn [p_get] in C. rewrite M in C. discriminate C.
  - injection H as <-. refine (table_err _ _ f _ m e' _ D).
    do 2 (apply Forall_cons; [apply honest_value; intros x e R; cbn [p_read] in R; apply omap_some_err in R;
      exact (number_err _ _ x e R)|]).
    apply Forall_cons; [|apply Forall_nil]. intros x e R. right. left. split; [reflexivity|]. exact (flags_err _ _ _ _ _ R).
  - discriminate H.
Qed.

Lemma length_err : forall m e, length_meta m = Err e ->
  of_value e \/ (e = XFormat /\ forall p items tr, m <> MList p items tr).
Proof.
  intros m e H. destruct m as [p|p v|p items tr]; cbn [length_meta] in H;
    try (injection H as <-; right; split; [reflexivity|congruence]).
  left. destruct (args_metas items tr) as [ms|]; [|injection H as <-; ovs].
  eapply attr_of in H; [exact H|exact (fun x => x)].
Qed.

Definition utf8_names : list ident := [bs "char_length"; bs "byte_length"; bs "serde"; bs "rocket"].

(** The error of the loop of line and text, from any state; [fl] is the length already given. *)
Definition utf8_cause (f : features) (fl : option ident) (s r : bool) (ms : list meta) (e : macro_err) : Prop :=
  match e with
  | XFormat => exists x, In x ms /\ (named (bs "char_length") x \/ named (bs "byte_length") x) /\
                 forall p items tr, x <> MList p items tr
  | XUnknown => exists x, In x ms /\ forall n, In n utf8_names -> ~ named n x
  | XReset => ~ NoDup (List.map meta_path ms) \/
       (s = true /\ exists x, In x ms /\ named (bs "serde") x) \/ (r = true /\ exists x, In x ms /\ named (bs "rocket") x) \/
       (fl <> None /\ exists x, In x ms /\ (named (bs "char_length") x \/ named (bs "byte_length") x)) \/
       (exists x p is, In x ms /\ (named (bs "serde") x \/ named (bs "rocket") x) /\
          x = MList p (List.map (fun i => IMeta (MPath [i])) is) false /\ ~ NoDup is) \/
       (exists x y, In x ms /\ In y ms /\ named (bs "char_length") x /\ named (bs "byte_length") y)
  | XFeature => exists x, In x ms /\ (forall p, x <> MNameValue p (ELit (LitBool false))) /\
        ((named (bs "serde") x /\ f_serde f = false) \/ (named (bs "rocket") x /\ f_rocket f = false))
  | XSyntax | XValue | XAttr _ => exists x n, In x ms /\ In n utf8_names /\ named n x
  | _ => False
  end.

Lemma utf8_value : forall f fl s r x ms n e, of_value e -> In n utf8_names -> named n x -> utf8_cause f fl s r (x :: ms) e.
Proof.
  intros f fl s r x ms n e [->|[->|(a & ->)]] Hn Nx; exists x, n; (split; [left; reflexivity|split; assumption]).
Qed.

Lemma utf8_flags : forall f fl s r x ms e,
  (named (bs "serde") x /\ flags_cause (f_serde f) x e) \/ (named (bs "rocket") x /\ flags_cause (f_rocket f) x e) ->
  utf8_cause f fl s r (x :: ms) e.
Proof.
  intros f fl s r x ms e [[N C]|[N C]]; destruct C as [->|[->|[(-> & Hf & Hn)|(-> & q & is & Hi & ND)]]].
  - apply (utf8_value f fl s r x ms (bs "serde")); [left; reflexivity|do 2 right; left; reflexivity|exact N].
  - apply (utf8_value f fl s r x ms (bs "serde")); [right; left; reflexivity|do 2 right; left; reflexivity|exact N].
  - exists x. split; [left; reflexivity|]. auto.
  - do 4 right. left. exists x, q, is. split; [left; reflexivity|]. auto.
  - apply (utf8_value f fl s r x ms (bs "rocket")); [left; reflexivity|do 3 right; left; reflexivity|exact N].
  - apply (utf8_value f fl s r x ms (bs "rocket")); [right; left; reflexivity|do 3 right; left; reflexivity|exact N].
  - exists x. split; [left; reflexivity|]. auto.
  - do 4 right. left. exists x, q, is. split; [left; reflexivity|]. auto.
Qed.

(** From the rest of the parameters to all of them; [n] is the name of the first one. *)
Lemma utf8_step : forall f fl fl' s s' r r' x ms n e, named n x ->
  (s' = true -> s = true \/ n = bs "serde") -> (r' = true -> r = true \/ n = bs "rocket") ->
  (fl' <> None -> fl <> None \/ n = bs "char_length" \/ n = bs "byte_length") ->
  utf8_cause f fl' s' r' ms e -> utf8_cause f fl s r (x :: ms) e.
Proof.
  intros f fl fl' s s' r r' x ms n e Nx Hs Hr Hl H.
  assert (DUP : forall y, In y ms -> named n y -> ~ NoDup (List.map meta_path (x :: ms))).
  { intros y Hy Ny ND. cbn [List.map] in ND. inversion ND as [|a b Hi ND' E]. apply Hi. unfold named in *.
    rewrite Nx, <- Ny. apply in_map. exact Hy. }
  destruct e; cbn [utf8_cause] in *; try exact H.
  - destruct H as (y & Hy & H). exists y. split; [right; exact Hy|exact H].
  - destruct H as [H|[[S (y & Hy & Ny)]|[[S (y & Hy & Ny)]|[[S (y & Hy & Ny)]|[(y & q & is & Hy & H)|(y & z & Hy & Hz & H)]]]]].
    + left. cbn [List.map]. intros ND. inversion ND. contradiction.
    + destruct (Hs S) as [S0| ->]; [right; left; split; [exact S0|]; exists y; split; [right; exact Hy|exact Ny]|].
      left. exact (DUP y Hy Ny).
    + destruct (Hr S) as [S0| ->]; [do 2 right; left; split; [exact S0|]; exists y; split; [right; exact Hy|exact Ny]|].
      left. exact (DUP y Hy Ny).
    + destruct (Hl S) as [S0|[-> | ->]].
      * do 3 right. left. split; [exact S0|]. exists y. split; [right; exact Hy|exact Ny].
      * destruct Ny as [Ny|Ny]; [left; exact (DUP y Hy Ny)|]. do 5 right. exists x, y.
        split; [left; reflexivity|]. split; [right; exact Hy|]. auto.
      * destruct Ny as [Ny|Ny]; [|left; exact (DUP y Hy Ny)]. do 5 right. exists y, x.
        split; [right; exact Hy|]. split; [left; reflexivity|]. auto.
    + do 4 right. left. exists y, q, is. split; [right; exact Hy|exact H].
    + do 5 right. exists y, z. split; [right; exact Hy|]. split; [right; exact Hz|exact H].
  - destruct H as (y & Hy & H). exists y. split; [right; exact Hy|exact H].
  - destruct H as (y & k & Hy & H). exists y, k. split; [right; exact Hy|exact H].
  - destruct H as (y & k & Hy & H). exists y, k. split; [right; exact Hy|exact H].
  - destruct H as (y & Hy & H). exists y. split; [right; exact Hy|exact H].
  - destruct H as (y & k & Hy & H). exists y, k. split; [right; exact Hy|exact H].
Qed.

Lemma utf8_err : forall f ms (fl : option ident) s r st e, utf8_loop f (match fl with Some _ => true | None => false end) s r st ms = Err e ->
  utf8_cause f fl s r ms e.
Proof.
  intros f. induction ms as [|m ms IH]; intros fl s r st e H; cbn [utf8_loop] in H; [discriminate H|].
  destruct (get_ident (meta_path m)) as [i|] eqn:G.
  2:{ injection H as <-. exists m. split; [left; reflexivity|]. intros n _ Nn. unfold named in Nn. rewrite Nn in G. discriminate G. }
  apply MetaProofs.get_ident_spec in G.
  destruct (eqbs i (bs "char_length")) eqn:E1.
  { apply str_eqb_eq in E1. subst i. destruct (length_meta m) as [v|e'|] eqn:R; cbn [obind] in H; [| |discriminate H].
    - destruct fl as [k|].
      + injection H as <-. do 3 right. left. split; [discriminate|]. exists m. split; [left; reflexivity|left; exact G].
      + refine (utf8_step f None (Some (bs "char_length")) s s r r m ms (bs "char_length") e G _ _ _ (IH (Some (bs "char_length")) _ _ _ _ H)); auto.
    - injection H as <-. apply length_err in R. destruct R as [R|[-> R]].
      + apply (utf8_value f fl s r m ms (bs "char_length")); [exact R|left; reflexivity|exact G].
      + exists m. split; [left; reflexivity|]. split; [left; exact G|exact R]. }
  destruct (eqbs i (bs "byte_length")) eqn:E2.
  { apply str_eqb_eq in E2. subst i. destruct (length_meta m) as [v|e'|] eqn:R; cbn [obind] in H; [| |discriminate H].
    - destruct fl as [k|].
      + injection H as <-. do 3 right. left. split; [discriminate|]. exists m. split; [left; reflexivity|right; exact G].
      + refine (utf8_step f None (Some (bs "byte_length")) s s r r m ms (bs "byte_length") e G _ _ _ (IH (Some (bs "byte_length")) _ _ _ _ H)); auto.
    - injection H as <-. apply length_err in R. destruct R as [R|[-> R]].
      + apply (utf8_value f fl s r m ms (bs "byte_length")); [exact R|right; left; reflexivity|exact G].
      + exists m. split; [left; reflexivity|]. split; [right; exact G|exact R]. }
  destruct (eqbs i (bs "serde")) eqn:E3.
  { apply str_eqb_eq in E3. subst i. destruct (serde_from_meta f m) as [v|e'|] eqn:R; cbn [obind] in H; [| |discriminate H].
    - destruct s.
      + injection H as <-. right. left. split; [reflexivity|]. exists m. split; [left; reflexivity|exact G].
      + refine (utf8_step f fl fl false true r r m ms (bs "serde") e G _ _ _ (IH fl _ _ _ _ H)); auto.
    - injection H as <-. apply flags_err in R. apply utf8_flags. left. auto. }
  destruct (eqbs i (bs "rocket")) eqn:E4.
  { apply str_eqb_eq in E4. subst i. destruct (rocket_from_meta f m) as [v|e'|] eqn:R; cbn [obind] in H; [| |discriminate H].
    - destruct r.
      + injection H as <-. do 2 right. left. split; [reflexivity|]. exists m. split; [left; reflexivity|exact G].
      + refine (utf8_step f fl fl s s false true m ms (bs "rocket") e G _ _ _ (IH fl _ _ _ _ H)); auto.
    - injection H as <-. apply flags_err in R. apply utf8_flags. right. auto. }
  injection H as <-. exists m. split; [left; reflexivity|]. intros n Hn Nn. unfold named in Nn. rewrite G in Nn.
  injection Nn as ->. apply str_eqb_false in E1, E2, E3, E4.
  destruct Hn as [Hn|[Hn|[Hn|[Hn|[]]]]]; subst n; congruence.
Qed.

Lemma utf8_fault : forall f v m e, of_lengths v -> utf8_meta f m = Err e -> fault v f m e.
Proof.
  intros f v m e Hv H. assert (P : correct_parameters v = utf8_names) by (destruct Hv as [-> | ->]; reflexivity).
  destruct m as [p|p x|p items tr]; cbn [utf8_meta] in H; [discriminate H| |].
  - injection H as <-. left. exists p, x. reflexivity.
  - destruct (args_metas items tr) as [ms|] eqn:A.
    + assert (AR : arguments (MList p items tr) ms) by (cbn [arguments]; apply args_metas_spec; exact A).
      apply (utf8_err f ms None) in H. destruct e; cbn [utf8_cause fault] in *; rewrite ?P; try exact H.
      * destruct H as (x & Hx & H). right. split; [exact Hv|]. exists ms, x. auto.
      * exists ms. split; [exact AR|].
        destruct H as [H|[[C _]|[[C _]|[[C _]|[H|H]]]]]; [left; exact H|discriminate C|discriminate C|destruct C; reflexivity|auto|auto].
      * destruct H as (x & Hx & H). exists ms, x. auto.
      * destruct H as (x & n & H). right. exists ms, x, n. auto.
      * destruct H as (x & n & H). exists ms, x, n. auto.
      * destruct H as (x & H). exists ms, x. auto.
      * destruct H.
      * destruct H.
      * exact I.
      * destruct H as (x & n & H). exists ms, x, n. auto.
    + injection H as <-. left. intros ms Hm. cbn [arguments] in Hm. apply args_metas_spec in Hm. congruence.
Qed.

Lemma table_to_fault : forall v f m e, table_fault (correct_parameters v) f m e -> fault v f m e.
Proof.
  intros v f m e H. destruct e; cbn [table_fault fault] in *; try exact H; try (destruct H; fail).
  - left. exact H.
  - destruct H as (ms & A & H). exists ms. split; [exact A|]. destruct H as [H|H]; auto.
Qed.

Lemma tuple_err : forall A (build : meta -> outcome macro_err A) m d e, tuple_handler build m d = Err e ->
  build m = Err e \/ e = XShape.
Proof.
  intros A build m d e H. unfold tuple_handler in H. destruct (build m) as [a|e'|]; cbn [obind] in H; [|left; congruence|discriminate H].
  unfold on_struct in H. destruct d as [fs| |]; [destruct (tuple1 fs)| |]; right; congruence.
Qed.

Lemma struct_err : forall A (x : outcome macro_err A) (ok : A -> syn_fields -> bool) d e,
  (let? a := x in on_struct (ok a) d a) = Err e -> x = Err e \/ e = XShape.
Proof.
  intros A x ok d e H. destruct x as [a|e'|]; cbn [obind] in H; [|left; congruence|discriminate H].
  unfold on_struct in H. destruct d as [fs| |]; [destruct (ok a fs)| |]; right; congruence.
Qed.

Lemma omap_err_inv : forall A B (h : A -> B) (x : outcome macro_err A) e, omap h x = Err e -> x = Err e.
Proof. intros A B h [a|a|] e H; cbn in H; congruence. Qed.

Lemma value_must : forall ms n d v, value ms n tri_written d v -> v <> d ->
  exists x, In x ms /\ named n x /\ tri_written x v.
Proof. intros ms n d v [(x & H)|[_ H]] N; [exists x; exact H|contradiction]. Qed.

Section Handler.
Context {cid : Type}.
Variable id_from_str : list N -> option cid.
Variable cid_eqb : cid -> cid -> bool.
Variable compiles : list N -> bool.
Variable float_lit : fty -> list N -> option spec_float.
Variable pw : ptr_width.

Lemma handler_fault : forall v f m d e,
  handler id_from_str cid_eqb compiles float_lit pw v f m d = Err e -> fault v f m e.
Proof.
  intros v f m d e H.
  assert (T : table_fault (correct_parameters v) f m e -> fault v f m e) by apply table_to_fault.
  destruct v; cbn [handler] in H; apply omap_err_inv in H;
    try (apply tuple_err in H; destruct H as [H| ->]; [|exact I]);
    try (unfold http_handler, ip_handler, host_handler in H;
         first [apply (struct_err _ _ (fun _ => two_named)) in H
               |apply (struct_err _ _ (fun a => ip_shape _ (ia_port a))) in H
               |apply (struct_err _ _ host_shape) in H];
         destruct H as [H| ->]; [|exact I]);
    try (apply T;
      first [exact (base_fault f m e H)|exact (basic_fault f m e H)|exact (http_fault f m e H)|exact (ip_fault f m e H)
            |exact (host_fault f m e H)|exact (bit_fault f _ _ _ _ m e H)|exact (byte_fault f _ _ _ _ m e H)
            |exact (hex_fault f _ m e H)|exact (phone_fault f _ _ _ m e H)|exact (coll_fault f m e H)]).
  - unfold domain_handler in H. destruct (domain_attribute f m) as [a|e'|] eqn:D; cbn [obind] in H; [| |discriminate H].
    + destruct d as [fs| |]; try (injection H as <-; exact I).
      destruct (domain_conflicts a) eqn:C; [|destruct (domain_shape a fs); [discriminate H|injection H as <-; exact I]].
      injection H as <-. apply domain_lemma in D. destruct D as (ms & A & _ & V1 & _ & _ & V4 & V5 & _).
      unfold domain_conflicts in C. apply andb_prop in C. destruct C as [C C3]. apply andb_prop in C. destruct C as [C1 C2].
      destruct (da_conflict a); [discriminate C3|]. exists ms. split; [exact A|]. split; [exact V5|]. split.
      * apply value_must in V1; [|intros E; rewrite E in C1; discriminate C1].
        destruct (da_ipv4 a); try discriminate C1. exact V1.
      * apply value_must in V4; [|intros E; rewrite E in C2; discriminate C2].
        destruct (da_two a); try discriminate C2. exact V4.
    + injection H as <-. apply T. exact (domain_fault f m e' D).
  - unfold email_handler in H. destruct (email_attribute f m) as [a|e'|] eqn:D; cbn [obind] in H; [| |discriminate H].
    + destruct d as [fs| |]; try (injection H as <-; exact I).
      destruct (email_conflicts a) eqn:C; [|destruct (email_shape a fs); [discriminate H|injection H as <-; exact I]].
      injection H as <-. apply email_lemma in D. destruct D as (ms & A & _ & _ & V1 & _ & V4 & _ & V5 & _).
      unfold email_conflicts in C. apply andb_prop in C. destruct C as [C C3]. apply andb_prop in C. destruct C as [C1 C2].
      destruct (ea_conflict a); [discriminate C3|]. exists ms. split; [exact A|]. split; [exact V5|]. split.
      * apply value_must in V1; [|intros E; rewrite E in C1; discriminate C1].
        destruct (ea_ip a); try discriminate C1. exact V1.
      * apply value_must in V4; [|intros E; rewrite E in C2; discriminate C2].
        destruct (ea_two a); try discriminate C2. exact V4.
    + injection H as <-. apply T. exact (email_fault f m e' D).
  - exact (utf8_fault f Vline m e (or_introl eq_refl) H).
  - unfold number_handler in H. destruct d as [[ns|[|ty [|? ?]]|]| |]; try (injection H as <-; exact I).
    destruct (float_type ty) as [t|]; [|injection H as <-; exact I].
    destruct (number_attribute (float_lit t) SFltb SFleb f m) as [a|e'|] eqn:D; cbn [obind] in H; [| |discriminate H].
    + destruct (number_conflict (na_range a) (na_nan a) (na_conflict a)) eqn:C; [|discriminate H].
      injection H as <-. apply number_lemma in D. destruct D as (ms & A & _ & V1 & V2 & V5 & _).
      unfold number_conflict in C. apply andb_prop in C. destruct C as [C C3]. apply andb_prop in C. destruct C as [C1 C2].
      destruct (na_conflict a); [discriminate C3|]. exists ms. split; [exact A|]. split; [exact V5|]. split.
      * apply value_must in V2; [|intros E; rewrite E in C1; discriminate C1].
        destruct (na_nan a); try discriminate C1. exact V2.
      * destruct (na_range a) as [mn mx i| |]; try discriminate C2.
        destruct V1 as [(x & Hx & Nx & (p & b & -> & Nb & _))|[_ V1]]; [|discriminate V1].
        unfold named in Nx. cbn [meta_path] in Nx. subst p. exists (MList [bs "range"] [IMeta b] false), b. auto.
    + injection H as <-. apply T. exact (number_fault f _ _ _ _ m e' D).
  - apply regex_fault in H. destruct H as [H|[-> H]]; [apply T; exact H|]. split; [reflexivity|exact H].
  - unfold int_handler in H. destruct d as [[ns|[|ty [|? ?]]|]| |]; try (injection H as <-; exact I).
    destruct (int_type true ty) as [t|]; [|injection H as <-; exact I].
    destruct (range_attribute (int_lit true pw t) Z.ltb Z.leb f m) as [a|e'|] eqn:D; cbn [obind] in H; try discriminate H.
    injection H as <-. apply T. exact (range_fault f _ _ _ _ m e' D).
  - exact (utf8_fault f Vtext m e (or_intror eq_refl) H).
  - unfold int_handler in H. destruct d as [[ns|[|ty [|? ?]]|]| |]; try (injection H as <-; exact I).
    destruct (int_type false ty) as [t|]; [|injection H as <-; exact I].
    destruct (range_attribute (int_lit false pw t) Z.ltb Z.leb f m) as [a|e'|] eqn:D; cbn [obind] in H; try discriminate H.
    injection H as <-. apply T. exact (range_fault f _ _ _ _ m e' D).
Qed.

(** An unknown parameter on its own is refused as such, on any struct the validator can be put on. *)
Lemma handler_unknown : forall v f m m' d g x, arguments m [x] -> (forall n, In n (correct_parameters v) -> ~ named n x) ->
  handler id_from_str cid_eqb compiles float_lit pw v f m' d = Ok g ->
  handler id_from_str cid_eqb compiles float_lit pw v f m d = Err XUnknown.
Proof.
  intros v f m m' d g x A Hu OK.
  assert (B : forall St (tbl : list (param St)) s0, List.map p_name tbl = correct_parameters v ->
              build_from_meta tbl s0 m = Err XUnknown).
  { intros St tbl s0 E. apply (alone_unknown St tbl s0 m x A). rewrite E. exact Hu. }
  assert (U : of_lengths v -> utf8_meta f m = Err XUnknown).
  { intros Hv. destruct m as [p|p y|p items tr]; cbn [arguments] in A; [discriminate A|destruct A|].
    cbn [utf8_meta]. apply args_metas_spec in A. rewrite A. cbn [utf8_loop].
    destruct (get_ident (meta_path x)) as [i|] eqn:G; [|reflexivity]. apply MetaProofs.get_ident_spec in G.
    assert (NE : forall n, In n (correct_parameters v) -> eqbs i n = false).
    { intros n Hn. apply str_eqb_neq. intros ->. exact (Hu n Hn G). }
    assert (P : correct_parameters v = utf8_names) by (destruct Hv as [-> | ->]; reflexivity). rewrite P in NE.
    rewrite (NE (bs "char_length")), (NE (bs "byte_length")), (NE (bs "serde")), (NE (bs "rocket"));
      [reflexivity|do 3 right; left; reflexivity|do 2 right; left; reflexivity|right; left; reflexivity|left; reflexivity]. }
  destruct v; cbn [handler] in *;
    try (unfold tuple_handler, http_handler, ip_handler, host_handler, domain_handler, email_handler, basic_attribute,
           base_attribute, http_attribute, ip_attribute, host_attribute, domain_attribute, email_attribute, mac_attribute,
           uuid_attribute, hex_attribute, bit_attribute, byte_attribute, phone_attribute, regex_attribute, coll_meta;
         rewrite B by reflexivity; reflexivity);
    try (unfold tuple_handler; rewrite U by (first [left; reflexivity|right; reflexivity]); reflexivity).
  - unfold number_handler in *. destruct d as [[ns|[|ty [|? ?]]|]| |]; try discriminate OK.
    destruct (float_type ty); [|discriminate OK]. unfold number_attribute. rewrite B by reflexivity. reflexivity.
  - unfold int_handler in *. destruct d as [[ns|[|ty [|? ?]]|]| |]; try discriminate OK.
    destruct (int_type true ty); [|discriminate OK]. unfold range_attribute. rewrite B by reflexivity. reflexivity.
  - unfold int_handler in *. destruct d as [[ns|[|ty [|? ?]]|]| |]; try discriminate OK.
    destruct (int_type false ty); [|discriminate OK]. unfold range_attribute. rewrite B by reflexivity. reflexivity.
Qed.
End Handler.

(** ** Ranges and lengths *)

Lemma range_params_unknown : forall T ps (st : rstate T), range_params T st ps = Err EUnknown -> In POther ps.
Proof.
  intros T. induction ps as [|p ps IH]; intros st H; cbn [range_params] in H; [discriminate H|].
  destruct p as [v|v|v|]; [| | |left; reflexivity]; right; cbn [range_handler] in H;
    (destruct v as [v|]; [|discriminate H]);
    match type of H with context [if ?b then _ else _] => destruct b end; cbn [obind] in H; try discriminate H;
    eapply IH; exact H.
Qed.

Lemma length_params_unknown : forall ps st, length_params st ps = Err EUnknown -> In LOther ps.
Proof.
  induction ps as [|p ps IH]; intros st H; cbn [length_params] in H; [discriminate H|].
  destruct p as [v|v|v|]; [| | |left; reflexivity]; right; cbn [length_handler] in H;
    (destruct v as [v|]; [|discriminate H]);
    match type of H with context [if ?b then _ else _] => destruct b end; cbn [obind] in H; try discriminate H;
    eapply IH; exact H.
Qed.

Lemma expr_range_known : forall T (r : expr_range T), from_expr_range T r <> Err EUnknown.
Proof.
  intros T r H. unfold from_expr_range in H.
  destruct (e_start r) as [|[v|]|]; cbn [read_bound obind] in H; try discriminate H;
    destruct (e_end r) as [|[w|]|]; cbn [read_bound obind] in H; discriminate H.
Qed.

Lemma rparam_other : forall T (fs : list N -> option T) x, rparam_of_meta fs x = POther <->
  forall n, In n range_parameters -> ~ named n x.
Proof.
  intros T fs x. unfold rparam_of_meta, named. split.
  - intros H n Hn E. rewrite E in H. cbn [get_ident] in H.
    destruct Hn as [<-|[<-|[<-|[]]]]; vm_compute in H; discriminate H.
  - intros H. destruct (get_ident (meta_path x)) as [i|] eqn:G; [|reflexivity]. apply MetaProofs.get_ident_spec in G.
    rewrite !str_eqb_neq; [reflexivity| | |]; intros ->;
      [apply (H (bs "inclusive"))|apply (H (bs "max"))|apply (H (bs "min"))]; try exact G;
      [do 2 right; left; reflexivity|right; left; reflexivity|left; reflexivity].
Qed.

Lemma lparam_other : forall x, lparam_of_meta x = LOther <-> forall n, In n length_parameters -> ~ named n x.
Proof.
  intros x. unfold lparam_of_meta, named. split.
  - intros H n Hn E. rewrite E in H. cbn [get_ident] in H.
    destruct Hn as [<-|[<-|[<-|[]]]];
      repeat match type of H with context [if ?b then _ else _] => let B := eval vm_compute in b in change b with B in H; cbv iota in H end;
      discriminate H.
  - intros H. destruct (get_ident (meta_path x)) as [i|] eqn:G; [|reflexivity]. apply MetaProofs.get_ident_spec in G.
    rewrite !str_eqb_neq; [reflexivity| | |]; intros ->;
      [apply (H (bs "max"))|apply (H (bs "trimmed_min"))|apply (H (bs "min"))]; try exact G;
      [do 2 right; left; reflexivity|right; left; reflexivity|left; reflexivity].
Qed.

Lemma range_meta_unknown : forall T (fs : list N -> option T) ltb leb f m,
  range_meta fs ltb leb f m = Err (XAttr EUnknown) ->
  exists ms x, arguments m ms /\ In x ms /\ forall n, In n range_parameters -> ~ named n x.
Proof.
  intros T fs ltb leb f m H. unfold range_meta in H.
  destruct (range_from_meta T ltb leb (f_full f) (rmeta_of fs m)) as [a|e|] eqn:R; cbn in H; [discriminate H| |discriminate H].
  injection H as ->. destruct m as [p|p v|p items tr]; cbn [rmeta_of range_from_meta] in R.
  - discriminate R.
  - destruct v; cbn [range_from_meta] in R; destruct (f_full f); try discriminate R. destruct (expr_range_known _ _ R).
  - assert (L : match args_metas items tr with Some ms => Some (List.map (rparam_of_meta fs) ms) | None => None end
              = None \/ exists ms, arguments (MList p items tr) ms /\
                args_metas items tr = Some ms).
    { destruct (args_metas items tr) as [ms|] eqn:A; [right|left; reflexivity]. exists ms.
      split; [cbn [arguments]; apply args_metas_spec; exact A|reflexivity]. }
    assert (R' : match match args_metas items tr with Some ms => Some (List.map (rparam_of_meta fs) ms) | None => None end with
                 | None => Err ESyntax
                 | Some ps => let? st := range_params T (rstate0 T) ps in
                     range_check T ltb leb (st_min st) (st_max st) (st_incl st)
                 end = Err EUnknown).
    { destruct (f_full f); [destruct (args_range items tr)|]; [destruct (expr_range_known _ _ R)|exact R|exact R]. }
    clear R. destruct L as [L|(ms & A & L)].
    + rewrite L in R'. discriminate R'.
    + rewrite L in R'. destruct (range_params T (rstate0 T) (List.map (rparam_of_meta fs) ms)) as [st|e|] eqn:P;
        cbn [obind] in R'; [| |discriminate R'].
      * exfalso. unfold range_check in R'. destruct (st_min st), (st_max st); try discriminate R'.
        destruct (st_incl st); [destruct (ltb t0 t)|destruct (leb t0 t)]; discriminate R'.
      * injection R' as ->. apply range_params_unknown in P. apply in_map_iff in P. destruct P as (x & E & Hx).
        exists ms, x. split; [exact A|]. split; [exact Hx|]. exact (proj1 (rparam_other T fs x) E).
Qed.

Lemma range_meta_alone : forall T (fs : list N -> option T) ltb leb f m x, arguments m [x] ->
  (forall n, In n range_parameters -> ~ named n x) -> range_meta fs ltb leb f m = Err (XAttr EUnknown).
Proof.
  intros T fs ltb leb f m x A H. destruct m as [p|p v|p items tr]; cbn [arguments] in A; [discriminate A|destruct A|].
  unfold range_meta. cbn [rmeta_of range_from_meta].
  assert (G : args_range items tr = None) by (destruct A as [-> _]; destruct tr; reflexivity).
  apply args_metas_spec in A. rewrite A, G. cbn [List.map]. rewrite (proj2 (rparam_other T fs x) H).
  destruct (f_full f); reflexivity.
Qed.

Lemma length_meta_unknown : forall m, length_meta m = Err (XAttr EUnknown) ->
  exists ms x, arguments m ms /\ In x ms /\ forall n, In n length_parameters -> ~ named n x.
Proof.
  intros m H. destruct m as [p|p v|p items tr]; cbn [length_meta] in H; try discriminate H.
  destruct (args_metas items tr) as [ms|] eqn:A; [|discriminate H].
  destruct (length_from_meta (List.map lparam_of_meta ms)) as [a|e|] eqn:R; cbn in H; [discriminate H| |discriminate H].
  injection H as ->. unfold length_from_meta in R.
  destruct (length_params lstate0 (List.map lparam_of_meta ms)) as [st|e|] eqn:P; cbn [obind] in R; [| |discriminate R].
  - exfalso. unfold length_check in R. destruct (ls_min st), (ls_tmin st), (ls_max st); cbn [obind] in R;
      repeat match type of R with context [if ?b then _ else _] => destruct b; cbn [obind] in R end; discriminate R.
  - injection R as ->. apply length_params_unknown in P. apply in_map_iff in P. destruct P as (x & E & Hx).
    exists ms, x. split; [cbn [arguments]; apply args_metas_spec; exact A|]. split; [exact Hx|].
    exact (proj1 (lparam_other x) E).
Qed.

Lemma length_meta_alone : forall m x, arguments m [x] -> (forall n, In n length_parameters -> ~ named n x) ->
  length_meta m = Err (XAttr EUnknown).
Proof.
  intros m x A H. destruct m as [p|p v|p items tr]; cbn [arguments] in A; [discriminate A|destruct A|].
  cbn [length_meta]. apply args_metas_spec in A. rewrite A. cbn [List.map]. rewrite (proj2 (lparam_other x) H). reflexivity.
Qed.

(** ** Words *)

Lemma marked_concat : forall c l, marked c l = List.concat (List.map (fun s : list N => c :: s) l).
Proof. intros c. induction l as [|s l IH]; cbn [marked List.map List.concat app]; [reflexivity|]. rewrite IH. reflexivity. Qed.

Lemma offers_iff : forall text ws w, (forall s, In s ws -> ~ In 47 s) -> 47 :: text = marked 47 ws ->
  (offers text w <-> In w ws).
Proof.
  intros text ws w Hs E. split.
  - intros (l & Hw & Hl & El). rewrite E, <- marked_concat in El.
    apply (between_iff 47 [] ws w); [exact (fun x => x)|exact Hs|apply Hl; exact Hw|].
    cbn [app]. rewrite El. apply (between_iff 47 [] l w); [exact (fun x => x)|exact Hl|apply Hl; exact Hw|exact Hw].
  - intros Hw. exists ws. split; [exact Hw|]. split; [exact Hs|]. rewrite E. apply marked_concat.
Qed.

Lemma tri_offers : forall w, offers tri_words w <-> In w [bs "Must"; bs "Allow"; bs "Disallow"].
Proof. intros w. apply offers_iff; [|reflexivity]. intros s [<-|[<-|[<-|[]]]]; clean. Qed.
Lemma allow_offers : forall w, offers allow_words w <-> In w [bs "Allow"; bs "Disallow"].
Proof. intros w. apply offers_iff; [|reflexivity]. intros s [<-|[<-|[]]]; clean. Qed.
Lemma case_offers : forall w, offers case_words w <-> In w [bs "Any"; bs "Upper"; bs "Lower"].
Proof. intros w. apply offers_iff; [|reflexivity]. intros s [<-|[<-|[<-|[]]]]; clean. Qed.
