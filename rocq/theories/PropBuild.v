(** phone: C95. The macro keeps the countries in a [HashSet], whose order of iteration differs from one compilation to the next; a build is one
    order. The phonenumber library is arbitrary, as in PropPhone.v. *)
From Coq Require Import Permutation.
From Verif Require Import Base IntModel Serde PhoneModel PhoneProofs ExpectModel.
Local Open Scope N_scope.

(** [e] is the error of the first country in the list that the library cannot read the text for. *)
Definition first_error {cid phone perr} (parse : option cid -> list N -> phone + perr) (cs : list cid) (s : list N) (e : perr) : Prop :=
  exists pre c post, cs = pre ++ c :: post /\ parse (Some c) s = inr e /\ forall d, In d pre -> exists p, parse (Some d) s = inl p.

Lemma first_error_fun cid phone perr (parse : option cid -> list N -> phone + perr) cs s e e' :
  first_error parse cs s e -> first_error parse cs s e' -> e = e'.
Proof.
  intros (pre & c & post & -> & E & P) (pre' & c' & post' & E1 & E' & P').
  revert pre' E1 P'. induction pre as [|x pre IH]; intros [|x' pre'] E1 P'; cbn [app] in E1; injection E1 as -> E1.
  - congruence.
  - destruct (P' x' (or_introl eq_refl)) as (p & Q). congruence.
  - destruct (P c' (or_introl eq_refl)) as (p & Q). congruence.
  - apply (IH (fun d D => P d (or_intror D)) pre' E1 (fun d D => P' d (or_intror D))).
Qed.

Lemma loop_error cid eqb phone perr parse country valid s e : forall cs m,
  phone_v_loop cid eqb phone perr parse country valid cs s m = Err (PParseError e) <-> first_error parse cs s e.
Proof.
  induction cs as [|c cs IH]; intros m; cbn [phone_v_loop].
  - split; [discriminate|]. intros (pre & c & post & E & _). destruct pre; discriminate.
  - unfold p_parse. destruct (parse (Some c) s) as [p|e'] eqn:P; cbn [obind].
    + rewrite IH. split.
      * intros (pre & d & post & -> & E & Q). exists (c :: pre), d, post. split; [reflexivity|]. split; [exact E|].
        intros x [<-|X]; [exists p; exact P|apply Q; exact X].
      * intros (pre & d & post & E & F & Q). destruct pre as [|x pre]; cbn [app] in E; injection E as -> ->; [congruence|].
        exists pre, d, post. split; [reflexivity|]. split; [exact F|]. intros y Y. apply Q. right. exact Y.
    + split.
      * intros H. injection H as <-. exists [], c, cs. split; [reflexivity|]. split; [exact P|]. intros d [].
      * intros (pre & d & post & E & F & Q). destruct pre as [|x pre]; cbn [app] in E; injection E as -> ->; [congruence|].
        destruct (Q x (or_introl eq_refl)) as (p & Qp). congruence.
Qed.

Lemma loop_not_invalid cid eqb phone perr parse country valid s : forall cs m,
  phone_v_loop cid eqb phone perr parse country valid cs s m <> Err PInvalid.
Proof.
  induction cs as [|c cs IH]; intros m; cbn [phone_v_loop]; [discriminate|].
  unfold p_parse. destruct (parse (Some c) s) as [p|e']; cbn [obind]; [apply IH|discriminate].
Qed.

Lemma parse_error cid eqb phone perr parse country valid cs s e : (2 <= List.length cs)%nat ->
  phone_parse_str cid eqb phone perr parse country valid cs s = Err (PParseError e) <-> first_error parse cs s e.
Proof.
  intros L. unfold phone_parse_str. destruct cs as [|c [|d cs]]; [cbn in L; lia|cbn in L; lia|].
  unfold phone_v_parse_str, phone_v_many.
  rewrite <- (loop_error cid eqb phone perr parse country valid s e (c :: d :: cs) []).
  destruct (phone_v_loop _ _ _ _ _ _ _ _ s []) as [[|x m]|e'|]; cbn [obind omap]; split; congruence.
Qed.

(** C95. Two builds of the same [countries(..)] accept the same texts, with the same numbers for the same countries, and refuse the same texts as
    not valid ... *)
Theorem C95_phone_values : forall cid eqb phone perr parse country valid,
  (forall a b : cid, eqb a b = true <-> a = b) -> forall cs cs' s, NoDup cs -> Permutation cs cs' ->
  let run l := phone_parse_str cid eqb phone perr parse country valid l s in
  (forall p, run cs = Ok (POne p) <-> run cs' = Ok (POne p)) /\
  (forall m, run cs = Ok (PMany m) -> exists m', run cs' = Ok (PMany m') /\ Permutation m m') /\
  (run cs = Err PInvalid <-> run cs' = Err PInvalid) /\ run cs <> Panic /\ run cs' <> Panic.
Proof.
  intros cid eqb phone perr parse country valid Heq cs cs' s Hnd P run.
  assert (Hnd' : NoDup cs') by (eapply Permutation_NoDup; eassumption).
  pose proof (phone_no_panic cid eqb phone perr parse country valid Heq cs s Hnd) as N.
  pose proof (phone_no_panic cid eqb phone perr parse country valid Heq cs' s Hnd') as N'.
  change (run cs <> Panic) in N. change (run cs' <> Panic) in N'.
  destruct cs as [|c [|d cs0]].
  - apply Permutation_nil in P as ->. repeat split; auto. intros m H. exists m. auto.
  - apply Permutation_length_1_inv in P as ->. repeat split; auto. intros m H. exists m. auto.
  - set (cs := c :: d :: cs0) in *. assert (L : (2 <= List.length cs)%nat) by (cbn; lia).
    assert (L' : (2 <= List.length cs')%nat) by (rewrite <- (Permutation_length P); exact L).
    destruct (phone_permute cid eqb phone perr parse country valid Heq cs cs' s L Hnd P) as (A & B).
    destruct (phone_many cid eqb phone perr parse country valid Heq cs s L Hnd) as (M & _).
    destruct (phone_many cid eqb phone perr parse country valid Heq cs' s L' Hnd') as (M' & _).
    change (is_ok (run cs) <-> is_ok (run cs')) in A.
    split; [|split; [|split; [|auto]]].
    + intros p. split; intros H; [destruct (M _ H) as (_ & m & E & _)|destruct (M' _ H) as (_ & m & E & _)]; discriminate.
    + intros m H. destruct (run cs') as [v| |] eqn:R.
      * destruct (M' _ R) as (_ & m' & -> & _). exists m'. split; [reflexivity|]. exact (B _ _ H R).
      * exfalso. assert (X : is_ok (run cs)) by (rewrite H; eexists; reflexivity). apply A in X as (v & X). discriminate X.
      * contradiction.
    + assert (X : forall l l', Permutation l l' -> (2 <= List.length l)%nat -> (2 <= List.length l')%nat ->
        (is_ok (run l) <-> is_ok (run l')) -> run l' <> Panic -> run l = Err PInvalid -> run l' = Err PInvalid).
      { intros l l' Q K K' O NP H. destruct (run l') as [v|[e|]|] eqn:R; [|exfalso|reflexivity|contradiction].
        - assert (Y : is_ok (run l)) by (apply O; exists v; reflexivity). destruct Y as (w & Y). congruence.
        - apply (parse_error cid eqb phone perr parse country valid l' s e K') in R as (pre & x & post & -> & E & _).
          assert (I : In x l) by (apply (Permutation_in x (Permutation_sym Q)); apply in_elt).
          clear -H E I K. revert H. unfold run, phone_parse_str. destruct l as [|a [|b l]]; [cbn in K; lia|cbn in K; lia|].
          unfold phone_v_parse_str, phone_v_many. clear K. revert I. generalize (a :: b :: l). intros l0 I H. assert (Z : exists m, phone_v_loop cid eqb phone perr parse country valid l0 s [] = Ok m).
          { destruct (phone_v_loop cid eqb phone perr parse country valid l0 s []) as [m|[e'|]|] eqn:F; cbn [obind omap] in H.
            - exists m. reflexivity.
            - discriminate.
            - exfalso. exact (loop_not_invalid _ _ _ _ _ _ _ _ _ _ F).
            - discriminate. }
          destruct Z as (m & Z). clear H. revert Z. generalize (@nil (cid * phone)). revert I.
          induction l0 as [|y l0 IH]; intros I m0; [destruct I|]. cbn [phone_v_loop]. unfold p_parse.
          destruct I as [->|I].
          + rewrite E. discriminate.
          + destruct (parse (Some y) s); cbn [obind]; [apply IH; exact I|discriminate]. }
      split; [apply X|apply X]; auto using Permutation_sym. rewrite A. reflexivity.
Qed.
Print Assumptions C95_phone_values.

(** ... and the library errors that some build reports are those of the countries it cannot read the text for: all builds report the same
    one exactly when these countries have the same error. *)
Theorem C95_phone_errors : forall cid eqb phone perr parse country valid cs s e, (2 <= List.length cs)%nat ->
  (exists cs', Permutation cs cs' /\ phone_parse_str cid eqb phone perr parse country valid cs' s = Err (PParseError e)) <->
  exists c, In c cs /\ parse (Some c) s = inr e.
Proof.
  intros cid eqb phone perr parse country valid cs s e L. split.
  - intros (cs' & P & H). apply parse_error in H as (pre & c & post & -> & E & _); [|rewrite <- (Permutation_length P); exact L].
    exists c. split; [|exact E]. apply (Permutation_in c (Permutation_sym P)). apply in_elt.
  - intros (c & I & E). apply in_split in I as (pre & post & ->). exists (c :: pre ++ post).
    split; [symmetry; apply Permutation_middle|]. apply parse_error.
    + cbn [List.length]. rewrite app_length in L |- *. cbn [List.length] in L. lia.
    + exists [], c, (pre ++ post). split; [reflexivity|]. split; [exact E|]. intros d [].
Qed.
Print Assumptions C95_phone_errors.

Theorem C95_phone_errors_agree : forall cid eqb phone perr parse country valid cs s, (2 <= List.length cs)%nat ->
  (forall cs' cs'' e e', Permutation cs cs' -> Permutation cs cs'' ->
     phone_parse_str cid eqb phone perr parse country valid cs' s = Err (PParseError e) ->
     phone_parse_str cid eqb phone perr parse country valid cs'' s = Err (PParseError e') -> e = e') <->
  (forall c d e e', In c cs -> In d cs -> parse (Some c) s = inr e -> parse (Some d) s = inr e' -> e = e').
Proof.
  intros cid eqb phone perr parse country valid cs s L.
  pose proof (fun e => C95_phone_errors cid eqb phone perr parse country valid cs s e L) as X. split.
  - intros H c d e e' C D E E'. destruct (proj2 (X e) (ex_intro _ c (conj C E))) as (l & P & R).
    destruct (proj2 (X e') (ex_intro _ d (conj D E'))) as (l' & P' & R'). exact (H l l' e e' P P' R R').
  - intros H l l' e e' P P' R R'. destruct (proj1 (X e) (ex_intro _ l (conj P R))) as (c & C & E).
    destruct (proj1 (X e') (ex_intro _ l' (conj P' R'))) as (d & D & E'). exact (H c d e e' C D E E').
Qed.
Print Assumptions C95_phone_errors_agree.

(** So the error is not fixed by the source: *)
Theorem C95_phone_error_refuted : exists cid eqb phone perr parse country valid cs cs' s e e',
  (forall a b : cid, eqb a b = true <-> a = b) /\ NoDup cs /\ Permutation cs cs' /\ e <> e' /\
  phone_parse_str cid eqb phone perr parse country valid cs s = Err e /\
  phone_parse_str cid eqb phone perr parse country valid cs' s = Err e'.
Proof.
  exists N, N.eqb, unit, N, (fun c _ => inr match c with Some c => c | None => 0 end), (fun _ => None), (fun _ => true), [1; 2], [2; 1], (bs "x"),
    (PParseError 1), (PParseError 2).
  split; [apply N.eqb_eq|]. split; [repeat constructor; cbn; intuition discriminate|]. split; [apply perm_swap|].
  split; [discriminate|]. split; reflexivity.
Qed.
Print Assumptions C95_phone_error_refuted.

(** The names of countries, as [Debug] writes them: different for different countries, and made of letters (all that matters: no comma and no
    brace). *)
Definition country_names {cid} (show : cid -> list N) : Prop :=
  (forall a b, show a = show b -> a = b) /\ forall a, ~ In 44 (show a) /\ ~ In 125 (show a).

Lemma cut_at (x : N) a b r r' : ~ In x a -> ~ In x b -> a ++ x :: r = b ++ x :: r' -> a = b /\ r = r'.
Proof.
  revert b. induction a as [|y a IH]; intros [|z b] A B E; cbn [app] in E.
  - injection E as ->. auto.
  - injection E as -> _. exfalso. apply B. left. reflexivity.
  - injection E as <- _. exfalso. apply A. left. reflexivity.
  - injection E as -> E. destruct (IH b (fun I => A (or_intror I)) (fun I => B (or_intror I)) E) as (-> & ->). auto.
Qed.

Lemma listed_inj cid (show : cid -> list N) : country_names show -> forall l l' c c',
  show c ++ List.concat (List.map (fun y => bs ", " ++ show y) l) ++ bs "}" =
  show c' ++ List.concat (List.map (fun y => bs ", " ++ show y) l') ++ bs "}" -> c :: l = c' :: l'.
Proof.
  intros (J & K). change (bs ", ") with [44; 32]. change (bs "}") with [125].
  assert (G : forall a b : list N, 32 :: a = 32 :: b -> a = b) by (intros a b Q; injection Q; auto).
  induction l as [|d l IH]; intros [|d' l'] c c' E; cbn [List.map List.concat app] in E.
  - apply cut_at in E as (E & _); [|apply K|apply K]. f_equal. apply J. exact E.
  - exfalso. assert (X : In 44 (show c ++ [125])) by (rewrite E; apply in_elt).
    apply in_app_iff in X as [X|[X|[]]]; [destruct (K c) as (K1 & _); contradiction|discriminate].
  - exfalso. assert (X : In 44 (show c' ++ [125])) by (rewrite <- E; apply in_elt).
    apply in_app_iff in X as [X|[X|[]]]; [destruct (K c') as (K1 & _); contradiction|discriminate].
  - apply cut_at in E as (E & F); [|apply K|apply K]. apply J in E as ->. f_equal.
    rewrite <- !app_assoc in F. apply IH. apply G. exact F.
Qed.

(** C95. The description that the deserialiser gives lists the countries in the order of the build, so it tells which countries there are, and it
    is the same in two builds exactly when the order is. *)
Theorem C95_phone_expect : forall cid (show : cid -> list N), country_names show -> forall cs cs',
  (phone_expect show cs = phone_expect show cs' <-> cs = cs').
Proof.
  intros cid show K cs cs'. split; [|congruence].
  destruct cs as [|c l], cs' as [|c' l']; unfold phone_expect; intros E.
  - reflexivity.
  - exfalso. apply (f_equal (fun x => nth 1 x 0)) in E. vm_compute in E. discriminate.
  - exfalso. apply (f_equal (fun x => nth 1 x 0)) in E. vm_compute in E. discriminate.
  - apply app_inv_head in E. unfold debug_set in E. apply app_inv_head in E. rewrite <- !app_assoc in E.
    exact (listed_inj cid show K l l' c c' E).
Qed.
Print Assumptions C95_phone_expect.

(** With two countries or more there are two builds that describe themselves differently. *)
Theorem C95_phone_expect_refuted : forall cid (show : cid -> list N), country_names show -> forall cs, NoDup cs -> (2 <= List.length cs)%nat ->
  exists cs', Permutation cs cs' /\ phone_expect show cs <> phone_expect show cs'.
Proof.
  intros cid show K cs ND L. destruct cs as [|a [|b cs]]; [cbn in L; lia|cbn in L; lia|]. exists (b :: a :: cs).
  split; [apply perm_swap|]. intros E. apply (C95_phone_expect cid show K) in E. injection E as E _. subst b.
  inversion ND as [|? ? X _]. apply X. left. reflexivity.
Qed.
Print Assumptions C95_phone_expect_refuted.

Example C95_example :
  let show := fun b : bool => if b then bs "TW" else bs "US" in
  country_names show /\ phone_expect show [true; false] = bs "a phone number in {TW, US}" /\
  phone_expect show [false; true] = bs "a phone number in {US, TW}" /\ NoDup [true; false] /\
  phone_expect show [] = bs "an international phone number".
Proof.
  split; [|repeat split; try reflexivity].
  - split; [intros [] [] E; try reflexivity; vm_compute in E; discriminate|].
    intros []; split; vm_compute; intuition discriminate.
  - repeat constructor; cbn; intuition discriminate.
Qed.
