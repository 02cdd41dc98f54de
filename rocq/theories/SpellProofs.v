(** Every reader of a parameter gives the same for two spellings of it. *)
From Coq Require Import Permutation.
From Verif Require Import Base IntStr RangeModel SizeModel LengthModel MacModel PhoneModel MetaModel MetaSpec AttrSpec MetaProofs
  LocalProofs MacroModel SpellSpec.
Local Open Scope N_scope.

Lemma agree_refl {E A} (x : outcome E A) : agree x x.
Proof. intro a. reflexivity. Qed.
Lemma agree_err {E A} (e e' : E) : agree (Err e : outcome E A) (Err e').
Proof. intro a. split; discriminate. Qed.
Lemma agree_eq {E A} (x y : outcome E A) : x = y -> agree x y.
Proof. intros ->. apply agree_refl. Qed.
Lemma agree_bind {E A B} (x y : outcome E A) (k k' : A -> outcome E B) :
  agree x y -> (forall a, agree (k a) (k' a)) -> agree (obind x k) (obind y k').
Proof.
  intros H K b. destruct x as [a | e |] eqn:X.
  - rewrite (proj1 (H a) eq_refl). cbn [obind]. apply K.
  - cbn [obind]. destruct y as [c | e' |] eqn:Y; cbn [obind].
    + discriminate (proj2 (H c) eq_refl).
    + split; discriminate.
    + split; discriminate.
  - cbn [obind]. destruct y as [c | e' |] eqn:Y; cbn [obind].
    + discriminate (proj2 (H c) eq_refl).
    + split; discriminate.
    + split; discriminate.
Qed.
Lemma agree_omap {E A B} (g : A -> B) (x y : outcome E A) : agree x y -> agree (omap g x) (omap g y).
Proof.
  intros H b. destruct x as [a | e |] eqn:X; destruct y as [c | e' |] eqn:Y; cbn [omap];
  try (split; discriminate).
  - rewrite (proj1 (H a) eq_refl) in Y || idtac. injection (proj1 (H a) eq_refl) as ->. reflexivity.
  - discriminate (proj1 (H a) eq_refl).
  - discriminate (proj1 (H a) eq_refl).
  - discriminate (proj2 (H c) eq_refl).
  - discriminate (proj2 (H c) eq_refl).
Qed.

(** A respelt parameter keeps its name, and is never a name only. *)
Lemma respelt_shape a b : respelt a b ->
  meta_path a = meta_path b /\ (forall p, a <> MPath p) /\ (forall p, b <> MPath p).
Proof. induction 1; cbn [meta_path]; repeat split; discriminate. Qed.

Lemma in_middle {A} pre (x : A) post y : pre ++ x :: post = [y] -> pre = [] /\ post = [] /\ x = y.
Proof.
  destruct pre as [| z pre]; cbn [app].
  - intros [= -> ->]. auto.
  - intros [= -> H]. destruct pre; discriminate.
Qed.

Lemma args_meta_middle pre a b post tr :
  (pre = [] /\ post = [] /\ tr = false /\
   args_meta (pre ++ IMeta a :: post) tr = Some a /\ args_meta (pre ++ IMeta b :: post) tr = Some b) \/
  (args_meta (pre ++ IMeta a :: post) tr = None /\ args_meta (pre ++ IMeta b :: post) tr = None).
Proof.
  destruct pre as [| x pre]; cbn [app].
  - destruct post as [| y post].
    + destruct tr; [right; split; reflexivity | left; repeat split; reflexivity].
    + right. split; reflexivity.
  - right. destruct x; destruct pre; split; reflexivity.
Qed.
Lemma args_lit_middle pre a post tr : args_lit (pre ++ IMeta a :: post) tr = None.
Proof.
  destruct pre as [| x pre]; cbn [app]; [reflexivity |].
  destruct x; try reflexivity. destruct pre; reflexivity.
Qed.
Lemma args_range_middle pre a post tr : args_range (pre ++ IMeta a :: post) tr = None.
Proof.
  destruct pre as [| x pre]; cbn [app]; [reflexivity |].
  destruct x; try reflexivity. destruct pre; reflexivity.
Qed.
Lemma args_ident_middle pre a b post tr : respelt a b ->
  args_ident (pre ++ IMeta a :: post) tr = None /\ args_ident (pre ++ IMeta b :: post) tr = None.
Proof.
  intro H. destruct (respelt_shape _ _ H) as (_ & A & B). unfold args_ident.
  destruct (args_meta_middle pre a b post tr) as [(_ & _ & _ & -> & ->) | [-> ->]]; [| split; reflexivity].
  split.
  - destruct a; [now elim (A p) | reflexivity | reflexivity].
  - destruct b; [now elim (B p) | reflexivity | reflexivity].
Qed.
Lemma all_idents_middle pre a post : (forall p, a <> MPath p) -> all_idents (pre ++ IMeta a :: post) = None.
Proof.
  intro A. induction pre as [| x pre IH]; cbn [app all_idents].
  - destruct a; [now elim (A p) | reflexivity | reflexivity].
  - destruct x as [[p | p e | p l t] | | |]; try reflexivity. rewrite IH. destruct (get_ident p); reflexivity.
Qed.
Lemma args_idents_middle pre a post tr : (forall p, a <> MPath p) -> args_idents (pre ++ IMeta a :: post) tr = None.
Proof.
  intro A. unfold args_idents. destruct tr.
  - destruct (pre ++ IMeta a :: post); reflexivity.
  - rewrite (all_idents_middle pre a post A). destruct (pre ++ IMeta a :: post); reflexivity.
Qed.
Lemma all_metas_middle pre a b post :
  (all_metas (pre ++ IMeta a :: post) = None /\ all_metas (pre ++ IMeta b :: post) = None) \/
  exists xs ys, all_metas (pre ++ IMeta a :: post) = Some (xs ++ a :: ys) /\
                all_metas (pre ++ IMeta b :: post) = Some (xs ++ b :: ys).
Proof.
  induction pre as [| x pre IH]; cbn [app all_metas].
  - destruct (all_metas post) as [ys |]; [right; exists [], ys; split; reflexivity | left; split; reflexivity].
  - destruct x; try (left; split; reflexivity).
    destruct IH as [[-> ->] | (xs & ys & -> & ->)]; [left; split; reflexivity |].
    right. exists (m :: xs), ys. split; reflexivity.
Qed.
Lemma args_metas_middle pre a b post tr :
  (args_metas (pre ++ IMeta a :: post) tr = None /\ args_metas (pre ++ IMeta b :: post) tr = None) \/
  exists xs ys, args_metas (pre ++ IMeta a :: post) tr = Some (xs ++ a :: ys) /\
                args_metas (pre ++ IMeta b :: post) tr = Some (xs ++ b :: ys).
Proof.
  unfold args_metas. destruct (all_metas_middle pre a b post) as [[H K] | (xs & ys & H & K)].
  - left. rewrite H, K. destruct pre; cbn [app]; split; reflexivity.
  - right. exists xs, ys. rewrite H, K. destruct pre; cbn [app]; split; reflexivity.
Qed.
Lemma all_metas_map ms : all_metas (List.map IMeta ms) = Some ms.
Proof. induction ms as [| m ms IH]; cbn [List.map all_metas]; [reflexivity |]. rewrite IH. reflexivity. Qed.
Lemma args_metas_map ms tr : ms <> [] -> args_metas (List.map IMeta ms) tr = Some ms.
Proof.
  intro H. unfold args_metas. rewrite all_metas_map. destruct ms; [now elim H |]. reflexivity.
Qed.
Lemma args_range_map ms tr : args_range (List.map IMeta ms) tr = None.
Proof. destruct ms as [| m ms]; reflexivity. Qed.
Lemma args_lit_map ms tr : args_lit (List.map IMeta ms) tr = None.
Proof. destruct ms as [| m ms]; reflexivity. Qed.

(** [In n [..]] is impossible. *)
Ltac not_in H := exfalso; vm_compute in H; intuition discriminate.

Lemma word_same {A} (F : ident -> outcome macro_err A) a b : (forall n, In n list_params -> meta_path a <> [n]) ->
  respelt a b -> agree (word_from_meta F a) (word_from_meta F b).
Proof.
  intros L H. destruct H; cbn [word_from_meta get_ident]; try apply agree_err; try apply agree_refl.
  - now elim (L n H).
  - destruct (args_ident_middle pre a b post tr H) as [-> ->]. apply agree_refl.
Qed.
Lemma bool_same a b : respelt a b -> meta_2_bool a = meta_2_bool b \/ exists e e', meta_2_bool a = Err e /\ meta_2_bool b = Err e'.
Proof.
  intro H. destruct H; cbn [meta_2_bool]; try (left; reflexivity); try (right; eexists; eexists; split; reflexivity).
  - destruct l; cbn [args_lit]; try (left; reflexivity); right; eexists; eexists; split; reflexivity.
  - left. rewrite !args_lit_map. reflexivity.
  - left. rewrite !args_lit_middle. reflexivity.
Qed.
Lemma number_same {T} (from_str : list N -> option T) a b : respelt a b ->
  meta_2_number from_str a = meta_2_number from_str b \/
  exists e e', meta_2_number from_str a = Err e /\ meta_2_number from_str b = Err e'.
Proof.
  intro H. destruct H; cbn [meta_2_number expr_2_number]; try (left; reflexivity);
  try (right; eexists; eexists; split; reflexivity).
  - destruct l; cbn [args_lit lit_2_number]; try (left; reflexivity); right; eexists; eexists; split; reflexivity.
  - left. rewrite !args_lit_map. reflexivity.
  - left. rewrite !args_lit_middle. reflexivity.
Qed.
Lemma same_agree {E A} (x y : outcome E A) : x = y \/ (exists e e', x = Err e /\ y = Err e') -> agree x y.
Proof. intros [-> | (e & e' & -> & ->)]; [apply agree_refl | apply agree_err]. Qed.

(** The one argument of [separator(..)]. *)
Definition sep_arg (m : option meta) : outcome macro_err sep_option :=
  match m with
  | None => Err XSyntax
  | Some m => sep_from_meta (MList [] [IMeta m] false)
  end.
Lemma sep_arg_same a b : respelt a b -> agree (sep_arg (Some a)) (sep_arg (Some b)).
Proof.
  intro H. destruct H; cbn [sep_arg sep_from_meta args_meta get_ident]; try apply agree_refl;
  try (cbn [args_lit]; destruct (eqbs n (bs "Must")), (eqbs n (bs "Allow")); apply agree_err).
  - cbn [args_lit]. destruct l; destruct (eqbs n (bs "Must")); try apply agree_err; try apply agree_refl;
    destruct (eqbs n (bs "Allow")); try apply agree_err; try apply agree_refl.
  - destruct (eqbs n (bs "Must")) eqn:M; [apply eqbs_eq in M; subst n; not_in H |].
    destruct (eqbs n (bs "Allow")) eqn:A; [apply eqbs_eq in A; subst n; not_in H |].
    destruct l; apply agree_err.
  - rewrite !args_lit_map. apply agree_refl.
  - rewrite !args_lit_middle. apply agree_refl.
Qed.
Lemma sep_same a b : meta_path a = [bs "separator"] -> respelt a b -> agree (sep_from_meta a) (sep_from_meta b).
Proof.
  intros P H. destruct H; cbn [meta_path] in P; try (injection P as ->; not_in H).
  change (agree (sep_arg (args_meta (pre ++ IMeta a :: post) tr)) (sep_arg (args_meta (pre ++ IMeta b :: post) tr))).
  destruct (args_meta_middle pre a b post tr) as [(_ & _ & _ & -> & ->) | [-> ->]]; [| apply agree_refl].
  now apply sep_arg_same.
Qed.
Lemma flags_same en x y a b : meta_path a = [bs "serde"] \/ meta_path a = [bs "rocket"] -> respelt a b ->
  agree (meta_2_flags en x y a) (meta_2_flags en x y b).
Proof.
  intros P H. destruct (respelt_shape _ _ H) as (_ & A & B).
  destruct H; cbn [meta_path] in P; try (destruct P as [P | P]; injection P as ->; not_in H).
  cbn [meta_2_flags]. destruct (respelt_shape _ _ H) as (_ & A' & B').
  rewrite (args_idents_middle pre a post tr A'), (args_idents_middle pre b post tr B'). apply agree_refl.
Qed.

Section Number.
Context {T : Type}.
Variable from_str : list N -> option T.
Variables ltb leb : T -> T -> bool.

Lemma rparam_same a b : respelt a b -> rparam_of_meta from_str a = rparam_of_meta from_str b.
Proof.
  intro H. unfold rparam_of_meta. destruct (respelt_shape _ _ H) as (-> & _ & _).
  assert (N1 : number_opt from_str a = number_opt from_str b).
  { unfold number_opt. destruct (number_same from_str a b H) as [-> | (e & e' & -> & ->)]; reflexivity. }
  assert (B1 : (match meta_2_bool a with Ok b => Some b | _ => None end) =
               (match meta_2_bool b with Ok b => Some b | _ => None end)).
  { destruct (bool_same a b H) as [-> | (e & e' & -> & ->)]; reflexivity. }
  rewrite N1, B1. reflexivity.
Qed.

(** The two forms read as a range agree. *)
Lemma rmeta_same full a b : (forall n, In n (word_params ++ literal_params) -> meta_path a <> [n]) -> respelt a b ->
  agree (range_from_meta T ltb leb full (rmeta_of from_str a)) (range_from_meta T ltb leb full (rmeta_of from_str b)).
Proof.
  intros P H. destruct H; cbn [meta_path] in P;
  try (exfalso; refine (P n _ eq_refl); apply in_or_app; auto; fail).
  - exfalso. refine (P n _ eq_refl). apply in_or_app. right. unfold literal_params. apply in_or_app. auto.
  - exfalso. refine (P n _ eq_refl). apply in_or_app. right. unfold literal_params. apply in_or_app. auto.
  - exfalso. refine (P n _ eq_refl). apply in_or_app. right. unfold literal_params. vm_compute in H. vm_compute. tauto.
  - cbn [rmeta_of args_range range_from_meta]. destruct full; [apply agree_refl | apply agree_err].
  - cbn [rmeta_of]. rewrite !args_range_map, !(args_metas_map ms _ H0). apply agree_refl.
  - cbn [rmeta_of]. rewrite !args_range_middle. apply agree_eq.
    destruct (args_metas_middle pre a b post tr) as [[-> ->] | (xs & ys & -> & ->)]; [reflexivity |].
    rewrite !map_app. cbn [List.map]. rewrite (rparam_same a b H). reflexivity.
Qed.
End Number.

Section More.
Context {T : Type}.
Variable from_str : list N -> option T.
Variables ltb leb : T -> T -> bool.

Lemma range_meta_same f a b : (forall n, In n (word_params ++ literal_params) -> meta_path a <> [n]) -> respelt a b ->
  agree (range_meta from_str ltb leb f a) (range_meta from_str ltb leb f b).
Proof.
  intros P H r. unfold range_meta. pose proof (rmeta_same from_str ltb leb (f_full f) a b P H r) as K.
  destruct (range_from_meta T ltb leb (f_full f) (rmeta_of from_str a)) as [x | |],
           (range_from_meta T ltb leb (f_full f) (rmeta_of from_str b)) as [y | |]; cbn [omap_err]; try (split; discriminate).
  - split; intros [= ->]; [apply proj1 in K | apply proj2 in K]; injection (K eq_refl) as ->; reflexivity.
  - split; [intros [= ->]; discriminate (proj1 K eq_refl) | discriminate].
  - split; [intros [= ->]; discriminate (proj1 K eq_refl) | discriminate].
  - split; [discriminate | intros [= ->]; discriminate (proj2 K eq_refl)].
  - split; [discriminate | intros [= ->]; discriminate (proj2 K eq_refl)].
Qed.

Lemma omap_err_agree {E E' A} (g : E -> E') (x y : outcome E A) : agree x y -> agree (omap_err g x) (omap_err g y).
Proof.
  intros H r. pose proof (H r) as K. destruct x as [x | |], y as [y | |]; cbn [omap_err]; try (split; discriminate).
  - split; intros [= ->]; [apply proj1 in K | apply proj2 in K]; injection (K eq_refl) as ->; reflexivity.
  - split; [intros [= ->]; discriminate (proj1 K eq_refl) | discriminate].
  - split; [intros [= ->]; discriminate (proj1 K eq_refl) | discriminate].
  - split; [discriminate | intros [= ->]; discriminate (proj2 K eq_refl)].
  - split; [discriminate | intros [= ->]; discriminate (proj2 K eq_refl)].
Qed.

Lemma named_not i n L : eqbs i (bs n) = true -> In i L -> In (bs n) L.
Proof. intros E H. apply eqbs_eq in E. subst i. exact H. Qed.

Lemma range_option_same f a b : meta_path a = [bs "range"] -> respelt a b ->
  agree (range_option_meta from_str ltb leb f a) (range_option_meta from_str ltb leb f b).
Proof.
  intros P H. destruct H; cbn [meta_path] in P; try (injection P as ->; not_in H).
  - cbn [range_option_meta args_meta]. apply agree_err.
  - cbn [range_option_meta].
    destruct (args_meta_middle pre a b post tr) as [(_ & _ & _ & -> & ->) | [-> ->]]; [| apply agree_refl].
    destruct (respelt_shape _ _ H) as (<- & _ & _). destruct (get_ident (meta_path a)) as [i |] eqn:G; [| apply agree_refl].
    assert (MP : meta_path a = [i]). { destruct (meta_path a) as [| x [| y l]]; cbn in G; congruence. }
    destruct (eqbs i (bs "Inside")) eqn:I1.
    + apply omap_err_agree. cbn [range_option_from_meta]. apply agree_bind; [| intro; apply agree_refl].
      apply rmeta_same; [| exact H]. intros k Hn. rewrite MP. intros [= ->]. pose proof (named_not _ _ _ I1 Hn) as K. not_in K.
    + destruct (eqbs i (bs "Outside")) eqn:I2; [| apply agree_refl].
      apply omap_err_agree. cbn [range_option_from_meta]. apply agree_bind; [| intro; apply agree_refl].
      apply rmeta_same; [| exact H]. intros k Hn. rewrite MP. intros [= ->]. pose proof (named_not _ _ _ I2 Hn) as K. not_in K.
Qed.
End More.

Lemma lparam_same a b : respelt a b -> lparam_of_meta a = lparam_of_meta b.
Proof.
  intro H. unfold lparam_of_meta. destruct (respelt_shape _ _ H) as (-> & _ & _).
  assert (N1 : number_opt usize_from_str a = number_opt usize_from_str b).
  { unfold number_opt. destruct (number_same usize_from_str a b H) as [-> | (e & e' & -> & ->)]; reflexivity. }
  rewrite N1. reflexivity.
Qed.
Lemma length_meta_same a b : meta_path a = [bs "char_length"] \/ meta_path a = [bs "byte_length"] -> respelt a b ->
  agree (length_meta a) (length_meta b).
Proof.
  intros P H. destruct H; cbn [meta_path] in P; try (destruct P as [P | P]; injection P as ->; not_in H).
  - cbn [length_meta]. rewrite !(args_metas_map ms _ H0). apply agree_refl.
  - cbn [length_meta]. apply agree_eq.
    destruct (args_metas_middle pre a b post tr) as [[-> ->] | (xs & ys & -> & ->)]; [reflexivity |].
    rewrite !map_app. cbn [List.map]. rewrite (lparam_same a b H). reflexivity.
Qed.
Lemma countries_same {cid} (id : list N -> option cid) eqb a b : meta_path a = [bs "countries"] -> respelt a b ->
  agree (countries_from_meta id eqb a) (countries_from_meta id eqb b).
Proof.
  intros P H. destruct H; cbn [meta_path] in P; try (injection P as ->; not_in H).
  cbn [countries_from_meta]. destruct (respelt_shape _ _ H) as (_ & A & B).
  rewrite (args_idents_middle pre a post tr A), (args_idents_middle pre b post tr B). apply agree_refl.
Qed.
Lemma regex_same compiles a b : meta_path a = [bs "regex"] -> respelt a b ->
  agree (regex_from_meta compiles a) (regex_from_meta compiles b).
Proof.
  intros P H. destruct H; cbn [meta_path] in P; try (injection P as ->; not_in H).
  - cbn [regex_from_meta]. apply agree_refl.
  - apply agree_eq. destruct pre as [| x pre]; cbn [app].
    + destruct post as [| y post]; [| reflexivity]. destruct tr; reflexivity.
    + destruct x; destruct pre as [| z pre]; reflexivity.
Qed.

(** The loop over the parameters. *)
Lemma loop_same {St} (tbl : list (param St)) a b :
  (forall p, In p tbl -> meta_path a = [p_name p] -> agree (p_read p a) (p_read p b)) -> respelt a b ->
  forall xs ys flags st, agree (attr_loop tbl flags st (xs ++ a :: ys)) (attr_loop tbl flags st (xs ++ b :: ys)).
Proof.
  intros R H xs ys. destruct (respelt_shape _ _ H) as (MP & _ & _).
  induction xs as [| x xs IH]; intros flags st; cbn [app attr_loop].
  - rewrite <- MP. destruct (get_ident (meta_path a)) as [i |] eqn:G; [| apply agree_refl].
    destruct (find (fun p => eqbs i (p_name p)) tbl) as [p |] eqn:F; [| apply agree_refl].
    apply find_some in F as [F1 F2]. apply eqbs_eq in F2.
    apply agree_bind; [| intro; apply agree_refl]. apply R; [exact F1 |].
    destruct (meta_path a) as [| u [| v l]]; cbn in G; congruence.
  - destruct (get_ident (meta_path x)) as [i |]; [| apply agree_refl].
    destruct (find (fun p => eqbs i (p_name p)) tbl) as [p |]; [| apply agree_refl].
    apply agree_bind; [apply agree_refl |]. intro v. destruct (is_set flags i); [apply agree_refl |]. apply IH.
Qed.
Lemma build_same {St} (tbl : list (param St)) d p pre a b post tr :
  (forall q, In q tbl -> meta_path a = [p_name q] -> agree (p_read q a) (p_read q b)) -> respelt a b ->
  agree (build_from_meta tbl d (MList p (pre ++ IMeta a :: post) tr)) (build_from_meta tbl d (MList p (pre ++ IMeta b :: post) tr)).
Proof.
  intros R H. cbn [build_from_meta].
  destruct (args_metas_middle pre a b post tr) as [[-> ->] | (xs & ys & -> & ->)]; [apply agree_refl |].
  now apply loop_same.
Qed.
Lemma utf8_loop_same f a b : respelt a b ->
  forall xs ys l s r st, agree (utf8_loop f l s r st (xs ++ a :: ys)) (utf8_loop f l s r st (xs ++ b :: ys)).
Proof.
  intros H xs ys. destruct (respelt_shape _ _ H) as (MP & _ & _).
  induction xs as [| x xs IH]; intros l s r st; cbn [app utf8_loop].
  - rewrite <- MP. destruct (get_ident (meta_path a)) as [i |] eqn:G; [| apply agree_refl].
    assert (MPA : meta_path a = [i]). { destruct (meta_path a) as [| u [| v k]]; cbn in G; congruence. }
    destruct (eqbs i (bs "char_length")) eqn:E1.
    { apply eqbs_eq in E1. subst i. apply agree_bind; [apply length_meta_same; auto | intro; apply agree_refl]. }
    destruct (eqbs i (bs "byte_length")) eqn:E2.
    { apply eqbs_eq in E2. subst i. apply agree_bind; [apply length_meta_same; auto | intro; apply agree_refl]. }
    destruct (eqbs i (bs "serde")) eqn:E3.
    { apply eqbs_eq in E3. subst i. apply agree_bind; [apply flags_same; auto | intro; apply agree_refl]. }
    destruct (eqbs i (bs "rocket")) eqn:E4; [| apply agree_refl].
    apply eqbs_eq in E4. subst i. apply agree_bind; [apply flags_same; auto | intro; apply agree_refl].
  - destruct (get_ident (meta_path x)) as [i |]; [| apply agree_refl].
    destruct (eqbs i (bs "char_length")).
    { apply agree_bind; [apply agree_refl |]. intro v. destruct l; [apply agree_refl | apply IH]. }
    destruct (eqbs i (bs "byte_length")).
    { apply agree_bind; [apply agree_refl |]. intro v. destruct l; [apply agree_refl | apply IH]. }
    destruct (eqbs i (bs "serde")).
    { apply agree_bind; [apply agree_refl |]. intro v. destruct s; [apply agree_refl | apply IH]. }
    destruct (eqbs i (bs "rocket")); [| apply agree_refl].
    apply agree_bind; [apply agree_refl |]. intro v. destruct r; [apply agree_refl | apply IH].
Qed.

(** The readers of the tables. *)
Lemma not_list n a : meta_path a = [n] -> ~ In n list_params -> forall k, In k list_params -> meta_path a <> [k].
Proof. intros -> H k K [= ->]. exact (H K). Qed.
Ltac reader :=
  cbn [p_read p_name] in *;
  first
  [ match goal with P : meta_path ?x = _ |- agree (range_meta _ _ _ _ ?x) _ =>
      let k := fresh "k" in let K := fresh "K" in let Q := fresh "Q" in
      apply range_meta_same; [intros k K Q; rewrite P in Q; injection Q as <-; not_in K | assumption] end
  | apply range_option_same; assumption
  | apply flags_same; [auto; fail | assumption]
  | apply sep_same; assumption
  | apply countries_same; assumption
  | apply same_agree, bool_same; assumption
  | apply agree_omap; first [apply same_agree, number_same; assumption | apply regex_same; assumption]
  | apply word_same; [eapply not_list; [eassumption | let K := fresh in intro K; not_in K] | assumption] ].
Ltac table :=
  let q := fresh "q" in let I := fresh "I" in let P := fresh "P" in
  intros q I P; cbn [In app] in I;
  repeat (destruct I as [<- | I]; [reader |]); destruct I.

Section Attributes.
Variable f : features.
Variables (p : path) (pre : list item) (a b : meta) (post : list item) (tr : bool).
Hypothesis R : respelt a b.
Let am := MList p (pre ++ IMeta a :: post) tr.
Let an := MList p (pre ++ IMeta b :: post) tr.

Lemma at_basic : agree (basic_attribute f am) (basic_attribute f an).
Proof. apply build_same; [unfold opts_params; table | exact R]. Qed.
Lemma at_base : agree (base_attribute f am) (base_attribute f an).
Proof. apply build_same; [unfold opts_params; table | exact R]. Qed.
Lemma at_http : agree (http_attribute f am) (http_attribute f an).
Proof. apply build_same; [unfold opts_params; table | exact R]. Qed.
Lemma at_ip : agree (ip_attribute f am) (ip_attribute f an).
Proof. apply build_same; [unfold opts_params; table | exact R]. Qed.
Lemma at_host : agree (host_attribute f am) (host_attribute f an).
Proof. apply build_same; [unfold opts_params; table | exact R]. Qed.
Lemma at_domain : agree (domain_attribute f am) (domain_attribute f an).
Proof. apply build_same; [unfold opts_params; table | exact R]. Qed.
Lemma at_email : agree (email_attribute f am) (email_attribute f an).
Proof. apply build_same; [unfold opts_params; table | exact R]. Qed.
Lemma at_hex c : agree (hex_attribute c f am) (hex_attribute c f an).
Proof. apply build_same; [unfold opts_params; table | exact R]. Qed.
Lemma at_range {T} (fs : list N -> option T) ltb leb :
  agree (range_attribute fs ltb leb f am) (range_attribute fs ltb leb f an).
Proof. apply build_same; [unfold opts_params; table | exact R]. Qed.
Lemma at_number {T} (fs : list N -> option T) ltb leb :
  agree (number_attribute fs ltb leb f am) (number_attribute fs ltb leb f an).
Proof. apply build_same; [unfold opts_params; table | exact R]. Qed.
Lemma at_bit {T} (fs : list N -> option T) ltb leb :
  agree (bit_attribute fs ltb leb f am) (bit_attribute fs ltb leb f an).
Proof. apply build_same; [unfold opts_params; table | exact R]. Qed.
Lemma at_byte {T} (fs : list N -> option T) ltb leb :
  agree (byte_attribute fs ltb leb f am) (byte_attribute fs ltb leb f an).
Proof. apply build_same; [unfold opts_params; table | exact R]. Qed.
Lemma at_phone {cid} (id : list N -> option cid) eqb :
  agree (phone_attribute id eqb f am) (phone_attribute id eqb f an).
Proof. apply build_same; [unfold opts_params; table | exact R]. Qed.
Lemma at_regex compiles : agree (regex_attribute compiles f am) (regex_attribute compiles f an).
Proof.
  apply agree_bind; [| intro; apply agree_refl]. apply build_same; [unfold opts_params; table | exact R].
Qed.
Lemma at_length : agree (coll_meta f am) (coll_meta f an).
Proof. apply agree_bind; [| intro; apply agree_refl]. apply build_same; [table | exact R]. Qed.
Lemma at_utf8 : agree (utf8_meta f am) (utf8_meta f an).
Proof.
  unfold am, an. cbn [utf8_meta].
  destruct (args_metas_middle pre a b post tr) as [[-> ->] | (xs & ys & -> & ->)]; [apply agree_refl |].
  now apply utf8_loop_same.
Qed.
End Attributes.
