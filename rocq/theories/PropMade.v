(** C117: the values of a validated type are exactly those its attribute describes, whichever impl makes them. *)
From Verif Require Import Base RangeModel IntModel NumberModel BooleanModel SizeModel Utf8 Serde ValueSerde IntSpec NumberSpec CodecSpec StrFacts.
From Verif Require LineModel LineSpec BaseModel BaseSpec CodecModel MacModel MacSpec LengthModel PropInt PropNumber PropSize PropLine PropBase PropMac PropBoolean PropAttr.
Local Open Scope N_scope.

(** What a format can present, and what can be handed to a conversion, in Rust: a string is UTF-8 ([str]), integers and floats are of their types. *)
Section Made.
Variable str : list N -> Prop.
Variable pw : ptr_width.
Definition proper_call (c : de_call) : Prop :=
  match c with
  | DStr s | DString s => str s
  | DChar x => str (utf8_char x) /\ is_scalar x = true
  | DInt sg w z => fits sg pw w z
  | DF32 f => is_float_of F32 f
  | DF64 f => is_float_of F64 f
  | DBytes l | DByteBuf l => bytes l
  | _ => True
  end.
Definition proper (i : input) : Prop := forall h c, present i h = Some c -> proper_call c.
Definition proper_arg (x : from_arg) : Prop :=
  match x with
  | FString s | FStr s => str s
  | FVec l | FSlice l => bytes l
  | FChar x => is_scalar x = true
  | FF32 f => is_float_of F32 f
  | FF64 f => is_float_of F64 f
  | FInt sg w z => fits sg pw w z
  | FBool _ | FJson _ => True
  end.

(** A value that some generated impl returns: a method of the traits, [Deserialize], the conversions into [validators::Result] and its
    [Deserialize], and the impls for rocket. *)
Inductive made {E A} (k : kind) (m : methods E A) (v : A) : Prop :=
| by_str s : str s -> parse_str m s = Ok v -> made k m v
| by_string s : str s -> parse_string m s = Ok v -> made k m v
| by_slice l : bytes l -> parse_u8_slice m l = Ok v -> made k m v
| by_vec l : bytes l -> parse_vec_u8 m l = Ok v -> made k m v
| by_bool b : parse_bool m b = Ok v -> made k m v
| by_char c : is_scalar c = true -> parse_char m c = Ok v -> made k m v
| by_int sg w z : fits sg pw w z -> parse_int m sg w z = Ok v -> made k m v
| by_f32 f : is_float_of F32 f -> parse_f32 m f = Ok v -> made k m v
| by_f64 f : is_float_of F64 f -> parse_f64 m f = Ok v -> made k m v
| by_json j : parse_json_value m j = Ok v -> made k m v
| by_de i : proper i -> own_de k m i = Ok v -> made k m v
| by_result_de i : proper i -> wrap_de k m i = Ok (ROk v) -> made k m v
| by_result_from x : proper_arg x -> wrap_from m x = Ok (ROk v) -> made k m v
| by_result_from_str s : str s -> wrap_from_str m s = Ok (ROk v) -> made k m v
| by_param s : str s -> from_param m s = Ok v -> made k m v
| by_form s : str s -> from_form m s = Ok v -> made k m v
| by_result_form s : str s -> wrap_from_form m s = Ok (ROk v) -> made k m v.

(** The methods that can have been called. *)
Definition came {E A} (k : kind) (m : methods E A) (v : A) : Prop :=
  (exists s, str s /\ (parse_str m s = Ok v \/ parse_string m s = Ok v)) \/
  (exists l, bytes l /\ (parse_u8_slice m l = Ok v \/ parse_vec_u8 m l = Ok v)) \/
  (exists b, parse_bool m b = Ok v \/ (k = Boolean /\ tuple_bool m b = Ok v)) \/
  (exists c, is_scalar c = true /\ parse_char m c = Ok v) \/
  (exists sg w z, fits sg pw w z /\ parse_int m sg w z = Ok v) \/
  (exists f, is_float_of F32 f /\ parse_f32 m f = Ok v) \/
  (exists f, is_float_of F64 f /\ parse_f64 m f = Ok v) \/
  (exists j, parse_json_value m j = Ok v).

Lemma omap_err_ok E F A (f : E -> F) (r : outcome E A) v : omap_err f r = Ok v -> r = Ok v.
Proof. destruct r; cbn; congruence. Qed.
Lemma new_ok_ok E A (r : outcome E A) v : new_ok r = Ok (ROk v) -> r = Ok v.
Proof. destruct r; cbn; congruence. Qed.
Lemma new_res_ok E A (r : outcome E A) v : new_res r = Ok (ROk v) -> r = Ok v.
Proof. destruct r; cbn; congruence. Qed.

Lemma fits_wide sg w z : In w [I8; I16; I32] -> fits sg pw w z -> fits sg pw I64 z.
Proof. intros [<- | [<- | [<- | []]]]; destruct sg; cbn; lia. Qed.
Lemma fits_u128 sg w z : fits sg pw w z -> (0 <= z)%Z -> fits false pw I128 z.
Proof. destruct sg, w, pw; cbn; lia. Qed.

Lemma own_call E A k (m : methods E A) c v : proper_call c -> own_visitor k m c = Some (Ok v) -> came k m v.
Proof.
  unfold came. intros P H.
  destruct k, c as [b | sg w z | f | f | x | s | s | l | l | | |]; cbn in H, P; try discriminate H;
    try (destruct sg); try discriminate H; try (destruct w); try discriminate H; injection H as H;
    first [ left; exists s; tauto | right; left; exists l; tauto | do 2 right; left; exists b; tauto | do 3 right; left; exists x; tauto
          | do 4 right; left; do 3 eexists; split; eassumption | do 5 right; left; exists f; tauto | do 6 right; left; exists f; tauto ].
Qed.
Lemma wrap_call E A k (m : methods E A) c v : proper_call c -> wrap_visitor k m c = Some (Ok (ROk v)) -> came k m v.
Proof.
  unfold came. intros P H.
  destruct k, c as [b | sg w z | f | f | x | s | s | l | l | | |]; cbn in H, P; try discriminate H;
    try (destruct sg); try discriminate H; try (destruct w); try discriminate H; injection H as H; apply new_ok_ok in H;
    first [ left; exists s; tauto | right; left; exists l; tauto | do 2 right; left; exists b; tauto | do 3 right; left; exists x; tauto
          | do 4 right; left; do 3 eexists; split; eassumption | do 5 right; left; exists f; tauto | do 6 right; left; exists f; tauto ].
Qed.

(** Either the visitor has the method, or the format's call is forwarded to another that is as proper. *)
Lemma visit_ok E A (v : visitor E A) c a : visit v c = Ok a ->
  v c = Some (Ok a) \/ v c = None /\ exists c', default_visit c = Some c' /\ v c' = Some (Ok a).
Proof.
  unfold visit. destruct (v c) as [r |].
  - intros H. apply omap_err_ok in H. subst r. left. reflexivity.
  - destruct (default_visit c) as [c' |] eqn:D; [| discriminate]. destruct (v c') as [r |] eqn:V; [| discriminate].
    intros H. apply omap_err_ok in H. subst r. right. split; [reflexivity |]. exists c'. split; [reflexivity | exact V].
Qed.
Lemma default_proper c c' : proper_call c -> default_visit c = Some c' -> (forall f, c <> DF32 f) -> proper_call c'.
Proof.
  destruct c as [b | sg w z | f | f | x | s | s | l | l | | |]; cbn; intros P D N; try discriminate D;
    try (destruct w; try discriminate D); injection D as <-; cbn; try tauto; try (eapply fits_wide; [| exact P]; cbn; tauto).
  exfalso. exact (N f eq_refl).
Qed.

Lemma own_came E A k (m : methods E A) i v : proper i -> own_de k m i = Ok v -> came k m v.
Proof.
  unfold own_de, de. intros P H. destruct (present i _) as [c |] eqn:Q; [| discriminate]. apply P in Q. apply visit_ok in H.
  destruct H as [H | (N & c' & D & H)]; [exact (own_call _ _ _ _ _ _ Q H) |]. eapply own_call; [| exact H].
  apply (default_proper c); [exact Q | exact D |]. intros f ->. cbn in D. injection D as <-. destruct k; cbn in N, H; discriminate.
Qed.
Lemma u128_came E A k (m : methods E A) i v z : proper i -> de HU128 (@u128_visitor E) i = Ok z -> parse_int m false I128 z = Ok v -> came k m v.
Proof.
  unfold de. intros P H G. destruct (present i _) as [c |] eqn:Q; [| discriminate]. apply P in Q. apply visit_ok in H.
  assert (X : exists sg w, fits sg pw w z /\ (0 <= z)%Z).
  { destruct H as [H | (N & c' & D & H)].
    - destruct c; cbn in H; try discriminate H. destruct (0 <=? z0)%Z eqn:L; [| discriminate H]. injection H as <-. apply Z.leb_le in L. eauto.
    - destruct c as [b | sg w y | f | f | x | s | s | l | l | | |]; cbn in D; try discriminate D; try (injection D as <-; cbn in H; discriminate H).
      destruct w; try discriminate D; injection D as <-; cbn in N, H; destruct (0 <=? y)%Z; discriminate. }
  destruct X as (sg & w & F & L). unfold came. do 4 right. left. exists false, I128, z. split; [exact (fits_u128 _ _ _ F L) | exact G].
Qed.
Lemma string_proper E i s : proper i -> de HString (@string_visitor E) i = Ok s -> str s.
Proof.
  unfold de. intros P H. destruct (present i _) as [c |] eqn:Q; [| discriminate]. apply P in Q. apply visit_ok in H.
  destruct H as [H | (N & c' & D & H)].
  - destruct c; cbn in H; try discriminate H; injection H as <-; exact Q.
  - destruct c as [b | sg w y | f | f | x | t | t | l | l | | |]; cbn in D; try discriminate D; try (injection D as <-; cbn in H, N; try discriminate N).
    + destruct w; try discriminate D; injection D as <-; cbn in H; discriminate H.
    + discriminate H.
    + injection H as <-. exact (proj1 Q).
    + discriminate H.
Qed.
Lemma wrap_came E A k (m : methods E A) i v : proper i -> wrap_de k m i = Ok (ROk v) -> came k m v.
Proof.
  assert (G : forall i, proper i -> de (wrap_hint k) (wrap_visitor k m) i = Ok (ROk v) -> came k m v).
  { clear i. unfold de. intros i P H. destruct (present i _) as [c |] eqn:Q; [| discriminate]. apply P in Q. apply visit_ok in H.
    destruct H as [H | (N & c' & D & H)]; [exact (wrap_call _ _ _ _ _ _ Q H) |]. eapply wrap_call; [| exact H].
    apply (default_proper c); [exact Q | exact D |]. intros f ->. cbn in D. injection D as <-. destruct k; cbn in N, H; discriminate. }
  intros P H. destruct k; try exact (G i P H); unfold wrap_de in H;
    (destruct (human i);
     [ destruct (de HString _ i) as [s | e |] eqn:Q; try discriminate H; cbn in H; apply omap_err_ok, new_ok_ok in H; left; exists s;
       split; [exact (string_proper _ _ _ P Q) | right; exact H]
     | destruct (de HU128 _ i) as [z | e |] eqn:Q; try discriminate H; cbn in H; apply omap_err_ok, new_ok_ok in H;
       exact (u128_came _ _ _ _ _ _ _ P Q H) ]).
Qed.

Lemma made_came E A k (m : methods E A) v : made k m v -> came k m v.
Proof.
  intros [s P H | s P H | l P H | l P H | b H | c P H | sg w z P H | f P H | f P H | j H | i P H | i P H | x P H | s P H | s P H | s P H | s P H];
    try (unfold came; first [ left; exists s; tauto | right; left; exists l; tauto | do 2 right; left; exists b; tauto | do 3 right; left; exists c; tauto
          | do 4 right; left; do 3 eexists; split; eassumption | do 5 right; left; exists f; tauto | do 6 right; left; exists f; tauto
          | do 7 right; exists j; exact H ]).
  - exact (own_came _ _ _ _ _ _ P H).
  - exact (wrap_came _ _ _ _ _ _ P H).
  - unfold came. destruct x as [s | s | b | l | l | c | j | f | f | sg w z]; cbn in H, P.
    1-9: apply new_res_ok in H;
      first [ left; exists s; tauto | right; left; exists l; tauto | do 2 right; left; exists b; tauto | do 3 right; left; exists c; tauto
          | do 5 right; left; exists f; tauto | do 6 right; left; exists f; tauto | do 7 right; exists j; exact H ].
    do 4 right; left. exists sg, w, z. split; [exact P |]. destruct sg, w; apply new_res_ok in H; exact H.
  - unfold wrap_from_str in H. apply new_res_ok in H. left. exists s. tauto.
  - unfold from_form in H. apply omap_err_ok in H. left. exists s. tauto.
  - unfold wrap_from_form in H. apply omap_err_ok, new_res_ok in H. unfold from_param in H. left. exists s. tauto.
Qed.
End Made.

(** Splits a [came] into the methods that the type has. *)
Ltac ways H :=
  apply made_came in H; unfold came in H;
  destruct H as [(s & S & [H | H]) | [(l & S & [H | H]) | [(b & [H | (K & H)]) | [(x & S & H) | [(sg' & w & z & S & H) | [(f & S & H) | [(f & S & H) | (j & H)]]]]]]];
  cbn [parse_str parse_string parse_u8_slice parse_vec_u8 parse_bool parse_char parse_int parse_f32 parse_f64 parse_json_value tuple_bool
       int_methods num_methods bool_methods size_methods line_methods regex_methods base_methods dec_methods str_methods absent] in H;
  unfold absent in H; try discriminate H; try discriminate K.

Theorem C117_integers : forall sg pw t r v, ~ degenerate sg pw t r ->
  made valid_str pw (int_kind sg) (int_methods sg pw t r) v <-> fits sg pw t v /\ allowed r v.
Proof.
  intros sg pw t r v D. split.
  - intros H. ways H.
    + apply (PropInt.C03_integer_strings sg pw t r s D) in H. tauto.
    + destruct (PropInt.C03_integer_strings sg pw t r s D) as (A & B & _). rewrite B in H. apply A in H. tauto.
    + destruct (Bool.eqb sg sg') eqn:Q; [| discriminate H]. apply Bool.eqb_prop in Q. subst sg'.
      apply (PropInt.C02_integer_entry_points sg pw t r w z D S) in H. destruct H as (F & L & ->). tauto.
  - intros (F & L). apply (by_int _ _ _ _ _ sg t v F). cbn. rewrite Bool.eqb_reflx.
    apply (PropInt.C02_integer_entry_points sg pw t r t v D F). tauto.
Qed.
Print Assumptions C117_integers.

Theorem C117_numbers : forall pw from_str t r nan v, good_range t r -> ~ x_degenerate r ->
  (forall s f, from_str s = Some f -> is_float_of t f) ->
  made valid_str pw Number (num_methods from_str t r nan) v <->
  is_float_of t v /\ match xval v with Some x => nan <> Must /\ x_allowed r x | None => nan <> Disallow end.
Proof.
  intros pw from_str t r nan v G D FS.
  assert (O : forall f, is_float_of t f -> own_parse_f t r nan f = Ok v ->
    is_float_of t v /\ match xval v with Some x => nan <> Must /\ x_allowed r x | None => nan <> Disallow end).
  { intros f F H. apply (PropNumber.C05_number_exact t r nan f G D F) in H. destruct H as (-> & H). split; assumption. }
  assert (T : forall s, num_parse_str from_str r nan s = Ok v ->
    is_float_of t v /\ match xval v with Some x => nan <> Must /\ x_allowed r x | None => nan <> Disallow end).
  { intros s H. rewrite (proj1 (PropNumber.C05_number_strings from_str t r nan s)) in H.
    destruct (from_str s) as [f |] eqn:Q; [| discriminate H]. exact (O f (FS s f Q) H). }
  split.
  - intros H. ways H.
    + exact (T s H).
    + rewrite (proj1 (proj2 (PropNumber.C05_number_strings from_str t r nan s))) in H. exact (T s H).
    + destruct t; [exact (O f S H) |]. pose proof (PropNumber.C05_number_f32_in_f64 r nan f G D S) as (A & B & _).
      pose proof (B v H) as (F & X). split; [exact F |]. rewrite X. apply A. exists v. exact H.
    + destruct t; [| exact (O f S H)]. destruct (PropNumber.C06_kept_value_partial r nan f v G D H) as (F & A & B). split; [exact F |].
      destruct (xval v) as [x |]; [exact (A x eq_refl) | exact (B eq_refl)].
  - intros (F & L).
    assert (P : own_parse_f t r nan v = Ok v) by (apply (PropNumber.C05_number_exact t r nan v G D F); tauto).
    destruct t; [apply (by_f32 _ _ _ _ _ v F) | apply (by_f64 _ _ _ _ _ v F)]; exact P.
Qed.
Print Assumptions C117_numbers.

Theorem C117_booleans : forall pw v, made valid_str pw Boolean (bool_methods pw) v.
Proof. intros pw v. apply (by_bool _ _ _ _ _ v). reflexivity. Qed.
Print Assumptions C117_booleans.

(** Sizes: the bounds hold of every value, also of one that the library's own impl has read for a bit validator; a size that the library can
    hold is a value. *)
Theorem C117_sizes : forall pw k from_str cap r v,
  (made valid_str pw k (size_methods from_str cap r) v -> SizeProofs.size_in r v) /\
  (forall value, bit_own_de (size_v_parse_v r) value = Ok v -> SizeProofs.size_in r v) /\
  (SizeProofs.size_in r v -> v <= cap -> v < 2 ^ 128 ->
     made valid_str pw k (size_methods from_str cap r) v /\ bit_own_de (size_v_parse_v r) (Ok v) = Ok v).
Proof.
  intros pw k from_str cap r v. destruct (PropSize.C07_size_exact from_str cap r) as (A & B & C & D).
  assert (T : forall s, size_parse_str from_str r s = Ok v -> SizeProofs.size_in r v).
  { intros s H. pose proof (A s) as Q. destruct (from_str s) as [u |]; [| congruence]. apply Q in H. destruct H as (H & ->). exact H. }
  split; [| split].
  - intros H. ways H.
    + exact (T s H).
    + rewrite (proj1 (proj2 (PropSize.C07_size_entry_points from_str cap r))) in H. exact (T s H).
    + destruct sg'; [discriminate H |].
      assert (U : forall u, size_parse_u128 cap r u = Ok v -> SizeProofs.size_in r v).
      { intros u G. destruct (N.le_gt_cases u cap) as [L | L]; [apply (B u L) in G; destruct G as (G & ->); exact G | rewrite (C u L) in G; discriminate]. }
      destruct w; try (apply D in H; destruct H as (H & ->); exact H); exact (U _ H).
  - intros value H. unfold bit_own_de in H. destruct value as [u | e |]; cbn in H; try discriminate H.
    destruct (SizeProofs.size_v_parse_v_spec r u) as [(Q & I) | [(Q & I) | (Q & I)]]; rewrite Q in H; cbn in H; try discriminate H.
    injection H as <-. exact I.
  - intros I L M. split.
    + apply (by_int _ _ _ _ _ false I128 (Z.of_N v)); [cbn; lia |]. cbn. rewrite N2Z.id. apply (B v L). tauto.
    + unfold bit_own_de. cbn. assert (Q : size_parse_u64 r v = Ok v) by (apply D; tauto).
      unfold size_parse_u64 in Q. destruct (size_v_parse_v r v) as [u | |]; cbn in Q |- *; congruence.
Qed.
Print Assumptions C117_sizes.

(** A string is given by its characters here, as in LineModel.v. *)
Theorem C117_lines : forall pw k a v,
  made (fun s => Forall (fun c => is_scalar c = true) s) pw (line_kind_of k) (line_methods k a) v <->
  Forall (fun c => is_scalar c = true) v /\ LineSpec.at_least (LineSpec.a_min a) (LineSpec.len (LineSpec.a_byte a) v) /\
  LineSpec.at_most (LineSpec.a_max a) (LineSpec.len (LineSpec.a_byte a) v) /\
  match LineSpec.a_tmin a with
  | None => Forall (fun c => ~ LineSpec.forbidden k c) v
  | Some t => exists lead mid trail, LineSpec.trims v lead mid trail /\ Forall (fun c => ~ LineSpec.forbidden k c) (mid ++ trail) /\
                t <= LineSpec.len (LineSpec.a_byte a) mid
  end.
Proof.
  intros pw k a v.
  assert (X : forall s, LineModel.line_parse_str k a s = Ok v <-> v = s /\
    LineSpec.at_least (LineSpec.a_min a) (LineSpec.len (LineSpec.a_byte a) s) /\ LineSpec.at_most (LineSpec.a_max a) (LineSpec.len (LineSpec.a_byte a) s) /\
    match LineSpec.a_tmin a with
    | None => Forall (fun c => ~ LineSpec.forbidden k c) s
    | Some t => exists lead mid trail, LineSpec.trims s lead mid trail /\ Forall (fun c => ~ LineSpec.forbidden k c) (mid ++ trail) /\
                t <= LineSpec.len (LineSpec.a_byte a) mid
    end).
  { intros s. destruct (LineSpec.a_tmin a) as [t |] eqn:Q.
    - rewrite (PropLine.C12_trimmed_min_exact k a t s v Q). split.
      + intros (E & lead & mid & trail & A & B & C & D & F). split; [exact E |]. split; [exact C |]. split; [exact D |]. exists lead, mid, trail. tauto.
      + intros (E & C & D & lead & mid & trail & A & B & F). split; [exact E |]. exists lead, mid, trail. tauto.
    - rewrite (PropLine.C11_no_trimmed_min_exact k a s v Q). tauto. }
  split.
  - intros H. ways H.
    + apply X in H. destruct H as (-> & H). tauto.
    + rewrite (proj1 (PropLine.C11_entry_points k a s)) in H. apply X in H. destruct H as (-> & H). tauto.
  - intros (U & H). apply (by_str _ _ _ _ _ v U). cbn. apply X. tauto.
Qed.
Print Assumptions C117_lines.

Theorem C117_regex : forall pw is_match v,
  made valid_str pw Regex (regex_methods is_match) v <-> valid_str v /\ is_match v = true.
Proof.
  intros pw is_match v.
  assert (X : forall s, regex_parse_str is_match s = Ok v <-> is_match s = true /\ v = s).
  { intros s. unfold regex_parse_str, regex_v_parse_str. destruct (is_match s); cbn; split; try (intros [? ?]); try congruence.
    intros [= ->]. tauto. }
  split.
  - intros H. ways H; [| change (regex_parse_str is_match s = Ok v) in H]; apply X in H; destruct H as (H & ->); tauto.
  - intros (S & H). apply (by_str _ _ _ _ _ v S). cbn. apply X. tauto.
Qed.
Print Assumptions C117_regex.

(** Base32 and base64: every value is of the documented shape, and what the decoding validators make is any data but the empty one. *)
Theorem C117_base : forall pw k fl padding v,
  (made valid_str pw k (base_methods fl padding) v <-> BaseSpec.base_shape fl padding v) /\
  (made valid_str pw k (dec_methods fl padding) v <-> bytes v /\ v <> []).
Proof.
  intros pw k fl padding v.
  assert (X : forall s w, BaseModel.base_parse_str fl padding s = Ok w -> w = s).
  { intros s w H. apply (PropBase.C18_base_memory_safe fl padding s w). left.
    rewrite (proj1 (proj2 (proj2 (PropBase.C18_base_entry_points fl padding s)))). exact H. }
  split; split.
  - intros H.
    assert (Y : BaseModel.base_parse_str fl padding v = Ok v).
    { ways H.
      - pose proof (X s v H); subst s. exact H.
      - rewrite (proj1 (PropBase.C18_base_entry_points fl padding s)) in H. pose proof (X s v H); subst s. exact H.
      - rewrite (proj1 (proj2 (proj2 (PropBase.C18_base_entry_points fl padding l)))) in H. pose proof (X l v H); subst l. exact H.
      - rewrite (proj1 (proj2 (PropBase.C18_base_entry_points fl padding l))) in H. pose proof (X l v H); subst l. exact H. }
    apply PropBase.C19_base_language. exists v. exact Y.
  - intros H. apply PropBase.C19_base_language in H. destruct H as (w & H). pose proof (X v w H). subst w.
    pose proof (PropBase.C18_base_memory_safe fl padding v v) as M.
    rewrite (proj1 (proj2 (proj2 (PropBase.C18_base_entry_points fl padding v)))) in M. destruct (M (or_introl H)) as (_ & F).
    apply (by_slice _ _ _ _ _ v); [unfold bytes; eapply Forall_impl; [| exact F]; cbn; intros; lia |]. cbn.
    rewrite (proj1 (proj2 (proj2 (PropBase.C18_base_entry_points fl padding v)))). exact H.
  - intros H.
    assert (Y : exists s, CodecModel.dec_parse_str fl padding s = Ok v).
    { ways H.
      - exists s. exact H.
      - rewrite (proj1 (PropBase.C22_decoded_entry_points fl padding s)) in H. exists s. exact H.
      - rewrite (proj1 (proj2 (proj2 (PropBase.C22_decoded_entry_points fl padding l)))) in H. exists l. exact H.
      - rewrite (proj1 (proj2 (PropBase.C22_decoded_entry_points fl padding l))) in H. exists l. exact H. }
    clear H. destruct Y as (s & H). apply PropBase.C22_decoded_exact in H.
    destruct H as (N & [(_ & B & E & _) | (_ & _ & ds & F & E & ->)]).
    + split; [exact B |]. intros ->. apply N. rewrite E. destruct fl; reflexivity.
    + split.
      * clear - F. induction F as [| d ds (B & _) F IH]; [constructor |]. cbn. apply Forall_app. split; [exact B | exact IH].
      * destruct F as [| d ds (B & M) F]; [exfalso; apply N; rewrite E; reflexivity |]. cbn. intros Q. apply app_eq_nil in Q. tauto.
  - intros (B & N). destruct (PropBase.C22_decoded_inverts_encoder fl padding v B N) as (P & Q).
    assert (L : bytes (encode fl v)).
    { pose proof (CodecProofs.alphabet_encode fl v) as A. unfold bytes. rewrite forallb_forall in A. apply Forall_forall. intros c C. apply A in C.
      pose proof (BaseProofs.in_alphabet_ascii fl c C). lia. }
    destruct padding.
    + apply (by_slice _ _ _ _ _ (encode_pad fl v)); [unfold encode_pad; apply Forall_app; split; [exact L | apply Forall_forall; intros c C; apply repeat_spec in C; subst c; lia] |].
      cbn. rewrite (proj1 (proj2 (proj2 (PropBase.C22_decoded_entry_points fl _ _)))). apply P. discriminate.
    + apply (by_slice _ _ _ _ _ (encode fl v) L).
      cbn. rewrite (proj1 (proj2 (proj2 (PropBase.C22_decoded_entry_points fl _ _)))). apply Q. discriminate.
    + apply (by_slice _ _ _ _ _ (encode fl v) L).
      cbn. rewrite (proj1 (proj2 (proj2 (PropBase.C22_decoded_entry_points fl _ _)))). apply Q. discriminate.
Qed.
Print Assumptions C117_base.

(** Collections. *)
Theorem C117_lengths : forall A (len : A -> N) ps mn mx v, LengthModel.coll_attribute ps = Ok (mn, mx) -> (forall m, mn = Some m -> mx <> Some m) ->
  (exists c, LengthModel.parse_collection len mn mx c = Ok v) \/
  (exists value, length_own_de (LengthModel.parse_collection len mn mx) value = Ok v \/
                 length_wrap_de (LengthModel.parse_collection len mn mx) value = Ok (ROk v)) <->
  (forall m, mn = Some m -> m <= len v) /\ (forall m, mx = Some m -> len v <= m).
Proof.
  intros A len ps mn mx v P D.
  assert (X : forall c, LengthModel.parse_collection len mn mx c = Ok v <-> LengthProofs.len_in_bounds mn mx (len c) /\ v = c)
    by (intros c; apply (proj1 (LengthProofs.length_values_lemma A len ps mn mx c P D))).
  unfold LengthProofs.len_in_bounds in X. split.
  - intros [(c & H) | (value & [H | H])].
    + apply X in H. destruct H as (H & ->). exact H.
    + destruct value as [c | |]; try discriminate H. cbn in H. apply omap_err_ok, X in H. destruct H as (H & ->). exact H.
    + destruct value as [c | |]; try discriminate H. cbn in H. apply omap_err_ok, new_ok_ok, X in H. destruct H as (H & ->). exact H.
  - intros H. left. exists v. apply X. tauto.
Qed.
Print Assumptions C117_lengths.

Example C117_example : let m := int_methods true W64 I8 (Inside (Some 1) (Some 10) true)%Z in
  let seven := {| human := true; present := fun _ => Some (DInt true I64 7%Z) |} in
  ~ degenerate true W64 I8 (Inside (Some 1) (Some 10) true)%Z /\ proper valid_str W64 seven /\
  own_de SignedInteger m seven = Ok 7%Z /\ made valid_str W64 SignedInteger m 7%Z /\ ~ made valid_str W64 SignedInteger m 11%Z /\
  (made valid_str W64 Regex (regex_methods (fun s => 2 <=? N.of_nat (List.length s))) (bs "ab") /\
   ~ made valid_str W64 Regex (regex_methods (fun s => 2 <=? N.of_nat (List.length s))) (bs "a")).
Proof.
  cbv zeta. assert (D : ~ degenerate true W64 I8 (Inside (Some 1) (Some 10) true)%Z) by (intros [(i & H) | H]; [discriminate H | destruct H as (H & _); discriminate H]).
  split; [exact D |].
  assert (P : proper valid_str W64 {| human := true; present := fun _ => Some (DInt true I64 7%Z) |})
    by (intros h c Q; inversion Q; cbn; lia).
  split; [exact P |]. split; [reflexivity |]. split; [| split].
  - apply (by_de _ _ _ _ _ _ P). reflexivity.
  - intros H. apply (C117_integers true _ _ _ _ D) in H. destruct H as (_ & _ & H). specialize (H 10%Z eq_refl). cbn in H. lia.
  - rewrite !C117_regex. split; [split; [exists (bs "ab"); split; [repeat constructor | reflexivity] | reflexivity] |]. intros (_ & H). discriminate H.
Qed.
