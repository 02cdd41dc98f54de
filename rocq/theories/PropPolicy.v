(** Property C71: what is written in the attribute is what the type accepts, from the attribute to [parse_str]. *)
From Verif Require Import Base IntStr IntStrProofs RangeModel IntModel IntSpec IntProofs NumberModel NumberSpec
  StrFacts SizeModel SizeProofs LengthModel AttrSpec LengthProofs LineModel LineSpec
  BaseModel BaseSpec CodecSpec CodecModel MacModel MacSpec PhoneModel NetSpec IpModel IpSpec DomainModel DomainSpec
  HostModel HostSpec EmailModel EmailSpec MetaModel MacroModel MetaSpec MacroSpec MacroProofs
  PropInt PropNumber PropSize PropAttr PropLine PropBase PropMac PropPhone PropIp PropDomain PropHost PropEmail PropMeta.
From Verif Require HttpModel HttpSpec PropHttp IdnaFrag.
Local Open Scope N_scope.

(** The parameters [ms] of the attribute [#\[validator(name(..))\]] of a struct. *)
Definition source (d : derive_input) (name : ident) (ms : list meta) : Prop :=
  exists pre post m, di_attrs d = pre ++ MList [bs "validator"] [IMeta m] false :: post /\
    (forall x, In x (pre ++ post) -> meta_path x <> [bs "validator"]) /\ named name m /\ arguments m ms.

Section Policy.
Context {cid : Type}.
Variable id_from_str : list N -> option cid.
Variable cid_eqb : cid -> cid -> bool.
Variable compiles : list N -> bool.
Variable float_lit : fty -> list N -> option SpecFloat.spec_float.
Variable pw : ptr_width.
Notation derive := (derive id_from_str cid_eqb compiles float_lit pw).
Notation handler := (handler id_from_str cid_eqb compiles float_lit pw).

Lemma derive_source : forall on f d g, derive on f d = Ok g -> exists m,
  handler (generated g) f m (di_data d) = Ok g /\
  forall ms, arguments m ms -> source d (validator_name (generated g)) ms.
Proof.
  intros on f d g H. apply derive_lemma in H. destruct H as (pre & post & m & v & E & Hp & Hm & Ho & H).
  assert (G := handler_generates _ _ _ _ _ _ _ _ _ _ H). subst v. exists m. split; [exact H|].
  intros ms A. exists pre, post, m. auto.
Qed.

Lemma tuple_inv : forall A (build : meta -> outcome macro_err A) m d a, tuple_handler build m d = Ok a -> build m = Ok a.
Proof.
  intros A build m d a H. apply obind_ok in H. destruct H as (b & Hb & H). apply on_struct_inv in H.
  destruct H as (-> & _). exact Hb.
Qed.

(** C71, domain. *)
Theorem C71_domain : forall on f d a, derive on f d = Ok (GDomain a) ->
  exists ms I L P T, source d (bs "domain") ms /\
    value ms (bs "ipv4") tri_written Allow I /\ value ms (bs "local") tri_written Allow L /\
    value ms (bs "port") tri_written Allow P /\ value ms (bs "at_least_two_labels") tri_written Allow T /\
    forall idna s v, valid_str s ->
      (domain_parse_str idna (domain_cfg_of a) s = Ok v <->
       domain_accepts idna {| d_ipv4 := I; d_local := L; d_port := P; d_two := T |} s v).
Proof.
  intros on f d a H. apply derive_source in H. destruct H as (m & H & S). cbn [generated handler] in H.
  apply omap_inv in H. destruct H as (a' & H & E). injection E as <-.
  apply obind_ok in H. destruct H as (b & Hb & H).
  assert (b = a).
  { destruct (di_data d); try discriminate H. destruct (domain_conflicts b); [discriminate H|].
    destruct (domain_shape b fs); [|discriminate H]. congruence. }
  subst b. apply C66_domain in Hb. destruct Hb as (ms & A & _ & V1 & V2 & V3 & V4 & _).
  exists ms, (da_ipv4 a), (da_local a), (da_port a), (da_two a).
  split; [exact (S ms A)|]. repeat (split; [assumption|]). intros. apply C36_domain_accepts_exactly; assumption.
Qed.

(** C71, host. *)
Theorem C71_host : forall on f d a, derive on f d = Ok (GHost a) ->
  exists ms L P T, source d (bs "host") ms /\
    value ms (bs "local") tri_written Allow L /\
    value ms (bs "port") tri_written Allow P /\ value ms (bs "at_least_two_labels") tri_written Allow T /\
    forall idna s v, valid_str s ->
      (host_parse_str idna (host_cfg_of a) s = Ok v <->
       host_accepts idna {| h_local := L; h_port := P; h_two := T |} s v).
Proof.
  intros on f d a H. apply derive_source in H. destruct H as (m & H & S). cbn [generated handler] in H.
  apply omap_inv in H. destruct H as (a' & H & E). injection E as <-.
  apply obind_ok in H. destruct H as (b & Hb & H). apply on_struct_inv in H. destruct H as (-> & _).
  apply C66_host in Hb. destruct Hb as (ms & A & _ & V1 & V2 & V3 & _).
  exists ms, (ha_local a), (ha_port a), (ha_two a).
  split; [exact (S ms A)|]. repeat (split; [assumption|]). intros. apply C39_host_accepts_exactly; assumption.
Qed.

(** C71, email. *)
Theorem C71_email : forall on f d a, derive on f d = Ok (GEmail a) ->
  exists ms C I L T U, source d (bs "email") ms /\
    value ms (bs "comment") allow_written true C /\ value ms (bs "ip") tri_written Allow I /\
    value ms (bs "local") tri_written Allow L /\ value ms (bs "at_least_two_labels") tri_written Allow T /\
    value ms (bs "non_ascii") allow_written true U /\
    forall idna prof s v, valid_str s ->
      (email_parse_str idna prof (email_cfg_of a) s = Ok v <->
       email_accepts idna prof {| e_comment := C; e_ip := I; e_local := L; e_two := T; e_non_ascii := U |} s v).
Proof.
  intros on f d a H. apply derive_source in H. destruct H as (m & H & S). cbn [generated handler] in H.
  apply omap_inv in H. destruct H as (a' & H & E). injection E as <-.
  apply obind_ok in H. destruct H as (b & Hb & H).
  assert (b = a).
  { destruct (di_data d); try discriminate H. destruct (email_conflicts b); [discriminate H|].
    destruct (email_shape b fs); [|discriminate H]. congruence. }
  subst b. apply C66_email in Hb. destruct Hb as (ms & A & _ & V1 & V2 & V3 & V4 & V5 & _).
  exists ms, (ea_comment a), (ea_ip a), (ea_local a), (ea_two a), (ea_non_ascii a).
  split; [exact (S ms A)|]. repeat (split; [assumption|]). intros. apply C44_email_accepts_exactly; assumption.
Qed.

(** C71, ip, ipv4, ipv6. *)
Theorem C71_ip : forall on f d v a, derive on f d = Ok (GIp v a) ->
  exists ms L P, source d (validator_name v) ms /\
    value ms (bs "local") tri_written Allow L /\ value ms (bs "port") tri_written Allow P /\
    (forall s x p, valid_str s -> v = Vip -> ip_parse_str (ia_port a) (ia_local a) s = Ok (x, p) <->
      match x with V4 b => v4_accepts P L s b p | V6 b => v6_accepts P L s b p end) /\
    (forall s b p, valid_str s -> v = Vipv4 -> ipv4_parse_str (ia_port a) (ia_local a) s = Ok (b, p) <-> v4_accepts P L s b p) /\
    (forall s b p, valid_str s -> v = Vipv6 -> ipv6_parse_str (ia_port a) (ia_local a) s = Ok (b, p) <-> v6_accepts P L s b p).
Proof.
  intros on f d v a H. apply derive_source in H. destruct H as (m & H & S). cbn [generated] in H, S.
  assert (G : exists n, ip_handler n f m (di_data d) = Ok a).
  { destruct v; cbn [handler] in H; apply omap_inv in H; destruct H as (a' & H & E); try discriminate E;
      injection E as <-; eexists; exact H. }
  destruct G as (n & G).
  apply obind_ok in G. destruct G as (b & Hb & G). apply on_struct_inv in G. destruct G as (-> & _).
  apply C66_ip in Hb. destruct Hb as (ms & A & _ & V1 & V2 & _).
  exists ms, (ia_local a), (ia_port a).
  split; [exact (S ms A)|]. repeat (split; [assumption|]). split; [|split]; intros.
  - rewrite C31_ip_accepts_exactly by assumption. destruct x; reflexivity.
  - rewrite C31_ipv4_accepts_exactly by assumption. reflexivity.
  - rewrite C31_ipv6_accepts_exactly by assumption. reflexivity.
Qed.

(** The alphabet that the name of a base validator stands for. *)
Definition alphabet_named (name : ident) (fl : flavour) : Prop :=
  match fl with
  | B32 => name = bs "base32" \/ name = bs "base32_decoded"
  | B64 => name = bs "base64" \/ name = bs "base64_decoded"
  | B64Url => name = bs "base64_url" \/ name = bs "base64_url_decoded"
  end.

(** C71, the base validators and their _decoded forms. *)
Theorem C71_base : forall on f d v a, derive on f d = Ok (GBase v a) ->
  exists name fl ms P, source d name ms /\ alphabet_named name fl /\ value ms (bs "padding") tri_written Allow P /\
    (forall s, is_ok (base_parse_str (flavour_of v) (ba_padding a) s) <-> base_shape fl P s) /\
    (forall s x, dec_parse_str (flavour_of v) (ba_padding a) s = Ok x <->
       s <> [] /\
       ((P <> Must /\ bytes x /\ s = encode fl x /\ (P = Allow -> last s 0 <> 61)) \/
        (P <> Disallow /\ (P = Allow -> last s 0 = 61) /\
         exists ds, Forall (fun y => bytes y /\ y <> []) ds /\
               s = List.concat (List.map (encode_pad fl) ds) /\ x = List.concat ds))).
Proof.
  intros on f d v a H. apply derive_source in H. destruct H as (m & H & S). cbn [generated] in H, S.
  assert (G : base_attribute f m = Ok a /\ alphabet_named (validator_name v) (flavour_of v)).
  { destruct v; cbn [handler] in H; apply omap_inv in H; destruct H as (a' & H & E); try discriminate E;
      injection E as <-; (split; [exact (tuple_inv _ _ _ _ _ H)|]);
      unfold flavour_of, alphabet_named, validator_name; solve [left; reflexivity|right; reflexivity]. }
  destruct G as [G N0]. apply C66_base in G. destruct G as (ms & A & _ & V1 & _).
  exists (validator_name v), (flavour_of v), ms, (ba_padding a).
  split; [exact (S ms A)|]. split; [exact N0|]. split; [assumption|]. split; intros.
  - apply C19_base_language.
  - apply C22_decoded_exact.
Qed.

(** C71, mac_address and uuid. *)
Theorem C71_mac_uuid : forall on f d a, (derive on f d = Ok (GMac a) \/ derive on f d = Ok (GUuid a)) ->
  exists ms c s,
    value ms (bs "case") case_written AnyCase c /\
    (forall t x, mac_parse_str (xa_case a) (xa_sep a) t = Ok x ->
       exists digits, grouped s mac_sizes t digits /\ hex_denotes c digits x) /\
    (forall t x, uuid_parse_str (xa_case a) (xa_sep a) t = Ok x ->
       exists digits, grouped s uuid_sizes t digits /\ hex_denotes c digits x) /\
    (sep_not_digit c s -> forall t x, (exists digits, grouped s mac_sizes t digits /\ hex_denotes c digits x) ->
       mac_parse_str (xa_case a) (xa_sep a) t = Ok x) /\
    (sep_not_digit c s -> forall t x, (exists digits, grouped s uuid_sizes t digits /\ hex_denotes c digits x) ->
       uuid_parse_str (xa_case a) (xa_sep a) t = Ok x) /\
    ((derive on f d = Ok (GMac a) /\ source d (bs "mac_address") ms /\ value ms (bs "separator") sep_written (SepAllow 58) s) \/
     (derive on f d = Ok (GUuid a) /\ source d (bs "uuid") ms /\ value ms (bs "separator") sep_written (SepAllow 45) s)).
Proof.
  intros on f d a H.
  assert (K : forall t x, (forall s c, sep_not_digit c s -> mac_parse_str c s t = Ok x <->
      exists digits, grouped s mac_sizes t digits /\ hex_denotes c digits x) /\
      (forall s c, sep_not_digit c s -> uuid_parse_str c s t = Ok x <->
      exists digits, grouped s uuid_sizes t digits /\ hex_denotes c digits x)).
  { intros t x. split; intros; [apply C25_mac_accepts_exactly|apply C28_uuid_accepts_exactly]; assumption. }
  destruct H as [H|H]; assert (H0 := H); apply derive_source in H; destruct H as (m & H & S); cbn [generated] in H, S;
    cbn [handler] in H; apply omap_inv in H; destruct H as (a' & H & E); injection E as <-;
    apply tuple_inv in H; unfold mac_attribute, uuid_attribute in H; apply C66_mac_uuid in H;
    destruct H as (ms & A & _ & V1 & V2 & _); exists ms, (xa_case a), (xa_sep a);
    (split; [assumption|]; split; [intros t x; apply C25_mac_accepts_only|]; split; [intros t x; apply C28_uuid_accepts_only|];
     split; [intros N t x; apply (proj1 (K t x)); exact N|]; split; [intros N t x; apply (proj2 (K t x)); exact N|]);
    [left|right]; auto.
Qed.

(** C71, signed_integer and unsigned_integer; [target] is the pointer width of the machine the program runs on. *)
Theorem C71_integer : forall on f d sg t a, derive on f d = Ok (GInt sg t a) ->
  exists ms r, source d (if sg then bs "signed_integer" else bs "unsigned_integer") ms /\
    value ms (bs "range") (range_option_written (int_lit sg pw t) Z.ltb Z.leb (f_full f)) Unlimited r /\
    (forall target, ~ degenerate sg target t r -> forall s x, int_parse_str sg target t (ra_range a) s = Ok x <->
       denotes_int sg s x /\ IntSpec.fits sg target t x /\ allowed r x).
Proof.
  intros on f d sg t a H. apply derive_source in H. destruct H as (m & H & S). cbn [generated] in H, S.
  assert (G : range_attribute (int_lit sg pw t) Z.ltb Z.leb f m = Ok a).
  { destruct sg; cbn [handler] in H; apply omap_inv in H; destruct H as ([t' a'] & H & E); injection E as -> ->;
      apply int_handler_inv in H; destruct H as (ty & _ & _ & H); exact H. }
  apply C66_integer in G. destruct G as (ms & A & _ & V1 & _). exists ms, (ra_range a). split.
  { destruct sg; exact (S ms A). }
  split; [assumption|]. intros target D s x. exact (proj1 (C03_integer_strings sg target t (ra_range a) s D) x).
Qed.

(** C71, how the bounds of an integer range are read. *)
Theorem C71_integer_bounds : forall (sg : bool) t s x, int_lit sg pw t s = Some x <-> denotes_int sg s x /\ IntSpec.fits sg pw t x.
Proof.
  intros sg t s x. unfold int_lit.
  assert (R := int_from_str_spec (int_min sg pw t) (int_max sg pw t) s x (min_max sg pw t)).
  rewrite sg_min, <- IntProofs.fits_iff in R.
  destruct (int_from_str (int_min sg pw t) (int_max sg pw t) s) as [z|e|] eqn:E.
  - rewrite <- R. split; congruence.
  - split; [discriminate|]. intros Q. apply R in Q. discriminate Q.
  - split; [discriminate|]. intros Q. apply R in Q. discriminate Q.
Qed.

(** C71, how the bounds of a size and of a length are read. *)
Theorem C71_size_bounds : forall s n, u128_lit s = Some n <-> denotes_int false s (Z.of_N n) /\ n < 2 ^ 128.
Proof.
  intros s n. unfold u128_lit. change (2 ^ 128) with 340282366920938463463374607431768211456.
  change (2 ^ 128 - 1)%Z with 340282366920938463463374607431768211455%Z.
  assert (R := fun v => int_from_str_spec 0 340282366920938463463374607431768211455 s v ltac:(lia)).
  destruct (int_from_str 0 340282366920938463463374607431768211455 s) as [z|e|] eqn:E.
  - destruct (proj1 (R z) eq_refl) as [D B]. split.
    + intros Q. injection Q as <-. rewrite Z2N.id by lia. split; [exact D|lia].
    + intros [D' B']. assert (Q : Ok z = Ok (Z.of_N n)) by (apply R; split; [exact D'|lia]).
      injection Q as ->. rewrite N2Z.id. reflexivity.
  - split; [discriminate|]. intros [D' B']. assert (Q := proj2 (R (Z.of_N n))). discriminate Q. split; [exact D'|lia].
  - split; [discriminate|]. intros [D' B']. assert (Q := proj2 (R (Z.of_N n))). discriminate Q. split; [exact D'|lia].
Qed.
Theorem C71_length_bounds : forall s n, usize_from_str s = Some n <-> denotes_int false s (Z.of_N n) /\ n < 2 ^ 64.
Proof.
  intros s n. unfold usize_from_str. change (2 ^ 64) with 18446744073709551616.
  change (2 ^ 64 - 1)%Z with 18446744073709551615%Z.
  assert (R := fun v => int_from_str_spec 0 18446744073709551615 s v ltac:(lia)).
  destruct (int_from_str 0 18446744073709551615 s) as [z|e|] eqn:E.
  - destruct (proj1 (R z) eq_refl) as [D B]. split.
    + intros Q. injection Q as <-. rewrite Z2N.id by lia. split; [exact D|lia].
    + intros [D' B']. assert (Q : Ok z = Ok (Z.of_N n)) by (apply R; split; [exact D'|lia]).
      injection Q as ->. rewrite N2Z.id. reflexivity.
  - split; [discriminate|]. intros [D' B']. assert (Q := proj2 (R (Z.of_N n))). discriminate Q. split; [exact D'|lia].
  - split; [discriminate|]. intros [D' B']. assert (Q := proj2 (R (Z.of_N n))). discriminate Q. split; [exact D'|lia].
Qed.
Example C71_bounds_example :
  u128_lit (bs "340282366920938463463374607431768211455") = Some 340282366920938463463374607431768211455 /\
  u128_lit (bs "340282366920938463463374607431768211456") = None /\
  usize_from_str (bs "18446744073709551615") = Some 18446744073709551615 /\
  usize_from_str (bs "18446744073709551616") = None.
Proof. vm_compute. auto. Qed.

(** C71, number. *)
Theorem C71_number : forall on f d t a, derive on f d = Ok (GNumber t a) ->
  exists ms r n, source d (bs "number") ms /\
    value ms (bs "range") (range_option_written (float_lit t) SpecFloat.SFltb SpecFloat.SFleb (f_full f)) Unlimited r /\
    value ms (bs "nan") tri_written Allow n /\
    (good_range t r -> ~ x_degenerate r -> forall from_str s x,
       (forall y, from_str s = Some y -> is_float_of t y) ->
       num_parse_str from_str (na_range a) (na_nan a) s = Ok x <->
       from_str s = Some x /\ match xval x with Some y => n <> Must /\ x_allowed r y | None => n <> Disallow end).
Proof.
  intros on f d t a H. apply derive_source in H. destruct H as (m & H & S). cbn [generated handler] in H, S.
  apply omap_inv in H; destruct H as ([t' a'] & H & E); injection E as -> ->.
  apply number_handler_inv in H; destruct H as (ty & _ & _ & H & _).
  apply C66_number in H. destruct H as (ms & A & _ & V1 & V2 & _). exists ms, (na_range a'), (na_nan a').
  split; [exact (S ms A)|]. repeat (split; [assumption|]). intros G D from_str s x T.
  destruct (C05_number_strings from_str t' (na_range a') (na_nan a') s) as (-> & _).
  destruct (from_str s) as [y|] eqn:Ey.
  - assert (X := proj1 (C05_number_exact t' (na_range a') (na_nan a') y G D (T y eq_refl)) x). rewrite X.
    split; intros [Q1 Q2]; (split; [congruence|]); [subst x|injection Q1 as ->]; exact Q2.
  - split; [discriminate|]. intros [Q _]; discriminate Q.
Qed.

(** C71, bit and byte (the text of a size is read by byte_unit). *)
Theorem C71_bit_byte : forall on f d,
  (forall a, derive on f d = Ok (GBit a) -> exists ms r, source d (bs "bit") ms /\
    value ms (bs "range") (range_written u128_lit N.ltb N.leb (f_full f)) (mk_range None None false) r /\
    forall from_str s x, size_parse_str from_str (bi_range a) s = Ok x <-> from_str s = Some x /\ size_in r x) /\
  (forall a, derive on f d = Ok (GByte a) -> exists ms r, source d (bs "byte") ms /\
    value ms (bs "range") (range_written u128_lit N.ltb N.leb (f_full f)) (mk_range None None false) r /\
    forall from_str s x, size_parse_str from_str (by_range a) s = Ok x <-> from_str s = Some x /\ size_in r x).
Proof.
  intros on f d.
  assert (K : forall from_str r s x, size_parse_str from_str r s = Ok x <-> from_str s = Some x /\ size_in r x).
  { intros from_str r s x. assert (Q := proj1 (C07_size_exact from_str 0 r) s).
    destruct (from_str s) as [y|] eqn:E; [rewrite (proj1 Q x)|rewrite Q]; split; try discriminate; try (intros [? ?]; congruence).
    - intros [? ->]; auto. - intros [J ?]. injection J as ->. auto. }
  split; intros a H; apply derive_source in H; destruct H as (m & H & S); cbn [generated handler] in H, S;
    apply omap_inv in H; destruct H as (a' & H & E); injection E as <-; apply tuple_inv in H;
    [apply C66_bit in H|apply C66_byte in H].
  - destruct H as (ms & A & _ & V1 & _). exists ms, (bi_range a). split; [exact (S ms A)|]. split; [assumption|]. intros; apply K.
  - destruct H as (ms & A & _ & V1 & _). exists ms, (by_range a). split; [exact (S ms A)|]. split; [assumption|]. intros; apply K.
Qed.

(** C71, length, when the bounds differ (otherwise see C09). *)
Theorem C71_length : forall on f d a, derive on f d = Ok (GLength a) ->
  exists ms mn mx, source d (bs "length") ms /\
    value ms (bs "min") usize_written None mn /\ value ms (bs "max") usize_written None mx /\
    ((forall k, mn = Some k -> mx <> Some k) -> forall A (len : A -> N) v w,
       parse_collection len (ca_min a) (ca_max a) v = Ok w <-> len_in_bounds mn mx (len v) /\ w = v).
Proof.
  intros on f d a H. apply derive_source in H. destruct H as (m & H & S). cbn [generated handler] in H, S.
  apply omap_inv in H. destruct H as (a' & H & E). injection E as <-. apply tuple_inv in H. apply C66_length in H.
  destruct H as (ms & A & _ & V1 & V2 & _ & L). exists ms, (ca_min a), (ca_max a).
  split; [exact (S ms A)|]. repeat (split; [assumption|]). intros D B len v w.
  refine (proj1 (C08_length_exact B len (Some ((match ca_min a with Some x => [CMin (Some x)] | None => [] end) ++
    (match ca_max a with Some x => [CMax (Some x)] | None => [] end))) _ _ v _ D) w).
  unfold coll_attribute. cbn.
  destruct (ca_min a) as [x|], (ca_max a) as [y|]; cbn; try reflexivity.
  specialize (L x y eq_refl eq_refl). destruct (y <? x) eqn:Q; [apply N.ltb_lt in Q; lia|reflexivity].
Qed.

(** C71, line and text. *)
Theorem C71_line_text : forall on f d k a, derive on f d = Ok (match k with Line => GLine a | Text => GText a end) ->
  exists ms, source d (match k with Line => bs "line" | Text => bs "text" end) ms /\
    (((forall m, In m ms -> ~ named (bs "byte_length") m /\ ~ named (bs "char_length") m) /\
      forall s r, line_parse_str k (ta_length a) s = Ok r <-> r = s /\ Forall (fun c => ~ forbidden k c) s) \/
     exists m (b : bool) l, In m ms /\ named (if b then bs "byte_length" else bs "char_length") m /\ length_written m l /\
      (forall m', In m' ms -> ~ named (if b then bs "char_length" else bs "byte_length") m') /\
      (l_tmin l = None -> forall s r, line_parse_str k (ta_length a) s = Ok r <->
         r = s /\ Forall (fun c => ~ forbidden k c) s /\ at_least (l_min l) (len b s) /\ at_most (l_max l) (len b s)) /\
      (forall t, l_tmin l = Some t -> forall s r, line_parse_str k (ta_length a) s = Ok r <->
         r = s /\ exists lead mid trail, trims s lead mid trail /\ Forall (fun c => ~ forbidden k c) (mid ++ trail) /\
         at_least (l_min l) (len b s) /\ at_most (l_max l) (len b s) /\ t <= len b mid)).
Proof.
  intros on f d k a H. apply derive_source in H. destruct H as (m & H & S).
  assert (G : utf8_meta f m = Ok a).
  { destruct k; cbn [generated handler] in H; apply omap_inv in H; destruct H as (a' & H & E); injection E as <-;
      exact (tuple_inv _ _ _ _ _ H). }
  apply C66_line_text in G. destruct G as (ms & A & _ & G & _). exists ms. split.
  { destruct k; exact (S ms A). }
  destruct G as [(x & b & l & I & Nm & W & E & O)|[O E]]; rewrite E.
  - right. exists x, b, l. split; [exact I|]. split; [exact Nm|]. split; [exact W|]. split; [exact O|]. split.
    + intros T s r. exact (C11_no_trimmed_min_exact k (Some (b, l)) s r T).
    + intros t T s r. exact (C12_trimmed_min_exact k (Some (b, l)) t s r T).
  - left. split; [exact O|]. intros s r. rewrite (C11_no_trimmed_min_exact k None s r eq_refl).
    cbn. unfold at_least, at_most. intuition (try discriminate).
Qed.

(** C71, http_url and http_ftp_url. *)
Theorem C71_http : forall on f d v a, derive on f d = Ok (GHttp v a) ->
  exists ms L, source d (validator_name v) ms /\ value ms (bs "local") tri_written Allow L /\
  forall url (parse : list N -> option url) host, HttpSpec.host_typed host ->
    let policy u := L = Allow \/ exists h, host u = Some h /\ local_ok L (HttpSpec.host_local h) in
    (v = Vhttp_url -> forall s u (https : bool), HttpModel.http_parse_str url parse host (ua_local a) s = Ok (u, https) <->
       HttpSpec.has_scheme (if https then bs "https" else bs "http") s /\ parse s = Some u /\ policy u) /\
    (v = Vhttp_ftp_url -> forall s u p, HttpModel.http_ftp_parse_str url parse host (ua_local a) s = Ok (u, p) <->
       HttpSpec.has_scheme (match p with HttpModel.HTTP => bs "http" | HttpModel.HTTPS => bs "https" | HttpModel.FTP => bs "ftp" end) s /\
       parse s = Some u /\ policy u).
Proof.
  intros on f d v a H. apply derive_source in H. destruct H as (m & H & S). cbn [generated] in H, S.
  assert (G : http_handler f m (di_data d) = Ok a).
  { destruct v; cbn [handler] in H; apply omap_inv in H; destruct H as (a' & H & E); try discriminate E;
      injection E as <-; exact H. }
  apply obind_ok in G. destruct G as (b & Hb & G). apply on_struct_inv in G. destruct G as (-> & _).
  apply C66_http in Hb. destruct Hb as (ms & A & _ & V1 & _).
  exists ms, (ua_local a). split; [exact (S ms A)|]. split; [assumption|].
  intros url parse host T policy. split; intros E s u p.
  - exact (PropHttp.C54_http_accepts_exactly url parse host (ua_local a) s u p T).
  - exact (PropHttp.C54_http_ftp_accepts_exactly url parse host (ua_local a) s u p T).
Qed.

(** C71, phone. *)
Theorem C71_phone : (forall a b : cid, cid_eqb a b = true <-> a = b) -> forall on f d a, derive on f d = Ok (GPhone a) ->
  exists ms cs, source d (bs "phone") ms /\ value ms (bs "countries") (countries_written id_from_str) [] cs /\
  forall phone perr parse (country : phone -> option cid) valid s,
    let ok c p := parse (Some c) s = inl p /\ country p = Some c /\ valid p = true in
    (cs = [] -> forall v, phone_parse_str cid cid_eqb phone perr parse country valid (pa_countries a) s = Ok v <->
       exists p, v = POne p /\ parse None s = inl p /\ valid p = true) /\
    (forall c, cs = [c] -> forall v, phone_parse_str cid cid_eqb phone perr parse country valid (pa_countries a) s = Ok v <->
       exists p, v = POne p /\ ok c p) /\
    ((2 <= List.length cs)%nat ->
     (forall v, phone_parse_str cid cid_eqb phone perr parse country valid (pa_countries a) s = Ok v ->
        exists m, v = PMany m /\ m <> [] /\ NoDup (List.map fst m) /\ forall c p, In (c, p) m <-> In c cs /\ ok c p) /\
     (is_ok (phone_parse_str cid cid_eqb phone perr parse country valid (pa_countries a) s) <->
        (forall c, In c cs -> exists p, parse (Some c) s = inl p) /\ exists c p, In c cs /\ ok c p)).
Proof.
  intros Q on f d a H. apply derive_source in H. destruct H as (m & H & S). cbn [generated handler] in H, S.
  apply omap_inv in H. destruct H as (a' & H & E). injection E as <-. apply tuple_inv in H. apply C66_phone in H; [|exact Q].
  destruct H as (ms & A & _ & V1 & _). exists ms, (pa_countries a). split; [exact (S ms A)|]. split; [assumption|].
  assert (D : NoDup (pa_countries a)).
  { destruct V1 as [(x & _ & _ & p & is & _ & _ & _ & D)|[_ ->]]; [exact D|constructor]. }
  intros phone perr parse country valid s ok. split; [|split].
  - intros -> v. apply C51_any_country.
  - intros c -> v. apply C51_one_country. exact Q.
  - intros L. exact (C51_several_countries cid cid_eqb phone perr parse country valid Q (pa_countries a) s L D).
Qed.
End Policy.

Print Assumptions C71_domain.
Print Assumptions C71_host.
Print Assumptions C71_email.
Print Assumptions C71_ip.
Print Assumptions C71_base.
Print Assumptions C71_mac_uuid.
Print Assumptions C71_integer.
Print Assumptions C71_integer_bounds.
Print Assumptions C71_size_bounds.
Print Assumptions C71_length_bounds.
Print Assumptions C71_number.
Print Assumptions C71_bit_byte.
Print Assumptions C71_length.
Print Assumptions C71_line_text.
Print Assumptions C71_http.
Print Assumptions C71_phone.

(** A struct with a domain attribute, from the attribute to texts. *)
Example C71_example :
  let d := {| di_attrs := [MPath [bs "derive"];
      MList [bs "validator"] [IMeta (MList [bs "domain"]
        [IMeta (MList [bs "ipv4"] [IMeta (MPath [bs "Disallow"])] false);
         IMeta (MNameValue [bs "port"] (EPath [bs "Must"]));
         IMeta (MList [bs "at_least_two_labels"] [IMeta (MPath [bs "Must"])] false)] true)] false];
     di_data := DataStruct (FNamed [bs "domain"; bs "is_local"; bs "port"]); di_params := 0 |} in
  let a := mk_domain_attr Disallow Allow Must Must false opts0 in
  derive (cid := unit) (fun _ => None) (fun _ _ => true) (fun _ => true) (fun _ _ => None) W64 (fun _ => true)
    {| f_serde := true; f_rocket := false; f_full := true |} d = Ok (GDomain a) /\
  domain_parse_str IdnaFrag.idna_ascii (domain_cfg_of a) (bs "Magiclen.org:80") =
    Ok {| dv_domain := bs "magiclen.org"; dv_port := Some 80; dv_is_ipv4 := None; dv_is_local := Some false |} /\
  domain_parse_str IdnaFrag.idna_ascii (domain_cfg_of a) (bs "magiclen.org") = Err DPortMust /\
  domain_parse_str IdnaFrag.idna_ascii (domain_cfg_of a) (bs "1.2.3.4:80") = Err DIPv4Disallow.
Proof. repeat split. Qed.

Example C71_example_integer :
  let d := {| di_attrs := [MList [bs "validator"] [IMeta (MList [bs "signed_integer"]
        [IMeta (MList [bs "range"] [IMeta (MList [bs "Inside"] [IMeta (MNameValue [bs "min"] (ENeg (LitInt (bs "3"))))] false)]
                  false)] false)] false];
     di_data := DataStruct (FUnnamed [bs "i16"]); di_params := 0 |} in
  let a := mk_range_attr (Inside (Some (-3)%Z) None true) opts0 in
  derive (cid := unit) (fun _ => None) (fun _ _ => true) (fun _ => true) (fun _ _ => None) W64 (fun _ => true)
    {| f_serde := true; f_rocket := false; f_full := true |} d = Ok (GInt true I16 a) /\
  ~ degenerate true W32 I16 (ra_range a) /\
  int_parse_str true W32 I16 (ra_range a) (bs "-3") = Ok (-3)%Z /\
  int_parse_str true W32 I16 (ra_range a) (bs "-4") = Err TooSmall.
Proof. repeat split. intros [[i H]|(? & ? & ? & ? & H & _)]; discriminate H. Qed.
