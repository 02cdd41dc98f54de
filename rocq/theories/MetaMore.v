(** Consequences of the table lemmas: order, generated implementations. *)
From Verif Require Import Base RangeModel LengthModel MacModel AttrSpec MetaModel MetaSpec MetaProofs MetaTables.
From Coq Require Import Permutation.
Local Open Scope N_scope.

Lemma build_order : forall St (tbl : list (param St)) d p ms ns tr tr', good_table tbl -> Permutation ms ns -> ms <> [] ->
  agree (build_from_meta tbl d (MList p (List.map IMeta ms) tr)) (build_from_meta tbl d (MList p (List.map IMeta ns) tr')).
Proof.
  assert (H : forall St (tbl : list (param St)) d p ms ns tr tr' a, good_table tbl -> Permutation ms ns -> ns <> [] ->
    build_from_meta tbl d (MList p (List.map IMeta ms) tr) = Ok a ->
    build_from_meta tbl d (MList p (List.map IMeta ns) tr') = Ok a).
  { intros St tbl d p ms ns tr tr' a G HP HN H. rewrite build_ok in H |- * by exact G.
    destruct H as (l & [HA _] & HW & HE).
    assert (l = ms).
    { clear - HA. revert l HA. induction ms as [|m ms IH]; intros [|x l] H; try discriminate; [reflexivity|].
      cbn [List.map] in H. injection H as <- H. f_equal. apply IH, H. }
    subst l. exists ns. split; [split; [reflexivity|intros _; exact HN]|].
    split; [eapply well_named_perm; eassumption|]. intros q Hq. eapply effect_perm; [exact HP|]. apply HE, Hq. }
  intros St tbl d p ms ns tr tr' G HP HN a.
  assert (HN' : ns <> []) by (intros ->; apply Permutation_sym, Permutation_nil in HP; contradiction).
  split; intros X; eapply H; try eassumption. apply Permutation_sym, HP.
Qed.

Lemma agree_of_iff : forall E A (x y : outcome E A), (forall a, x = Ok a -> y = Ok a) -> (forall a, y = Ok a -> x = Ok a) ->
  agree x y.
Proof. intros E A x y H1 H2 a. split; auto. Qed.

Lemma agree_bind1 : forall E A B (x y : outcome E A) (k : A -> outcome E B), agree x y -> agree (obind x k) (obind y k).
Proof.
  intros E A B x y k H b. split; intros HB.
  - destruct x as [a| |]; cbn [obind] in HB; try discriminate. rewrite (proj1 (H a) eq_refl). exact HB.
  - destruct y as [a| |]; cbn [obind] in HB; try discriminate. rewrite (proj2 (H a) eq_refl). exact HB.
Qed.

Lemma map_imeta_inj : forall l ms, List.map IMeta ms = List.map IMeta l -> l = ms.
Proof.
  intros l ms. revert l. induction ms as [|m ms IH]; intros [|x l] H; try discriminate; [reflexivity|].
  cbn [List.map] in H. injection H as <- H. f_equal. apply IH, H.
Qed.

Lemma value_perm : forall A ms ns n (W : meta -> A -> Prop) d v, Permutation ms ns ->
  value ms n W d v -> value ns n W d v.
Proof.
  intros A ms ns n W d v HP [(m & H1 & H)|[H1 H2]].
  - left. exists m. split; [eapply Permutation_in; eassumption|exact H].
  - right. split; [|exact H2]. intros m Hm. apply H1. eapply Permutation_in; [apply Permutation_sym, HP|exact Hm].
Qed.

Lemma utf8_order1 : forall f p ms ns tr tr' a, Permutation ms ns -> ns <> [] ->
  utf8_meta f (MList p (List.map IMeta ms) tr) = Ok a -> utf8_meta f (MList p (List.map IMeta ns) tr') = Ok a.
Proof.
  intros f p ms ns tr tr' a HP HN H. rewrite utf8_lemma in H |- *.
  destruct H as (l & [HA _] & HW & HL & HO1 & HO2). apply map_imeta_inj in HA. subst l.
  exists ns. split; [split; [reflexivity|intros _; exact HN]|].
  split; [eapply well_named_perm; eassumption|].
  assert (IN : forall m, In m ms <-> In m ns).
  { intros m. split; apply Permutation_in; [exact HP|apply Permutation_sym, HP]. }
  split.
  - destruct HL as [(m & b & l & Hm & H)|[H1 H2]].
    + left. exists m, b, l. split; [apply IN, Hm|]. destruct H as (Ha & Hb & Hc & Hd).
      repeat split; try assumption. intros m' Hm'. apply Hd, IN, Hm'.
    + right. split; [|exact H2]. intros m Hm. apply H1, IN, Hm.
  - split; eapply value_perm; eassumption.
Qed.

Lemma order_lemma : forall f p ms ns tr tr', Permutation ms ns -> ms <> [] ->
  let m := MList p (List.map IMeta ms) tr in
  let n := MList p (List.map IMeta ns) tr' in
  agree (basic_attribute f m) (basic_attribute f n) /\
  agree (base_attribute f m) (base_attribute f n) /\
  agree (http_attribute f m) (http_attribute f n) /\
  agree (ip_attribute f m) (ip_attribute f n) /\
  agree (host_attribute f m) (host_attribute f n) /\
  agree (domain_attribute f m) (domain_attribute f n) /\
  agree (email_attribute f m) (email_attribute f n) /\
  agree (mac_attribute f m) (mac_attribute f n) /\
  agree (uuid_attribute f m) (uuid_attribute f n) /\
  agree (coll_meta f m) (coll_meta f n) /\
  agree (utf8_meta f m) (utf8_meta f n) /\
  (forall T (from_str : list N -> option T) ltb leb,
     agree (range_attribute from_str ltb leb f m) (range_attribute from_str ltb leb f n) /\
     agree (number_attribute from_str ltb leb f m) (number_attribute from_str ltb leb f n) /\
     agree (bit_attribute from_str ltb leb f m) (bit_attribute from_str ltb leb f n) /\
     agree (byte_attribute from_str ltb leb f m) (byte_attribute from_str ltb leb f n)) /\
  (forall cid (id_from_str : list N -> option cid) cid_eqb, (forall a b, cid_eqb a b = true <-> a = b) ->
     agree (phone_attribute id_from_str cid_eqb f m) (phone_attribute id_from_str cid_eqb f n)) /\
  (forall compiles, agree (regex_attribute compiles f m) (regex_attribute compiles f n)).
Proof.
  intros f p ms ns tr tr' HP HN m n.
  assert (HN' : ns <> []) by (intros ->; apply Permutation_sym, Permutation_nil in HP; contradiction).
  unfold mac_attribute, uuid_attribute, hex_attribute, basic_attribute, base_attribute, http_attribute, ip_attribute,
    host_attribute, domain_attribute, email_attribute, coll_meta.
  repeat (split; [first [apply build_order; [good_tac|exact HP|exact HN]
                        |apply agree_bind1, build_order; [good_tac|exact HP|exact HN]]|]).
  split; [apply agree_of_iff; intros a; apply utf8_order1; [exact HP|exact HN'|apply Permutation_sym, HP|exact HN]|].
  split.
  { intros T from_str ltb leb. unfold range_attribute, number_attribute, bit_attribute, byte_attribute.
    repeat (split; [apply build_order; [good_tac|exact HP|exact HN]|]). apply build_order; [good_tac|exact HP|exact HN]. }
  split.
  { intros cid id_from_str cid_eqb _. unfold phone_attribute. apply build_order; [good_tac|exact HP|exact HN]. }
  intros compiles. unfold regex_attribute. apply agree_bind1, build_order; [good_tac|exact HP|exact HN].
Qed.

Lemma flags_off : forall n1 n2 m, (exists v, flags_written false n1 n2 m v) <-> exists p, m = MNameValue p (ELit (LitBool false)).
Proof.
  intros n1 n2 m. split.
  - intros (v & H). destruct m as [p|p e|p items tr]; cbn [flags_written] in H.
    + destruct H as [H _]. discriminate.
    + destruct H as (b & -> & _ & Hb). destruct b; [specialize (Hb eq_refl); discriminate|]. eauto.
    + destruct H as [H _]. discriminate.
  - intros (p & ->). exists (false, false). exists false. split; [reflexivity|]. split; [reflexivity|discriminate].
Qed.

Lemma feature_off_lemma : forall f m o,
  (f_serde f = false -> forall ms, opts_written f ms o -> serde_impls f o = []) /\
  (f_rocket f = false -> forall ms, opts_written f ms o -> rocket_impls f o = []) /\
  (f_serde f = false -> (exists a, serde_from_meta f m = Ok a) <-> exists p, m = MNameValue p (ELit (LitBool false))) /\
  (f_rocket f = false -> (exists a, rocket_from_meta f m = Ok a) <-> exists p, m = MNameValue p (ELit (LitBool false))).
Proof.
  intros f m o. unfold serde_impls, rocket_impls. split; [intros -> ; reflexivity|]. split; [intros -> ; reflexivity|].
  split; intros E.
  - rewrite <- (flags_off (bs "Serialize") (bs "Deserialize") m). apply Morphisms_Prop.ex_iff_morphism. intros v.
    rewrite serde_spec. unfold serde_written. rewrite E. reflexivity.
  - rewrite <- (flags_off (bs "FromFormField") (bs "FromParam") m). apply Morphisms_Prop.ex_iff_morphism. intros v.
    rewrite rocket_spec. unfold rocket_written. rewrite E. reflexivity.
Qed.

Lemma in_words : forall i is, In (IMeta (MPath [i])) (List.map (fun i => IMeta (MPath [i])) is) <-> In i is.
Proof.
  intros i is. rewrite in_map_iff. split.
  - intros (x & H & HI). injection H as ->. exact HI.
  - intros H. exists i. auto.
Qed.

Lemma serde_table_lemma : forall f ms o, f_serde f = true -> opts_written f ms o ->
  (forall m, In m ms -> ~ named (bs "serde") m) /\ serde_impls f o = [ImplSerialize; ImplDeserialize] \/
  exists m, In m ms /\ named (bs "serde") m /\
    match m with
    | MPath _ => serde_impls f o = [ImplSerialize; ImplDeserialize]
    | MNameValue _ e => (e = ELit (LitBool true) /\ serde_impls f o = [ImplSerialize; ImplDeserialize]) \/
                        (e = ELit (LitBool false) /\ serde_impls f o = [])
    | MList _ items _ =>
        (In ImplSerialize (serde_impls f o) <-> In (IMeta (MPath [bs "Serialize"])) items) /\
        (In ImplDeserialize (serde_impls f o) <-> In (IMeta (MPath [bs "Deserialize"])) items)
    end.
Proof.
  intros f ms [[s d] r] Hf [H _]. unfold serde_impls. rewrite Hf. cbn [o_serde fst snd] in *.
  destruct H as [(m & Hm & Hn & H)|[H1 H2]].
  - right. exists m. split; [exact Hm|]. split; [exact Hn|]. unfold serde_written, flags_written in H.
    destruct m as [p|p e|p items tr].
    + destruct H as [_ H]. injection H as -> ->. reflexivity.
    + destruct H as (b & -> & H & _). injection H as -> ->. destruct b; [left|right]; split; reflexivity.
    + destruct H as (_ & _ & is & _ & -> & _ & _ & H1 & H2). cbn [fst snd] in *. rewrite !in_words, <- H1, <- H2.
      destruct s, d; cbn [app In]; intuition discriminate.
  - left. injection H2 as -> ->. split; [exact H1|reflexivity].
Qed.

Lemma rocket_table_lemma : forall f ms o, f_rocket f = true -> opts_written f ms o ->
  (forall m, In m ms -> ~ named (bs "rocket") m) /\ rocket_impls f o = [ImplFromFormField; ImplFromParam] \/
  exists m, In m ms /\ named (bs "rocket") m /\
    match m with
    | MPath _ => rocket_impls f o = [ImplFromFormField; ImplFromParam]
    | MNameValue _ e => (e = ELit (LitBool true) /\ rocket_impls f o = [ImplFromFormField; ImplFromParam]) \/
                        (e = ELit (LitBool false) /\ rocket_impls f o = [])
    | MList _ items _ =>
        (In ImplFromFormField (rocket_impls f o) <-> In (IMeta (MPath [bs "FromFormField"])) items) /\
        (In ImplFromParam (rocket_impls f o) <-> In (IMeta (MPath [bs "FromParam"])) items)
    end.
Proof.
  intros f ms [r [s d]] Hf [_ H]. unfold rocket_impls. rewrite Hf. cbn [o_rocket fst snd] in *.
  destruct H as [(m & Hm & Hn & H)|[H1 H2]].
  - right. exists m. split; [exact Hm|]. split; [exact Hn|]. unfold rocket_written, flags_written in H.
    destruct m as [p|p e|p items tr].
    + destruct H as [_ H]. injection H as -> ->. reflexivity.
    + destruct H as (b & -> & H & _). injection H as -> ->. destruct b; [left|right]; split; reflexivity.
    + destruct H as (_ & _ & is & _ & -> & _ & _ & H1 & H2). cbn [fst snd] in *. rewrite !in_words, <- H1, <- H2.
      destruct s, d; cbn [app In]; intuition discriminate.
  - left. injection H2 as -> ->. split; [exact H1|reflexivity].
Qed.

Lemma unlimited_lemma : forall T (from_str : list N -> option T) ltb leb f p m v,
  range_option_meta from_str ltb leb f (MList p [IMeta m] false) = Ok v ->
  (v = Unlimited <-> named (bs "Unlimited") m) /\
  (named (bs "Unlimited") m \/
   exists r, range_written from_str ltb leb (f_full f) m r /\
     ((named (bs "Inside") m /\ v = Inside (r_min r) (r_max r) (r_incl r)) \/
      (named (bs "Outside") m /\ v = Outside (r_min r) (r_max r) (r_incl r)))).
Proof.
  intros T from_str ltb leb f p m v H. apply range_option_spec in H.
  destruct H as (q & a & E & H). injection E as <- <-.
  destruct v as [mn mx i|mn mx i|].
  - destruct H as [Hn H]. split.
    + split; [discriminate|]. intros X. pose proof (named_fun _ _ _ X Hn) as Y. discriminate Y.
    + right. exists (mk_range mn mx i). split; [exact H|]. left. auto.
  - destruct H as [Hn H]. split.
    + split; [discriminate|]. intros X. pose proof (named_fun _ _ _ X Hn) as Y. discriminate Y.
    + right. exists (mk_range mn mx i). split; [exact H|]. right. auto.
  - split; [tauto|]. left. exact H.
Qed.
