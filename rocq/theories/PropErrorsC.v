(** Property C74, continued: encodings, identifiers and URLs. *)
From Verif Require Import Base BaseModel BaseSpec BaseProofs CodecSpec CodecModel PropBase MacModel MacSpec MacProofs PropMac
  PropUnion PropUnionB.
From Verif Require HttpModel HttpSpec PropHttp.
Local Open Scope N_scope.

Lemma tail_scan_free f p ll : forall l n, tail_scan f p ll n l = Err BInvalid -> tail_scan f Allow ll n l = Err BInvalid.
Proof.
  induction l as [|e l IH]; intros n; cbn [tail_scan]; [discriminate|].
  destruct (in_alphabet f e); [apply IH|]. destruct (e =? 61); [|auto]. destruct p; cbn; auto; discriminate.
Qed.

Lemma base_invalid_free f p v : base_parse_str f p v = Err BInvalid -> base_parse_str f Allow v = Err BInvalid.
Proof.
  unfold base_parse_str, base_v_parse_str. destruct v as [|x v]; [reflexivity|].
  rewrite !(scanner_eq f _ (x :: v)) by discriminate. cbv zeta.
  destruct (is_must p && _); [discriminate|]. destruct (forallb _ _); [|auto].
  cbn [is_must andb]. intros H.
  destruct (tail_scan f p _ _ _) as [u|e|] eqn:E; cbn [obind] in H; try discriminate. injection H as ->.
  rewrite (tail_scan_free _ _ _ _ _ E). reflexivity.
Qed.

(** Base32 and base64: [Invalid] is beyond repair by the padding policy; a padding error names the policy, and a text that
    is otherwise good is accepted under the opposite one. *)
Theorem C74_base_errors : forall f padding v e, base_parse_str f padding v = Err e ->
  match e with
  | BInvalid => forall padding', ~ is_ok (base_parse_str f padding' v)
  | BPaddingMust => padding = Must /\ (is_ok (base_parse_str f Allow v) -> is_ok (base_parse_str f Disallow v))
  | BPaddingDisallow => padding = Disallow /\ (is_ok (base_parse_str f Allow v) -> is_ok (base_parse_str f Must v))
  | BDecode => False
  end.
Proof.
  intros f padding v e H.
  assert (NO : ~ is_ok (base_parse_str f padding v)) by (intros (a & K); congruence).
  destruct (C20_padding_errors f padding v) as (E1 & E2 & E3).
  assert (U : is_ok (base_parse_str f Allow v) <-> is_ok (base_parse_str f Must v) \/ is_ok (base_parse_str f Disallow v)).
  { pose proof (proj1 (C73_base_padding f v)) as U. unfold union, yields in U. split.
    - intros (a & K). destruct (proj1 (U a)) as [(r & R & _)|(r & R & _)]; [eauto| |]; [left|right]; exists r; exact R.
    - intros [(a & K)|(a & K)]; (destruct (proj2 (U a)) as (r & R & _); [eauto|]); exists r; exact R. }
  destruct e.
  - apply base_invalid_free in H. assert (NA : ~ is_ok (base_parse_str f Allow v)) by (intros (a & K); congruence).
    intros p K. destruct p; tauto.
  - apply E1 in H. destruct H as [-> _]. split; [reflexivity|]. tauto.
  - apply E2 in H. destruct H as [-> _]. split; [reflexivity|]. tauto.
  - auto.
Qed.

(** MAC addresses and UUIDs. *)
Lemma must_err mac c v e : iter_of mac (SepMust c) v = Err e ->
  e = HSeparatorMust /\ List.length v <> (list_sum (sizes_of mac) + (List.length (sizes_of mac) - 1))%nat \/
  e = HInvalid /\ List.length v = (list_sum (sizes_of mac) + (List.length (sizes_of mac) - 1))%nat.
Proof.
  assert (S0 : forall (l : list N) a b e', slice (E := hex_err) l a b <> Err e') by
    (intros; unfold slice; destruct (_ && _)%bool; discriminate).
  assert (S1 : forall (l : list N) a e', slice_from (E := hex_err) l a <> Err e') by
    (intros; unfold slice_from; destruct (_ <=? _)%nat; discriminate).
  assert (S2 : forall (l : list N) a e', idx (E := hex_err) l a <> Err e') by
    (intros; unfold idx; destruct (nth_error _ _); discriminate).
  destruct mac; cbn [iter_of sizes_of]; unfold mac_iter, uuid_iter.
  - change (list_sum mac_sizes + (List.length mac_sizes - 1))%nat with 17%nat.
    destruct (Nat.eqb_spec (List.length v) 17) as [Hl|Hl]; cbn [negb]; [|intros [= <-]; auto].
    intros H. right. split; [|exact Hl]. revert H.
    repeat (match goal with |- obind ?x _ = _ -> _ => let E := fresh in destruct x eqn:E; cbn [obind];
      [| exfalso; first [now eapply S0; exact E | now eapply S1; exact E | now eapply S2; exact E] | discriminate] end).
    destruct (_ || _)%bool; [congruence|].
    repeat (match goal with |- obind ?x _ = _ -> _ => let E := fresh in destruct x eqn:E; cbn [obind];
      [| exfalso; first [now eapply S0; exact E | now eapply S1; exact E | now eapply S2; exact E] | discriminate] end).
    intros X; congruence.
  - change (list_sum uuid_sizes + (List.length uuid_sizes - 1))%nat with 36%nat.
    destruct (Nat.eqb_spec (List.length v) 36) as [Hl|Hl]; cbn [negb]; [|intros [= <-]; auto].
    intros H. right. split; [|exact Hl]. revert H.
    repeat (match goal with |- obind ?x _ = _ -> _ => let E := fresh in destruct x eqn:E; cbn [obind];
      [| exfalso; first [now eapply S0; exact E | now eapply S1; exact E | now eapply S2; exact E] | discriminate] end).
    destruct (_ || _)%bool; [congruence|].
    repeat (match goal with |- obind ?x _ = _ -> _ => let E := fresh in destruct x eqn:E; cbn [obind];
      [| exfalso; first [now eapply S0; exact E | now eapply S1; exact E | now eapply S2; exact E] | discriminate] end).
    intros X; congruence.
Qed.

Lemma decode_err case w : forall cs acc e, handle_decode w case cs acc = Err e -> e = HInvalid.
Proof. induction cs as [|x cs IH]; intros acc e; cbn [handle_decode]; [discriminate|]. destruct (hex_digit case x); [apply IH|congruence]. Qed.

Lemma split_allow_err c : forall sizes v e, split_allow c sizes v = Err e -> e = HInvalid.
Proof.
  induction sizes as [|g [|g' sizes] IH]; intros v e.
  - cbn. congruence.
  - cbn [split_allow]. destruct (_ =? _)%nat; congruence.
  - change (split_allow c (g :: g' :: sizes) v) with
      (match skipn g v with [] => Panic | x :: rest =>
         let? r := split_allow c (g' :: sizes) (if x =? c then rest else x :: rest) in Ok (firstn g v ++ r) end).
    destruct (skipn g v) as [|x rest]; [discriminate|].
    specialize (IH (if x =? c then rest else x :: rest)). revert IH. generalize (split_allow c (g' :: sizes) (if x =? c then rest else x :: rest)).
    intros [r|e'|] IH; cbn [obind]; intros H; try discriminate H. injection H as <-. now apply IH.
Qed.

Lemma parse_err mac case sep v e : parse_of mac case sep v = Err e ->
  match e with
  | HInvalid => match sep with
                | SepMust _ => List.length v = (list_sum (sizes_of mac) + (List.length (sizes_of mac) - 1))%nat
                | SepAllow _ => True
                | SepDisallow => List.length v = list_sum (sizes_of mac)
                end
  | HSeparatorMust => exists c, sep = SepMust c /\ List.length v <> (list_sum (sizes_of mac) + (List.length (sizes_of mac) - 1))%nat
  | HSeparatorDisallow => sep = SepDisallow /\ List.length v <> list_sum (sizes_of mac)
  end.
Proof.
  rewrite parse_of_unfold. destruct (iter_of mac sep v) as [d|e'|] eqn:I; cbn [obind]; [| |discriminate].
  - intros H. apply decode_err in H. subst e. apply iter_sound in I. destruct sep; [|exact Logic.I|].
    + clear -I. assert (K : grouped (SepMust c) (sizes_of mac) v d -> sizes_of mac <> [] ->
        List.length v = (list_sum (sizes_of mac) + (List.length (sizes_of mac) - 1))%nat).
      { clear I. intros G. induction G as [g|g s sizes v digits Hs G IH]; intros _; cbn [list_sum fold_right List.length]; [lia|].
        destruct sizes as [|m sizes]; [inversion G|]. rewrite !app_length, IH by discriminate. cbn in Hs. subst s.
        unfold list_sum. cbn [List.length fold_right]. lia. }
      apply K; [exact I | destruct mac; discriminate].
    + pose proof (grouped_digits _ _ _ _ I) as L. apply grouped_disallow in I. subst d. exact L.
  - intros [= ->]. destruct sep.
    + apply must_err in I. destruct I as [[-> L]|[-> L]]; [eauto | exact L].
    + rewrite iter_allow in I. destruct (_ && _)%bool; [apply split_allow_err in I|]; [subst; exact Logic.I | injection I as <-; exact Logic.I].
    + rewrite iter_disallow in I. destruct (Nat.eqb_spec (List.length v) (list_sum (sizes_of mac))); [discriminate|].
      injection I as <-. auto.
Qed.

Lemma grouped_full c : forall sizes v d, grouped (SepAllow c) sizes v d ->
  List.length v = (list_sum sizes + (List.length sizes - 1))%nat -> grouped (SepMust c) sizes v d.
Proof.
  intros sizes v d G. induction G as [g|g s sizes v digits Hs G IH]; intros L; [constructor|].
  pose proof (grouped_allow_length _ _ _ _ G) as B. rewrite !app_length in L. cbn [List.length] in L.
  change (list_sum (List.length g :: sizes)) with (List.length g + list_sum sizes)%nat in L.
  assert (sizes <> []) by (intros ->; inversion G).
  assert (0 < List.length sizes)%nat by (destruct sizes; [congruence | cbn; lia]).
  destruct Hs as [-> | ->]; cbn [List.length] in L; [lia|].
  constructor; [reflexivity|]. apply IH. lia.
Qed.
Lemma grouped_none c : forall sizes v d, grouped (SepAllow c) sizes v d ->
  List.length v = list_sum sizes -> grouped SepDisallow sizes v d.
Proof.
  intros sizes v d G. induction G as [g|g s sizes v digits Hs G IH]; intros L; [constructor|].
  pose proof (grouped_allow_length _ _ _ _ G) as B. rewrite !app_length in L.
  change (list_sum (List.length g :: sizes)) with (List.length g + list_sum sizes)%nat in L.
  destruct Hs as [-> | ->]; cbn [List.length] in L; [|lia].
  constructor; [reflexivity|]. apply IH. lia.
Qed.

(** [sep'] is a policy about the same separator as [sep]. *)
Definition same_separator (sep sep' : sep_option) : Prop :=
  match sep_allow sep, sep_allow sep' with Some c, Some c' => c = c' | _, _ => True end.

Lemma id_invalid mac case sep v : parse_of mac case sep v = Err HInvalid ->
  forall sep', same_separator sep sep' -> sep_not_digit case sep -> sep_not_digit case sep' -> ~ is_ok (parse_of mac case sep' v).
Proof.
  intros H sep' Hc Hs Hs' (x & K).
  pose proof (parse_err _ _ _ _ _ H) as L. cbn in L.
  apply parse_sound in K. destruct K as (d & G & D).
  assert (NO : forall g, ~ (grouped sep (sizes_of mac) v g /\ hex_denotes case g x)).
  { intros g [G1 D1]. rewrite (parse_complete _ _ _ _ _ _ Hs G1 D1) in H. discriminate. }
  apply (NO d). split; [|exact D].
  assert (AL : forall c', grouped (SepMust c') (sizes_of mac) v d \/ grouped SepDisallow (sizes_of mac) v d ->
    grouped (SepAllow c') (sizes_of mac) v d).
  { intros c' [X|X]; revert X; apply grouped_mono; cbn; auto. }
  destruct sep as [c|c|]; destruct sep' as [c'|c'|]; cbn in Hc; try subst c'; auto.
  - apply grouped_full; auto.
  - apply grouped_full; auto.
  - apply grouped_none with c'; auto.
  - apply grouped_none with c'; auto.
Qed.

(** [Invalid] is beyond repair by the separator policy; a separator error says that the policy is set and that the text has
    the wrong length for it. *)
Theorem C74_identifier_errors : forall case sep v e,
  (mac_parse_str case sep v = Err e ->
   match e with
   | HInvalid => forall sep', same_separator sep sep' -> sep_not_digit case sep -> sep_not_digit case sep' ->
                   ~ is_ok (mac_parse_str case sep' v)
   | HSeparatorMust => (exists c, sep = SepMust c) /\ List.length v <> 17%nat
   | HSeparatorDisallow => sep = SepDisallow /\ List.length v <> 12%nat
   end) /\
  (uuid_parse_str case sep v = Err e ->
   match e with
   | HInvalid => forall sep', same_separator sep sep' -> sep_not_digit case sep -> sep_not_digit case sep' ->
                   ~ is_ok (uuid_parse_str case sep' v)
   | HSeparatorMust => (exists c, sep = SepMust c) /\ List.length v <> 36%nat
   | HSeparatorDisallow => sep = SepDisallow /\ List.length v <> 32%nat
   end).
Proof.
  intros case sep v e. split; intros H.
  - pose proof (parse_err true _ _ _ _ H) as L. destruct e.
    + exact (id_invalid true case sep v H).
    + destruct L as (c & L). split; [exists c; apply L|]. apply L.
    + exact L.
  - pose proof (parse_err false _ _ _ _ H) as L. destruct e.
    + exact (id_invalid false case sep v H).
    + destruct L as (c & L). split; [exists c; apply L|]. apply L.
    + exact L.
Qed.

(** The separator errors are also reported for texts that are no identifier under any policy: they say nothing about
    separators. *)
Theorem C74_identifier_errors_refuted : exists v, forall case c,
  (mac_parse_str case (SepMust c) v = Err HSeparatorMust /\ mac_parse_str case SepDisallow v = Err HSeparatorDisallow /\
   forall sep, ~ is_ok (mac_parse_str case sep v)) /\
  (uuid_parse_str case (SepMust c) v = Err HSeparatorMust /\ uuid_parse_str case SepDisallow v = Err HSeparatorDisallow /\
   forall sep, ~ is_ok (uuid_parse_str case sep v)).
Proof.
  exists (bs "neither"). intros case c.
  repeat split; intros [ | | ] (x & H); discriminate H.
Qed.

(** URLs: the local errors say exactly that the URL is accepted under the opposite policy. *)
Definition http_error_means {A} (f : tri -> outcome HttpModel.http_err A) : Prop :=
  forall local e, f local = Err e ->
  match e with
  | HttpModel.HParseError | HttpModel.HProtocolError => forall local', f local' = Err e
  | HttpModel.HLocalMust => local = Must /\ is_ok (f Disallow)
  | HttpModel.HLocalDisallow => local = Disallow /\ is_ok (f Must)
  end.

Theorem C74_http_errors : forall url parse host s,
  http_error_means (fun local => HttpModel.http_parse_str url parse host local s) /\
  http_error_means (fun local => HttpModel.http_ftp_parse_str url parse host local s).
Proof.
  intros url parse host s.
  assert (L : forall u local e, HttpModel.http_handle_local url host local u = Err e ->
    e = HttpModel.HLocalMust /\ local = Must /\ HttpModel.http_handle_local url host Disallow u = Ok tt \/
    e = HttpModel.HLocalDisallow /\ local = Disallow /\ HttpModel.http_handle_local url host Must u = Ok tt).
  { intros u local e. unfold HttpModel.http_handle_local, HttpModel.url_is_local.
    destruct local; [| discriminate |]; (destruct (host u) as [[d|a|a]|]; cbn [obind]; [| | |discriminate]);
      match goal with |- context [if negb ?b then _ else _] => destruct b end; cbn; intros [= <-]; auto. }
  split; intros local e.
  - unfold HttpModel.http_parse_str, HttpModel.http_v_parse_str.
    destruct (HttpModel.starts_with_multiple _ s) as [[|[|n]]|]; cbn [obind]; try discriminate.
    3:{ intros [= <-] local'. reflexivity. }
    all: destruct (parse s) as [u|]; cbn [obind]; [| intros [= <-] local'; reflexivity];
      destruct (HttpModel.http_handle_local url host local u) as [x|e'|] eqn:E; cbn [obind]; intros H; try discriminate H;
      injection H as <-; apply L in E; destruct E as [(-> & -> & E)|(-> & -> & E)]; (split; [reflexivity|]);
      rewrite E; eexists; reflexivity.
  - unfold HttpModel.http_ftp_parse_str, HttpModel.http_ftp_v_parse_str.
    destruct (HttpModel.starts_with_multiple _ s) as [[|[|[|n]]]|]; cbn [obind]; try discriminate.
    4:{ intros [= <-] local'. reflexivity. }
    all: destruct (parse s) as [u|]; cbn [obind]; [| intros [= <-] local'; reflexivity];
      destruct (HttpModel.http_handle_local url host local u) as [x|e'|] eqn:E; cbn [obind]; intros H; try discriminate H;
      injection H as <-; apply L in E; destruct E as [(-> & -> & E)|(-> & -> & E)]; (split; [reflexivity|]);
      rewrite E; eexists; reflexivity.
Qed.

Example C74_example_c :
  base_parse_str B64 Must (bs "aGk") = Err BPaddingMust /\ is_ok (base_parse_str B64 Allow (bs "aGk")) /\
  base_parse_str B64 Disallow (bs "aG?") = Err BInvalid /\
  mac_parse_str AnyCase (SepMust 58) (bs "080027b46a2b") = Err HSeparatorMust /\
  mac_parse_str AnyCase (SepMust 58) (bs "08:00:27:b4:6a-2b") = Err HInvalid /\
  same_separator (SepMust 58) (SepAllow 58) /\ sep_not_digit AnyCase (SepMust 58) /\ sep_not_digit AnyCase (SepAllow 58) /\
  HttpModel.http_parse_str _ PropHttp.toy_parse PropHttp.toy_host Must (bs "http://a.b") = Err HttpModel.HLocalMust /\
  is_ok (HttpModel.http_parse_str _ PropHttp.toy_parse PropHttp.toy_host Disallow (bs "http://a.b")).
Proof.
  repeat split; try (eexists; reflexivity); try discriminate.
  apply (proj1 C25_example).
Qed.

Print Assumptions C74_base_errors.
Print Assumptions C74_identifier_errors.
Print Assumptions C74_identifier_errors_refuted.
Print Assumptions C74_http_errors.
