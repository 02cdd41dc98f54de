(** Property C73, continued: encodings, identifiers, numbers and URLs. *)
From Verif Require Import Base BaseModel BaseSpec BaseProofs CodecSpec CodecModel PropBase MacModel MacSpec PropMac
  RangeModel NumberModel NumberSpec NumberProofs PropNumber PropUnion.
From Verif Require IntModel NetModel NetSpec IpSpec LocalProofs DomainSpec DomainProofs HttpModel HttpSpec HttpProofs PropHttp.
From Coq Require Import Floats.SpecFloat.
Local Open Scope N_scope.

(** Base32 and base64: the two policies overlap on texts of whole blocks that have no padding. *)
Theorem C73_base_padding : forall f v,
  union (fun x => x) (base_parse_str f Allow v) (base_parse_str f Must v) (base_parse_str f Disallow v) /\
  (is_ok (base_parse_str f Must v) /\ is_ok (base_parse_str f Disallow v) <->
   is_ok (base_parse_str f Allow v) /\ ~ In 61 v /\ Nat.divide (chars_per_block f) (List.length v)).
Proof.
  intros f v.
  assert (S : base_shape f Allow v <-> base_shape f Must v \/ base_shape f Disallow v).
  { split.
    - intros (body & k & E & N0 & Hb & Hk & _). destruct k.
      + right. exists body, 0%nat. split; [exact E|]. split; [exact N0|]. split; [exact Hb|]. split; congruence.
      + left. destruct (Hk (Nat.neq_succ_0 k)) as (H1 & H2 & _). exists body, (S k).
        split; [exact E|]. split; [exact N0|]. split; [exact Hb|]. split; [|intros _; exact H2].
        intros _. split; [exact H1|]. split; [exact H2 | discriminate].
    - intros [(body & k & E & N0 & Hb & Hk & _)|(body & k & E & N0 & Hb & Hk & _)]; exists body, k;
        (split; [exact E|]); (split; [exact N0|]); (split; [exact Hb|]); (split; [|discriminate]);
        intros K; destruct (Hk K) as (H1 & H2 & _); (split; [exact H1|]); (split; [exact H2 | discriminate]). }
  split.
  - intros x. unfold yields.
    assert (Y : forall p, (exists r, base_parse_str f p v = Ok r /\ r = x) <-> x = v /\ base_shape f p v).
    { intros p. split.
      - intros (r & H & <-). now apply base_parse_ok in H.
      - intros H. exists x. split; [now apply base_parse_ok | reflexivity]. }
    rewrite !Y, S. tauto.
  - rewrite !C19_base_language. rewrite S. split.
    + intros [M D]. split; [tauto|]. split.
      * destruct D as (body & k & -> & _ & Hb & Hk & _). intros I. apply in_app_or in I. destruct I as [I|I].
        -- rewrite Forall_forall in Hb. apply Hb in I. apply in_alphabet_iff, in_alphabet_ascii in I. now apply I.
        -- destruct k; [exact I|]. now apply (proj2 (proj2 (Hk (Nat.neq_succ_0 k)))).
      * destruct M as (body & k & E & _ & _ & _ & H). now apply H.
    + intros (A & Nn & Dv). apply S in A. destruct A as (body & k & E & N0 & Hb & _).
      assert (k = 0)%nat as ->. { destruct k; [reflexivity|]. exfalso. apply Nn. rewrite E. apply in_or_app. right. now left. }
      split; exists body, 0%nat; (split; [exact E|]); (split; [exact N0|]); (split; [exact Hb|]); split; auto; congruence.
Qed.

(** For the decoded variants it fails: padding inside the text is accepted when padding is required, but not when it is
    merely allowed. *)
Theorem C73_decoded_padding_refuted : exists f v d,
  dec_parse_str f Must v = Ok d /\ dec_parse_str f Allow v = Err BDecode.
Proof. exists B64, (bs "TQ==TWFu"), (bs "MMan"). split; reflexivity. Qed.

Theorem C73_decoded_padding_partial : forall f v d,
  (dec_parse_str f Allow v = Ok d -> dec_parse_str f Must v = Ok d \/ dec_parse_str f Disallow v = Ok d) /\
  (dec_parse_str f Disallow v = Ok d -> ~ In 61 v -> dec_parse_str f Allow v = Ok d) /\
  (dec_parse_str f Must v = Ok d -> last v 0 = 61 -> dec_parse_str f Allow v = Ok d).
Proof.
  intros f v d. rewrite !C22_decoded_exact. split; [|split].
  - intros (H & [(_ & A & B & _)|(_ & _ & A)]); [right | left]; (split; [exact H|]); [left | right].
    + repeat split; auto; discriminate.
    + split; [discriminate|]. split; [discriminate | exact A].
  - intros (H & [(_ & A & B & _)|(K & _)]) Nn; [|congruence]. split; [exact H|]. left. repeat split; auto; try discriminate.
    intros _ L. apply Nn. rewrite <- L. apply (List.exists_last) in H. destruct H as (u & z & ->).
    rewrite last_last. apply in_or_app. right. now left.
  - intros (H & [(K & _)|(_ & _ & A)]) L; [congruence|]. split; [exact H|]. right. split; [discriminate|]. split; [auto | exact A].
Qed.

(** MAC addresses and UUIDs: a text that uses the separator at some places only is accepted under [Allow], and under
    neither of the others. *)
Theorem C73_separator_refuted :
  (exists v x, mac_parse_str AnyCase (SepAllow 58) v = Ok x /\
     (forall y, mac_parse_str AnyCase (SepMust 58) v <> Ok y) /\ (forall y, mac_parse_str AnyCase SepDisallow v <> Ok y)) /\
  (exists v x, uuid_parse_str AnyCase (SepAllow 45) v = Ok x /\
     (forall y, uuid_parse_str AnyCase (SepMust 45) v <> Ok y) /\ (forall y, uuid_parse_str AnyCase SepDisallow v <> Ok y)).
Proof.
  split.
  - exists (bs "08:00:27:b4:6A2b"), 8796759157291. split; [reflexivity|]. split; intros y; vm_compute; discriminate.
  - exists (bs "00000000-000000000001-0000000000fF"), (2 ^ 48 + 255). split; [reflexivity|]. split; intros y; vm_compute; discriminate.
Qed.

Lemma grouped_mono s1 s2 sizes v digits : (forall x, sep_form s1 x -> sep_form s2 x) ->
  grouped s1 sizes v digits -> grouped s2 sizes v digits.
Proof. intros H. induction 1; constructor; auto. Qed.

Theorem C73_separator_partial : forall case c v x, sep_not_digit case (SepAllow c) ->
  (mac_parse_str case (SepMust c) v = Ok x \/ mac_parse_str case SepDisallow v = Ok x ->
     mac_parse_str case (SepAllow c) v = Ok x) /\
  (uuid_parse_str case (SepMust c) v = Ok x \/ uuid_parse_str case SepDisallow v = Ok x ->
     uuid_parse_str case (SepAllow c) v = Ok x).
Proof.
  intros case c v x Hs. split.
  - intros [H|H]; apply C25_mac_accepts_only in H; destruct H as (g & G & D); apply C25_mac_accepts_exactly; auto;
      exists g; (split; [|exact D]); revert G; apply grouped_mono; cbn; auto.
  - intros [H|H]; apply C28_uuid_accepts_only in H; destruct H as (g & G & D); apply C28_uuid_accepts_exactly; auto;
      exists g; (split; [|exact D]); revert G; apply grouped_mono; cbn; auto.
Qed.

(** Numbers. *)
Theorem C73_number_nan : forall t r f, good_range t r -> ~ x_degenerate r -> is_float_of t f ->
  splits (fun x => x) (own_parse_f t r Allow f) (own_parse_f t r Must f) (own_parse_f t r Disallow f).
Proof.
  intros t r f G D F.
  assert (K := fun nan => proj1 (C05_number_exact t r nan f G D F)).
  apply (splits_by _ _ _ _ (fun g => g = f /\ match xval f with Some x => x_allowed r x | None => True end)
           (fun _ => xval f = None));
    [intros g; rewrite (yields_id _ _ (K Allow)) | intros g; rewrite (yields_id _ _ (K Must))
    | intros g; rewrite (yields_id _ _ (K Disallow)) |].
  1-3: clear K; destruct (xval f); intuition congruence.
  intros g _. destruct (xval f); [right; discriminate | now left].
Qed.

(** URLs, for a URL library that gives every URL of these schemes a host. *)
Import NetModel NetSpec IpSpec DomainSpec HttpModel.
Lemma http_local_dec h : match h with HIpv4 a => v4_addr a | HIpv6 a => v6_addr a | HDomain _ => True end ->
  HttpSpec.host_local h \/ ~ HttpSpec.host_local h.
Proof.
  destruct h as [d|a|a]; cbn; intros H.
  - apply localhost_dec.
  - apply (ok_local _ _ (LocalProofs.is_local_ipv4_spec a H)).
  - apply (ok_local _ _ (LocalProofs.is_local_ipv6_spec a H)).
Qed.

Theorem C73_http_local : forall url parse host s, HttpSpec.host_typed host -> @HttpSpec.special_host url parse host ->
  splits (fun x => x) (http_parse_str url parse host Allow s) (http_parse_str url parse host Must s)
    (http_parse_str url parse host Disallow s) /\
  splits (fun x => x) (http_ftp_parse_str url parse host Allow s) (http_ftp_parse_str url parse host Must s)
    (http_ftp_parse_str url parse host Disallow s).
Proof.
  intros url parse host s T Sp. split.
  - apply (splits_by _ _ _ _
      (fun x : url * bool => HttpSpec.has_scheme (if snd x then bs "https" else bs "http") s /\ parse s = Some (fst x))
      (fun x => exists h, host (fst x) = Some h /\ HttpSpec.host_local h));
      try (apply yields_id; intros [u b]; rewrite (PropHttp.C54_http_accepts_exactly _ _ _ _ _ _ _ T); cbn [fst snd local_ok]).
    + tauto.
    + intuition discriminate.
    + split.
      * intros (A & B & [X|(h & E & L)]); [discriminate|]. split; [auto|]. intros (h' & E' & L'). congruence.
      * intros ((A & B) & L). split; [exact A|]. split; [exact B|]. right.
        assert (X : host u <> None) by (apply (Sp s u (if b then HTTPS else HTTP) B); destruct b; exact A).
        destruct (host u) as [h|]; [|congruence]. exists h. split; [reflexivity|]. intros Q. apply L. exists h. auto.
    + intros [u b] _. cbn [fst]. specialize (T u). destruct (host u) as [h|].
      * destruct (http_local_dec h) as [L|L]; [destruct h; auto | left; exists h; auto|].
        right. intros (h' & E' & L'). congruence.
      * right. intros (h' & E' & _). discriminate.
  - apply (splits_by _ _ _ _
      (fun x : url * protocol => HttpSpec.has_scheme (HttpSpec.scheme_name (snd x)) s /\ parse s = Some (fst x))
      (fun x => exists h, host (fst x) = Some h /\ HttpSpec.host_local h));
      try (apply yields_id; intros [u b]; rewrite (PropHttp.C54_http_ftp_accepts_exactly _ _ _ _ _ _ _ T);
           change (match b with HTTP => bs "http" | HTTPS => bs "https" | FTP => bs "ftp" end) with (HttpSpec.scheme_name b);
           cbn [fst snd local_ok]).
    + tauto.
    + intuition discriminate.
    + split.
      * intros (A & B & [X|(h & E & L)]); [discriminate|]. split; [auto|]. intros (h' & E' & L'). congruence.
      * intros ((A & B) & L). split; [exact A|]. split; [exact B|]. right.
        assert (X : host u <> None) by (apply (Sp s u b B A)).
        destruct (host u) as [h|]; [|congruence]. exists h. split; [reflexivity|]. intros Q. apply L. exists h. auto.
    + intros [u b] _. cbn [fst]. specialize (T u). destruct (host u) as [h|].
      * destruct (http_local_dec h) as [L|L]; [destruct h; auto | left; exists h; auto|].
        right. intros (h' & E' & L'). congruence.
      * right. intros (h' & E' & _). discriminate.
Qed.

Example C73_example_b :
  base_parse_str B64 Allow (bs "aGk") = Ok (bs "aGk") /\ base_parse_str B64 Disallow (bs "aGk") = Ok (bs "aGk") /\
  base_parse_str B64 Must (bs "aGk") = Err BPaddingMust /\
  base_parse_str B64 Must (bs "aGkh") = Ok (bs "aGkh") /\ base_parse_str B64 Disallow (bs "aGkh") = Ok (bs "aGkh") /\
  sep_not_digit AnyCase (SepAllow 58) /\
  mac_parse_str AnyCase (SepMust 58) (bs "08:00:27:b4:6A:2b") = Ok 8796759157291 /\
  mac_parse_str AnyCase (SepAllow 58) (bs "08:00:27:b4:6A:2b") = Ok 8796759157291 /\
  own_parse_f F64 (Inside (Some f64_one) (Some f64_two) false) Must S754_nan = Ok S754_nan /\
  own_parse_f F64 (Inside (Some f64_one) (Some f64_two) false) Disallow f64_one = Ok f64_one /\
  own_parse_f F64 (Inside (Some f64_one) (Some f64_two) false) Must f64_one = Err NaNMust /\
  http_parse_str _ PropHttp.toy_parse PropHttp.toy_host Must (bs "http://localhost") = Ok (bs "http://localhost", false) /\
  http_parse_str _ PropHttp.toy_parse PropHttp.toy_host Disallow (bs "http://localhost") = Err HLocalDisallow.
Proof. repeat split; try reflexivity. exact (proj1 C25_example). Qed.

Print Assumptions C73_base_padding.
Print Assumptions C73_decoded_padding_refuted.
Print Assumptions C73_decoded_padding_partial.
Print Assumptions C73_separator_refuted.
Print Assumptions C73_separator_partial.
Print Assumptions C73_number_nan.
Print Assumptions C73_http_local.
