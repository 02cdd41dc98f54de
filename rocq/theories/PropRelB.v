(** Property C76, second part: line and text, http_url and http_ftp_url, base and decoded, signed and unsigned integers. *)
From Verif Require Import Base RangeModel IntModel IntStr IntSpec IntProofs LengthModel LineModel LineSpec BaseModel BaseSpec CodecModel.
Local Open Scope Z_scope.
From Verif Require Import PropLine PropInt PropBase PropHttp HttpModel HttpSpec HttpProofs CodecSpec CodecProofs IntStrProofs.

Lemma text_forbids_less c : forbidden Text c -> forbidden Line c.
Proof. cbn. lia. Qed.

(** C76. What a line validator accepts, the text validator with the same attribute accepts with the same value; and a text
    without line break or other control character is a line. *)
Theorem C76_line_is_text : forall a s r,
  (line_parse_str Line a s = Ok r -> line_parse_str Text a s = Ok r) /\
  (line_parse_str Text a s = Ok r -> Forall (fun c => ~ forbidden Line c) s -> line_parse_str Line a s = Ok r).
Proof.
  intros a s r. destruct (a_tmin a) as [t|] eqn:T.
  - rewrite !(C12_trimmed_min_exact _ a t s r T). split.
    + intros (E & l & m & b & H & F & H'). split; [exact E|]. exists l, m, b. split; [exact H|]. split; [|exact H'].
      eapply Forall_impl; [|exact F]. intros c N X. exact (N (text_forbids_less c X)).
    + intros (E & l & m & b & H & F & H') N. split; [exact E|]. exists l, m, b. split; [exact H|]. split; [|exact H'].
      destruct H as (-> & _). rewrite Forall_app in N. exact (proj2 N).
  - rewrite !(C11_no_trimmed_min_exact _ a s r T). split.
    + intros (E & F & H'). split; [exact E|]. split; [|exact H'].
      eapply Forall_impl; [|exact F]. intros c N X. exact (N (text_forbids_less c X)).
    + intros (E & F & H') N. auto.
Qed.
Print Assumptions C76_line_is_text.

(** C76. http_url accepts exactly the URLs that http_ftp_url accepts with a protocol other than FTP, with the same URL and
    protocol. *)
Theorem C76_http_in_http_ftp : forall url parse host local s u (https : bool), host_typed host ->
  http_parse_str url parse host local s = Ok (u, https) <->
  http_ftp_parse_str url parse host local s = Ok (u, if https then HTTPS else HTTP).
Proof.
  intros url parse host local s u https H.
  rewrite (C54_http_accepts_exactly url parse host local s u https H).
  rewrite (C54_http_ftp_accepts_exactly url parse host local s u _ H). destruct https; reflexivity.
Qed.
Print Assumptions C76_http_in_http_ftp.

(** C76. A text accepted by a decoded validator is accepted by the validator of the same name that keeps the text, with the same
    padding policy, if it has padding at most at the end. *)
Theorem C76_decoded_in_base_partial : forall f padding s d, dec_parse_str f padding s = Ok d ->
  (exists body k, s = body ++ repeat 61%N k /\ ~ In 61%N body) -> base_parse_str f padding s = Ok s.
Proof.
  intros f padding s d H E.
  assert (V : dec_validate_str f padding s = Ok tt) by (apply C23_parse_implies_validate_partial; [exists d; exact H|exact E]).
  unfold dec_validate_str, dec_v_validate_str, dec_v_validate_u8_slice in V. unfold base_parse_str, base_v_parse_str.
  destruct (base_v_parse_u8_slice f padding s); [reflexivity|discriminate V|discriminate V].
Qed.
Print Assumptions C76_decoded_in_base_partial.

(** C76. The canonical encodings are accepted by both or by neither. *)
Theorem C76_canonical_in_both : forall f padding s d, bytes d -> s = encode f d \/ s = encode_pad f d ->
  is_ok (base_parse_str f padding s) <-> is_ok (dec_parse_str f padding s).
Proof.
  intros f padding s d B E. split.
  - intros (r & H). apply C23_validate_implies_parse_partial; [|exists d; auto].
    unfold base_parse_str, base_v_parse_str in H. unfold dec_validate_str, dec_v_validate_str, dec_v_validate_u8_slice.
    destruct (base_v_parse_u8_slice f padding s); [reflexivity|discriminate H|discriminate H].
  - intros (x & H). exists s. apply (C76_decoded_in_base_partial f padding s x H).
    destruct E as [-> | ->]; [exists (encode f d), 0%nat|exists (encode f d), (pad_len f (List.length (encode f d)))].
    + split; [cbn [repeat]; rewrite app_nil_r; reflexivity|apply no_pad_encode].
    + split; [reflexivity|apply no_pad_encode].
Qed.
Print Assumptions C76_canonical_in_both.

(** C76. Padding inside the text is accepted by the decoded validators only. *)
Theorem C76_decoded_in_base_refuted : forall f padding, padding <> Disallow -> exists s d,
  dec_parse_str f padding s = Ok d /\ base_parse_str f padding s = Err BInvalid.
Proof.
  intros f padding H. destruct (C23_parse_accepts_more_refuted f padding H) as (s & d & P & V). exists s, d.
  split; [exact P|]. unfold dec_validate_str, dec_v_validate_str, dec_v_validate_u8_slice in V.
  unfold base_parse_str, base_v_parse_str.
  destruct (base_v_parse_u8_slice f padding s); [discriminate V|cbn in *; congruence|discriminate V].
Qed.
Print Assumptions C76_decoded_in_base_refuted.

(** C76. A text without minus sign means the same to a signed and to an unsigned validator with the same range, of any two
    types that hold its value. *)
Theorem C76_signed_and_unsigned : forall pw pw' t t' r s v, ~ degenerate true pw t r -> ~ degenerate false pw' t' r -> (forall x, s <> 45%N :: x) ->
  fits true pw t v -> fits false pw' t' v ->
  int_parse_str true pw t r s = Ok v <-> int_parse_str false pw' t' r s = Ok v.
Proof.
  intros pw pw' t t' r s v D D' M F F'.
  rewrite (proj1 (C03_integer_strings true pw t r s D) v), (proj1 (C03_integer_strings false pw' t' r s D') v).
  assert (E : denotes_int true s v <-> denotes_int false s v).
  { split; intros H; inversion H; subst; try (constructor; assumption); [|discriminate].
    exfalso. eapply M. reflexivity. }
  tauto.
Qed.
Print Assumptions C76_signed_and_unsigned.

Example C76_example_b :
  line_parse_str Line (Some (false, mk_len None (Some 1%N) (Some 4%N))) [32; 97; 9]%N = Ok [32; 97; 9]%N /\
  line_parse_str Text (Some (false, mk_len None (Some 1%N) (Some 4%N))) [32; 97; 9]%N = Ok [32; 97; 9]%N /\
  line_parse_str Text None [97; 10]%N = Ok [97; 10]%N /\ line_parse_str Line None [97; 10]%N = Err LInvalid /\
  http_parse_str _ toy_parse toy_host Must (bs "HTTPs://LocalHost") = Ok (bs "https://localhost", true) /\
  http_ftp_parse_str _ toy_parse toy_host Must (bs "HTTPs://LocalHost") = Ok (bs "https://localhost", HTTPS) /\
  dec_parse_str B64 Must (bs "TWFueSBoYW5kcw==") = Ok (bs "Many hands") /\
  base_parse_str B64 Must (bs "TWFueSBoYW5kcw==") = Ok (bs "TWFueSBoYW5kcw==") /\
  dec_parse_str B64 Must (bs "YQ==YQ==") = Ok (bs "aa") /\ base_parse_str B64 Must (bs "YQ==YQ==") = Err BInvalid /\
  int_parse_str true W64 I16 (Inside (Some 0) (Some 300) true) (bs "+255") = Ok 255 /\
  int_parse_str false W32 I8 (Inside (Some 0) (Some 300) true) (bs "+255") = Ok 255 /\
  int_parse_str true W64 I16 Unlimited (bs "-0") = Ok 0 /\
  int_parse_str false W64 I16 Unlimited (bs "-0") = Err (ParseInt IInvalidDigit).
Proof. vm_compute. repeat split; reflexivity. Qed.
