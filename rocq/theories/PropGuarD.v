(** Property C75, last part: encoded texts and identifiers.
    (/repo/validators/src/errors/base32.rs:5-12, base64.rs:5-12, base64_url.rs:5-12, mac_address.rs:5-11, uuid.rs:5-11.) *)
From Verif Require Import Base BaseModel BaseSpec BaseProofs CodecSpec CodecModel CodecProofs PropBase MacModel MacSpec MacProofs
  PropMac PropUnion PropUnionB PropErrorsC.
Local Open Scope N_scope.

(** No text with the padding of the encoder, and no text that is acceptable with padding, is told that padding is
    missing. *)
Theorem C75_padding_guarantees_partial : forall f padding v,
  (base_parse_str f padding v = Err BPaddingMust ->
     (forall d, v <> encode_pad f d) /\ (forall p, is_ok (base_parse_str f p v) -> ~ In 61 v)) /\
  (base_parse_str f padding v = Err BPaddingDisallow -> In 61 v).
Proof.
  intros f padding v. destruct (C20_padding_errors f padding v) as (A & B & _). split; [|intros H; apply B, H].
  intros H. pose proof (proj1 A H) as (-> & _ & N). split.
  - intros d ->. apply N. apply encode_pad_length.
  - intros p Hp. destruct (C20_padding_policy f v) as (M & D).
    destruct (C74_base_errors _ _ _ _ H) as (_ & K). destruct p.
    + destruct (N (M Hp)).
    + apply D, K, Hp.
    + apply D, Hp.
Qed.
(** Padding of the wrong length is said to be absent. *)
Theorem C75_padding_guarantees_refuted : forall f, exists v, base_parse_str f Must v = Err BPaddingMust /\
  exists front, v = front ++ [61] /\ Forall (fun c => In c (alphabet f) \/ c = 61) front.
Proof.
  intros f. exists (nth 0 (alphabet f) 0 :: [61]). split; [destruct f; vm_compute; reflexivity|].
  exists [nth 0 (alphabet f) 0]. split; [reflexivity|]. constructor; [left|constructor].
  destruct f; vm_compute; left; reflexivity.
Qed.

(** No identifier written with all its separators is told that they are missing, and none written without that there
    are any. *)
Theorem C75_separator_guarantees_partial : forall case sep v d,
  (mac_parse_str case sep v = Err HSeparatorMust -> forall c, ~ grouped (SepMust c) mac_sizes v d) /\
  (mac_parse_str case sep v = Err HSeparatorDisallow -> ~ grouped SepDisallow mac_sizes v d) /\
  (uuid_parse_str case sep v = Err HSeparatorMust -> forall c, ~ grouped (SepMust c) uuid_sizes v d) /\
  (uuid_parse_str case sep v = Err HSeparatorDisallow -> ~ grouped SepDisallow uuid_sizes v d).
Proof.
  assert (M : forall c sizes v d, grouped (SepMust c) sizes v d -> List.length v = (list_sum sizes + (List.length sizes - 1))%nat).
  { induction 1 as [g|g s sizes v d S G IH]; cbn [list_sum fold_right List.length]; [lia|].
    assert (Ls : List.length s = 1%nat) by (cbn in S; subst; reflexivity).
    assert (L1 : (1 <= List.length sizes)%nat) by (destruct G; cbn; lia).
    rewrite !app_length, Ls, IH. unfold list_sum. lia. }
  assert (D : forall sizes v d, grouped SepDisallow sizes v d -> List.length v = list_sum sizes).
  { induction 1 as [g|g s sizes v d S G IH]; cbn [list_sum fold_right List.length]; [lia|].
    assert (Ls : s = []) by exact S. rewrite !app_length, Ls, IH. reflexivity. }
  intros case sep v d. destruct (C74_identifier_errors case sep v HSeparatorMust) as [A1 A2].
  destruct (C74_identifier_errors case sep v HSeparatorDisallow) as [B1 B2]. repeat split.
  - intros H c G. apply M in G. apply A1 in H. now destruct H.
  - intros H G. apply D in G. apply B1 in H. now destruct H.
  - intros H c G. apply M in G. apply A2 in H. now destruct H.
  - intros H G. apply D in G. apply B2 in H. now destruct H.
Qed.
(** Every separator that an identifier may have is there, and they are said to be missing. *)
Theorem C75_separator_guarantees_refuted : exists v w d extra, v = w ++ extra /\ grouped (SepMust 58) mac_sizes w d /\
  mac_parse_str AnyCase (SepMust 58) w <> Err HSeparatorMust /\
  mac_parse_str AnyCase (SepMust 58) v = Err HSeparatorMust.
Proof.
  exists (bs "08:00:27:b4:6a:2b:00"), (bs "08:00:27:b4:6a:2b"), (bs "080027b46a2b"), (bs ":00").
  split; [reflexivity|]. split; [|split; [vm_compute; discriminate|vm_compute; reflexivity]].
  refine (grouped_cons (SepMust 58) (bs "08") [58] _ (bs "00:27:b4:6a:2b") (bs "0027b46a2b") _ _); [reflexivity|].
  refine (grouped_cons (SepMust 58) (bs "00") [58] _ (bs "27:b4:6a:2b") (bs "27b46a2b") _ _); [reflexivity|].
  refine (grouped_cons (SepMust 58) (bs "27") [58] _ (bs "b4:6a:2b") (bs "b46a2b") _ _); [reflexivity|].
  refine (grouped_cons (SepMust 58) (bs "b4") [58] _ (bs "6a:2b") (bs "6a2b") _ _); [reflexivity|].
  refine (grouped_cons (SepMust 58) (bs "6a") [58] _ (bs "2b") (bs "2b") _ _); [reflexivity|].
  exact (grouped_last (SepMust 58) (bs "2b")).
Qed.

Example C75_example_d :
  base_parse_str B64 Must (bs "aGk") = Err BPaddingMust /\ base_parse_str B64 Disallow (bs "aGk=") = Err BPaddingDisallow /\
  mac_parse_str AnyCase (SepMust 58) (bs "080027b46a2b") = Err HSeparatorMust /\
  mac_parse_str AnyCase SepDisallow (bs "08:00:27:b4:6a:2b") = Err HSeparatorDisallow.
Proof. vm_compute. repeat split; reflexivity. Qed.
Print Assumptions C75_padding_guarantees_partial.
Print Assumptions C75_padding_guarantees_refuted.
Print Assumptions C75_separator_guarantees_partial.
Print Assumptions C75_separator_guarantees_refuted.
