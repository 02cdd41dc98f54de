(** serde impls of the base32/base64 validators and their decoded variants. *)
From Verif Require Import Base BaseModel BaseSpec BaseProofs CodecSpec CodecModel CodecProofs Serde.
Local Open Scope N_scope.

(** Models [Serialize] of /repo/validators-derive/src/validator_handlers/base64/mod.rs:204-214: [serialize_str]. *)
Definition base_ser (s : list N) : ser_call := SStr s.

(** Models [MyVisitor] of /repo/validators-derive/src/validator_handlers/base64/mod.rs:232-270. *)
Definition base_visitor (f : flavour) (padding : tri) : visitor base_err (list N) := fun c =>
  match c with
  | DStr s => Some (base_parse_str f padding s)
  | DString s => Some (base_parse_string f padding s)
  | DBytes v => Some (base_parse_u8_slice f padding v)
  | DByteBuf v => Some (base_parse_vec_u8 f padding v)
  | _ => None
  end.

(** Models [Serialize] of /repo/validators-derive/src/validator_handlers/base64_decoded/mod.rs:233-242: [serialize_bytes] of the decoded data. *)
Definition dec_ser (d : list N) : ser_call := SBytes d.

(** Models [MyVisitor] of /repo/validators-derive/src/validator_handlers/base64_decoded/mod.rs:258-298. *)
Definition dec_visitor (f : flavour) (padding : tri) : visitor base_err (list N) := fun c =>
  match c with
  | DStr s => Some (dec_parse_str f padding s)
  | DString s => Some (dec_parse_string f padding s)
  | DBytes v => Some (dec_parse_u8_slice f padding v)
  | DByteBuf v => Some (dec_parse_vec_u8 f padding v)
  | _ => None
  end.

(** A decoded value is shorter than the text it was decoded from. *)
Lemma encode_longer f d : d <> [] -> (List.length d < List.length (encode f d))%nat.
Proof.
  intros Hd. rewrite encode_length. destruct (enc_len_spec f (List.length d)) as (k & H1 & H2).
  destruct d as [|x d]; [contradiction|]. cbn [List.length] in *.
  destruct f; cbn [bpc] in *; lia.
Qed.

Lemma dec_parse_shorter f padding v d : dec_parse_str f padding v = Ok d -> (List.length d < List.length v)%nat.
Proof.
  intros H. pose proof (dec_parse_bytes f padding v d H) as [_ Hne].
  apply dec_parse_exact in H as [Hv [(_ & _ & -> & _)|(_ & _ & ds & D1 & -> & ->)]].
  - apply encode_longer, Hne.
  - clear Hv. induction D1 as [|x ds [Hx1 Hx2] D1 IH]; [contradiction|].
    cbn [List.map List.concat]. rewrite !app_length.
    pose proof (encode_longer f x Hx2) as HL. unfold encode_pad at 1. rewrite app_length.
    destruct ds as [|y ds]; [cbn; lia|].
    assert (X : List.concat (y :: ds) <> []).
    { inversion D1 as [|? ? [_ Hy] _]; subst. cbn. destruct y; [contradiction|discriminate]. }
    specialize (IH X). lia.
Qed.
