(** Unicode scalar values and their UTF-8 encoding (Rust [char] and [str]). *)
From Verif Require Import Base.
Local Open Scope N_scope.

(** A Rust [char]: a Unicode scalar value (core language, [char]). *)
Definition is_scalar (c : N) : bool := (c <? 55296) || ((57344 <=? c) && (c <=? 1114111)).

(** The UTF-8 encoding of a [char] (RFC 3629, section 3; [char::encode_utf8]).
    (core, used by /repo/validators-derive/src/validator_handlers/line/mod.rs:726.) *)
Definition utf8_char (c : N) : list N :=
  if c <? 128 then [c]
  else if c <? 2048 then [192 + c / 64; 128 + c mod 64]
  else if c <? 65536 then [224 + c / 4096; 128 + (c / 64) mod 64; 128 + c mod 64]
  else [240 + c / 262144; 128 + (c / 4096) mod 64; 128 + (c / 64) mod 64; 128 + c mod 64].

(** The bytes of a string given by its [char]s ([str::bytes] after [str::chars]).
    (core, used by /repo/validators-derive/src/validator_handlers/line/mod.rs:726.) *)
Definition utf8 (s : list N) : list N := flat_map utf8_char s.

(** Models [char::len_utf8] (core). *)
Definition len_utf8 (c : N) : N :=
  if c <? 128 then 1 else if c <? 2048 then 2 else if c <? 65536 then 3 else 4.

(** Models [char::is_whitespace]: the Unicode property White_Space
    (PropList.txt of the Unicode Character Database).
    (core, used by /repo/validators-derive/src/validator_handlers/line/mod.rs:726.) *)
Definition is_whitespace (c : N) : bool :=
  ((9 <=? c) && (c <=? 13)) || (c =? 32) || (c =? 133) || (c =? 160) || (c =? 5760)
  || ((8192 <=? c) && (c <=? 8202)) || (c =? 8232) || (c =? 8233) || (c =? 8239)
  || (c =? 8287) || (c =? 12288).

Lemma utf8_char_len : forall c, N.of_nat (List.length (utf8_char c)) = len_utf8 c.
Proof.
  intros c. unfold utf8_char, len_utf8.
  destruct (c <? 128); [reflexivity|]. destruct (c <? 2048); [reflexivity|]. destruct (c <? 65536); reflexivity.
Qed.

Lemma len_utf8_pos : forall c, 1 <= len_utf8 c.
Proof.
  intros c. unfold len_utf8. destruct (c <? 128); [lia|]. destruct (c <? 2048); [lia|]. destruct (c <? 65536); lia.
Qed.

(** An ASCII [char] is its own encoding; the bytes of any other [char] are not ASCII. *)
Lemma utf8_char_bytes : forall c b, In b (utf8_char c) -> (c < 128 /\ b = c) \/ (128 <= c /\ 128 <= b).
Proof.
  intros c b H. unfold utf8_char in H.
  destruct (c <? 128) eqn:E1.
  - left. destruct H as [<-|[]]. lia.
  - right. split; [lia|].
    destruct (c <? 2048); [destruct H as [<-|[<-|[]]]; lia|].
    destruct (c <? 65536); [destruct H as [<-|[<-|[<-|[]]]]; lia|].
    destruct H as [<-|[<-|[<-|[<-|[]]]]]; lia.
Qed.

Lemma utf8_char_ascii : forall c, c < 128 -> utf8_char c = [c].
Proof. intros c H. unfold utf8_char. destruct (c <? 128) eqn:E; [reflexivity|lia]. Qed.
