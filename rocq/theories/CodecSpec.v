(** Specification vocabulary for the *_decoded validators: the encodings of RFC 4648 stated as
    positional notation, independently of any decoder. *)
From Verif Require Import Base BaseModel BaseSpec.
Local Open Scope N_scope.

(** The big-endian value of a byte sequence. *)
Fixpoint be_value (d : list N) : N :=
  match d with
  | [] => 0
  | x :: r => x * 256 ^ N.of_nat (List.length r) + be_value r
  end.

(** The [m] digits of a number in a base, most significant first. *)
Fixpoint digits (base : N) (m : nat) (x : N) : list N :=
  match m with
  | O => []
  | S m' => (x / base ^ N.of_nat m') mod base :: digits base m' x
  end.

(** Bits per character, RFC 4648: 5 for base32, 6 for base64 and base64url. *)
Definition bpc (f : flavour) : nat := match f with B32 => 5 | B64 | B64Url => 6 end.

(** Number of characters for [n] bytes, the least that hold 8n bits. *)
Definition enc_len (f : flavour) (n : nat) : nat := ((8 * n + (bpc f - 1)) / bpc f)%nat.

(** RFC 4648 without padding: the bits of the bytes, zero bits added on the right up to a whole
    number of characters, each character standing for [bpc] bits. *)
Definition encode (f : flavour) (d : list N) : list N :=
  let m := enc_len f (List.length d) in
  List.map (fun x => nth (N.to_nat x) (alphabet f) 0)
           (digits (2 ^ N.of_nat (bpc f)) m
                   (be_value d * 2 ^ N.of_nat (bpc f * m - 8 * List.length d))).

(** The padding that fills up the last block. *)
Definition pad_len (f : flavour) (m : nat) : nat :=
  ((chars_per_block f - m mod chars_per_block f) mod chars_per_block f)%nat.

(** RFC 4648 with padding. *)
Definition encode_pad (f : flavour) (d : list N) : list N :=
  encode f d ++ repeat 61 (pad_len f (List.length (encode f d))).

(** A byte sequence. *)
Definition bytes (d : list N) : Prop := Forall (fun x => x < 256) d.
