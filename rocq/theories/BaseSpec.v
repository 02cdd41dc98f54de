(** Specification vocabulary for the base32/base64 validators: RFC 4648 stated independently
    of the scanner. *)
From Verif Require Import Base BaseModel.
Local Open Scope N_scope.

(** The alphabets of RFC 4648 section 6 (base32), 4 (base64) and 5 (base64url), in value order. *)
Definition alphabet (f : flavour) : list N :=
  match f with
  | B32 => bs "ABCDEFGHIJKLMNOPQRSTUVWXYZ234567"
  | B64 => bs "ABCDEFGHIJKLMNOPQRSTUVWXYZabcdefghijklmnopqrstuvwxyz0123456789+/"
  | B64Url => bs "ABCDEFGHIJKLMNOPQRSTUVWXYZabcdefghijklmnopqrstuvwxyz0123456789-_"
  end.

(** Characters per encoded block: lcm(8, bits per character) / bits per character. *)
Definition chars_per_block (f : flavour) : nat := match f with B32 => 8 | B64 | B64Url => 4 end.

(** RFC 4648: how many padding characters a final block can have. *)
Definition pad_count (f : flavour) (k : nat) : Prop :=
  match f with
  | B32 => In k [1; 3; 4; 6]%nat
  | B64 | B64Url => In k [1; 2]%nat
  end.

(** The documented shape: alphabet characters, then either no padding or padding that fills the
    last block; a policy may require the total length to be whole blocks, or forbid padding. *)
Definition base_shape (f : flavour) (padding : tri) (v : list N) : Prop :=
  exists body k,
    v = body ++ repeat 61 k /\ v <> [] /\ Forall (fun c => In c (alphabet f)) body /\
    (k <> 0%nat -> pad_count f k /\ Nat.divide (chars_per_block f) (List.length v) /\ padding <> Disallow) /\
    (padding = Must -> Nat.divide (chars_per_block f) (List.length v)).
