(** IPv4 addresses as [inet_aton] reads them (POSIX, [inet_addr]): the resolver of the system reads a host name this way before it
    asks anyone. Nothing here refers to the model. *)
From Verif Require Import Base NetModel NetSpec IpSpec StdSpec.
Local Open Scope N_scope.

(** A number as in C: decimal, octal behind a 0, hexadecimal behind a 0x. *)
Inductive c_number : list N -> N -> Prop :=
| cn_dec c ds : 49 <= c <= 57 -> Forall DIGIT ds -> c_number (c :: ds) (digits_value (c :: ds))
| cn_oct ds : Forall (fun c => 48 <= c <= 55) ds -> c_number (48 :: ds) (fold_left (fun v c => 8 * v + (c - 48)) ds 0)
| cn_hex x ds : x = 120 \/ x = 88 -> ds <> [] -> Forall HEXDIG ds -> c_number (48 :: x :: ds) (hex_value ds).

(** [k] bytes written with at most [k] numbers between dots: each but the last is one byte, the last is all the others. *)
Inductive aton_bytes : nat -> list N -> N -> Prop :=
| ab_last k t v : c_number t v -> v < 256 ^ N.of_nat k -> aton_bytes k t v
| ab_byte k x t v w : c_number x v -> v < 256 -> (1 <= k)%nat -> aton_bytes k t w ->
    aton_bytes (S k) (x ++ [46] ++ t) (v * 256 ^ N.of_nat k + w).

(** The resolver takes [t] for the address [a]. *)
Definition aton (t a : list N) : Prop := v4_addr a /\ aton_bytes 4 t (number 256 a).
