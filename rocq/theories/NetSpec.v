(** Textual forms of Internet addresses (RFC 4291, section 2.2; RFC 6943, section 3.1.1), stated
    without the parser. *)
From Verif Require Import Base MacModel MacSpec.
Local Open Scope N_scope.

(** [c] is a digit of value [d] in the given radix. *)
Definition radix_digit (radix c d : N) : Prop := is_hex AnyCase c d /\ d < radix.

(** The digits [ds] denote [n]. *)
Inductive numeral (radix : N) : list N -> N -> Prop :=
| num_one c d : radix_digit radix c d -> numeral radix [c] d
| num_snoc ds n c d : numeral radix ds n -> radix_digit radix c d ->
    numeral radix (ds ++ [c]) (n * radix + d).

(** A decimal octet without leading zeros. *)
Definition octet (ds : list N) (n : N) : Prop :=
  numeral 10 ds n /\ n <= 255 /\ (forall r, ds = 48 :: r -> r = []).

(** Dotted decimal. *)
Definition v4_text (s : list N) (a : list N) : Prop :=
  exists d1 d2 d3 d4 n1 n2 n3 n4, octet d1 n1 /\ octet d2 n2 /\ octet d3 n3 /\ octet d4 n4 /\
    a = [n1; n2; n3; n4] /\ s = d1 ++ [46] ++ d2 ++ [46] ++ d3 ++ [46] ++ d4.

(** One to four hexadecimal digits. *)
Definition h16 (ds : list N) (n : N) : Prop := numeral 16 ds n /\ (List.length ds <= 4)%nat.

(** Groups separated by colons, the last of which may be a dotted IPv4 address if [v4]. *)
Inductive groups (v4 : bool) : list N -> list N -> Prop :=
| groups_one d n : h16 d n -> groups v4 d [n]
| groups_v4 s n1 n2 n3 n4 : v4 = true -> v4_text s [n1; n2; n3; n4] ->
    groups v4 s [n1 * 256 + n2; n3 * 256 + n4]
| groups_cons d n s l : h16 d n -> groups v4 s l -> groups v4 (d ++ [58] ++ s) (n :: l).

Definition opt_groups (v4 : bool) (s l : list N) : Prop := (s = [] /\ l = []) \/ groups v4 s l.

(** Eight groups, or two parts of at most seven groups together around [::]. *)
Definition v6_text (s l : list N) : Prop :=
  (groups true s l /\ List.length l = 8%nat) \/
  (exists h t lh lt, s = h ++ [58; 58] ++ t /\ opt_groups false h lh /\ opt_groups true t lt /\
     (List.length lh + List.length lt <= 7)%nat /\
     l = lh ++ repeat 0 (8 - List.length lh - List.length lt) ++ lt).

(** Values of the address types. *)
Definition v4_addr (a : list N) : Prop := List.length a = 4%nat /\ Forall (fun x => x < 256) a.
Definition v6_addr (a : list N) : Prop := List.length a = 8%nat /\ Forall (fun x => x < 65536) a.
