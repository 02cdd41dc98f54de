(** Grammars of the standards, as their ABNF writes them: addresses and authorities (RFC 3986), host names (RFC 1123),
    uuids (RFC 4122) and numbers (RFC 8259). Nothing here refers to the model. *)
From Verif Require Import Base.
Local Open Scope N_scope.

Definition DIGIT (c : N) : Prop := 48 <= c <= 57.
Definition HEXDIG (c : N) : Prop := 48 <= c <= 57 \/ 65 <= c <= 70 \/ 97 <= c <= 102.

(** RFC 3986, section 3.2.2. *)
Inductive dec_octet : list N -> Prop :=
| do_one a : DIGIT a -> dec_octet [a]
| do_two a b : 49 <= a <= 57 -> DIGIT b -> dec_octet [a; b]
| do_100 b c : DIGIT b -> DIGIT c -> dec_octet [49; b; c]
| do_200 b c : 48 <= b <= 52 -> DIGIT c -> dec_octet [50; b; c]
| do_250 c : 48 <= c <= 53 -> dec_octet [50; 53; c].
Definition IPv4address (s : list N) : Prop := exists a b c d,
  dec_octet a /\ dec_octet b /\ dec_octet c /\ dec_octet d /\ s = a ++ [46] ++ b ++ [46] ++ c ++ [46] ++ d.

Definition hex_piece (s : list N) : Prop := (1 <= List.length s <= 4)%nat /\ Forall HEXDIG s.
Definition ls32 (s : list N) : Prop :=
  (exists a b, hex_piece a /\ hex_piece b /\ s = a ++ [58] ++ b) \/ IPv4address s.
(** [n( h16 ":" )]. *)
Inductive pieces : nat -> list N -> Prop :=
| pc_none : pieces 0 []
| pc_more n a r : hex_piece a -> pieces n r -> pieces (S n) (a ++ [58] ++ r).
(** [[ *n( h16 ":" ) h16 ]]. *)
Definition head_pieces (n : nat) (s : list N) : Prop :=
  s = [] \/ exists k r a, (k <= n)%nat /\ pieces k r /\ hex_piece a /\ s = r ++ a.
(** The nine alternatives; the third to the seventh have the same form. *)
Definition IPv6address (s : list N) : Prop :=
  (exists r l, pieces 6 r /\ ls32 l /\ s = r ++ l) \/
  (exists r l, pieces 5 r /\ ls32 l /\ s = bs "::" ++ r ++ l) \/
  (exists n m h r l, In (n, m) [(0, 4); (1, 3); (2, 2); (3, 1); (4, 0)]%nat /\ head_pieces n h /\ pieces m r /\ ls32 l /\
     s = h ++ bs "::" ++ r ++ l) \/
  (exists h l, head_pieces 5 h /\ hex_piece l /\ s = h ++ bs "::" ++ l) \/
  (exists h, head_pieces 6 h /\ s = h ++ bs "::").

(** RFC 952 and RFC 1123, section 2.1, with the sizes of RFC 1035, section 2.3.4. Labels with hyphens in the third and fourth
    place are set aside (RFC 5890, section 2.3.1, reserves them). *)
Definition let_dig (x : N) : Prop := DIGIT x \/ 65 <= x <= 90 \/ 97 <= x <= 122.
Definition dns_label (l : list N) : Prop :=
  (1 <= List.length l <= 63)%nat /\ Forall (fun x => let_dig x \/ x = 45) l /\ (forall r, l <> 45 :: r) /\
  (forall u, l <> u ++ [45]) /\ (forall a b r, l <> a :: b :: 45 :: 45 :: r).
Inductive dns_labels : list N -> Prop :=
| dl_one l : dns_label l -> dns_labels l
| dl_dot l t : dns_label l -> dns_labels t -> dns_labels (l ++ [46] ++ t).
Definition dns_name (d : list N) : Prop := dns_labels d /\ (List.length d <= 253)%nat.

(** RFC 3986, sections 3.2.2 and 3.2.3, the names being host names: a host, and a port of at least one digit. *)
Definition std_host (t : list N) : Prop :=
  (exists u, t = [91] ++ u ++ [93] /\ IPv6address u) \/ IPv4address t \/ dns_name t.
Definition digits_value (ds : list N) : N := fold_left (fun v c => 10 * v + (c - 48)) ds 0.
Definition std_port (ds : list N) (p : N) : Prop :=
  ds <> [] /\ Forall DIGIT ds /\ p = digits_value ds /\ p <= 65535.
Definition std_authority (t h : list N) (p : option N) : Prop :=
  std_host h /\ match p with None => t = h | Some p => exists ds, t = h ++ [58] ++ ds /\ std_port ds p end.

(** RFC 4122, section 3; upper and lower case are both read. *)
Definition uuid_string (s digits : list N) : Prop := exists a b c d e, digits = a ++ b ++ c ++ d ++ e /\
  s = a ++ [45] ++ b ++ [45] ++ c ++ [45] ++ d ++ [45] ++ e /\
  List.map (@List.length N) [a; b; c; d; e] = [8; 4; 4; 4; 12]%nat /\ Forall HEXDIG digits.
(** RFC 7042, section 2.1: six octets with a separator between them. *)
Definition eui48_string (sep : N) (s digits : list N) : Prop := exists a b c d e f, digits = a ++ b ++ c ++ d ++ e ++ f /\
  s = a ++ [sep] ++ b ++ [sep] ++ c ++ [sep] ++ d ++ [sep] ++ e ++ [sep] ++ f /\
  List.map (@List.length N) [a; b; c; d; e; f] = [2; 2; 2; 2; 2; 2]%nat /\ Forall HEXDIG digits.
Definition hex_value (ds : list N) : N :=
  fold_left (fun v c => 16 * v + (if c <=? 57 then c - 48 else if c <=? 70 then c - 55 else c - 87)) ds 0.

(** RFC 8259, section 6. *)
Definition json_int (s : list N) : Prop :=
  s = [48] \/ exists c r, s = c :: r /\ 49 <= c <= 57 /\ Forall DIGIT r.
Definition json_frac (s : list N) : Prop := s = [] \/ exists ds, s = 46 :: ds /\ ds <> [] /\ Forall DIGIT ds.
Definition json_exp (s : list N) : Prop :=
  s = [] \/ exists c g ds, s = c :: g ++ ds /\ (c = 101 \/ c = 69) /\ (g = [] \/ g = [43] \/ g = [45]) /\
    ds <> [] /\ Forall DIGIT ds.
Definition json_number (s : list N) : Prop := exists g i f e,
  s = g ++ i ++ f ++ e /\ (g = [] \/ g = [45]) /\ json_int i /\ json_frac f /\ json_exp e.
