(** Specification vocabulary for mac_address and uuid, independent of the index arithmetic. *)
From Verif Require Import Base MacModel.
Local Open Scope N_scope.

(** The hexadecimal digits of the allowed case, in value order (16 entries per alphabet). *)
Definition hex_alphabets (case : case_option) : list (list N) :=
  match case with
  | AnyCase => [bs "0123456789ABCDEF"; bs "0123456789abcdef"]
  | UpperCase => [bs "0123456789ABCDEF"]
  | LowerCase => [bs "0123456789abcdef"]
  end.

(** [c] is a digit of value [d]. *)
Definition is_hex (case : case_option) (c d : N) : Prop :=
  exists a, In a (hex_alphabets case) /\ nth_error a (N.to_nat d) = Some c.

(** The text [cs] denotes the number [x] in positional notation. *)
Inductive hex_denotes (case : case_option) : list N -> N -> Prop :=
| hex_nil : hex_denotes case [] 0
| hex_cons c d cs x : is_hex case c d -> hex_denotes case cs x ->
    hex_denotes case (c :: cs) (d * 16 ^ N.of_nat (List.length cs) + x).

(** What may stand between two groups. *)
Definition sep_form (sep : sep_option) (s : list N) : Prop :=
  match sep with
  | SepMust c => s = [c]
  | SepAllow c => s = [] \/ s = [c]
  | SepDisallow => s = []
  end.

(** [digits] in groups of the given sizes, written as [v] with separators in between. *)
Inductive grouped (sep : sep_option) : list nat -> list N -> list N -> Prop :=
| grouped_last g : grouped sep [List.length g] g g
| grouped_cons g s sizes v digits : sep_form sep s -> grouped sep sizes v digits ->
    grouped sep (List.length g :: sizes) (g ++ s ++ v) (g ++ digits).

(** Six groups of two; 8-4-4-4-12. *)
Definition mac_sizes : list nat := [2; 2; 2; 2; 2; 2]%nat.
Definition uuid_sizes : list nat := [8; 4; 4; 4; 12]%nat.

(** The separator byte of a policy is not itself one of the digits. *)
Definition sep_not_digit (case : case_option) (sep : sep_option) : Prop :=
  forall c d, sep = SepAllow c -> ~ is_hex case c d.
