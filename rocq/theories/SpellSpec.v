(** When two attributes are the same one, spelt differently: [name = value] for [name(value)], [name] for [name()],
    a final comma, the parameters in another order. On the syntax of MetaModel.v only. *)
From Coq Require Import Permutation.
From Verif Require Import Base MetaModel MetaSpec.
Local Open Scope N_scope.

(** The parameters whose value is one word. *)
Definition word_params : list ident :=
  [bs "padding"; bs "local"; bs "port"; bs "ipv4"; bs "ip"; bs "at_least_two_labels"; bs "conflict"; bs "comment";
   bs "non_ascii"; bs "nan"; bs "case"].
(** The parameters whose value is a number, and those whose value is another literal. *)
Definition number_params : list ident := [bs "min"; bs "max"; bs "trimmed_min"].
Definition literal_params : list ident :=
  number_params ++ [bs "inclusive"; bs "ignore_case"; bs "regex"; bs "Must"; bs "Allow"].
(** The names before a range expression. *)
Definition expr_params : list ident := [bs "Inside"; bs "Outside"; bs "range"].
(** The names before a list of parameters. *)
Definition list_params : list ident := [bs "Inside"; bs "Outside"; bs "char_length"; bs "byte_length"].

(** One parameter, spelt in two ways; [sp_inside] respells a parameter of a parameter. *)
Inductive respelt : meta -> meta -> Prop :=
| sp_word n w : In n word_params ->
    respelt (MNameValue [n] (EPath [w])) (MList [n] [IMeta (MPath [w])] false)
| sp_literal n l : In n literal_params ->
    respelt (MNameValue [n] (ELit l)) (MList [n] [ILit l] false)
| sp_negative_int n d : In n number_params ->
    respelt (MNameValue [n] (ENeg (LitInt d))) (MList [n] [ILit (LitInt (45 :: d))] false)
| sp_negative_float n d : In n number_params ->
    respelt (MNameValue [n] (ENeg (LitFloat d))) (MList [n] [ILit (LitFloat (45 :: d))] false)
| sp_group n l : In n (number_params ++ [bs "inclusive"; bs "ignore_case"]) ->
    respelt (MNameValue [n] (EGroup l)) (MNameValue [n] (ELit l))
| sp_range n r : In n expr_params ->
    respelt (MNameValue [n] (ERange r)) (MList [n] [IRange r] false)
| sp_comma n ms : In n list_params -> ms <> [] ->
    respelt (MList [n] (List.map IMeta ms) true) (MList [n] (List.map IMeta ms) false)
| sp_inside n pre a b post tr : respelt a b ->
    respelt (MList [n] (pre ++ IMeta a :: post) tr) (MList [n] (pre ++ IMeta b :: post) tr).

(** One validator with its parameters, spelt in two ways. *)
Inductive attr_respelt : meta -> meta -> Prop :=
| at_bare p : attr_respelt (MPath p) (MList p [] false)
| at_order p ms ns tr tr' : Permutation ms ns -> ms <> [] ->
    attr_respelt (MList p (List.map IMeta ms) tr) (MList p (List.map IMeta ns) tr')
| at_param p pre a b post tr : respelt a b ->
    attr_respelt (MList p (pre ++ IMeta a :: post) tr) (MList p (pre ++ IMeta b :: post) tr).

(** The range expression [lo..hi], [lo..=hi], and the same range in words:
    [min = lo, max = hi, inclusive = ..]. *)
Definition in_expression (lo hi : option lit) (half_open : bool) : range_expr :=
  {| re_start := match lo with Some l => Some (Some l) | None => None end;
     re_end := match hi with Some l => Some (Some l) | None => None end;
     re_half_open := half_open |}.
Definition in_words (lo hi : option lit) (half_open : bool) : list meta :=
  match lo with Some l => [MNameValue [bs "min"] (ELit l)] | None => [] end ++
  match hi with
  | Some l => [MNameValue [bs "max"] (ELit l); MNameValue [bs "inclusive"] (ELit (LitBool (negb half_open)))]
  | None => []
  end.
