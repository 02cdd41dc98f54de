(** What a user of the derive macro takes a compile error to mean. Stated on the attribute as it is written; none of the
    parsers of the macro is used. *)
From Verif Require Import Base MetaModel MetaSpec MacroModel AdviceModel.
Local Open Scope N_scope.

(** The line [s] occurs in the text, not as its first line. *)
Definition on_line (s text : list N) : Prop :=
  exists pre post : list N, text = pre ++ 10 :: s ++ post /\ (post = [] \/ exists r : list N, post = 10 :: r).

(** The text offers the word [w]: it consists of words separated by slashes, and [w] is one of them. *)
Definition offers (text w : list N) : Prop :=
  exists ws : list (list N), In w ws /\ (forall s, In s ws -> ~ In 47 s) /\
    47 :: text = List.concat (List.map (fun s : list N => 47 :: s) ws).

Definition of_lengths (v : validator) : Prop := v = Vline \/ v = Vtext.

(** The fault in the attribute [m] of the validator [v] that each kind of error asserts. *)
Definition fault (v : validator) (f : features) (m : meta) (e : macro_err) : Prop :=
  match e with
  | XFormat => (* you are using an incorrect format of the `x` attribute *)
      (exists p x, m = MNameValue p x) \/
      (of_lengths v /\ exists ms x, arguments m ms /\ In x ms /\
         (named (bs "char_length") x \/ named (bs "byte_length") x) /\ forall p items tr, x <> MList p items tr)
  | XUnknown => (* unsupported parameter `x`, available parameters: *)
      exists ms x, arguments m ms /\ In x ms /\ forall n, In n (correct_parameters v) -> ~ named n x
  | XReset => (* you are trying to reset the `x` parameter *)
      exists ms, arguments m ms /\
      (~ NoDup (List.map meta_path ms) \/
       (exists x p is, In x ms /\ (named (bs "serde") x \/ named (bs "rocket") x) /\
          x = MList p (List.map (fun i => IMeta (MPath [i])) is) false /\ ~ NoDup is) \/
       (of_lengths v /\ exists x y, In x ms /\ In y ms /\ named (bs "char_length") x /\ named (bs "byte_length") y))
  | XFeature => (* the `x` feature is not enabled *)
      exists ms x, arguments m ms /\ In x ms /\ (forall p, x <> MNameValue p (ELit (LitBool false))) /\
        ((named (bs "serde") x /\ f_serde f = false) \/ (named (bs "rocket") x /\ f_rocket f = false))
  | XMissing => (* the `regex` parameter is not set *)
      v = Vregex /\ exists ms, arguments m ms /\ forall x, In x ms -> ~ named (bs "regex") x
  | XConflict => (* `..(Must)` and `..` cannot be used together *)
      exists ms, arguments m ms /\ value ms (bs "conflict") allow_written false false /\
        match v with
        | Vdomain => (exists x, In x ms /\ named (bs "ipv4") x /\ tri_written x Must) /\
                     (exists x, In x ms /\ named (bs "at_least_two_labels") x /\ tri_written x Disallow)
        | Vemail => (exists x, In x ms /\ named (bs "ip") x /\ tri_written x Must) /\
                    (exists x, In x ms /\ named (bs "at_least_two_labels") x /\ tri_written x Disallow)
        | Vnumber => (exists x, In x ms /\ named (bs "nan") x /\ tri_written x Must) /\
                     (exists x a, In x ms /\ x = MList [bs "range"] [IMeta a] false /\ named (bs "Inside") a)
        | _ => False
        end
  | XSyntax => (* the message of syn *)
      (forall ms, ~ arguments m ms) \/
      exists ms x n, arguments m ms /\ In x ms /\ In n (correct_parameters v) /\ named n x
  | XValue | XAttr _ => (* the value of a parameter is refused *)
      exists ms x n, arguments m ms /\ In x ms /\ In n (correct_parameters v) /\ named n x
  | XShape => True (* the struct; see C69 *)
  | XOnlyOne | XUnsupported | XNotSet => False (* not an error of the parameters *)
  end.

(** [words] are exactly the words that [read] accepts, written [p = word] or [p(word)]. *)
Definition words_are {A} (read : meta -> outcome macro_err A) (words : list N) : Prop :=
  forall w p, (offers words w <-> exists v, read (MNameValue p (EPath [w])) = Ok v) /\
              (offers words w <-> exists v, read (MList p [IMeta (MPath [w])] false) = Ok v).

(** The message about a refused value of [read] offers exactly the accepted words, in one or in both forms. *)
Definition word_advice {A} (read : meta -> outcome macro_err A) (message : meta -> list N) : Prop :=
  forall m, (forall v, read m <> Ok v) -> exists words, words_are read words /\
    (message m = bs "expected " ++ words \/
     message m = bs "expected `" ++ path_text (meta_path m) ++ bs " = " ++ words ++ bs "` or `" ++
                 path_text (meta_path m) ++ bs "(" ++ words ++ bs ")`").

(** The source text of a literal, an attribute argument (the arguments of a list of one item) as a user writes it. *)
Definition lit_source (l : lit) : list N :=
  match l with
  | LitInt d => d
  | LitFloat d => d
  | LitBool b => if b then bs "true" else bs "false"
  | LitByte c => bs "b'" ++ [c] ++ bs "'"
  | LitStr s => 34 :: s ++ [34]
  | LitOtherKind => []
  end.
Fixpoint meta_source (m : meta) : list N :=
  match m with
  | MPath p => path_text p
  | MNameValue p (ELit l) => path_text p ++ bs " = " ++ lit_source l
  | MNameValue p _ => path_text p ++ bs " = .."
  | MList p [IMeta m] false => path_text p ++ bs "(" ++ meta_source m ++ bs ")"
  | MList p [ILit l] false => path_text p ++ bs "(" ++ lit_source l ++ bs ")"
  | MList p _ _ => path_text p ++ bs "(..)"
  end.
