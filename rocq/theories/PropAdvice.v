(** Property C89: the compile errors of the derive macro. *)
From Coq Require Import SpecFloat.
From Verif Require Import Base LocalProofs RangeModel IntModel NumberModel LengthModel MacModel PhoneModel MetaModel
  MetaSpec MetaProofs MacroModel MacroSpec MacroProofs AdviceModel AdviceSpec AdviceProofs AdviceMore.
Local Open Scope N_scope.

(** C89: the lines of the message about an unsupported validator are exactly the names that would be understood. *)
Theorem C89_validators : forall on p n, (forall i, In i p -> ~ In 10 i) -> ~ In 10 n ->
  (on_line (bs "    " ++ n) (unsupported_validator on p) <-> exists v, from_path on [n] = Some v).
Proof.
  intros on p n Hp Hn. unfold unsupported_validator, display_validators.
  replace (bs "unsupported validator `" ++ path_text p ++ bs "`, available validators:" ++
           display_slice (List.map debug_name (shown_validators on)))
    with ((bs "unsupported validator `" ++ path_text p ++ bs "`, available validators:") ++
           display_slice (List.map debug_name (shown_validators on))) by (rewrite <- !app_assoc; reflexivity).
  transitivity (In n (List.map debug_name (shown_validators on))).
  - apply slice_lines; [apply clean_app; [clean|apply clean_app; [exact (path_clean p Hp)|clean]]| |exact Hn].
    intros s H. apply in_map_iff in H. destruct H as (v & <- & _). destruct v; clean.
  - rewrite in_map_iff. unfold shown_validators. split.
    + intros (v & <- & H). apply filter_In in H. exists v. apply from_path_spec.
      split; [destruct v; reflexivity|exact (proj2 H)].
    + intros (v & H). apply from_path_spec in H. destruct H as [E Ho]. exists v.
      split; [injection E as ->; destruct v; reflexivity|]. apply filter_In. split; [|exact Ho].
      destruct v; vm_compute; tauto.
Qed.
Print Assumptions C89_validators.

Example C89_validators_example :
  unsupported_validator (fun v => match v with Vip | Vurl => true | _ => false end) [bs "ipv5"] =
    bs "unsupported validator `ipv5`, available validators:" ++ 10 :: bs "    ip" ++ 10 :: bs "    url" /\
  from_path (fun v => match v with Vip | Vurl => true | _ => false end) [bs "url"] = Some Vurl.
Proof. split; reflexivity. Qed.

(** C89: that message appears exactly when the first [#\[validator(..)\]] that is not understood has such a name. *)
Theorem C89_unsupported :
  forall cid (id_from_str : list N -> option cid) cid_eqb compiles float_lit pw on f d,
  (derive id_from_str cid_eqb compiles float_lit pw on f d = Err XUnsupported ->
   exists m, In (MList [bs "validator"] [IMeta m] false) (di_attrs d) /\ forall v, on v = true -> ~ named (validator_name v) m) /\
  (forall pre post m, di_attrs d = pre ++ MList [bs "validator"] [IMeta m] false :: post ->
   (forall x, In x pre -> meta_path x <> [bs "validator"]) -> (forall v, on v = true -> ~ named (validator_name v) m) ->
   derive id_from_str cid_eqb compiles float_lit pw on f d = Err XUnsupported).
Proof.
  intros cid ifs ceq comp fl pw on f d.
  assert (FP : forall m, from_path on (meta_path m) = None <-> forall v, on v = true -> ~ named (validator_name v) m).
  { intros m. split.
    - intros H v Ho Nm. unfold named in Nm. assert (F : from_path on (meta_path m) = Some v) by (apply from_path_spec; auto).
      congruence.
    - intros H. destruct (from_path on (meta_path m)) as [v|] eqn:F; [|reflexivity].
      apply from_path_spec in F. destruct F as [E Ho]. destruct (H v Ho E). }
  split.
  - intros H. unfold derive in H.
    assert (L : forall attrs u, find_validator on attrs u = Err XUnsupported ->
              exists m, In (MList [bs "validator"] [IMeta m] false) attrs /\ from_path on (meta_path m) = None).
    { induction attrs as [|a attrs IH]; intros u K; cbn [find_validator] in K; [discriminate K|].
      assert (S : forall w, find_validator on attrs w = Err XUnsupported -> exists m,
                In (MList [bs "validator"] [IMeta m] false) (a :: attrs) /\ from_path on (meta_path m) = None).
      { intros w J. destruct (IH w J) as (m & Hm & F). exists m. split; [right; exact Hm|exact F]. }
      destruct (get_ident (meta_path a)) as [i|] eqn:G; [|exact (S u K)].
      destruct (eqbs i (bs "validator")) eqn:E; [|exact (S u K)].
      apply str_eqb_eq in E. subst i. apply MetaProofs.get_ident_spec in G.
      destruct a as [p|p e|p items tr]; [discriminate K|discriminate K|]. cbn [meta_path] in G. subst p.
      destruct (args_meta items tr) as [m|] eqn:A; [|discriminate K]. apply MetaProofs.args_meta_spec in A. destruct A as [-> ->].
      destruct (from_path on (meta_path m)) as [v|] eqn:F.
      - destruct u; [discriminate K|exact (S _ K)].
      - exists m. split; [left; reflexivity|exact F]. }
    destruct (find_validator on (di_attrs d) None) as [[[v m]|]|e|] eqn:E; cbn [obind] in H.
    + exfalso. apply handler_fault in H. exact H.
    + discriminate H.
    + injection H as ->. destruct (L _ _ E) as (m & Hm & F). exists m. split; [exact Hm|]. apply FP. exact F.
    + discriminate H.
  - intros pre post m E Hp Hm. unfold derive. rewrite E.
    assert (Q : find_validator on (pre ++ MList [bs "validator"] [IMeta m] false :: post) None = Err XUnsupported).
    { clear E. induction pre as [|a pre IH].
      - cbn [app find_validator meta_path get_ident args_meta]. rewrite str_eqb_refl.
        rewrite (proj2 (FP m) Hm). reflexivity.
      - cbn [app find_validator]. assert (Ha := Hp a (or_introl eq_refl)).
        assert (R := IH (fun x Hx => Hp x (or_intror Hx))).
        destruct (get_ident (meta_path a)) as [i|] eqn:G; [|exact R]. apply MetaProofs.get_ident_spec in G.
        rewrite str_eqb_neq; [exact R|]. intros ->. exact (Ha G). }
    rewrite Q. reflexivity.
Qed.
Print Assumptions C89_unsupported.

Example C89_unsupported_example : forall cid (ifs : list N -> option cid) ceq comp fl pw on f ds,
  derive ifs ceq comp fl pw on f {| di_attrs := [MList [bs "validator"] [IMeta (MPath [bs "ipv5"])] false];
    di_data := ds; di_params := 0 |} = Err XUnsupported.
Proof. reflexivity. Qed.

(** C89: an error about the parameters means that the attribute has the fault the error asserts. *)
Theorem C89_fault :
  forall cid (id_from_str : list N -> option cid) cid_eqb compiles float_lit pw v f m d e,
  handler id_from_str cid_eqb compiles float_lit pw v f m d = Err e -> fault v f m e.
Proof. intros cid ifs ceq comp fl pw. exact (handler_fault ifs ceq comp fl pw). Qed.
Print Assumptions C89_fault.

Definition no_id : list N -> option unit := fun _ => None.
Definition no_eq : unit -> unit -> bool := fun _ _ => true.
Definition no_float : fty -> list N -> option spec_float := fun _ _ => None.
Definition feat (s r : bool) : features := {| f_serde := s; f_rocket := r; f_full := false |}.

Example C89_fault_example : forall f,
  handler no_id no_eq (fun _ => true) no_float W64 Vdomain f
    (MList [bs "domain"] [IMeta (MList [bs "ipv4"] [IMeta (MPath [bs "Must"])] false);
       IMeta (MNameValue [bs "at_least_two_labels"] (EPath [bs "Disallow"]))] false) (DataStruct (FUnnamed [bs "String"]))
  = Err XConflict /\
  handler no_id no_eq (fun _ => true) no_float W64 Vjson (feat false false)
    (MList [bs "json"] [IMeta (MPath [bs "serde"])] false) (DataStruct (FUnnamed [bs "T"])) = Err XFeature /\
  handler no_id no_eq (fun _ => true) no_float W64 Vregex f (MPath [bs "regex"]) (DataStruct (FUnnamed [bs "String"]))
  = Err XMissing.
Proof. repeat split; reflexivity. Qed.

(** C89: on a struct the validator can be put on, a lone parameter is refused as unknown exactly if the lines of the message
    do not name it. *)
Theorem C89_parameters :
  forall cid (id_from_str : list N -> option cid) cid_eqb compiles float_lit pw v f m m' d g x,
  arguments m [x] -> (forall i, In i (meta_path x) -> ~ In 10 i) ->
  handler id_from_str cid_eqb compiles float_lit pw v f m' d = Ok g ->
  (handler id_from_str cid_eqb compiles float_lit pw v f m d = Err XUnknown <->
   forall n, ~ In 10 n -> on_line (bs "    " ++ n) (unsupported_parameter (meta_path x) (correct_parameters v)) -> ~ named n x).
Proof.
  intros cid ifs ceq comp fl pw v f m m' d g x A Hx OK.
  assert (L : forall n, ~ In 10 n ->
    (on_line (bs "    " ++ n) (unsupported_parameter (meta_path x) (correct_parameters v)) <-> In n (correct_parameters v))).
  { intros n Hn. unfold unsupported_parameter.
    replace (bs "unsupported parameter `" ++ path_text (meta_path x) ++ bs "`, available parameters:" ++
             display_slice (correct_parameters v))
      with ((bs "unsupported parameter `" ++ path_text (meta_path x) ++ bs "`, available parameters:") ++
             display_slice (correct_parameters v)) by (rewrite <- !app_assoc; reflexivity).
    apply slice_lines; [apply clean_app; [clean|apply clean_app; [exact (path_clean _ Hx)|clean]]| |exact Hn].
    intros s Hs. destruct v; repeat (destruct Hs as [<-|Hs]; [clean|]); destruct Hs. }
  split.
  - intros H n Hn Hl. apply handler_fault in H. destruct H as (ms & y & A' & Hy & Hu).
    assert (E : ms = [x]).
    { destruct m as [p|p e|p items tr]; cbn [arguments] in A, A'; [discriminate A|destruct A|].
      destruct A as [E1 _], A' as [E2 _]. rewrite E1 in E2. destruct ms as [|a [|b ms]]; cbn in E2; try discriminate E2.
      injection E2 as ->. reflexivity. }
    subst ms. destruct Hy as [<-|[]]. apply Hu. apply L; assumption.
  - intros H. apply (handler_unknown ifs ceq comp fl pw v f m m' d g x A); [|exact OK].
    intros n Hn. destruct (in_dec N.eq_dec 10 n) as [C|C].
    + intros Nn. apply (Hx n); [unfold named in Nn; rewrite Nn; left; reflexivity|exact C].
    + apply H; [exact C|]. apply L; assumption.
Qed.
Print Assumptions C89_parameters.

Example C89_parameters_example : forall f,
  handler no_id no_eq (fun _ => true) no_float W64 Vuuid f (MPath [bs "uuid"]) (DataStruct (FUnnamed [bs "u128"]))
    = Ok (GUuid (mk_hex_attr AnyCase (SepAllow 45) opts0)) /\
  handler no_id no_eq (fun _ => true) no_float W64 Vuuid f
    (MList [bs "uuid"] [IMeta (MPath [bs "cases"])] false) (DataStruct (FUnnamed [bs "u128"])) = Err XUnknown /\
  unsupported_parameter [bs "cases"] (correct_parameters Vuuid) =
    bs "unsupported parameter `cases`, available parameters:" ++ 10 :: bs "    case" ++ 10 :: bs "    separator" ++
    10 :: bs "    serde" ++ 10 :: bs "    rocket".
Proof. repeat split; reflexivity. Qed.

(** C89: the same for the parameters of a range and of a length. *)
Theorem C89_nested : forall T (from_str : list N -> option T) ltb leb f m,
  (range_meta from_str ltb leb f m = Err (XAttr EUnknown) ->
   exists ms x, arguments m ms /\ In x ms /\ forall n, In n range_parameters -> ~ named n x) /\
  (length_meta m = Err (XAttr EUnknown) ->
   exists ms x, arguments m ms /\ In x ms /\ forall n, In n length_parameters -> ~ named n x) /\
  (forall x, arguments m [x] ->
   (range_meta from_str ltb leb f m = Err (XAttr EUnknown) <-> forall n, In n range_parameters -> ~ named n x) /\
   (length_meta m = Err (XAttr EUnknown) <-> forall n, In n length_parameters -> ~ named n x)).
Proof.
  intros T fs ltb leb f m. split; [apply range_meta_unknown|]. split; [apply length_meta_unknown|].
  intros x A. assert (U : forall ms, arguments m ms -> ms = [x]).
  { intros ms A'. destruct m as [p|p e|p items tr]; cbn [arguments] in A, A'; [discriminate A|destruct A|].
    destruct A as [E1 _], A' as [E2 _]. rewrite E1 in E2. destruct ms as [|a [|b ms]]; cbn in E2; try discriminate E2.
    injection E2 as ->. reflexivity. }
  split; split.
  - intros H. apply range_meta_unknown in H. destruct H as (ms & y & A' & Hy & H). rewrite (U ms A') in Hy.
    destruct Hy as [<-|[]]. exact H.
  - apply range_meta_alone. exact A.
  - intros H. apply length_meta_unknown in H. destruct H as (ms & y & A' & Hy & H). rewrite (U ms A') in Hy.
    destruct Hy as [<-|[]]. exact H.
  - apply length_meta_alone. exact A.
Qed.
Print Assumptions C89_nested.

Example C89_nested_example : forall f,
  length_meta (MList [bs "char_length"] [IMeta (MNameValue [bs "minimum"] (ELit (LitInt (bs "1"))))] false)
    = Err (XAttr EUnknown) /\
  range_meta u128_lit N.ltb N.leb f (MList [bs "Inside"] [IMeta (MNameValue [bs "from"] (ELit (LitInt (bs "1"))))] false)
    = Err (XAttr EUnknown).
Proof. intros [[] [] []]; split; reflexivity. Qed.

(** C89 fails for "you are trying to reset": [line] and [text] say so about a parameter that is set once (the other length
    was set before). *)
Theorem C89_reset_refuted : exists m ms x, arguments m ms /\ well_named [bs "char_length"; bs "byte_length"] ms /\
  In x ms /\ (forall y, In y ms -> named (bs "byte_length") y -> y = x) /\
  forall cid (id_from_str : list N -> option cid) cid_eqb compiles float_lit pw v f d, of_lengths v ->
  handler id_from_str cid_eqb compiles float_lit pw v f m d = Err XReset.
Proof.
  pose (a := MList [bs "char_length"] [IMeta (MNameValue [bs "max"] (ELit (LitInt (bs "5"))))] false).
  pose (b := MList [bs "byte_length"] [IMeta (MNameValue [bs "max"] (ELit (LitInt (bs "9"))))] false).
  exists (MList [bs "line"] [IMeta a; IMeta b] false), [a; b], b.
  split; [split; [reflexivity|discriminate]|]. split.
  { exists [bs "char_length"; bs "byte_length"]. split; [repeat constructor|]. split; [|intros n Hn; exact Hn].
    apply distinct_nodup. reflexivity. }
  split; [right; left; reflexivity|]. split.
  { intros y [<-|[<-|[]]] H; [discriminate H|reflexivity]. }
  intros cid ifs ceq comp fl pw v f d [-> | ->]; reflexivity.
Qed.
Print Assumptions C89_reset_refuted.

(** C89: the words a message offers for a policy are exactly the words that are accepted. *)
Theorem C89_words :
  word_advice tri_from_meta (word_message tri_words) /\ word_advice allow_from_meta (word_message allow_words) /\
  word_advice case_from_meta (word_message case_words).
Proof.
  assert (M : forall A (read : meta -> outcome macro_err A) words, words_are read words -> word_advice read (word_message words)).
  { intros A read words H m _. exists words. split; [exact H|].
    destruct m as [p|p e|p items tr]; cbn [word_message]; [right; reflexivity| |].
    - destruct e as [l|l|l|q|r|]; try (right; reflexivity). destruct q as [|i [|j q]]; [right|left|right]; reflexivity.
    - destruct items as [|[[q|q e|q it tt]|l|r|] [|j items]]; try (right; reflexivity).
      + destruct q as [|i [|j q]]; try (right; reflexivity). destruct tr; [right|left]; reflexivity.
      + destruct q as [|i [|k q]]; right; reflexivity. }
  assert (W : forall A (fi : ident -> outcome macro_err A) words,
            (forall w, offers words w <-> exists v, fi w = Ok v) -> words_are (word_from_meta fi) words).
  { intros A fi words H w p. split; exact (H w). }
  split; [|split]; apply M; apply W; intros w;
    [rewrite tri_offers; unfold tri_from_ident|rewrite allow_offers; unfold allow_from_ident
    |rewrite case_offers; unfold case_from_ident].
  - split.
    + intros [<-|[<-|[<-|[]]]]; eexists; reflexivity.
    + word_cases; intros (v & H); try discriminate H; cbn [In]; auto.
  - split.
    + intros [<-|[<-|[]]]; eexists; reflexivity.
    + word_cases; intros (v & H); try discriminate H; cbn [In]; auto.
  - split.
    + intros [<-|[<-|[<-|[]]]]; eexists; reflexivity.
    + word_cases; intros (v & H); try discriminate H; cbn [In]; auto.
Qed.
Print Assumptions C89_words.

Example C89_words_example :
  tri_from_meta (MNameValue [bs "port"] (EPath [bs "Required"])) = Err XValue /\
  word_message tri_words (MNameValue [bs "port"] (EPath [bs "Required"])) = bs "expected Must/Allow/Disallow" /\
  word_message tri_words (MPath [bs "port"]) = bs "expected `port = Must/Allow/Disallow` or `port(Must/Allow/Disallow)`" /\
  tri_from_meta (MList [bs "port"] [IMeta (MPath [bs "Must"])] false) = Ok Must.
Proof. repeat split; reflexivity. Qed.

(** C89: likewise for the names offered after [serde(..)] and [rocket(..)], with the feature on. *)
Theorem C89_flags : forall f,
  (f_serde f = true -> exists words, serde_flag_message = bs "expected " ++ words /\
     forall w p, offers words w <-> exists v, serde_from_meta f (MList p [IMeta (MPath [w])] false) = Ok v) /\
  (f_rocket f = true -> exists words, rocket_flag_message = bs "expected " ++ words /\
     forall w p, offers words w <-> exists v, rocket_from_meta f (MList p [IMeta (MPath [w])] false) = Ok v).
Proof.
  assert (G : forall a b words, words = a ++ 47 :: b -> ~ In 47 a -> ~ In 47 b -> a <> b ->
    forall w p, offers words w <-> exists v, meta_2_flags true a b (MList p [IMeta (MPath [w])] false) = Ok v).
  { intros a b words -> Ha Hb Hab w p. rewrite (offers_iff _ [a; b]).
    - cbn [meta_2_flags args_idents all_idents get_ident flags_loop obind In]. split.
      + intros [<-|[<-|[]]]; [rewrite str_eqb_refl; eexists; reflexivity|].
        rewrite (str_eqb_neq b a), str_eqb_refl by congruence. eexists. reflexivity.
      + word_cases; auto. intros (v & H). discriminate H.
    - intros s [<-|[<-|[]]]; assumption.
    - cbn [marked]. rewrite app_nil_r. reflexivity. }
  intros f. split; intros E.
  - exists (bs "Serialize/Deserialize"). split; [reflexivity|]. unfold serde_from_meta. rewrite E.
    apply G; [reflexivity|clean|clean|intros C; vm_compute in C; discriminate C].
  - exists (bs "FromFormField/FromParam"). split; [reflexivity|]. unfold rocket_from_meta. rewrite E.
    apply G; [reflexivity|clean|clean|intros C; vm_compute in C; discriminate C].
Qed.
Print Assumptions C89_flags.

Example C89_flags_example :
  serde_flag_message = bs "expected Serialize/Deserialize" /\
  serde_from_meta (feat true true) (MList [bs "serde"] [IMeta (MPath [bs "Debug"])] false) = Err XValue /\
  serde_from_meta (feat true true) (MList [bs "serde"] [IMeta (MPath [bs "Serialize"])] false) = Ok (true, false).
Proof. repeat split; reflexivity. Qed.

(** C89, values: the forms that a message shows are accepted when they are written as shown, with the meaning that they have. A number: *)
Theorem C89_number_forms : forall T (from_str : list N -> option T) p zero, from_str (bs "0") = Some zero ->
  exists m1 m2, meta_path m1 = p /\ meta_path m2 = p /\
    number_forms p = bs "expected `" ++ meta_source m1 ++ bs "` or `" ++ meta_source m2 ++ bs "`" /\
    meta_2_number from_str m1 = Ok zero /\ meta_2_number from_str m2 = Ok zero.
Proof.
  intros T from_str p zero Hz. exists (MNameValue p (ELit (LitInt (bs "0")))), (MList p [ILit (LitInt (bs "0"))] false).
  split; [reflexivity|]. split; [reflexivity|]. split.
  - unfold number_forms. cbn [meta_source lit_source]. rewrite <- !app_assoc. reflexivity.
  - split; [change (base10_parse from_str (bs "0") = Ok zero)|change (base10_parse from_str (bs "0") = Ok zero)];
      unfold base10_parse; rewrite Hz; reflexivity.
Qed.
Print Assumptions C89_number_forms.

(** A boolean: *)
Theorem C89_bool_forms : forall p, exists m1 m2, meta_path m1 = p /\ meta_path m2 = p /\
    bool_forms p = bs "expected `" ++ meta_source m1 ++ bs "` or `" ++ meta_source m2 ++ bs "`" /\
    meta_2_bool m1 = Ok false /\ meta_2_bool m2 = Ok false.
Proof.
  intros p. exists (MNameValue p (ELit (LitBool false))), (MList p [ILit (LitBool false)] false).
  split; [reflexivity|]. split; [reflexivity|]. split; [|split; reflexivity].
  unfold bool_forms. cbn [meta_source lit_source]. rewrite <- !app_assoc. reflexivity.
Qed.
Print Assumptions C89_bool_forms.

(** A separator: of the forms with a word and possibly an argument, exactly those between the slashes. *)
Theorem C89_separator_forms : forall p, exists words, sep_forms p = bs "expected `" ++ path_text p ++ bs "(" ++ words ++ bs ")`" /\
  forall i m, ~ In 40 i -> m = MPath [i] \/ m = MList [i] [ILit (LitByte 45)] false ->
    (offers words (meta_source m) <-> exists v, sep_from_meta (MList p [IMeta m] false) = Ok v).
Proof.
  intros p. exists (bs "Must(b'-')/Allow(b'-')/Disallow"). split; [reflexivity|]. intros i m Hi Hm.
  rewrite (offers_iff _ [bs "Must(b'-')"; bs "Allow(b'-')"; bs "Disallow"]);
    [|intros s [<-|[<-|[<-|[]]]]; clean|reflexivity].
  assert (P : forall (a : list N) b, a ++ bs "(b'-')" = b ++ bs "(b'-')" -> a = b) by (intros a b; apply app_inv_tail).
  destruct Hm as [-> | ->]; cbn [meta_source path_text lit_source sep_from_meta args_meta args_lit get_ident]; split.
  - intros [<-|[<-|[<-|[]]]]; [exfalso; apply Hi; vm_compute; tauto|exfalso; apply Hi; vm_compute; tauto|].
    eexists. reflexivity.
  - destruct (eqbs i (bs "Disallow")) eqn:E; [|intros [v H]; discriminate]. apply eqbs_eq in E. rewrite E. intros _. right; right; left. reflexivity.
  - intros [H|[H|[H|[]]]].
    + apply (P (bs "Must")) in H. rewrite <- H. eexists. reflexivity.
    + apply (P (bs "Allow")) in H. rewrite <- H. eexists. reflexivity.
    + exfalso. assert (X : In 40 (bs "Disallow")) by (rewrite H; apply in_app_iff; right; vm_compute; tauto). vm_compute in X. intuition discriminate.
  - destruct (eqbs i (bs "Must")) eqn:E; [apply eqbs_eq in E; rewrite E; intros _; left; reflexivity|].
    destruct (eqbs i (bs "Allow")) eqn:E2; [apply eqbs_eq in E2; rewrite E2; intros _; right; left; reflexivity|intros [v H]; discriminate].
Qed.
Print Assumptions C89_separator_forms.

(** A range option: the offered forms are accepted, and no other is but [Unlimited(..)] (see C68). *)
Theorem C89_range_forms : forall T (from_str : list N -> option T) ltb leb f p,
  exists words, range_forms p = bs "expected `" ++ path_text p ++ bs "(" ++ words ++ bs ")`" /\
  forall i m, ~ In 40 i -> m = MPath [i] \/ m = MList [i] [] false ->
    (offers words (meta_source m) -> exists v, range_option_meta from_str ltb leb f (MList p [IMeta m] false) = Ok v) /\
    ((exists v, range_option_meta from_str ltb leb f (MList p [IMeta m] false) = Ok v) ->
     offers words (meta_source m) \/ m = MList [bs "Unlimited"] [] false).
Proof.
  intros T from_str ltb leb f p. exists (bs "Inside(..)/Outside(..)/Unlimited"). split; [reflexivity|]. intros i m Hi Hm.
  rewrite (offers_iff _ [bs "Inside(..)"; bs "Outside(..)"; bs "Unlimited"]);
    [|intros s [<-|[<-|[<-|[]]]]; clean|reflexivity].
  assert (P : forall (a : list N) b, a ++ bs "(..)" = b ++ bs "(..)" -> a = b) by (intros a b; apply app_inv_tail).
  assert (Q : forall s, In s [bs "Inside(..)"; bs "Outside(..)"] -> In 40 s).
  { intros s [<-|[<-|[]]]; vm_compute; tauto. }
  destruct Hm as [-> | ->]; cbn [meta_source path_text range_option_meta args_meta get_ident meta_path rmeta_of]; split.
  - intros [<-|[<-|[<-|[]]]]; [exfalso; apply Hi, Q; left; reflexivity|exfalso; apply Hi, Q; right; left; reflexivity|].
    eexists. reflexivity.
  - destruct (eqbs i (bs "Inside")) eqn:E; [intros [v H]; discriminate|].
    destruct (eqbs i (bs "Outside")) eqn:E2; [intros [v H]; discriminate|].
    destruct (eqbs i (bs "Unlimited")) eqn:E3; [|intros [v H]; discriminate]. apply eqbs_eq in E3. rewrite E3.
    intros _. left. right; right; left. reflexivity.
  - intros [H|[H|[H|[]]]].
    + apply (P (bs "Inside")) in H. rewrite <- H. cbn. destruct (f_full f); eexists; reflexivity.
    + apply (P (bs "Outside")) in H. rewrite <- H. cbn. destruct (f_full f); eexists; reflexivity.
    + exfalso. assert (X : In 40 (bs "Unlimited")) by (rewrite H; apply in_app_iff; right; vm_compute; tauto). vm_compute in X. intuition discriminate.
  - destruct (eqbs i (bs "Inside")) eqn:E; [apply eqbs_eq in E; rewrite E; intros _; left; left; reflexivity|].
    destruct (eqbs i (bs "Outside")) eqn:E2; [apply eqbs_eq in E2; rewrite E2; intros _; left; right; left; reflexivity|].
    destruct (eqbs i (bs "Unlimited")) eqn:E3; [|intros [v H]; discriminate]. apply eqbs_eq in E3. rewrite E3. intros _. right. reflexivity.
Qed.
Print Assumptions C89_range_forms.

Example C89_forms_example :
  sep_forms [bs "separator"] = bs "expected `separator(Must(b'-')/Allow(b'-')/Disallow)`" /\
  sep_from_meta (MPath [bs "separator"]) = Err XValue /\
  sep_from_meta (MList [bs "separator"] [IMeta (MList [bs "Must"] [ILit (LitByte 45)] false)] false) = Ok (SepMust 45) /\
  number_forms [bs "min"] = bs "expected `min = 0` or `min(0)`" /\
  bool_forms [bs "inclusive"] = bs "expected `inclusive = false` or `inclusive(false)`" /\
  range_forms [bs "range"] = bs "expected `range(Inside(..)/Outside(..)/Unlimited)`" /\
  usize_from_str (bs "0") = Some 0.
Proof. repeat split. Qed.
