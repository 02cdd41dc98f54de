(** C113: the derive macro ends with code or with a compile error; it does not panic. *)
From Coq Require Import SpecFloat.
From Verif Require Import Base IntStr RangeModel SizeModel IntModel NumberModel LengthModel BaseModel MacModel PhoneModel
  DomainModel HostModel EmailModel MetaModel MacroModel TokensModel CrashModel CrashSpec MetaProofs CrashProofs FloatModel.
Local Open Scope N_scope.

Section Handlers.
Context {cid : Type}.
Variable id_from_str : list N -> option cid.
Variable cid_eqb : cid -> cid -> bool.
Variable id_lexes : cid -> bool.
Variable compiles : list N -> bool.
Variable float_lit : fty -> list N -> option spec_float.
Variable pw : ptr_width.
Hypothesis lexes : forall c, id_lexes c = true.

Lemma tuple_same {A} (build : meta -> outcome macro_err A) after m d :
  (forall fs a, tuple1 (plain_fields fs) = true -> after fs a = Ok tt) ->
  tuple_w build after m d = tuple_handler build m (plain d).
Proof.
  intros H. unfold tuple_w, tuple_handler. destruct (build m) as [a|e|]; cbn [obind]; try reflexivity.
  destruct d as [fs| |]; cbn [with_fields plain on_struct]; try reflexivity. rewrite check_tuple_eq.
  destruct (tuple1 (plain_fields fs)) eqn:T; [|reflexivity]. cbn [obind]. rewrite H by exact T. reflexivity.
Qed.

Lemma takes_type_ok {A} fs (a : A) : tuple1 (plain_fields fs) = true -> takes_type fs a = Ok tt.
Proof. intros H. apply one_type in H as (x & E & _). unfold takes_type, first_type. rewrite E. reflexivity. Qed.

Lemma write_ids_ok l : write_ids id_lexes l = Ok tt.
Proof. induction l as [|c l IH]; cbn [write_ids]; [reflexivity|]. rewrite lexes. exact IH. Qed.

Lemma fields_same {A} (check : fields -> outcome macro_err unit) (ok : syn_fields -> bool) (a : A) d : grammatical d ->
  (forall fs, has_names fs -> check fs = if ok (plain_fields fs) then Ok tt else Err XShape) ->
  with_fields d (fun fs => let? _ := check fs in Ok a) = on_struct ok (plain d) a.
Proof.
  intros G H. destruct d as [fs| |]; cbn [with_fields plain on_struct]; try reflexivity. rewrite H by exact G.
  destruct (ok _); reflexivity.
Qed.

Lemma int_same sg f m d : int_w pw sg f m d = int_handler pw sg f m (plain d).
Proof.
  destruct d as [fs| |]; try reflexivity. unfold int_w, int_handler. cbn [with_fields plain]. rewrite check_tuple_eq.
  destruct (tuple1 (plain_fields fs)) eqn:T.
  - apply one_type in T as (x & E & ->). cbn [obind]. unfold first_type. rewrite E. cbn [unwrap obind].
    destruct (int_type sg (sf_ty x)); [|reflexivity]. rewrite range_w_same. reflexivity.
  - cbn [obind]. destruct fs as [l|l|]; try reflexivity. destruct l as [|x [|y l]]; try reflexivity. discriminate T.
Qed.

Lemma number_same f m d : number_w float_lit f m d <> Panic -> number_w float_lit f m d = number_handler float_lit f m (plain d).
Proof.
  destruct d as [fs| |]; try reflexivity. unfold number_w, number_handler. cbn [with_fields plain]. rewrite check_tuple_eq.
  destruct (tuple1 (plain_fields fs)) eqn:T.
  - apply one_type in T as (x & E & ->). cbn [obind]. unfold first_type. rewrite E. cbn [unwrap obind].
    destruct (float_type (sf_ty x)) as [t|]; [|reflexivity]. intros H. rewrite number_w_same; [reflexivity|].
    intros K. rewrite K in H. apply H. reflexivity.
  - cbn [obind]. destruct fs as [l|l|]; try reflexivity. destruct l as [|x [|y l]]; try reflexivity. discriminate T.
Qed.

Lemma number_panics f m d : number_w float_lit f m d = Panic <->
  exists x t, d = DStruct (FieldsUnnamed [x]) /\ float_type (sf_ty x) = Some t /\ number_attribute_w (float_lit t) f m = Panic.
Proof.
  unfold number_w. split.
  - destruct d as [fs| |]; try discriminate. cbn [with_fields]. rewrite check_tuple_eq.
    destruct (tuple1 (plain_fields fs)) eqn:T; [|discriminate]. destruct fs as [l|l|]; try discriminate T.
    destruct l as [|x [|y l]]; try discriminate T. cbn [obind first_type fields_list unwrap].
    destruct (float_type (sf_ty x)) as [t|] eqn:F; [|discriminate]. intros H. exists x, t. split; [reflexivity|]. split; [exact F|].
    destruct (number_attribute_w (float_lit t) f m) as [a|e|]; [|discriminate H|reflexivity].
    cbn [obind] in H. destruct (number_conflict _ _ _); discriminate H.
  - intros (x & t & -> & F & P). cbn [with_fields check_tuple fields_list List.length Nat.eqb obind first_type unwrap].
    rewrite F, P. reflexivity.
Qed.

Lemma handler_same v f m d : grammatical d ->
  handler_w id_from_str cid_eqb id_lexes compiles float_lit pw v f m d <> Panic ->
  handler_w id_from_str cid_eqb id_lexes compiles float_lit pw v f m d =
  handler id_from_str cid_eqb compiles float_lit pw v f m (plain d).
Proof.
  intros G H.
  destruct v; cbn [handler_w handler] in *;
    try (rewrite tuple_same; [reflexivity|intros fs a T; first [reflexivity | apply takes_type_ok, T | apply write_size_ok | apply write_ids_ok]]);
    try (rewrite int_same; reflexivity).
  - (* domain *)
    f_equal. unfold domain_w, domain_handler. destruct (domain_attribute f m) as [a|e|]; cbn [obind]; try reflexivity.
    destruct d as [fs| |]; cbn [with_fields plain]; try reflexivity. destruct (domain_conflicts a); [reflexivity|].
    rewrite domain_check_eq by exact G. destruct (domain_shape _ _); reflexivity.
  - (* email *)
    f_equal. unfold email_w, email_handler. destruct (email_attribute f m) as [a|e|]; cbn [obind]; try reflexivity.
    destruct d as [fs| |]; cbn [with_fields plain]; try reflexivity. destruct (email_conflicts a); [reflexivity|].
    rewrite email_check_eq by exact G. destruct (email_shape _ _); reflexivity.
  - (* host *)
    f_equal. unfold host_w, host_handler. destruct (host_attribute f m) as [a|e|]; cbn [obind]; try reflexivity.
    apply fields_same; [exact G|]. intros fs. apply host_check_eq.
  - f_equal. unfold http_w, http_handler. destruct (http_attribute f m) as [a|e|]; cbn [obind]; try reflexivity.
    apply fields_same; [exact G|]. intros fs _. apply check_two_eq.
  - f_equal. unfold http_w, http_handler. destruct (http_attribute f m) as [a|e|]; cbn [obind]; try reflexivity.
    apply fields_same; [exact G|]. intros fs _. apply check_two_eq.
  - f_equal. unfold ip_w, ip_handler. destruct (ip_attribute f m) as [a|e|]; cbn [obind]; try reflexivity.
    apply fields_same; [exact G|]. intros fs. apply ip_check_eq.
  - f_equal. unfold ip_w, ip_handler. destruct (ip_attribute f m) as [a|e|]; cbn [obind]; try reflexivity.
    apply fields_same; [exact G|]. intros fs. apply ip_check_eq.
  - f_equal. unfold ip_w, ip_handler. destruct (ip_attribute f m) as [a|e|]; cbn [obind]; try reflexivity.
    apply fields_same; [exact G|]. intros fs. apply ip_check_eq.
  - (* number *)
    f_equal. apply number_same. intros K. rewrite K in H. apply H. reflexivity.
Qed.

Lemma np_on {A} ok d (a : A) : on_struct ok d a <> Panic.
Proof. unfold on_struct. nosplit. Qed.

Lemma np_tuple {A} (build : meta -> outcome macro_err A) m d : build m <> Panic -> tuple_handler build m d <> Panic.
Proof. intros H. apply np_bind; [exact H|]. intros a _. apply np_on. Qed.

(** The macro of MacroModel.v has no panics. *)
Lemma np_handler v f m d : handler id_from_str cid_eqb compiles float_lit pw v f m d <> Panic.
Proof.
  destruct v; cbn [handler]; apply np_omap;
    try (apply np_tuple; first [apply np_basic | apply np_base | apply np_bit | apply np_byte | apply np_coll | apply np_utf8
                               | apply np_hex | apply np_phone | apply np_regex]);
    try (apply np_bind; [first [apply np_http | apply np_ip | apply np_host]|intros; apply np_on]).
  - apply np_bind; [apply np_domain|]. intros a _. nosplit.
  - apply np_bind; [apply np_email|]. intros a _. nosplit.
  - unfold number_handler. nosplit. apply np_bind; [apply np_number_attribute|]. intros a _. nosplit.
  - unfold int_handler. nosplit; apply np_bind; try apply np_range_attribute; discriminate.
  - unfold int_handler. nosplit; apply np_bind; try apply np_range_attribute; discriminate.
Qed.

(** Only the number validator panics. *)
Lemma handler_panics v f m d : grammatical d ->
  handler_w id_from_str cid_eqb id_lexes compiles float_lit pw v f m d = Panic <->
  v = Vnumber /\ number_w float_lit f m d = Panic.
Proof.
  intros G. split.
  - intros H. destruct v; try (split; [reflexivity|]; cbn [handler_w] in H; destruct (number_w float_lit f m d); [discriminate H|discriminate H|reflexivity]);
      exfalso; cbn [handler_w] in H.
    all: try (rewrite tuple_same in H; [revert H; apply np_omap, np_tuple; first [apply np_basic | apply np_base | apply np_bit | apply np_byte | apply np_coll | apply np_utf8
                               | apply np_hex | apply np_phone | apply np_regex]
            |intros fs a T; first [reflexivity | apply takes_type_ok, T | apply write_size_ok | apply write_ids_ok]]).
    all: try (rewrite int_same in H; revert H; apply np_omap; unfold int_handler; nosplit; apply np_bind; try apply np_range_attribute; discriminate).
    all: revert H; apply np_omap; apply np_bind; try first [apply np_domain | apply np_email | apply np_host | apply np_http | apply np_ip];
      intros a _; destruct d as [fs| |]; cbn [with_fields]; try discriminate.
    + destruct (domain_conflicts a); [discriminate|]. rewrite domain_check_eq by exact G. nosplit.
    + destruct (email_conflicts a); [discriminate|]. rewrite email_check_eq by exact G. nosplit.
    + rewrite host_check_eq by exact G. nosplit.
    + rewrite check_two_eq. nosplit.
    + rewrite check_two_eq. nosplit.
    + rewrite ip_check_eq by exact G. destruct (ip_shape _ _ _); discriminate.
    + rewrite ip_check_eq by exact G. destruct (ip_shape _ _ _); discriminate.
    + rewrite ip_check_eq by exact G. destruct (ip_shape _ _ _); discriminate.
  - intros [-> H]. cbn [handler_w]. rewrite H. reflexivity.
Qed.
End Handlers.

(** C113: on a struct as Rust's grammar has it, and if the country ids of phonenumber are Rust tokens, the macro panics exactly
    when all of this holds: the attribute is [number(..)], the struct is a tuple struct with one field of type f32 or f64, a
    [range] argument reads as a range with a bound that is not finite, no other [range] comes before it, and the arguments
    before it are right. Whatever comes after it is not looked at. *)
Theorem C113_panics_exactly : forall cid (id_from_str : list N -> option cid) cid_eqb id_lexes compiles float_lit pw on f d,
  (forall c, id_lexes c = true) -> grammatical (src_data d) ->
  (expand id_from_str cid_eqb id_lexes compiles float_lit pw on f d = Panic <->
   exists p items tr x t pre r post a ro,
     find_validator on (src_attrs d) None = Ok (Some (Vnumber, MList p items tr)) /\
     src_data d = DStruct (FieldsUnnamed [x]) /\ float_type (sf_ty x) = Some t /\
     args_metas items tr = Some (pre ++ r :: post) /\
     number_attribute (float_lit t) SFltb SFleb f (MList p (List.map IMeta pre) false) = Ok a /\
     meta_path r = [bs "range"] /\ Forall (fun y => meta_path y <> [bs "range"]) pre /\
     range_option_meta (float_lit t) SFltb SFleb f r = Ok ro /\ infinite_bound ro).
Proof.
  intros cid ids eqb lex comp fl pw on f d L G. unfold expand. split.
  - destruct (find_validator on (src_attrs d) None) as [[[v m]|]|e|] eqn:F; cbn [obind]; try discriminate.
    2: { intros _. exfalso. exact (np_find _ _ _ F). }
    intros H. apply handler_panics in H as [-> H]; [|exact L|exact G].
    apply number_panics in H as (x & t & D & T & H). apply number_w_panics in H as (p & items & tr & pre & r & post & a & ro & -> & H).
    exists p, items, tr, x, t, pre, r, post, a, ro. split; [reflexivity|]. split; [exact D|]. split; [exact T|]. exact H.
  - intros (p & items & tr & x & t & pre & r & post & a & ro & F & D & T & H). rewrite F. cbn [obind].
    apply handler_panics; [exact L|exact G|]. split; [reflexivity|]. apply number_panics. exists x, t.
    split; [exact D|]. split; [exact T|]. apply number_w_panics. exists p, items, tr, pre, r, post, a, ro. split; [reflexivity|exact H].
Qed.
Print Assumptions C113_panics_exactly.

(** C113: with any other validator the macro does not panic, whatever the attribute and the struct say. *)
Theorem C113_never_panics_partial : forall cid (id_from_str : list N -> option cid) cid_eqb id_lexes compiles float_lit pw on f d,
  (forall c, id_lexes c = true) -> grammatical (src_data d) ->
  (forall m, find_validator on (src_attrs d) None <> Ok (Some (Vnumber, m))) ->
  expand id_from_str cid_eqb id_lexes compiles float_lit pw on f d <> Panic.
Proof.
  intros cid ids eqb lex comp fl pw on f d L G H K. apply C113_panics_exactly in K; [|exact L|exact G].
  destruct K as (p & items & tr & _ & _ & _ & _ & _ & _ & _ & K & _). exact (H _ K).
Qed.
Print Assumptions C113_never_panics_partial.

(** C113: where it does not panic, it is the macro of MacroModel.v, so all that is proved of that one (C53, C66 to C72, C89, C110)
    is true of the one with the panics. *)
Theorem C113_same_macro : forall cid (id_from_str : list N -> option cid) cid_eqb id_lexes compiles float_lit pw on f d,
  (forall c, id_lexes c = true) -> grammatical (src_data d) ->
  expand id_from_str cid_eqb id_lexes compiles float_lit pw on f d <> Panic ->
  expand id_from_str cid_eqb id_lexes compiles float_lit pw on f d =
  derive id_from_str cid_eqb compiles float_lit pw on f
    {| di_attrs := src_attrs d; di_data := plain (src_data d); di_params := src_params d |}.
Proof.
  intros cid ids eqb lex comp fl pw on f d L G. unfold expand, derive. cbn [di_attrs di_data].
  destruct (find_validator on (src_attrs d) None) as [[[v m]|]|e|]; cbn [obind]; try reflexivity. apply handler_same; assumption.
Qed.
Print Assumptions C113_same_macro.

(** [#\[validator(number(range(Inside(max = 1e39)), what))\] struct S(f32);] *)
Definition inf_f32 (later : list item) : source :=
  {| src_attrs := [MList [bs "validator"] [IMeta (MList [bs "number"] (IMeta (MList [bs "range"] [IMeta (MList [bs "Inside"]
       [IMeta (MNameValue [bs "max"] (ELit (LitFloat (bs "1e39"))))] false)] false) :: later) false)] false];
     src_data := DStruct (FieldsUnnamed [mk_field None (bs "f32")]); src_params := 0 |}.

(** C113 is false: [number(range(Inside(max = 1e39)))] on a field of type f32 makes the macro panic, also where an argument
    after it, here [what], is wrong and would otherwise be reported. *)
Theorem C113_panics_refuted :
  exists d d' : source, grammatical (src_data d) /\ grammatical (src_data d') /\
  (forall cid (id_from_str : list N -> option cid) cid_eqb id_lexes compiles pw on f, on Vnumber = true ->
    expand id_from_str cid_eqb id_lexes compiles float_of_text pw on f d = Panic /\
    expand id_from_str cid_eqb id_lexes compiles float_of_text pw on f d' = Panic /\
    derive id_from_str cid_eqb compiles float_of_text pw on f
      {| di_attrs := src_attrs d'; di_data := plain (src_data d'); di_params := src_params d' |} = Err XUnknown).
Proof.
  exists (inf_f32 []), (inf_f32 [IMeta (MPath [bs "what"])]). split; [exact I|]. split; [exact I|].
  intros cid ids eqb lex comp pw on f O.
  assert (F : forall l, find_validator on (src_attrs (inf_f32 l)) None =
    Ok (Some (Vnumber, MList [bs "number"] (IMeta (MList [bs "range"] [IMeta (MList [bs "Inside"]
       [IMeta (MNameValue [bs "max"] (ELit (LitFloat (bs "1e39"))))] false)] false) :: l) false))).
  { intros l. unfold inf_f32. cbn [src_attrs find_validator get_ident meta_path args_meta]. unfold from_path. cbn [get_ident meta_path].
    rewrite str_eqb_refl. vm_compute. rewrite O. reflexivity. }
  unfold expand, derive. cbn [di_attrs di_data src_data inf_f32]. rewrite !F. cbn [obind handler_w handler].
  destruct f as [fs fr ff]. split; [|split]; destruct ff; vm_compute; reflexivity.
Qed.
Print Assumptions C113_panics_refuted.

(** A struct with braces for the ip validator with a port, and the number validator with finite bounds: code is generated. *)
Example C113_example :
  let e := expand (cid := N) (fun _ => None) N.eqb (fun _ => true) (fun _ => true) float_of_text W64 (fun _ => true)
             {| f_serde := true; f_rocket := false; f_full := false |} in
  let at_ m := [MList [bs "validator"] [IMeta m] false] in
  let ip := MList [bs "ip"] [IMeta (MList [bs "port"] [IMeta (MPath [bs "Allow"])] false)] false in
  let number := MList [bs "number"] [IMeta (MList [bs "range"] [IMeta (MList [bs "Inside"]
       [IMeta (MNameValue [bs "max"] (ELit (LitFloat (bs "1e38"))))] false)] false)] false in
  let bit := MList [bs "bit"] [IMeta (MList [bs "range"] [IMeta (MNameValue [bs "min"] (ELit (LitInt (bs "8"))));
       IMeta (MNameValue [bs "max"] (ELit (LitInt (bs "8"))))] false)] false in
  is_ok (e {| src_attrs := at_ ip; src_data := DStruct (FieldsNamed [mk_field (Some (bs "ip")) (bs "IpAddr"); mk_field (Some (bs "port")) (bs "Option<u16>")]); src_params := 0 |}) /\
  e {| src_attrs := at_ ip; src_data := DStruct (FieldsUnnamed [mk_field None (bs "IpAddr"); mk_field None (bs "u16")]); src_params := 0 |} = Err XShape /\
  e {| src_attrs := at_ ip; src_data := DStruct FieldsUnit; src_params := 0 |} = Err XShape /\
  is_ok (e {| src_attrs := at_ number; src_data := DStruct (FieldsUnnamed [mk_field None (bs "f32")]); src_params := 0 |}) /\
  is_ok (e {| src_attrs := at_ bit; src_data := DStruct (FieldsUnnamed [mk_field None (bs "Bit")]); src_params := 0 |}) /\
  grammatical (DStruct (FieldsNamed [mk_field (Some (bs "ip")) (bs "IpAddr"); mk_field (Some (bs "port")) (bs "Option<u16>")])).
Proof.
  cbv zeta. repeat (split; [first [vm_compute; reflexivity | eexists; vm_compute; reflexivity]|]).
  repeat constructor; discriminate.
Qed.

(** A field between braces without a name, which syn never gives, would make the macro panic: the names are not looked at without need. *)
Example C113_unnamed :
  expand (cid := N) (fun _ => None) N.eqb (fun _ => true) (fun _ => true) float_of_text W64 (fun _ => true)
    {| f_serde := true; f_rocket := false; f_full := false |}
    {| src_attrs := [MList [bs "validator"] [IMeta (MList [bs "ip"] [IMeta (MList [bs "port"] [IMeta (MPath [bs "Allow"])] false)] false)] false];
       src_data := DStruct (FieldsNamed [mk_field None (bs "IpAddr"); mk_field (Some (bs "port")) (bs "u16")]); src_params := 0 |} = Panic.
Proof. vm_compute. reflexivity. Qed.
