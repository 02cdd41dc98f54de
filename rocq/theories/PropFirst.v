(** Property C66, phone: the order of two tests in the attribute makes no difference but for the error that is shown. *)
From Verif Require Import Base MetaModel MetaSpec MetaProofs.
From Verif Require Import AdviceProofs CrashProofs PropMeta.
Local Open Scope N_scope.

(** Models the closure [handler] and its loop as they are written for phone: the test for a second [countries] comes before its value
    is read, that for a second [serde] or [rocket] after.
    (/repo/validators-derive/src/validator_handlers/phone/phone_attribute.rs:41-96.) *)
Fixpoint phone_loop {St} (tbl : list (param St)) (flags : list ident) (st : St) (ms : list meta)
  : outcome macro_err St :=
  match ms with
  | [] => Ok st
  | m :: ms =>
      match get_ident (meta_path m) with
      | None => Err XUnknown
      | Some i =>
          match find (fun p => eqbs i (p_name p)) tbl with
          | None => Err XUnknown
          | Some p =>
              if eqbs i (bs "countries") && is_set flags i then Err XReset
              else
                let? v := p_read p m in
                if is_set flags i then Err XReset
                else phone_loop tbl (i :: flags) (p_set p v st) ms
          end
      end
  end.

(** Models [PhoneAttribute::build_from_meta], with that loop.
    (/repo/validators-derive/src/validator_handlers/phone/phone_attribute.rs:21-104.) *)
Definition phone_attribute_first {cid} (id_from_str : list N -> option cid) (cid_eqb : cid -> cid -> bool) (f : features) (m : meta)
  : outcome macro_err (phone_attr cid) :=
  match m with
  | MPath _ => Ok (mk_phone_attr [] opts0)
  | MNameValue _ _ => Err XFormat
  | MList _ items tr =>
      match args_metas items tr with
      | Some ms =>
          phone_loop
            (mk_param (bs "countries") (list cid) (countries_from_meta id_from_str cid_eqb) (fun v s => mk_phone_attr v (pa_opts s)) pa_countries
             :: opts_params f pa_opts (fun o s => mk_phone_attr (pa_countries s) o))
            [] (mk_phone_attr [] opts0) ms
      | None => Err XSyntax
      end
  end.

Lemma loop_first {St} (tbl : list (param St)) ms : forall flags st,
  phone_loop tbl flags st ms = attr_loop tbl flags st ms \/
  phone_loop tbl flags st ms = Err XReset /\ (forall a, attr_loop tbl flags st ms <> Ok a) /\
    ~ NoDup (List.map (fun i => [i]) flags ++ List.map meta_path ms).
Proof.
  induction ms as [|m ms IH]; intros flags st; cbn [phone_loop attr_loop]; [now left|].
  destruct (get_ident (meta_path m)) as [i|] eqn:G; [|now left].
  destruct (find _ tbl) as [p|]; [|now left].
  assert (meta_path m = [i]) as Pm.
  { destruct (meta_path m) as [|x [|y r]]; cbn in G; congruence. }
  destruct (eqbs i (bs "countries") && is_set flags i)%bool eqn:E.
  - right. apply andb_true_iff in E as [_ E]. split; [reflexivity|]. split.
    + intros a. rewrite E. destruct (p_read p m); cbn [obind]; discriminate.
    + unfold is_set in E. apply existsb_exists in E as (j & J & E). apply str_eqb_eq in E. subst j.
      intros D. cbn [List.map] in D. rewrite Pm in D. apply NoDup_remove_2 in D. apply D. apply in_app_iff. left.
      apply in_map_iff. exists i. now split.
  - destruct (p_read p m) as [v|e|]; cbn [obind]; [|now left|now left]. destruct (is_set flags i); [now left|].
    destruct (IH (i :: flags) (p_set p v st)) as [->|(-> & N & D)]; [now left|right].
    split; [reflexivity|]. split; [exact N|]. intros X. apply D. cbn [List.map app]. rewrite <- Pm.
    cbn [List.map] in X. apply NoDup_remove in X as [X1 X2]. now constructor.
Qed.

(** C66: the code as it is written accepts what the model of C66 accepts and with the same result, does not panic, and if it
    shows another error, that is because the name of a parameter is given twice, and it says so. *)
Theorem C66_phone_first : forall f cid (id_from_str : list N -> option cid) cid_eqb m,
  (forall a, phone_attribute_first id_from_str cid_eqb f m = Ok a <-> phone_attribute id_from_str cid_eqb f m = Ok a) /\
  phone_attribute_first id_from_str cid_eqb f m <> Panic /\
  (forall e, phone_attribute_first id_from_str cid_eqb f m = Err e -> phone_attribute id_from_str cid_eqb f m = Err e \/
     e = XReset /\ exists ms, arguments m ms /\ ~ NoDup (List.map meta_path ms)) /\
  (forall e, phone_attribute_first id_from_str cid_eqb f m = Err e ->
     table_fault [bs "countries"; bs "serde"; bs "rocket"] f m e).
Proof.
  intros f cid ifs ceq m. pose proof (np_phone cid ifs ceq f m) as NP. pose proof (phone_fault f cid ifs ceq m) as PF.
  assert (phone_attribute_first ifs ceq f m = phone_attribute ifs ceq f m \/
          phone_attribute_first ifs ceq f m = Err XReset /\ (forall a, phone_attribute ifs ceq f m <> Ok a) /\
          exists ms, arguments m ms /\ ~ NoDup (List.map meta_path ms)) as K.
  { unfold phone_attribute_first, phone_attribute, build_from_meta. destruct m as [p|p x|p items tr]; [now left|now left|].
    destruct (args_metas items tr) as [ms|] eqn:A; [|now left].
    destruct (loop_first (mk_param (bs "countries") (list cid) (countries_from_meta ifs ceq) (fun v s => mk_phone_attr v (pa_opts s)) pa_countries
             :: opts_params f pa_opts (fun o s => mk_phone_attr (pa_countries s) o)) ms [] (mk_phone_attr [] opts0)) as [E|(E & N & D)]; [now left|].
    right. split; [exact E|]. split; [exact N|]. exists ms. split; [|exact D].
    apply args_metas_spec in A. exact A. }
  destruct K as [->|(-> & N & ms & A & D)].
  - repeat split; auto.
  - split; [intros a; split; [discriminate|intros E; destruct (N a E)]|]. split; [discriminate|]. split.
    + intros e E. injection E as <-. right. split; [reflexivity|]. now exists ms.
    + intros e E. injection E as <-. exists ms. split; [exact A|now left].
Qed.
Print Assumptions C66_phone_first.

(** Non-triviality: an attribute whose second [countries] cannot be read. The code says that it is given twice; read first, its value
    would be the error. *)
Example C66_phone_first_example :
  let ids := fun s => if eqbs s (bs "TW") then Some 1 else None in
  let one := IMeta (MList [bs "countries"] [IMeta (MPath [bs "TW"])] false) in
  let two := IMeta (MPath [bs "countries"]) in
  let f := {| f_full := false; f_serde := true; f_rocket := true |} in
  phone_attribute_first ids N.eqb f (MList [bs "phone"] [one; two] false) = Err XReset /\
  phone_attribute ids N.eqb f (MList [bs "phone"] [one; two] false) = Err XValue /\
  exists a, phone_attribute_first ids N.eqb f (MList [bs "phone"] [one] true) = Ok a /\ pa_countries a = [1].
Proof. cbn zeta. split; [vm_compute; reflexivity|]. split; [vm_compute; reflexivity|]. eexists. split; vm_compute; reflexivity. Qed.
Print Assumptions C66_phone_first_example.
