(** Properties C69 and C70: the derive macro around the attribute. *)
From Coq Require Import Permutation.
From Verif Require Import Base RangeModel IntModel NumberModel MetaModel MacroModel MetaSpec MacroSpec MacroProofs.
Local Open Scope N_scope.

(** C69: if the macro accepts a struct, then the struct literals and field accesses of the generated code fit the
    struct: no further error about field names can follow. Missing: http_url and http_ftp_url, for which it is false. *)
Theorem C69_struct_fits_partial :
  forall cid (id_from_str : list N -> option cid) cid_eqb compiles float_lit pw on f d g fs,
  derive id_from_str cid_eqb compiles float_lit pw on f d = Ok g ->
  di_data d = DataStruct fs -> declared fs ->
  generated g <> Vhttp_url -> generated g <> Vhttp_ftp_url ->
  literal_fits fs (builds g) /\ Forall (access_fits fs) (reads g).
Proof.
  intros cid ifs ceq comp fl pw on f d g fs H Hd Hdecl N1 N2.
  apply derive_lemma in H. destruct H as (pre & post & m & v & _ & _ & _ & _ & H).
  rewrite Hd in H. assert (G := handler_generates _ _ _ _ _ _ _ _ _ _ H). subst v.
  destruct (shape_of _ _ _ _ _ _ _ _ _ _ H (conj N1 N2)) as (ok & Hok & F).
  exact (proj1 (F fs) Hdecl Hok).
Qed.
Print Assumptions C69_struct_fits_partial.

(** C69, converse: whether the macro accepts depends on the struct only through that; every struct that fits what it
    generates is accepted. Numbers are in [C69_numeric_types]. *)
Theorem C69_struct_needed :
  forall cid (id_from_str : list N -> option cid) cid_eqb compiles float_lit pw on f d g fs fs',
  derive id_from_str cid_eqb compiles float_lit pw on f d = Ok g ->
  di_data d = DataStruct fs ->
  generated g <> Vnumber -> generated g <> Vsigned_integer -> generated g <> Vunsigned_integer ->
  literal_fits fs' (builds g) ->
  derive id_from_str cid_eqb compiles float_lit pw on f {| di_attrs := di_attrs d; di_data := DataStruct fs'; di_params := di_params d |} = Ok g.
Proof.
  intros cid ifs ceq comp fl pw on f d g fs fs' H Hd N1 N2 N3 L.
  apply derive_lemma in H. destruct H as (pre & post & m & v & E & Hp & Hm & Ho & H).
  rewrite Hd in H. assert (G := handler_generates _ _ _ _ _ _ _ _ _ _ H). subst v.
  apply derive_lemma. exists pre, post, m, (generated g). repeat split; auto.
  apply (shape_accept _ _ _ _ _ _ _ _ _ _ _ H); auto.
  intros [K|[K|K]]; contradiction.
Qed.
Print Assumptions C69_struct_needed.

(** C69: only structs are accepted. *)
Theorem C69_only_structs :
  forall cid (id_from_str : list N -> option cid) cid_eqb compiles float_lit pw on f d g,
  derive id_from_str cid_eqb compiles float_lit pw on f d = Ok g -> exists fs, di_data d = DataStruct fs /\ fs <> FUnit.
Proof.
  intros cid ifs ceq comp fl pw on f d g H.
  apply derive_lemma in H. destruct H as (pre & post & m & v & E & Hp & Hm & Ho & H).
  destruct (di_data d) as [fs| |] eqn:Hd.
  - exists fs. split; [reflexivity|]. intros ->. clear E Hd.
    destruct v; cbn -[ip_attribute host_attribute domain_attribute email_attribute base_attribute basic_attribute
      bit_attribute byte_attribute coll_meta utf8_meta hex_attribute mac_attribute uuid_attribute phone_attribute
      regex_attribute http_attribute] in H; try discriminate H;
    apply omap_inv in H; destruct H as (a & H & _); unfold tuple_handler, http_handler, ip_handler, host_handler,
      domain_handler, email_handler in H; apply obind_ok in H; destruct H as (b & _ & H);
    unfold on_struct in H; cbn in H; try discriminate H.
    + destruct (domain_conflicts b); [discriminate H|]. unfold domain_shape in H.
      destruct (da_ipv4 b), (tells_local (da_local b) (da_two b)), (da_port b); discriminate H.
    + destruct (email_conflicts b); [discriminate H|]. unfold email_shape in H.
      destruct (ea_comment b), (ea_ip b), (tells_local (ea_local b) (ea_two b)); discriminate H.
    + unfold host_shape in H. destruct (tells_local (ha_local b) (ha_two b)), (ha_port b); discriminate H.
    + destruct (ia_port b); discriminate H.
    + destruct (ia_port b); discriminate H.
    + destruct (ia_port b); discriminate H.
  - exfalso. destruct v; cbn -[ip_attribute host_attribute domain_attribute email_attribute base_attribute basic_attribute
      bit_attribute byte_attribute coll_meta utf8_meta hex_attribute mac_attribute uuid_attribute phone_attribute
      regex_attribute http_attribute] in H; try discriminate H;
    apply omap_inv in H; destruct H as (a & H & _); unfold tuple_handler, http_handler, ip_handler, host_handler,
      domain_handler, email_handler in H; apply obind_ok in H; destruct H as (b & _ & H); discriminate H.
  - exfalso. destruct v; cbn -[ip_attribute host_attribute domain_attribute email_attribute base_attribute basic_attribute
      bit_attribute byte_attribute coll_meta utf8_meta hex_attribute mac_attribute uuid_attribute phone_attribute
      regex_attribute http_attribute] in H; try discriminate H;
    apply omap_inv in H; destruct H as (a & H & _); unfold tuple_handler, http_handler, ip_handler, host_handler,
      domain_handler, email_handler in H; apply obind_ok in H; destruct H as (b & _ & H); discriminate H.
Qed.
Print Assumptions C69_only_structs.

(** C69: the integer and number validators are refused on a field of any other type, and the type is the one of the
    field. *)
Theorem C69_numeric_types :
  forall cid (id_from_str : list N -> option cid) cid_eqb compiles float_lit pw on f d,
  (forall sg t a, derive id_from_str cid_eqb compiles float_lit pw on f d = Ok (GInt sg t a) ->
   di_data d = DataStruct (FUnnamed [match sg, t with
       | true, Isize => bs "isize" | true, I8 => bs "i8" | true, I16 => bs "i16" | true, I32 => bs "i32"
       | true, I64 => bs "i64" | true, I128 => bs "i128"
       | false, Isize => bs "usize" | false, I8 => bs "u8" | false, I16 => bs "u16" | false, I32 => bs "u32"
       | false, I64 => bs "u64" | false, I128 => bs "u128"
       end])) /\
  (forall t a, derive id_from_str cid_eqb compiles float_lit pw on f d = Ok (GNumber t a) ->
   di_data d = DataStruct (FUnnamed [match t with F32 => bs "f32" | F64 => bs "f64" end])).
Proof.
  intros cid ifs ceq comp fl pw on f d. split.
  - intros sg t a H. apply derive_lemma in H. destruct H as (pre & post & m & v & E & Hp & Hm & Ho & H).
    assert (G := handler_generates _ _ _ _ _ _ _ _ _ _ H). cbn in G. subst v.
    destruct sg; cbn [handler] in H; apply omap_inv in H; destruct H as ([t' a'] & H & J); injection J as -> ->;
      apply int_handler_inv in H; destruct H as (ty & -> & T & _); apply int_type_spec in T; subst ty; reflexivity.
  - intros t a H. apply derive_lemma in H. destruct H as (pre & post & m & v & E & Hp & Hm & Ho & H).
    assert (G := handler_generates _ _ _ _ _ _ _ _ _ _ H). cbn in G. subst v.
    cbn [handler] in H; apply omap_inv in H; destruct H as ([t' a'] & H & J); injection J as -> ->.
    apply number_handler_inv in H; destruct H as (ty & -> & T & _); apply float_type_spec in T; subst ty; reflexivity.
Qed.
Print Assumptions C69_numeric_types.

(** C69: and on a field of one of these types they are accepted, whatever other attributes the struct has. *)
Theorem C69_numeric_accepted :
  forall cid (id_from_str : list N -> option cid) cid_eqb compiles float_lit pw on f pre post k,
  (forall x, In x (pre ++ post) -> meta_path x <> [bs "validator"]) ->
  (forall (sg : bool) t, on (if sg then Vsigned_integer else Vunsigned_integer) = true ->
   exists a, derive id_from_str cid_eqb compiles float_lit pw on f
     {| di_attrs := pre ++ MList [bs "validator"] [IMeta (MPath [bs (if sg then "signed_integer" else "unsigned_integer")])] false :: post;
        di_data := DataStruct (FUnnamed [match sg, t with
          | true, Isize => bs "isize" | true, I8 => bs "i8" | true, I16 => bs "i16" | true, I32 => bs "i32"
          | true, I64 => bs "i64" | true, I128 => bs "i128"
          | false, Isize => bs "usize" | false, I8 => bs "u8" | false, I16 => bs "u16" | false, I32 => bs "u32"
          | false, I64 => bs "u64" | false, I128 => bs "u128"
          end]); di_params := k |} = Ok (GInt sg t a)) /\
  (forall t, on Vnumber = true ->
   exists a, derive id_from_str cid_eqb compiles float_lit pw on f
     {| di_attrs := pre ++ MList [bs "validator"] [IMeta (MPath [bs "number"])] false :: post;
        di_data := DataStruct (FUnnamed [match t with F32 => bs "f32" | F64 => bs "f64" end]); di_params := k |} = Ok (GNumber t a)).
Proof.
  intros cid ifs ceq comp fl pw on f pre post k Hp. split.
  - intros sg t Ho. exists (mk_range_attr Unlimited opts0). apply derive_lemma.
    exists pre, post, (MPath [bs (if sg then "signed_integer" else "unsigned_integer")]), (if sg then Vsigned_integer else Vunsigned_integer).
    split; [reflexivity|]. split; [exact Hp|]. split; [destruct sg; reflexivity|]. split; [exact Ho|]. destruct sg, t; reflexivity.
  - intros t Ho. exists (mk_number_attr Unlimited Allow false opts0). apply derive_lemma.
    exists pre, post, (MPath [bs "number"]), Vnumber. split; [reflexivity|]. split; [exact Hp|]. split; [reflexivity|]. split; [exact Ho|].
    destruct t; reflexivity.
Qed.
Print Assumptions C69_numeric_accepted.

Lemma named_in_refl l : named_in l (FNamed l) = true.
Proof.
  unfold named_in. rewrite Nat.eqb_refl. cbn [andb]. apply forallb_forall. intros x I. apply existsb_exists. exists x.
  split; [exact I|clear; induction x as [|c x IH]; [reflexivity|cbn [eqbs]; rewrite N.eqb_refl; exact IH]].
Qed.

(** C69: whatever the attribute says, there is a struct for it, unless its policies contradict each other. *)
Theorem C69_struct_exists :
  forall cid (id_from_str : list N -> option cid) cid_eqb compiles float_lit pw f m,
  let h := handler id_from_str cid_eqb compiles float_lit pw in
  (forall v a, In v [Vip; Vipv4; Vipv6] -> ip_attribute f m = Ok a -> exists fs, h v f m (DataStruct fs) = Ok (GIp v a)) /\
  (forall a, host_attribute f m = Ok a -> exists fs, h Vhost f m (DataStruct fs) = Ok (GHost a)) /\
  (forall a, domain_attribute f m = Ok a ->
     (exists fs, h Vdomain f m (DataStruct fs) = Ok (GDomain a)) \/ (forall fs, h Vdomain f m (DataStruct fs) = Err XConflict)) /\
  (forall a, email_attribute f m = Ok a ->
     (exists fs, h Vemail f m (DataStruct fs) = Ok (GEmail a)) \/ (forall fs, h Vemail f m (DataStruct fs) = Err XConflict)).
Proof.
  assert (NM : forall l, exists fs, named_in l fs = true) by (intros l; exists (FNamed l); apply named_in_refl).
  assert (TU : exists fs, tuple1 fs = true) by (exists (FUnnamed [bs "T"]); reflexivity).
  intros cid ifs ceq comp fl pw f m h. unfold h. cbn [handler]. split; [|split; [|split]].
  - intros v a I E. assert (S : exists fs, ip_shape (match v with Vip => bs "ip" | Vipv4 => bs "ipv4" | _ => bs "ipv6" end) (ia_port a) fs = true).
    { unfold ip_shape. destruct (ia_port a); auto. }
    destruct S as [fs S]. exists fs. destruct I as [<-|[<-|[<-|[]]]]; cbn [handler]; unfold ip_handler; rewrite E; cbn [obind on_struct]; rewrite S; reflexivity.
  - intros a E. assert (S : exists fs, host_shape a fs = true) by (unfold host_shape; destruct (tells_local _ _), (ha_port a); auto).
    destruct S as [fs S]. exists fs. unfold host_handler. rewrite E. cbn [obind on_struct]. rewrite S. reflexivity.
  - intros a E. assert (S : exists fs, domain_shape a fs = true) by (unfold domain_shape; destruct (da_ipv4 a), (tells_local _ _), (da_port a); auto).
    destruct S as [fs S]. unfold domain_handler. rewrite E. cbn [obind].
    destruct (domain_conflicts a); [right; reflexivity|left; exists fs; rewrite S; reflexivity].
  - intros a E. assert (S : exists fs, email_shape a fs = true) by (unfold email_shape; destruct (ea_comment a), (ea_ip a), (tells_local _ _); auto).
    destruct S as [fs S]. unfold email_handler. rewrite E. cbn [obind].
    destruct (email_conflicts a); [right; reflexivity|left; exists fs; rewrite S; reflexivity].
Qed.
Print Assumptions C69_struct_exists.

(** C69: without arguments every validator but regex, which needs its pattern, is accepted on some struct (and then on every struct that
    the generated code fits, [C69_struct_needed]). *)
Theorem C69_plain_accepted :
  forall cid (id_from_str : list N -> option cid) cid_eqb compiles float_lit pw on f v k, on v = true -> v <> Vregex ->
  exists fs g, generated g = v /\
  derive id_from_str cid_eqb compiles float_lit pw on f
    {| di_attrs := [MList [bs "validator"] [IMeta (MPath [validator_name v])] false]; di_data := DataStruct fs; di_params := k |} = Ok g.
Proof.
  intros cid ifs ceq comp fl pw on f v k Ho N.
  assert (H : exists fs g, generated g = v /\ handler ifs ceq comp fl pw v f (MPath [validator_name v]) (DataStruct fs) = Ok g).
  { destruct v; try (exfalso; apply N; reflexivity).
    all: try (exists (FUnnamed [bs "T"]); eexists; split; [|reflexivity]; reflexivity).
    all: try (exists (FUnnamed [bs "i8"]); eexists; split; [|reflexivity]; reflexivity).
    all: try (exists (FUnnamed [bs "u8"]); eexists; split; [|reflexivity]; reflexivity).
    all: try (exists (FUnnamed [bs "f64"]); eexists; split; [|reflexivity]; reflexivity).
    - exists (FNamed [bs "domain"; bs "port"]). eexists. split; [|reflexivity]. reflexivity.
    - exists (FNamed ([bs "local_part"; bs "need_quoted"; bs "domain_part"] ++ comment_names)). eexists. split; [|reflexivity]. reflexivity.
    - exists (FNamed [bs "host"; bs "port"]). eexists. split; [|reflexivity]. reflexivity.
    - exists (FNamed [bs "url"; bs "is_https"]). eexists. split; [|reflexivity]. reflexivity.
    - exists (FNamed [bs "url"; bs "protocol"]). eexists. split; [|reflexivity]. reflexivity.
    - exists (FNamed [bs "ip"; bs "port"]). eexists. split; [|reflexivity]. reflexivity.
    - exists (FNamed [bs "ipv4"; bs "port"]). eexists. split; [|reflexivity]. reflexivity.
    - exists (FNamed [bs "ipv6"; bs "port"]). eexists. split; [|reflexivity]. reflexivity. }
  destruct H as (fs & g & G & H). exists fs, g. split; [exact G|]. apply derive_lemma. exists [], [], (MPath [validator_name v]), v.
  split; [reflexivity|]. split; [intros x []|]. split; [reflexivity|]. split; [exact Ho|exact H].
Qed.
Print Assumptions C69_plain_accepted.

Definition no_countries (s : list N) : option unit := None.
Definition unit_eqb (a b : unit) : bool := true.
Definition macro (on : validator -> bool) (full : bool) (attrs : list meta) (fs : syn_fields) :=
  derive no_countries unit_eqb (fun _ => true) (fun _ _ => None) W64 on
    {| f_serde := true; f_rocket := true; f_full := full |} {| di_attrs := attrs; di_data := DataStruct fs; di_params := 0 |}.
Definition attr (m : meta) : meta := MList [bs "validator"] [IMeta m] false.

Example C69_example :
  let a := attr (MList [bs "host"] [IMeta (MNameValue [bs "port"] (EPath [bs "Must"]));
                                    IMeta (MList [bs "at_least_two_labels"] [IMeta (MPath [bs "Disallow"])] false)] false) in
  let g := GHost (mk_host_attr Allow Must Disallow opts0) in
  macro (fun _ => true) false [MPath [bs "derive"]; a] (FNamed [bs "is_local"; bs "port"; bs "host"]) = Ok g /\
  builds g = Named [(bs "host", THost); (bs "is_local", TBoolean); (bs "port", TU16)] /\
  macro (fun _ => true) false [a] (FNamed [bs "port"; bs "host"]) = Err XShape /\
  macro (fun _ => true) false [a] (FUnnamed [bs "Host"]) = Err XShape /\
  macro (fun _ => true) false [attr (MPath [bs "signed_integer"])] (FUnnamed [bs "i16"])
    = Ok (GInt true I16 (mk_range_attr Unlimited opts0)) /\
  macro (fun _ => true) false [attr (MPath [bs "signed_integer"])] (FUnnamed [bs "u16"]) = Err XShape.
Proof. repeat split. Qed.

(** C69 is false of generic structs: the macro never looks at the parameters of the struct and names it without arguments. *)
Theorem C69_generics_refuted : exists on f d g, di_params d = 1%nat /\ generated g = Vlength /\
  derive no_countries unit_eqb (fun _ => true) (fun _ _ => None) W64 on f d = Ok g /\ header_args g <> di_params d.
Proof.
  exists (fun _ => true), {| f_serde := true; f_rocket := true; f_full := false |},
    {| di_attrs := [attr (MList [bs "length"] [IMeta (MNameValue [bs "min"] (ELit (LitInt (bs "1"))))] false)];
       di_data := DataStruct (FUnnamed [bs "Vec"]); di_params := 1 |}.
  eexists. split; [reflexivity|]. split; [|split; [reflexivity|discriminate]]. reflexivity.
Qed.
Print Assumptions C69_generics_refuted.

Theorem C69_generics_ignored :
  forall cid (id_from_str : list N -> option cid) cid_eqb compiles float_lit pw on f attrs data n g,
  derive id_from_str cid_eqb compiles float_lit pw on f {| di_attrs := attrs; di_data := data; di_params := n |} = Ok g ->
  (forall k, derive id_from_str cid_eqb compiles float_lit pw on f {| di_attrs := attrs; di_data := data; di_params := k |} = Ok g) /\
  (header_args g = n <-> n = 0%nat).
Proof.
  intros cid from eqb comp fl pw on f attrs data n g H. split; [intros k; exact H|]. unfold header_args. split; auto.
Qed.
Print Assumptions C69_generics_ignored.

(** C69 is false of http_url and http_ftp_url: the names of the fields are not checked, so the macro accepts structs on
    which the generated code does not compile. *)
Theorem C69_http_fields_refuted : exists on f attrs fs, forall m, m = MPath [bs "http_url"] \/ m = MPath [bs "http_ftp_url"] ->
  attrs m = [MList [bs "validator"] [IMeta m] false] /\ declared fs /\ exists g,
  derive no_countries unit_eqb (fun _ => true) (fun _ _ => None) W64 on f {| di_attrs := attrs m; di_data := DataStruct fs; di_params := 0 |} = Ok g /\
  ~ literal_fits fs (builds g) /\ ~ Forall (access_fits fs) (reads g).
Proof.
  exists (fun _ => true), {| f_serde := true; f_rocket := true; f_full := true |},
    (fun m => [MList [bs "validator"] [IMeta m] false]), (FNamed [bs "link"; bs "secure"]).
  intros m H. split; [reflexivity|]. split.
  { cbn. repeat constructor; cbn; intuition discriminate. }
  destruct H as [->| ->]; eexists; (split; [reflexivity|]); cbn; split.
  - intros P. assert (I : In (bs "link") [bs "url"; bs "is_https"]) by (rewrite <- P; left; reflexivity).
    cbn in I. intuition discriminate.
  - intros F. inversion F as [|? ? I]. cbn in I. intuition discriminate.
  - intros P. assert (I : In (bs "link") [bs "url"; bs "protocol"]) by (rewrite <- P; left; reflexivity).
    cbn in I. intuition discriminate.
  - intros F. inversion F as [|? ? I]. cbn in I. intuition discriminate.
Qed.
Print Assumptions C69_http_fields_refuted.

(** C69: the struct printed in the compile error is the struct the generated code needs, types included. Missing: byte,
    unsigned_integer, and phone with at most one country, for which it is false. *)
Theorem C69_asked_for_partial :
  forall cid (id_from_str : list N -> option cid) cid_eqb compiles float_lit pw on f d g,
  derive id_from_str cid_eqb compiles float_lit pw on f d = Ok g ->
  generated g <> Vbyte -> generated g <> Vunsigned_integer ->
  (forall a, g = GPhone a -> (1 < List.length (pa_countries a))%nat) ->
  asked_for g = builds g.
Proof.
  intros cid ifs ceq comp fl pw on f d g H N1 N2 N3.
  apply derive_lemma in H. destruct H as (pre & post & m & v & E & Hp & Hm & Ho & H).
  assert (G := handler_generates _ _ _ _ _ _ _ _ _ _ H). subst v.
  exact (asked_for_lemma _ _ _ _ _ _ _ _ _ _ H N1 N2 N3).
Qed.
Print Assumptions C69_asked_for_partial.

Example C69_asked_for_example :
  let g := GEmail (cid := unit) (mk_email_attr false Must Allow Must true false opts0) in
  macro (fun _ => true) false
    [attr (MList [bs "email"] [IMeta (MNameValue [bs "ip"] (EPath [bs "Must"]));
                               IMeta (MNameValue [bs "at_least_two_labels"] (EPath [bs "Must"]));
                               IMeta (MNameValue [bs "comment"] (EPath [bs "Disallow"]))] false)]
    (FNamed [bs "local_part"; bs "need_quoted"; bs "domain_part"; bs "is_local"]) = Ok g /\
  asked_for g = Named [(bs "local_part", TString); (bs "need_quoted", TBoolean); (bs "domain_part", TIpAddr);
                       (bs "is_local", TBoolean)].
Proof. repeat split. Qed.

Theorem C69_asked_for_byte_refuted : exists on f d g,
  derive no_countries unit_eqb (fun _ => true) (fun _ _ => None) W64 on f d = Ok g /\
  generated g = Vbyte /\ asked_for g = Tuple [TBit] /\ builds g = Tuple [TByte].
Proof.
  exists (fun _ => true), {| f_serde := true; f_rocket := true; f_full := true |},
    {| di_attrs := [attr (MPath [bs "byte"])]; di_data := DataStruct (FUnnamed [bs "Byte"]); di_params := 0 |}.
  eexists. split; [reflexivity|]. repeat split.
Qed.
Print Assumptions C69_asked_for_byte_refuted.

Theorem C69_asked_for_unsigned_refuted : exists on f d g,
  derive no_countries unit_eqb (fun _ => true) (fun _ _ => None) W64 on f d = Ok g /\
  generated g = Vunsigned_integer /\ asked_for g = Tuple [TSignedInteger] /\ builds g = Tuple [TUnsignedInteger].
Proof.
  exists (fun _ => true), {| f_serde := true; f_rocket := true; f_full := true |},
    {| di_attrs := [attr (MPath [bs "unsigned_integer"])]; di_data := DataStruct (FUnnamed [bs "u8"]); di_params := 0 |}.
  eexists. split; [reflexivity|]. repeat split.
Qed.
Print Assumptions C69_asked_for_unsigned_refuted.

Theorem C69_asked_for_phone_refuted : exists on f d g,
  derive no_countries unit_eqb (fun _ => true) (fun _ _ => None) W64 on f d = Ok g /\
  generated g = Vphone /\ asked_for g = Tuple [TString] /\ builds g = Tuple [TPhoneNumber].
Proof.
  exists (fun _ => true), {| f_serde := true; f_rocket := true; f_full := true |},
    {| di_attrs := [attr (MPath [bs "phone"])]; di_data := DataStruct (FUnnamed [bs "String"]); di_params := 0 |}.
  eexists. split; [reflexivity|]. repeat split.
Qed.
Print Assumptions C69_asked_for_phone_refuted.

(** C69: these are all the exceptions, and they are exceptions for every attribute: what the compile error asks for where the
    generated code needs something else. *)
Theorem C69_asked_for_wrong :
  forall cid (id_from_str : list N -> option cid) cid_eqb compiles float_lit pw on f d g,
  derive id_from_str cid_eqb compiles float_lit pw on f d = Ok g ->
  (asked_for g = builds g <->
   generated g <> Vbyte /\ generated g <> Vunsigned_integer /\ forall a, g = GPhone a -> (1 < List.length (pa_countries a))%nat) /\
  (asked_for g <> builds g ->
   asked_for g = Tuple [match generated g with Vbyte => TBit | Vunsigned_integer => TSignedInteger | _ => TString end] /\
   builds g = Tuple [match generated g with Vbyte => TByte | Vunsigned_integer => TUnsignedInteger | _ => TPhoneNumber end]).
Proof.
  intros cid ifs ceq comp fl pw on f d g H.
  assert (D : (generated g <> Vbyte /\ generated g <> Vunsigned_integer /\ forall a, g = GPhone a -> (1 < List.length (pa_countries a))%nat) \/
              asked_for g <> builds g /\
              asked_for g = Tuple [match generated g with Vbyte => TBit | Vunsigned_integer => TSignedInteger | _ => TString end] /\
              builds g = Tuple [match generated g with Vbyte => TByte | Vunsigned_integer => TUnsignedInteger | _ => TPhoneNumber end] /\
              (generated g = Vbyte \/ generated g = Vunsigned_integer \/ exists a, g = GPhone a /\ ~ (1 < List.length (pa_countries a))%nat)).
  { apply derive_lemma in H. destruct H as (pre & post & m & v & E & Hp & Hm & Ho & H).
    assert (G := handler_generates _ _ _ _ _ _ _ _ _ _ H). rewrite G.
    destruct v; try (left; split; [discriminate|]; split; [discriminate|]; intros a ->; discriminate G);
      apply omap_inv in H as (x & _ & ->).
    - right. split; [discriminate|]. split; [reflexivity|]. split; [reflexivity|]. left. reflexivity.
    - destruct (lt_dec 1 (List.length (pa_countries x))) as [L|L].
      + left. split; [discriminate|]. split; [discriminate|]. intros a X. injection X as <-. exact L.
      + right. cbn [asked_for builds simple_item simple_builds].
        assert (Q : List.length (pa_countries x) = 0%nat \/ List.length (pa_countries x) = 1%nat) by lia.
        destruct Q as [Q|Q]; rewrite Q; (split; [discriminate|]; split; [reflexivity|]; split; [reflexivity|]; right; right; exists x; auto).
    - right. split; [discriminate|]. split; [reflexivity|]. split; [reflexivity|]. right. left. reflexivity. }
  destruct D as [(N1 & N2 & N3)|(N & A & B & W)].
  - pose proof (C69_asked_for_partial _ _ _ _ _ _ _ _ _ _ H N1 N2 N3) as Q. split; [split; [auto|intros _; exact Q]|]. intros X. contradiction.
  - split; [|auto]. split; [contradiction|]. intros (N1 & N2 & N3). exfalso.
    destruct W as [W|[W|(a & W & L)]]; [contradiction|contradiction|]. apply L, N3, W.
Qed.
Print Assumptions C69_asked_for_wrong.

(** C69: the policies decide the fields. [port(Must)] gives a [u16], [port(Allow)] an [Option<u16>],
    [port(Disallow)] no field. *)
Definition port_field (b : fields_of) (p : tri) : Prop :=
  match b with
  | Named l => forall t, In (bs "port", t) l <-> (p = Must /\ t = TU16) \/ (p = Allow /\ t = TOptionU16)
  | Tuple ts => p = Disallow /\ List.length ts = 1%nat
  end.
Theorem C69_port_field : forall cid (v : validator) (ip : ip_attr) (h : host_attr) (d : domain_attr),
  (v = Vip \/ v = Vipv4 \/ v = Vipv6) ->
  port_field (builds (GIp (cid := cid) v ip)) (ia_port ip) /\
  port_field (builds (GHost (cid := cid) h)) (ha_port h) /\
  port_field (builds (GDomain (cid := cid) d)) (da_port d).
Proof.
  assert (T : forall l (p : tri),
    (forall t, In (bs "port", t) l -> (p = Must /\ t = TU16) \/ (p = Allow /\ t = TOptionU16)) ->
    (p = Must -> In (bs "port", TU16) l) -> (p = Allow -> In (bs "port", TOptionU16) l) -> port_field (Named l) p).
  { intros l p H1 H2 H3 t. split; [apply H1|]. intros [[A ->]|[A ->]]; auto. }
  assert (D : forall p, p = Disallow -> forall t, port_field (Tuple [t]) p) by (intros p E t; split; auto).
  intros cid v ip h d Hv. split; [|split].
  - destruct Hv as [->|[->| ->]]; cbn [builds ip_field fst snd]; unfold ip_builds; destruct (ia_port ip);
      first [apply D; reflexivity|apply T; try discriminate; cbn; auto 10];
      intros t H; repeat (destruct H as [H|H]; [first [discriminate H|injection H as <-; auto]|]); destruct H.
  - cbn [builds]; unfold host_builds; destruct (tells_local _ _), (ha_port h);
      first [apply D; reflexivity|apply T; try discriminate; cbn; auto 10];
      intros t H; repeat (destruct H as [H|H]; [first [discriminate H|injection H as <-; auto]|]); destruct H.
  - cbn [builds]; unfold domain_builds; destruct (da_ipv4 d), (tells_local _ _), (da_port d);
      first [apply D; reflexivity|apply T; try discriminate; cbn; auto 10];
      intros t H; repeat (destruct H as [H|H]; [first [discriminate H|injection H as <-; auto]|]); destruct H.
Qed.
Print Assumptions C69_port_field.

(** C70: the macro runs exactly when one of the attributes is [#\[validator(..)\]], it contains one parameter, and its
    name is that of a validator whose cargo feature is on; then it is that validator which is generated. *)
Theorem C70_one_attribute :
  forall cid (id_from_str : list N -> option cid) cid_eqb compiles float_lit pw on f d g,
  derive id_from_str cid_eqb compiles float_lit pw on f d = Ok g ->
  on (generated g) = true /\
  exists pre post m, di_attrs d = pre ++ MList [bs "validator"] [IMeta m] false :: post /\
    (forall x, In x (pre ++ post) -> meta_path x <> [bs "validator"]) /\
    meta_path m = [validator_name (generated g)].
Proof.
  intros cid ifs ceq comp fl pw on f d g H.
  apply derive_lemma in H. destruct H as (pre & post & m & v & E & Hp & Hm & Ho & H).
  assert (G := handler_generates _ _ _ _ _ _ _ _ _ _ H). subst v. split; [exact Ho|]. exists pre, post, m. auto.
Qed.
Print Assumptions C70_one_attribute.

(** C70: other attributes do not matter, wherever they stand. *)
Theorem C70_others_ignored :
  forall cid (id_from_str : list N -> option cid) cid_eqb compiles float_lit pw on f d g pre post pre' post' m,
  derive id_from_str cid_eqb compiles float_lit pw on f d = Ok g ->
  di_attrs d = pre ++ MList [bs "validator"] [IMeta m] false :: post ->
  (forall x, In x (pre' ++ post') -> meta_path x <> [bs "validator"]) ->
  derive id_from_str cid_eqb compiles float_lit pw on f
    {| di_attrs := pre' ++ MList [bs "validator"] [IMeta m] false :: post'; di_data := di_data d; di_params := di_params d |} = Ok g.
Proof.
  intros cid ifs ceq comp fl pw on f d g pre post pre' post' m H E Hq.
  apply derive_lemma in H. destruct H as (p & q & m' & v & E' & Hp & Hm & Ho & H).
  rewrite E in E'. destruct (split_unique _ is_validator_attr _ _ _ _ _ _ E' eq_refl Hp) as [J _]. injection J as <-.
  apply derive_lemma. exists pre', post', m, v. auto.
Qed.
Print Assumptions C70_others_ignored.

(** C70: no such attribute, or two of them, is an error; the names of the validators are all different. *)
Theorem C70_none_or_two :
  forall cid (id_from_str : list N -> option cid) cid_eqb compiles float_lit pw on f d,
  ((forall x, In x (di_attrs d) -> meta_path x <> [bs "validator"]) ->
   derive id_from_str cid_eqb compiles float_lit pw on f d = Err XNotSet) /\
  (forall a b c x y, di_attrs d = a ++ x :: b ++ y :: c ->
   meta_path x = [bs "validator"] -> meta_path y = [bs "validator"] ->
   forall g, derive id_from_str cid_eqb compiles float_lit pw on f d <> Ok g) /\
  (forall v w, validator_name v = validator_name w -> v = w).
Proof.
  intros cid ifs ceq comp fl pw on f d. split; [|split].
  - intros H. unfold derive. rewrite (proj2 (find_nothing on (di_attrs d)) H). reflexivity.
  - intros a b c x y E Hx Hy g H.
    apply derive_lemma in H. destruct H as (p & q & m & v & E' & Hp & _).
    rewrite E in E'. destruct (split_unique _ is_validator_attr _ _ _ _ _ _ E' Hx Hp) as (_ & -> & <-).
    refine (Hp y _ Hy). apply in_or_app. right. apply in_or_app. right. left. reflexivity.
  - intros v w H. assert (A := validator_of_name v). rewrite H, validator_of_name in A. congruence.
Qed.
Print Assumptions C70_none_or_two.

Example C70_example :
  macro (fun _ => true) false [MPath [bs "inline"]; attr (MPath [bs "boolean"]); MPath [bs "doc"]] (FUnnamed [bs "bool"])
    = Ok (GBasic Vboolean opts0) /\
  macro (fun _ => true) false [attr (MPath [bs "boolean"]); attr (MPath [bs "boolean"])] (FUnnamed [bs "bool"]) = Err XOnlyOne /\
  macro (fun _ => true) false [MPath [bs "inline"]] (FUnnamed [bs "bool"]) = Err XNotSet /\
  macro (fun v => match v with Vboolean => false | _ => true end) false [attr (MPath [bs "boolean"])] (FUnnamed [bs "bool"])
    = Err XUnsupported /\
  macro (fun _ => true) false [MPath [bs "validator"]] (FUnnamed [bs "bool"]) = Err XFormat.
Proof. repeat split. Qed.
