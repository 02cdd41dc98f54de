(** The derive macro with the places at which it panics: the idents and types of the fields, which syn keeps in [Option]s and
    lists, the bounds it unwraps, and the literals it writes. MacroModel.v models the same code without them. *)
From Coq Require Import SpecFloat.
From Verif Require Import Base IntStr RangeModel SizeModel IntModel NumberModel LengthModel BaseModel MacModel PhoneModel
  DomainModel HostModel EmailModel MetaModel MacroModel TokensModel.
Local Open Scope N_scope.

(** Models [syn::Field]: the ident is an [Option].
    (as used in e.g. /repo/validators-derive/src/validator_handlers/ip/mod.rs:55 and json/mod.rs:31.) *)
Record syn_field := mk_field { sf_ident : option ident; sf_ty : list N }.

(** Models [syn::Fields] and [syn::Data].
    (as matched in e.g. /repo/validators-derive/src/validator_handlers/json/mod.rs:23-26.) *)
Inductive fields := FieldsNamed (l : list syn_field) | FieldsUnnamed (l : list syn_field) | FieldsUnit.
Inductive data := DStruct (fs : fields) | DEnum | DUnion.

(** Models [Fields::iter] and [Fields::len].
    (e.g. /repo/validators-derive/src/validator_handlers/ip/mod.rs:47, 54.) *)
Definition fields_list (fs : fields) : list syn_field :=
  match fs with FieldsNamed l => l | FieldsUnnamed l => l | FieldsUnit => [] end.

(** Models [Option::unwrap].
    (e.g. /repo/validators-derive/src/validator_handlers/ip/mod.rs:55.) *)
Definition unwrap {A} (o : option A) : outcome macro_err A := match o with Some a => Ok a | None => Panic end.

(** Models [data.fields.into_iter().next().unwrap().ty],
    /repo/validators-derive/src/validator_handlers/json/mod.rs:31 (length/mod.rs:28, number/mod.rs:32, signed_integer/mod.rs:36,
    unsigned_integer/mod.rs:36). *)
Definition first_type (fs : fields) : outcome macro_err (list N) :=
  let? x := unwrap (match fields_list fs with [] => None | x :: _ => Some x end) in Ok (sf_ty x).

(** Models the loop [for field in data.fields.iter()] that looks at the names, e.g.
    /repo/validators-derive/src/validator_handlers/ip/mod.rs:54-66. *)
Fixpoint names_loop (names : list ident) (l : list syn_field) : outcome macro_err unit :=
  match l with
  | [] => Ok tt
  | x :: l => let? i := unwrap (sf_ident x) in if existsb (eqbs i) names then names_loop names l else Err XShape
  end.

(** Models the check of a struct with named fields, e.g. /repo/validators-derive/src/validator_handlers/ip/mod.rs:46-72. *)
Definition check_named (names : list ident) (fs : fields) : outcome macro_err unit :=
  match fs with
  | FieldsNamed _ =>
      if Nat.eqb (List.length (fields_list fs)) (List.length names) then names_loop names (fields_list fs) else Err XShape
  | _ => Err XShape
  end.

(** Models the check of a tuple struct, e.g. /repo/validators-derive/src/validator_handlers/ip/mod.rs:103-111. *)
Definition check_tuple (fs : fields) : outcome macro_err unit :=
  match fs with
  | FieldsUnnamed _ => if Nat.eqb (List.length (fields_list fs)) 1 then Ok tt else Err XShape
  | _ => Err XShape
  end.

(** Models the check of the url validators,
    /repo/validators-derive/src/validator_handlers/http_url/mod.rs:30-33 and http_ftp_url/mod.rs:30-33. *)
Definition check_two (fs : fields) : outcome macro_err unit :=
  match fs with
  | FieldsNamed _ => if Nat.eqb (List.length (fields_list fs)) 2 then Ok tt else Err XShape
  | _ => Err XShape
  end.

(** Models the checks of the ip validators, /repo/validators-derive/src/validator_handlers/ip/mod.rs:44-112 (ipv4/mod.rs:44-112,
    ipv6/mod.rs:44-112). *)
Definition ip_check (n : ident) (port : tri) (fs : fields) : outcome macro_err unit :=
  match port with
  | Allow => check_named [n; bs "port"] fs
  | Must => check_named [n; bs "port"] fs
  | Disallow => check_tuple fs
  end.

(** Models the checks, /repo/validators-derive/src/validator_handlers/host/mod.rs:74-236. *)
Definition host_check (a : host_attr) (fs : fields) : outcome macro_err unit :=
  if tells_local (ha_local a) (ha_two a) then
    match ha_port a with
    | Allow => check_named [bs "host"; bs "is_local"; bs "port"] fs
    | Must => check_named [bs "host"; bs "is_local"; bs "port"] fs
    | Disallow => check_named [bs "host"; bs "is_local"] fs
    end
  else
    match ha_port a with
    | Allow => check_named [bs "host"; bs "port"] fs
    | Must => check_named [bs "host"; bs "port"] fs
    | Disallow => check_tuple fs
    end.

(** Models the checks, /repo/validators-derive/src/validator_handlers/domain/mod.rs:142-495. *)
Definition domain_check (a : domain_attr) (fs : fields) : outcome macro_err unit :=
  match da_ipv4 a with
  | Allow =>
      if tells_local (da_local a) (da_two a) then
        match da_port a with
        | Allow => check_named [bs "domain"; bs "is_ipv4"; bs "is_local"; bs "port"] fs
        | Must => check_named [bs "domain"; bs "is_ipv4"; bs "is_local"; bs "port"] fs
        | Disallow => check_named [bs "domain"; bs "is_ipv4"; bs "is_local"] fs
        end
      else
        match da_port a with
        | Allow => check_named [bs "domain"; bs "port"] fs
        | Must => check_named [bs "domain"; bs "port"] fs
        | Disallow => check_tuple fs
        end
  | _ =>
      if tells_local (da_local a) (da_two a) then
        match da_port a with
        | Allow => check_named [bs "domain"; bs "is_local"; bs "port"] fs
        | Must => check_named [bs "domain"; bs "is_local"; bs "port"] fs
        | Disallow => check_named [bs "domain"; bs "is_local"] fs
        end
      else
        match da_port a with
        | Allow => check_named [bs "domain"; bs "port"] fs
        | Must => check_named [bs "domain"; bs "port"] fs
        | Disallow => check_tuple fs
        end
  end.

(** Models the checks, /repo/validators-derive/src/validator_handlers/email/mod.rs:184-580. *)
Definition email_check (a : email_attr) (fs : fields) : outcome macro_err unit :=
  let base := [bs "local_part"; bs "need_quoted"; bs "domain_part"] in
  let comments := if ea_comment a then comment_names else [] in
  if tells_local (ea_local a) (ea_two a) then check_named (base ++ comments ++ [bs "is_local"]) fs
  else check_named (base ++ comments) fs.

(** Models [range.min.unwrap()] of the ranges with one element,
    /repo/validators-derive/src/validator_handlers/bit/mod.rs:46-53 and byte/mod.rs:48-55. *)
Definition write_size (r : range N) : outcome macro_err unit :=
  if range_equal N N.eqb u128_inc false (r_min r) (r_max r) (r_incl r) then let? _ := unwrap (r_min r) in Ok tt else Ok tt.

(** Models [build_from_meta] of an attribute whose [range] is turned into tokens when it has been read, before the next
    parameter is looked at: /repo/validators-derive/src/validator_handlers/number/number_attribute.rs:45-138 and
    /repo/validators-derive/src/common/attributes/range_attribute.rs:39-106. [write] is the conversion
    [range = v.into()], number_attribute.rs:66 and range_attribute.rs:58. *)
Fixpoint write_loop {St} (tbl : list (param St)) (write : ident -> St -> outcome macro_err unit) (flags : list ident) (st : St) (ms : list meta)
  : outcome macro_err St :=
  match ms with
  | [] => Ok st
  | m :: ms =>
      match get_ident (meta_path m) with
      | None => Err XUnknown
      | Some i =>
          match find (fun p => eqbs i (p_name p)) tbl with
          | None => Err XUnknown
          | Some p =>
              let? v := p_read p m in
              if is_set flags i then Err XReset
              else
                let? _ := write i (p_set p v st) in
                write_loop tbl write (i :: flags) (p_set p v st) ms
          end
      end
  end.
Definition build_and_write {St} (tbl : list (param St)) (write : ident -> St -> outcome macro_err unit) (defaults : St) (m : meta)
  : outcome macro_err St :=
  match m with
  | MPath _ => Ok defaults
  | MNameValue _ _ => Err XFormat
  | MList _ items tr =>
      match args_metas items tr with
      | Some ms => write_loop tbl write [] defaults ms
      | None => Err XSyntax
      end
  end.

(** Models [NumberAttribute::build_from_meta] with the literals,
    /repo/validators-derive/src/validator_handlers/number/number_attribute.rs:26-148. *)
Definition number_attribute_w (from_str : list N -> option spec_float) (f : features) (m : meta)
  : outcome macro_err (number_attr spec_float) :=
  build_and_write
    (mk_param (bs "range") (range_option spec_float) (range_option_meta from_str SFltb SFleb f)
       (fun v s => mk_number_attr v (na_nan s) (na_conflict s) (na_opts s)) na_range
     :: mk_param (bs "nan") tri tri_from_meta
       (fun v s => mk_number_attr (na_range s) v (na_conflict s) (na_opts s)) na_nan
     :: mk_param (bs "conflict") bool allow_from_meta
       (fun v s => mk_number_attr (na_range s) (na_nan s) v (na_opts s)) na_conflict
     :: opts_params f na_opts (fun o s => mk_number_attr (na_range s) (na_nan s) (na_conflict s) o))
    (fun i s => if eqbs i (bs "range")
                then omap (fun _ => tt) (write_range float_literal (to_tokens spec_float SFeqb float_inc true) (na_range s))
                else Ok tt)
    (mk_number_attr Unlimited Allow false opts0) m.

(** Models [RangeAttribute::build_from_meta] with the literals,
    /repo/validators-derive/src/common/attributes/range_attribute.rs:22-112. *)
Definition range_attribute_w (from_str : list N -> option Z) (inc : Z -> option Z) (f : features) (m : meta)
  : outcome macro_err (range_attr Z) :=
  build_and_write
    (mk_param (bs "range") (range_option Z) (range_option_meta from_str Z.ltb Z.leb f)
       (fun v s => mk_range_attr v (ra_opts s)) ra_range
     :: opts_params f ra_opts (fun o s => mk_range_attr (ra_range s) o))
    (fun i s => if eqbs i (bs "range")
                then omap (fun _ => tt) (write_range int_literal (to_tokens Z Z.eqb inc false) (ra_range s))
                else Ok tt)
    (mk_range_attr Unlimited opts0) m.

(** A struct with attributes, as syn gives it to the macro; of the generics only the number of parameters is kept.
    (/repo/validators-derive/src/lib.rs:26-30.) *)
Record source := { src_attrs : list meta; src_data : data; src_params : nat }.

Section Expand.
Context {cid : Type}.
(** As in MacroModel.v; [id_lexes] is [TokenStream::from_str(id.as_ref()).is_ok()] (crates phonenumber and proc_macro2). *)
Variable id_from_str : list N -> option cid.
Variable cid_eqb : cid -> cid -> bool.
Variable id_lexes : cid -> bool.
Variable compiles : list N -> bool.
Variable float_lit : fty -> list N -> option spec_float.
Variable pw : ptr_width.

(** Models the test of [ast.data] followed by the checks and what the code generation unwraps.
    (e.g. /repo/validators-derive/src/validator_handlers/json/mod.rs:23-31 and 272-275.) *)
Definition with_fields {A} (d : data) (k : fields -> outcome macro_err A) : outcome macro_err A :=
  match d with DStruct fs => k fs | _ => Err XShape end.

(** Models the [meta_handler] of the validators of a tuple struct with one field, e.g.
    /repo/validators-derive/src/validator_handlers/base32/mod.rs:19-25; [after] is what the code generation unwraps. *)
Definition tuple_w {A} (build : meta -> outcome macro_err A) (after : fields -> A -> outcome macro_err unit) (m : meta) (d : data)
  : outcome macro_err A :=
  let? a := build m in
  with_fields d (fun fs => let? _ := check_tuple fs in let? _ := after fs a in Ok a).

(** Nothing is unwrapped after the check.
    (e.g. /repo/validators-derive/src/validator_handlers/base32/mod.rs:26-130.) *)
Definition nothing {A} (fs : fields) (a : A) : outcome macro_err unit := Ok tt.

(** [let data_type = ..], /repo/validators-derive/src/validator_handlers/json/mod.rs:31 and length/mod.rs:28. *)
Definition takes_type {A} (fs : fields) (a : A) : outcome macro_err unit := let? _ := first_type fs in Ok tt.

(** Models [TokenStream::from_str(id.as_ref()).unwrap()] for the countries of a phone validator,
    /repo/validators-derive/src/validator_handlers/phone/mod.rs:36-41, 68-70 and 92-95. *)
Fixpoint write_ids (l : list cid) : outcome macro_err unit :=
  match l with [] => Ok tt | c :: l => if id_lexes c then write_ids l else Panic end.

(** Models the [meta_handler] of the url validators,
    /repo/validators-derive/src/validator_handlers/http_url/mod.rs:27-33. *)
Definition http_w (f : features) (m : meta) (d : data) : outcome macro_err http_attr :=
  let? a := http_attribute f m in with_fields d (fun fs => let? _ := check_two fs in Ok a).

(** Models the [meta_handler] of the ip validators, /repo/validators-derive/src/validator_handlers/ip/mod.rs:40-112. *)
Definition ip_w (n : ident) (f : features) (m : meta) (d : data) : outcome macro_err ip_attr :=
  let? a := ip_attribute f m in with_fields d (fun fs => let? _ := ip_check n (ia_port a) fs in Ok a).

(** Models [HostHandler::meta_handler], /repo/validators-derive/src/validator_handlers/host/mod.rs:70-236. *)
Definition host_w (f : features) (m : meta) (d : data) : outcome macro_err host_attr :=
  let? a := host_attribute f m in with_fields d (fun fs => let? _ := host_check a fs in Ok a).

(** Models [DomainHandler::meta_handler], /repo/validators-derive/src/validator_handlers/domain/mod.rs:125-495. *)
Definition domain_w (f : features) (m : meta) (d : data) : outcome macro_err domain_attr :=
  let? a := domain_attribute f m in
  with_fields d (fun fs => if domain_conflicts a then Err XConflict else let? _ := domain_check a fs in Ok a).

(** Models [EmailHandler::meta_handler], /repo/validators-derive/src/validator_handlers/email/mod.rs:167-580. *)
Definition email_w (f : features) (m : meta) (d : data) : outcome macro_err email_attr :=
  let? a := email_attribute f m in
  with_fields d (fun fs => if email_conflicts a then Err XConflict else let? _ := email_check a fs in Ok a).

(** Models the [meta_handler] of the integer validators,
    /repo/validators-derive/src/validator_handlers/signed_integer/mod.rs:31-61 and unsigned_integer/mod.rs:31-61. *)
Definition int_w (sg : bool) (f : features) (m : meta) (d : data) : outcome macro_err (ity * range_attr Z) :=
  with_fields d (fun fs =>
    let? _ := check_tuple fs in
    let? ty := first_type fs in
    match int_type sg ty with
    | Some t => let? a := range_attribute_w (int_lit sg pw t) (int_inc sg pw t) f m in Ok (t, a)
    | None => Err XShape
    end).

(** Models [NumberHandler::meta_handler], /repo/validators-derive/src/validator_handlers/number/mod.rs:27-60. *)
Definition number_w (f : features) (m : meta) (d : data) : outcome macro_err (fty * number_attr spec_float) :=
  with_fields d (fun fs =>
    let? _ := check_tuple fs in
    let? ty := first_type fs in
    match float_type ty with
    | Some t =>
        let? a := number_attribute_w (float_lit t) f m in
        if number_conflict (na_range a) (na_nan a) (na_conflict a) then Err XConflict else Ok (t, a)
    | None => Err XShape
    end).

(** Models the dispatch, /repo/validators-derive/src/lib.rs:53-197; the arm of [_Nothing], which panics, is left out
    because [Validator::from_path] has no name for it (/repo/validators-derive/src/supported_validators.rs:111-180). *)
Definition handler_w (v : validator) (f : features) (m : meta) (d : data) : outcome macro_err (expansion cid) :=
  match v with
  | Vbase32 | Vbase32_decoded | Vbase64 | Vbase64_decoded | Vbase64_url | Vbase64_url_decoded =>
      omap (GBase v) (tuple_w (base_attribute f) nothing m d)
  | Vjson => omap (GBasic v) (tuple_w (basic_attribute f) takes_type m d)
  | Vboolean | Vsemver | Vsemver_req | Vurl => omap (GBasic v) (tuple_w (basic_attribute f) nothing m d)
  | Vbit => omap GBit (tuple_w (bit_attribute u128_lit N.ltb N.leb f) (fun _ a => write_size (bi_range a)) m d)
  | Vbyte => omap GByte (tuple_w (byte_attribute u128_lit N.ltb N.leb f) (fun _ a => write_size (by_range a)) m d)
  | Vdomain => omap GDomain (domain_w f m d)
  | Vemail => omap GEmail (email_w f m d)
  | Vhost => omap GHost (host_w f m d)
  | Vhttp_url | Vhttp_ftp_url => omap (GHttp v) (http_w f m d)
  | Vip => omap (GIp v) (ip_w (bs "ip") f m d)
  | Vipv4 => omap (GIp v) (ip_w (bs "ipv4") f m d)
  | Vipv6 => omap (GIp v) (ip_w (bs "ipv6") f m d)
  | Vlength => omap GLength (tuple_w (coll_meta f) takes_type m d)
  | Vline => omap GLine (tuple_w (utf8_meta f) nothing m d)
  | Vtext => omap GText (tuple_w (utf8_meta f) nothing m d)
  | Vmac_address => omap GMac (tuple_w (mac_attribute f) nothing m d)
  | Vuuid => omap GUuid (tuple_w (uuid_attribute f) nothing m d)
  | Vnumber => omap (fun p => GNumber (fst p) (snd p)) (number_w f m d)
  | Vphone => omap GPhone (tuple_w (phone_attribute id_from_str cid_eqb f) (fun _ a => write_ids (pa_countries a)) m d)
  | Vregex => omap (fun p => GRegex (fst p) (snd p)) (tuple_w (regex_attribute compiles f) nothing m d)
  | Vsigned_integer => omap (fun p => GInt true (fst p) (snd p)) (int_w true f m d)
  | Vunsigned_integer => omap (fun p => GInt false (fst p) (snd p)) (int_w false f m d)
  end.

(** Models [derive_input_handler], /repo/validators-derive/src/lib.rs:26-200. *)
Definition expand (on : validator -> bool) (f : features) (d : source) : outcome macro_err (expansion cid) :=
  let? u := find_validator on (src_attrs d) None in
  match u with
  | Some (v, m) => handler_w v f m (src_data d)
  | None => Err XNotSet
  end.
End Expand.
