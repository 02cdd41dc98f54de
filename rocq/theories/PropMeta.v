(** Properties C66-C68: the attribute [#\[validator(name(..))\]]. *)
From Verif Require Import Base RangeModel LengthModel MacModel AttrSpec MetaModel MetaSpec MetaProofs MetaTables MetaMore.
From Coq Require Import Permutation.
Local Open Scope N_scope.

(** C66, boolean, json, semver, semver_req, url. *)
Theorem C66_basic : forall f m a,
  basic_attribute f m = Ok a <->
  exists ms, arguments m ms /\ well_named [bs "serde"; bs "rocket"] ms /\ opts_written f ms a.
Proof. intros f. exact (basic_lemma f). Qed.
Print Assumptions C66_basic.

(** C66, base32, base64, their _decoded and _url forms. *)
Theorem C66_base : forall f m a,
  base_attribute f m = Ok a <->
  exists ms, arguments m ms /\ well_named [bs "padding"; bs "serde"; bs "rocket"] ms /\
    value ms (bs "padding") tri_written Allow (ba_padding a) /\ opts_written f ms (ba_opts a).
Proof. intros f. exact (base_lemma f). Qed.
Print Assumptions C66_base.

(** C66, http_url and http_ftp_url. *)
Theorem C66_http : forall f m a,
  http_attribute f m = Ok a <->
  exists ms, arguments m ms /\ well_named [bs "local"; bs "serde"; bs "rocket"] ms /\
    value ms (bs "local") tri_written Allow (ua_local a) /\ opts_written f ms (ua_opts a).
Proof. intros f. exact (http_lemma f). Qed.
Print Assumptions C66_http.

(** C66, ip, ipv4, ipv6. *)
Theorem C66_ip : forall f m a,
  ip_attribute f m = Ok a <->
  exists ms, arguments m ms /\ well_named [bs "local"; bs "port"; bs "serde"; bs "rocket"] ms /\
    value ms (bs "local") tri_written Allow (ia_local a) /\
    value ms (bs "port") tri_written Allow (ia_port a) /\ opts_written f ms (ia_opts a).
Proof. intros f. exact (ip_lemma f). Qed.
Print Assumptions C66_ip.

(** C66, host. *)
Theorem C66_host : forall f m a,
  host_attribute f m = Ok a <->
  exists ms, arguments m ms /\
    well_named [bs "local"; bs "port"; bs "at_least_two_labels"; bs "serde"; bs "rocket"] ms /\
    value ms (bs "local") tri_written Allow (ha_local a) /\
    value ms (bs "port") tri_written Allow (ha_port a) /\
    value ms (bs "at_least_two_labels") tri_written Allow (ha_two a) /\ opts_written f ms (ha_opts a).
Proof. intros f. exact (host_lemma f). Qed.
Print Assumptions C66_host.

(** C66, domain. *)
Theorem C66_domain : forall f m a,
  domain_attribute f m = Ok a <->
  exists ms, arguments m ms /\
    well_named [bs "ipv4"; bs "local"; bs "port"; bs "at_least_two_labels"; bs "conflict"; bs "serde"; bs "rocket"] ms /\
    value ms (bs "ipv4") tri_written Allow (da_ipv4 a) /\
    value ms (bs "local") tri_written Allow (da_local a) /\
    value ms (bs "port") tri_written Allow (da_port a) /\
    value ms (bs "at_least_two_labels") tri_written Allow (da_two a) /\
    value ms (bs "conflict") allow_written false (da_conflict a) /\ opts_written f ms (da_opts a).
Proof. intros f. exact (domain_lemma f). Qed.
Print Assumptions C66_domain.

(** C66, email. *)
Theorem C66_email : forall f m a,
  email_attribute f m = Ok a <->
  exists ms, arguments m ms /\
    well_named [bs "comment"; bs "ip"; bs "local"; bs "at_least_two_labels"; bs "non_ascii"; bs "conflict";
                bs "serde"; bs "rocket"] ms /\
    value ms (bs "comment") allow_written true (ea_comment a) /\
    value ms (bs "ip") tri_written Allow (ea_ip a) /\
    value ms (bs "local") tri_written Allow (ea_local a) /\
    value ms (bs "at_least_two_labels") tri_written Allow (ea_two a) /\
    value ms (bs "non_ascii") allow_written true (ea_non_ascii a) /\
    value ms (bs "conflict") allow_written false (ea_conflict a) /\ opts_written f ms (ea_opts a).
Proof. intros f. exact (email_lemma f). Qed.
Print Assumptions C66_email.

(** C66, mac_address (default separator 58 is a colon) and uuid (45, a hyphen). *)
Theorem C66_mac_uuid : forall f c m a,
  hex_attribute c f m = Ok a <->
  exists ms, arguments m ms /\ well_named [bs "case"; bs "separator"; bs "serde"; bs "rocket"] ms /\
    value ms (bs "case") case_written AnyCase (xa_case a) /\
    value ms (bs "separator") sep_written (SepAllow c) (xa_sep a) /\ opts_written f ms (xa_opts a).
Proof. intros f. exact (hex_lemma f). Qed.
Print Assumptions C66_mac_uuid.

(** C66, signed_integer and unsigned_integer. *)
Theorem C66_integer : forall f T (from_str : list N -> option T) (ltb leb : T -> T -> bool) m (a : range_attr T),
  range_attribute from_str ltb leb f m = Ok a <->
  exists ms, arguments m ms /\ well_named [bs "range"; bs "serde"; bs "rocket"] ms /\
    value ms (bs "range") (range_option_written from_str ltb leb (f_full f)) Unlimited (ra_range a) /\
    opts_written f ms (ra_opts a).
Proof. intros f T from_str ltb leb. exact (range_lemma f from_str ltb leb). Qed.
Print Assumptions C66_integer.

(** C66, number. *)
Theorem C66_number : forall f T (from_str : list N -> option T) (ltb leb : T -> T -> bool) m (a : number_attr T),
  number_attribute from_str ltb leb f m = Ok a <->
  exists ms, arguments m ms /\ well_named [bs "range"; bs "nan"; bs "conflict"; bs "serde"; bs "rocket"] ms /\
    value ms (bs "range") (range_option_written from_str ltb leb (f_full f)) Unlimited (na_range a) /\
    value ms (bs "nan") tri_written Allow (na_nan a) /\
    value ms (bs "conflict") allow_written false (na_conflict a) /\
    opts_written f ms (na_opts a).
Proof. intros f T from_str ltb leb. exact (number_lemma f from_str ltb leb). Qed.
Print Assumptions C66_number.

(** C66, bit. *)
Theorem C66_bit : forall f T (from_str : list N -> option T) (ltb leb : T -> T -> bool) m (a : bit_attr T),
  bit_attribute from_str ltb leb f m = Ok a <->
  exists ms, arguments m ms /\ well_named [bs "range"; bs "serde"; bs "rocket"] ms /\
    value ms (bs "range") (range_written from_str ltb leb (f_full f)) (mk_range None None false) (bi_range a) /\
    opts_written f ms (bi_opts a).
Proof. intros f T from_str ltb leb. exact (bit_lemma f from_str ltb leb). Qed.
Print Assumptions C66_bit.

(** C66, byte. *)
Theorem C66_byte : forall f T (from_str : list N -> option T) (ltb leb : T -> T -> bool) m (a : byte_attr T),
  byte_attribute from_str ltb leb f m = Ok a <->
  exists ms, arguments m ms /\ well_named [bs "range"; bs "ignore_case"; bs "serde"; bs "rocket"] ms /\
    value ms (bs "range") (range_written from_str ltb leb (f_full f)) (mk_range None None false) (by_range a) /\
    value ms (bs "ignore_case") bool_written true (by_ignore_case a) /\
    opts_written f ms (by_opts a).
Proof. intros f T from_str ltb leb. exact (byte_lemma f from_str ltb leb). Qed.
Print Assumptions C66_byte.

(** C66, phone. *)
Theorem C66_phone : forall f cid (id_from_str : list N -> option cid) cid_eqb, (forall a b, cid_eqb a b = true <-> a = b) -> forall m (a : phone_attr cid),
  phone_attribute id_from_str cid_eqb f m = Ok a <->
  exists ms, arguments m ms /\ well_named [bs "countries"; bs "serde"; bs "rocket"] ms /\
    value ms (bs "countries") (countries_written id_from_str) [] (pa_countries a) /\
    opts_written f ms (pa_opts a).
Proof. intros f cid id_from_str cid_eqb H. exact (phone_lemma f id_from_str cid_eqb H). Qed.
Print Assumptions C66_phone.

(** C66, regex; the parameter [regex] must be given. *)
Theorem C66_regex : forall f compiles m r o,
  regex_attribute compiles f m = Ok (r, o) <->
  exists ms, arguments m ms /\ well_named [bs "regex"; bs "serde"; bs "rocket"] ms /\
    (exists a, In a ms /\ named (bs "regex") a /\ regex_written compiles a r) /\ opts_written f ms o.
Proof. intros f compiles. exact (regex_lemma f compiles). Qed.
Print Assumptions C66_regex.

(** C66, length; no [rocket], and [min] at most [max]. *)
Theorem C66_length : forall f m a,
  coll_meta f m = Ok a <->
  exists ms, arguments m ms /\ well_named [bs "min"; bs "max"; bs "serde"] ms /\
    value ms (bs "min") usize_written None (ca_min a) /\
    value ms (bs "max") usize_written None (ca_max a) /\
    value ms (bs "serde") (serde_written f) (true, true) (ca_serde a) /\
    (forall x y, ca_min a = Some x -> ca_max a = Some y -> x <= y).
Proof. intros f. exact (coll_lemma f). Qed.
Print Assumptions C66_length.

(** C66, line and text; at most one of the two lengths. *)
Theorem C66_line_text : forall f m a,
  utf8_meta f m = Ok a <->
  exists ms, arguments m ms /\ well_named [bs "char_length"; bs "byte_length"; bs "serde"; bs "rocket"] ms /\
    ((exists m b l, In m ms /\ named (if b : bool then bs "byte_length" else bs "char_length") m /\ length_written m l /\
        ta_length a = Some (b, l) /\
        (forall m', In m' ms -> ~ named (if b then bs "char_length" else bs "byte_length") m')) \/
     ((forall m, In m ms -> ~ named (bs "byte_length") m /\ ~ named (bs "char_length") m) /\ ta_length a = None)) /\
    opts_written f ms (ta_opts a).
Proof. intros f. exact (utf8_lemma f). Qed.
Print Assumptions C66_line_text.


Example C66_example_email :
  email_attribute {| f_serde := true; f_rocket := false; f_full := false |}
    (MList [bs "email"] [IMeta (MNameValue [bs "ip"] (EPath [bs "Must"]));
                         IMeta (MList [bs "comment"] [IMeta (MPath [bs "Disallow"])] false);
                         IMeta (MList [bs "serde"] [IMeta (MPath [bs "Serialize"])] false)] true)
  = Ok (mk_email_attr false Must Allow Allow true false (mk_opts (true, false) (true, true))).
Proof. reflexivity. Qed.

Example C66_example_refused :
  email_attribute {| f_serde := true; f_rocket := false; f_full := false |}
    (MList [bs "email"] [IMeta (MNameValue [bs "ip"] (EPath [bs "Must"]));
                         IMeta (MNameValue [bs "ip"] (EPath [bs "Must"]))] false) = Err XReset /\
  email_attribute {| f_serde := true; f_rocket := false; f_full := false |}
    (MList [bs "email"] [IMeta (MNameValue [bs "ipv4"] (EPath [bs "Must"]))] false) = Err XUnknown /\
  uuid_attribute {| f_serde := true; f_rocket := false; f_full := false |}
    (MList [bs "uuid"] [IMeta (MList [bs "separator"] [IMeta (MNameValue [bs "Must"] (ELit (LitByte 95)))] false)] false)
  = Ok (mk_hex_attr AnyCase (SepMust 95) opts0).
Proof. repeat split. Qed.

Example C66_example_number :
  range_attribute (fun s => match s with [45; d] => Some (- Z.of_N (d - 48))%Z | [d] => Some (Z.of_N (d - 48)) | _ => None end)
    Z.ltb Z.leb {| f_serde := true; f_rocket := false; f_full := false |}
    (MList [bs "signed_integer"]
       [IMeta (MList [bs "range"]
          [IMeta (MList [bs "Inside"] [IMeta (MNameValue [bs "min"] (ENeg (LitInt (bs "3"))));
                                       IMeta (MList [bs "max"] [ILit (LitInt (bs "8"))] false)] false)] false)] false)
  = Ok (mk_range_attr (Inside (Some (-3)%Z) (Some 8%Z) true) opts0).
Proof. reflexivity. Qed.

(** C66: the order of the parameters and a final comma never matter; one theorem for all attributes. *)
Theorem C66_order : forall f p ms ns tr tr', Permutation ms ns -> ms <> [] ->
  let m := MList p (List.map IMeta ms) tr in
  let n := MList p (List.map IMeta ns) tr' in
  agree (basic_attribute f m) (basic_attribute f n) /\
  agree (base_attribute f m) (base_attribute f n) /\
  agree (http_attribute f m) (http_attribute f n) /\
  agree (ip_attribute f m) (ip_attribute f n) /\
  agree (host_attribute f m) (host_attribute f n) /\
  agree (domain_attribute f m) (domain_attribute f n) /\
  agree (email_attribute f m) (email_attribute f n) /\
  agree (mac_attribute f m) (mac_attribute f n) /\
  agree (uuid_attribute f m) (uuid_attribute f n) /\
  agree (coll_meta f m) (coll_meta f n) /\
  agree (utf8_meta f m) (utf8_meta f n) /\
  (forall T (from_str : list N -> option T) ltb leb,
     agree (range_attribute from_str ltb leb f m) (range_attribute from_str ltb leb f n) /\
     agree (number_attribute from_str ltb leb f m) (number_attribute from_str ltb leb f n) /\
     agree (bit_attribute from_str ltb leb f m) (bit_attribute from_str ltb leb f n) /\
     agree (byte_attribute from_str ltb leb f m) (byte_attribute from_str ltb leb f n)) /\
  (forall cid (id_from_str : list N -> option cid) cid_eqb, (forall a b, cid_eqb a b = true <-> a = b) ->
     agree (phone_attribute id_from_str cid_eqb f m) (phone_attribute id_from_str cid_eqb f n)) /\
  (forall compiles, agree (regex_attribute compiles f m) (regex_attribute compiles f n)).
Proof. exact order_lemma. Qed.
Print Assumptions C66_order.

(** C67: [serde(..)] and [rocket(..)] without the cargo feature: nothing is generated, and asking for it is refused. *)
Theorem C67_feature_off : forall f m o,
  (f_serde f = false -> forall ms, opts_written f ms o -> serde_impls f o = []) /\
  (f_rocket f = false -> forall ms, opts_written f ms o -> rocket_impls f o = []) /\
  (f_serde f = false -> (exists a, serde_from_meta f m = Ok a) <-> exists p, m = MNameValue p (ELit (LitBool false))) /\
  (f_rocket f = false -> (exists a, rocket_from_meta f m = Ok a) <-> exists p, m = MNameValue p (ELit (LitBool false))).
Proof. exact feature_off_lemma. Qed.
Print Assumptions C67_feature_off.

(** C67: with the feature, which implementations are generated, for every way of writing [serde]. *)
Theorem C67_serde_table : forall f ms o, f_serde f = true -> opts_written f ms o ->
  (forall m, In m ms -> ~ named (bs "serde") m) /\ serde_impls f o = [ImplSerialize; ImplDeserialize] \/
  exists m, In m ms /\ named (bs "serde") m /\
    match m with
    | MPath _ => serde_impls f o = [ImplSerialize; ImplDeserialize]
    | MNameValue _ e => (e = ELit (LitBool true) /\ serde_impls f o = [ImplSerialize; ImplDeserialize]) \/
                        (e = ELit (LitBool false) /\ serde_impls f o = [])
    | MList _ items _ =>
        (In ImplSerialize (serde_impls f o) <-> In (IMeta (MPath [bs "Serialize"])) items) /\
        (In ImplDeserialize (serde_impls f o) <-> In (IMeta (MPath [bs "Deserialize"])) items)
    end.
Proof. exact serde_table_lemma. Qed.
Print Assumptions C67_serde_table.

Theorem C67_rocket_table : forall f ms o, f_rocket f = true -> opts_written f ms o ->
  (forall m, In m ms -> ~ named (bs "rocket") m) /\ rocket_impls f o = [ImplFromFormField; ImplFromParam] \/
  exists m, In m ms /\ named (bs "rocket") m /\
    match m with
    | MPath _ => rocket_impls f o = [ImplFromFormField; ImplFromParam]
    | MNameValue _ e => (e = ELit (LitBool true) /\ rocket_impls f o = [ImplFromFormField; ImplFromParam]) \/
                        (e = ELit (LitBool false) /\ rocket_impls f o = [])
    | MList _ items _ =>
        (In ImplFromFormField (rocket_impls f o) <-> In (IMeta (MPath [bs "FromFormField"])) items) /\
        (In ImplFromParam (rocket_impls f o) <-> In (IMeta (MPath [bs "FromParam"])) items)
    end.
Proof. exact rocket_table_lemma. Qed.
Print Assumptions C67_rocket_table.

Example C67_example :
  let on := {| f_serde := true; f_rocket := false; f_full := false |} in
  let off := {| f_serde := false; f_rocket := false; f_full := false |} in
  let m := MList [bs "serde"] [IMeta (MPath [bs "Deserialize"])] false in
  serde_from_meta on m = Ok (false, true) /\
  serde_impls on (mk_opts (false, true) (true, true)) = [ImplDeserialize] /\
  rocket_impls on (mk_opts (false, true) (true, true)) = [] /\
  serde_from_meta off m = Err XFeature /\
  serde_from_meta on (MList [bs "serde"] [] false) = Err XSyntax.
Proof. repeat split. Qed.

(** C68: every argument of a parameter is significant or refused. False: the arguments of [Unlimited] are not looked at. *)
Theorem C68_unlimited_arguments_refuted : exists f items,
  items <> [] /\
  (forall T (from_str : list N -> option T) ltb leb,
   range_attribute from_str ltb leb f
     (MList [bs "unsigned_integer"] [IMeta (MList [bs "range"] [IMeta (MList [bs "Unlimited"] items false)] false)] false)
   = Ok (mk_range_attr Unlimited opts0)).
Proof.
  exists {| f_serde := true; f_rocket := true; f_full := true |},
         [IMeta (MNameValue [bs "min"] (ELit (LitInt (bs "3"))))].
  split; [discriminate|]. reflexivity.
Qed.
Print Assumptions C68_unlimited_arguments_refuted.

(** C68, what holds: it is the only place. Inside [Inside] and [Outside] the written arguments are exactly the given
    bounds; a parameter of [Unlimited] is accepted whatever it is, and never changes the result. *)
Theorem C68_unlimited_arguments_partial : forall T (from_str : list N -> option T) ltb leb f p m v,
  range_option_meta from_str ltb leb f (MList p [IMeta m] false) = Ok v ->
  (v = Unlimited <-> named (bs "Unlimited") m) /\
  (named (bs "Unlimited") m \/
   exists r, range_written from_str ltb leb (f_full f) m r /\
     ((named (bs "Inside") m /\ v = Inside (r_min r) (r_max r) (r_incl r)) \/
      (named (bs "Outside") m /\ v = Outside (r_min r) (r_max r) (r_incl r)))).
Proof. exact unlimited_lemma. Qed.
Print Assumptions C68_unlimited_arguments_partial.

(** [range(Inside(min = 3))] and [range(Unlimited(min = 3))] meet the hypothesis. *)
Example C68_example :
  let read := range_option_meta usize_from_str N.ltb N.leb {| f_serde := true; f_rocket := true; f_full := true |} in
  let min3 := [IMeta (MNameValue [bs "min"] (ELit (LitInt (bs "3"))))] in
  read (MList [bs "range"] [IMeta (MList [bs "Inside"] min3 false)] false) = Ok (Inside (Some 3) None true) /\
  read (MList [bs "range"] [IMeta (MList [bs "Unlimited"] min3 false)] false) = Ok Unlimited.
Proof. split; reflexivity. Qed.
