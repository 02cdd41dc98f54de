(** validators::Result and the impls that never return: C49 and C50. *)
From Verif Require Import Base RangeModel IntModel NumberModel BooleanModel SizeModel Serde DeModel JsonModel ValueSerde.
From Verif Require BaseModel BaseSerde CodecModel MacModel MacSerde DomainModel EmailModel HostModel HttpModel IpModel PhoneModel
  LengthModel.
Local Open Scope N_scope.

(** C49 is false: [deserialize] of a url, semver or semver_req value never returns, on any input, whatever the library would return:
    after any number of steps it is still calling itself. *)
Theorem C49_deserialize_returns_refuted : exists k, forall A (lib : A) n, de_run (tail_call k) lib n = Calling ImplSelf.
Proof. exists Url. intros A lib n. induction n as [|n IH]; [reflexivity|]. cbn [de_run]. rewrite IH. reflexivity. Qed.
Print Assumptions C49_deserialize_returns_refuted.

Theorem C49_never_returns : forall k A (lib : A), In k [Url; Semver; SemverReq] ->
  forall n r, de_run (tail_call k) lib n <> Returned r.
Proof.
  intros k A lib Hk n r. assert (T : tail_call k = ImplSelf) by (destruct Hk as [<-|[<-|[<-|[]]]]; reflexivity). rewrite T.
  assert (S : de_run ImplSelf lib n = Calling ImplSelf).
  { induction n as [|n IH]; [reflexivity|]. cbn [de_run]. rewrite IH. reflexivity. }
  rewrite S. discriminate.
Qed.
Print Assumptions C49_never_returns.

(** A body that names the wrapped type instead returns in two steps. *)
Example C49_example : forall A (lib : A), de_run ImplInner lib 2 = Returned lib /\ In Url [Url; Semver; SemverReq].
Proof. intros. split; [reflexivity|left; reflexivity]. Qed.

(** C50. What [Result<T, E>] makes of an input, for every validator whose own [Deserialize] has a visitor, except byte: it fails
    exactly when [T] refuses the kind of input; otherwise it holds [T]'s value or [T]'s error. *)
Theorem C50_deserialize : forall E A (m : methods E A) k i,
  ~ In k [Bit; Byte; Json; Length; Semver; SemverReq; Url] ->
  (k = Boolean -> forall b, parse_bool m b = tuple_bool m b) ->
  wrap_de k m i =
  match own_de k m i with
  | Ok a => Ok (ROk a)
  | Err (DCustom e) => Ok (RErr e)
  | Err DType => Err DType
  | Panic => Panic
  end.
Proof.
  intros E A m k i Hk Hb. unfold wrap_de, own_de, de.
  assert (HH : wrap_hint k = own_hint k (human i)) by (destruct k; try reflexivity; exfalso; apply Hk; cbn; tauto).
  assert (V : forall c, wrap_visitor k m c = option_map new_ok (own_visitor k m c)).
  { intros c. destruct k; try (exfalso; apply Hk; cbn; tauto); destruct c as [b|[] [] z|f|f|x|s|s|l|l| | |]; try reflexivity.
    cbn [wrap_visitor own_visitor option_map]. rewrite (Hb eq_refl). reflexivity. }
  replace (match k with
    | Bit | Byte => _
    | _ => match present i (wrap_hint k) with Some c => visit (wrap_visitor k m) c | None => Err DType end
    end) with (match present i (wrap_hint k) with Some c => visit (wrap_visitor k m) c | None => @Err (de_err E) (res E A) DType end)
    by (destruct k; try reflexivity; exfalso; apply Hk; cbn; tauto).
  rewrite HH. destruct (present i (own_hint k (human i))) as [c|]; [|reflexivity].
  unfold visit. rewrite V. destruct (own_visitor k m c) as [r|]; cbn [option_map].
  - destruct r; reflexivity.
  - destruct (default_visit c) as [c'|]; [|reflexivity]. rewrite V.
    destruct (own_visitor k m c') as [r|]; cbn [option_map]; [destruct r; reflexivity|reflexivity].
Qed.
Print Assumptions C50_deserialize.

(** C50. The wrapper never reports a validator error as a failure of deserialisation, for any validator. *)
Theorem C50_no_validator_error : forall E A (m : methods E A) k i e, wrap_de k m i <> Err (DCustom e).
Proof.
  intros E A m k i e.
  assert (N : forall r : outcome E A, omap_err DCustom (new_ok r) <> Err (DCustom e)) by (intros []; discriminate).
  assert (V : forall c r, wrap_visitor k m c = Some r -> exists r', r = new_ok r').
  { intros c r. destruct k, c as [b|[] [] z|f|f|x|s|s|l|l| | |]; cbn [wrap_visitor]; intros H; try discriminate H; injection H as <-;
      eexists; reflexivity. }
  assert (D : forall h, de h (wrap_visitor k m) i <> Err (DCustom e)).
  { intros h. unfold de. destruct (present i h) as [c|]; [|discriminate]. unfold visit.
    destruct (wrap_visitor k m c) as [r|] eqn:Ev; [destruct (V _ _ Ev) as [r' ->]; apply N|].
    destruct (default_visit c) as [c'|]; [|discriminate].
    destruct (wrap_visitor k m c') as [r|] eqn:Ev'; [destruct (V _ _ Ev') as [r' ->]; apply N|discriminate]. }
  assert (B : (if human i then let? s := de HString string_visitor i in omap_err DCustom (new_ok (parse_string m s))
               else let? z := de HU128 u128_visitor i in omap_err DCustom (new_ok (parse_int m false I128 z))) <> Err (DCustom e)).
  { destruct (human i); unfold de.
    - destruct (present i HString) as [[b|sg [] z|f|f|x|s|s|l|l| | |]|]; cbn; try discriminate; apply N.
    - destruct (present i HU128) as [[b|sg w z|f|f|x|s|s|l|l| | |]|]; cbn; try discriminate.
      unfold visit. cbn [u128_visitor]. destruct (0 <=? z)%Z eqn:Z0; cbn.
      + apply N.
      + destruct sg, w; cbn; rewrite ?Z0; discriminate. }
  unfold wrap_de. destruct k; first [exact B|apply D].
Qed.
Print Assumptions C50_no_validator_error.

(** C50. JSON strings: every wrapper but those of json and length holds what [parse_str] ([parse_string] for bit and byte) returns.
    This includes url, semver and semver_req, whose own [Deserialize] does not return. *)
Theorem C50_json_strings : forall E A (m : methods E A) k s, ~ In k [Json; Length] ->
  wrap_de k m (json_input (JStr s)) =
  match (if match k with Bit | Byte => true | _ => false end then parse_string m s else parse_str m s) with
  | Ok a => Ok (ROk a)
  | Err e => Ok (RErr e)
  | Panic => Panic
  end.
Proof.
  intros E A m k s Hk.
  destruct k; try (exfalso; apply Hk; cbn; tauto); unfold wrap_de, de, visit, new_ok; cbn;
    first [destruct (parse_str m s); reflexivity|destruct (parse_string m s); reflexivity].
Qed.
Print Assumptions C50_json_strings.

(** C50. byte, on JSON: as for the others. *)
Theorem C50_byte_json : forall E A (m : methods E A) j, (forall s, parse_string m s = parse_str m s) ->
  wrap_de Byte m (json_input j) =
  match own_de Byte m (json_input j) with
  | Ok a => Ok (ROk a)
  | Err (DCustom e) => Ok (RErr e)
  | Err DType => Err DType
  | Panic => Panic
  end.
Proof.
  intros E A m j H. destruct j; try reflexivity.
  cbn. rewrite H. destruct (parse_str m s); reflexivity.
Qed.
Print Assumptions C50_byte_json.

(** C50. byte, in a binary format that presents unsigned 128-bit integers: the same value. *)
Theorem C50_byte_binary : forall E A (m : methods E A) i z, human i = false -> (0 <= z)%Z ->
  present i HU128 = Some (DInt false I128 z) ->
  own_de Byte m i = omap_err DCustom (parse_int m false I128 z) /\
  wrap_de Byte m i = match parse_int m false I128 z with Ok a => Ok (ROk a) | Err e => Ok (RErr e) | Panic => Panic end.
Proof.
  intros E A m i z Hh Hz Hp. unfold own_de, wrap_de, de. rewrite Hh. cbn [own_hint]. rewrite Hp. split; [reflexivity|].
  unfold visit. cbn [u128_visitor]. assert (Z0 : (0 <=? z)%Z = true) by lia. rewrite Z0. cbn. destruct (parse_int m false I128 z); reflexivity.
Qed.
Print Assumptions C50_byte_binary.

(** C50. json: the wrapper never fails; it holds [T]'s value or error, and an error of its own where the input is not a JSON value. *)
Theorem C50_json : forall A from_value value,
  json_wrap_de A from_value value =
  match json_own_de A from_value value with
  | Ok a => Ok (ROk a)
  | Err (DCustom e) => match value with Err _ => Ok (RErr InvalidJsonValueError) | _ => Ok (RErr e) end
  | Err DType => Ok (RErr InvalidJsonValueError)
  | Panic => Panic
  end.
Proof.
  intros A from_value [j|[|e]|]; try reflexivity. cbn. unfold json_parse_json_value, json_v_parse_json_value.
  destruct (serde_json_result (from_value j)); reflexivity.
Qed.
Print Assumptions C50_json.

(** C50. length: fails when the collection does not deserialise, otherwise holds [T]'s value or error. *)
Theorem C50_length : forall E C A (parse_collection : C -> outcome E A) value,
  length_wrap_de parse_collection value =
  match value with
  | Ok c => match parse_collection c with Ok a => Ok (ROk a) | Err e => Ok (RErr e) | Panic => Panic end
  | Err e => Err e
  | Panic => Panic
  end /\
  length_own_de parse_collection value =
  match value with Ok c => omap_err DCustom (parse_collection c) | Err e => Err e | Panic => Panic end.
Proof.
  intros E C A p [c|e|]; split; try reflexivity. cbn. destruct (p c); reflexivity.
Qed.
Print Assumptions C50_length.

(** C50 is false of bit: what the wrapped library type accepts ([value], e.g. a JSON number) is accepted by the validator's own
    [Deserialize], whereas the wrapper fails on every JSON document that is not a string. *)
Theorem C50_bit_refuted : exists (value : json -> outcome (de_err size_err) N) j from_str cap r,
  bit_own_de (size_v_parse_v r) (value j) = Ok 5 /\
  wrap_de Bit (size_methods from_str cap r) (json_input j) = Err DType.
Proof.
  exists (fun j => match j with JInt z => Ok (Z.to_N z) | _ => Err DType end), (JInt 5), (fun _ => None), 100, size_default.
  split; reflexivity.
Qed.
Print Assumptions C50_bit_refuted.

Theorem C50_bit_partial : forall E A (m : methods E A) j, (forall s, j <> JStr s) -> wrap_de Bit m (json_input j) = Err DType.
Proof. intros E A m j Hj. destruct j; try reflexivity. exfalso. eapply Hj. reflexivity. Qed.
Print Assumptions C50_bit_partial.

(** C50. The conversions: each holds what the parse method for that argument type returns; [FromStr], rocket's form field and
    [into_std_result] likewise. *)
Theorem C50_conversions : forall E A (m : methods E A) (a : from_arg),
  (let? r := wrap_from m a in into_std_result r) =
  match a with
  | FString s => parse_string m s
  | FStr s => parse_str m s
  | FBool b => parse_bool m b
  | FVec l => parse_vec_u8 m l
  | FSlice l => parse_u8_slice m l
  | FChar c => parse_char m c
  | FJson j => parse_json_value m j
  | FF32 f => parse_f32 m f
  | FF64 f => parse_f64 m f
  | FInt sg w z => parse_int m sg w z
  end /\
  (forall e, wrap_from m a <> Err e).
Proof.
  intros E A m a.
  assert (H : forall r : outcome E A, (let? r := new_res r in into_std_result r) = r /\ forall e, new_res r <> Err e)
    by (intros []; split; [reflexivity|discriminate|reflexivity|discriminate|reflexivity|discriminate]).
  destruct a as [s|s|b|l|l|c|j|f|f|[] [] z]; apply H.
Qed.
Print Assumptions C50_conversions.

Theorem C50_text_conversions : forall E A (m : methods E A) s,
  (let? r := wrap_from_str m s in into_std_result r) = parse_str m s /\
  (forall e, wrap_from_str m s <> Err e) /\
  wrap_from_form m s = match from_param m s with Ok a => Ok (ROk a) | Err e => Ok (RErr e) | Panic => Panic end /\
  from_param m s = parse_str m s /\
  from_form m s = omap_err DCustom (parse_str m s).
Proof.
  intros E A m s. unfold wrap_from_str, wrap_from_form, from_param, from_form, new_res.
  destruct (parse_str m s); repeat split; discriminate.
Qed.
Print Assumptions C50_text_conversions.

(** The methods of the boolean validator satisfy the hypotheses. *)
Lemma boolean_tuple : forall pw b, parse_bool (bool_methods pw) b = tuple_bool (bool_methods pw) b.
Proof. reflexivity. Qed.

(** C65. The visitor of each string validator, under every option and for every call, is its entry in the table of visitors applied to
    [parse_str] with the same options: no option is ignored by deserialisation. *)
Theorem C65_visitors : forall c,
  (forall f p k, In k [Base32; Base64; Base64Url] -> BaseSerde.base_visitor f p c = own_visitor k (base_methods f p) c) /\
  (forall f p k, In k [Base32Decoded; Base64Decoded; Base64UrlDecoded] ->
     BaseSerde.dec_visitor f p c = own_visitor k (dec_methods f p) c) /\
  (forall x y, MacSerde.mac_visitor x y c = own_visitor MacAddress (str_methods (MacModel.mac_parse_str x y)) c) /\
  (forall x y, MacSerde.uuid_visitor x y c = own_visitor Uuid (str_methods (MacModel.uuid_parse_str x y)) c) /\
  (forall idna cfg, DomainModel.domain_visitor idna cfg c = own_visitor Domain (str_methods (DomainModel.domain_parse_str idna cfg)) c) /\
  (forall idna prof cfg, EmailModel.email_visitor idna prof cfg c = own_visitor Email (str_methods (EmailModel.email_parse_str idna prof cfg)) c) /\
  (forall idna cfg, HostModel.host_visitor idna cfg c = own_visitor Host (str_methods (HostModel.host_parse_str idna cfg)) c) /\
  (forall url p h l, HttpModel.http_visitor url p h l c = own_visitor HttpUrl (str_methods (HttpModel.http_parse_str url p h l)) c) /\
  (forall url p h l, HttpModel.http_ftp_visitor url p h l c = own_visitor HttpFtpUrl (str_methods (HttpModel.http_ftp_parse_str url p h l)) c) /\
  (forall p l, IpModel.ip_visitor p l c = own_visitor Ip (str_methods (IpModel.ip_parse_str p l)) c) /\
  (forall p l, IpModel.ipv4_visitor p l c = own_visitor Ipv4 (str_methods (IpModel.ipv4_parse_str p l)) c) /\
  (forall p l, IpModel.ipv6_visitor p l c = own_visitor Ipv6 (str_methods (IpModel.ipv6_parse_str p l)) c) /\
  (forall cid eqb phone perr parse country valid cs,
     PhoneModel.phone_visitor cid eqb phone perr parse country valid cs c =
     own_visitor Phone (str_methods (PhoneModel.phone_parse_str cid eqb phone perr parse country valid cs)) c).
Proof.
  intros c. repeat split; intros; try (destruct c; reflexivity).
  all: match goal with H : In _ _ |- _ => destruct H as [<-|[<-|[<-|[]]]] end; destruct c; reflexivity.
Qed.
Print Assumptions C65_visitors.

Example C65_visitors_example :
  In Base64 [Base32; Base64; Base64Url] /\
  BaseSerde.base_visitor BaseModel.B64 Must (DStr (bs "YQ==")) = Some (Ok (bs "YQ==")) /\
  BaseSerde.base_visitor BaseModel.B64 Disallow (DStr (bs "YQ==")) = Some (Err BaseModel.BPaddingDisallow) /\
  BaseSerde.base_visitor BaseModel.B64 Must (DBool true) = None.
Proof. split; [cbn; tauto|repeat split]. Qed.

Example C50_example :
  ~ In Boolean [Bit; Byte; Json; Length; Semver; SemverReq; Url] /\
  wrap_de Boolean (bool_methods W64) (json_input (JStr (bs "off"))) = Ok (ROk false) /\
  wrap_de Boolean (bool_methods W64) (json_input (JInt 7)) = Ok (RErr BooleanError) /\
  wrap_de Boolean (bool_methods W64) (json_input JNull) = Err DType /\
  wrap_de UnsignedInteger (int_methods false W64 I8 Unlimited) (json_input (JInt 256)) = Ok (RErr TooLarge) /\
  wrap_de Url (str_methods (fun s => if eqbs s (bs "a:") then Ok s else Err tt)) (json_input (JStr (bs "a:"))) = Ok (ROk (bs "a:")) /\
  wrap_from (bool_methods W64) (FInt true I8 1) = Ok (ROk true) /\
  json_wrap_de bool (fun j => match j with JBool b => Some b | _ => None end) (Err DType) = Ok (RErr InvalidJsonValueError).
Proof. split; [cbn; intuition discriminate|repeat split]. Qed.
