(** Property C125: the description in a refusal tells the kind of validator, and never asks for what was given. *)
From Verif Require Import Base Utf8 IntStr RangeModel LengthModel LineModel BaseModel MacModel DomainModel HostModel EmailModel IntModel NumberModel.
From Verif Require Import ExpectModel Serde DeModel DescrModel.
Local Open Scope N_scope.

(** The texts with which a validator of a kind can describe itself, for all its attributes; [show] are the texts of literal tokens and countries. *)
Definition describes (k : kind) (t : list N) : Prop :=
  match k with
  | Base32 | Base32Decoded => exists p, t = base_expect B32 p
  | Base64 | Base64Decoded => exists p, t = base_expect B64 p
  | Base64Url | Base64UrlDecoded => exists p, t = base_expect B64Url p
  | Boolean => t = boolean_expect
  | Byte => exists r, t = byte_expect r
  | Domain => exists c, t = domain_expect c
  | Email => exists c, t = email_expect c
  | Host => exists c, t = host_expect c
  | HttpUrl => exists l, t = http_expect l
  | HttpFtpUrl => exists l, t = http_ftp_expect l
  | Ip => exists p l, t = ip_expect p l
  | Ipv4 => exists p l, t = ipv4_expect p l
  | Ipv6 => exists p l, t = ipv6_expect p l
  | Line => exists a, t = line_expect LineModel.Line a
  | Text => exists a, t = line_expect LineModel.Text a
  | MacAddress => exists c s, t = mac_expect c s
  | Uuid => exists c s, t = uuid_expect c s
  | Number => exists show r n, t = number_expect show r n
  | SignedInteger => exists show r, t = int_expect true show r
  | UnsignedInteger => exists show r, t = int_expect false show r
  | Phone => exists (cid : Type) (show : cid -> list N) cs, t = phone_expect show cs
  | Regex => t = regex_expect
  | Bit | Json | Length | Semver | SemverReq | Url => False
  end.

Definition heads (k : kind) : list (list N) :=
  match k with
  | Base32 | Base32Decoded => [bs "a Base32 string or data"]
  | Base64 | Base64Decoded => [bs "a Base64 string or data"]
  | Base64Url | Base64UrlDecoded => [bs "a Base64-url string or data"]
  | Boolean => [boolean_expect]
  | Byte => [bs "a string such as"]
  | Domain => [bs "a correct "]
  | Email => [bs "an email"; bs "an ASCII email"]
  | Host => [bs "a non-fully-qualified "]
  | HttpUrl => [bs "a http/https url"]
  | HttpFtpUrl => [bs "a http/https/ftp url"]
  | Ip => [bs "an IP string"]
  | Ipv4 => [bs "an IPv4 string"]
  | Ipv6 => [bs "an IPv6 string"]
  | Line | Text => [bs "a line"]
  | MacAddress => [bs "a valid MacAddress"; bs "a valid upper-case MacAddress"; bs "a valid lower-case MacAddress"]
  | Uuid => [bs "a valid UUID"; bs "a valid upper-case UUID"; bs "a valid lower-case UUID"]
  | Number => [bs "a number"]
  | SignedInteger => [bs "a signed integer"]
  | UnsignedInteger => [bs "a unsigned integer"]
  | Phone => [bs "an international"; bs "a phone number in "]
  | Regex => [bs "a string matched"]
  | Bit | Json | Length | Semver | SemverReq | Url => []
  end.
Lemma describes_head k t : describes k t -> exists p r, In p (heads k) /\ t = p ++ r.
Proof.
  destruct k; cbn [describes]; intros H; try contradiction;
    repeat (match goal with H : exists _, _ |- _ => destruct H end); subst.
  all: cbv beta delta [base_expect byte_expect domain_expect email_expect host_expect http_expect http_ftp_expect ip_expect ipv4_expect ipv6_expect
         line_expect mac_expect uuid_expect number_expect int_expect phone_expect expect_case].
  all: try (destruct (e_non_ascii _)).
  all: try (match goal with c : case_option |- _ => destruct c end).
  all: try (match goal with |- context [phone_expect] => idtac | cs : list _ |- context [debug_set] => destruct cs end).
  all: cbn [heads].
  all: match goal with |- exists p r, In p ?l /\ ?t = _ =>
         let rec go l := lazymatch l with
           | ?a :: ?l' => first [ exists a; eexists; split; [cbn [In]; tauto| solve [reflexivity | cbv [bs app]; reflexivity]] | go l' ]
           end in go l end.
Qed.

Fixpoint starts (p t : list N) : bool :=
  match p, t with
  | [], _ => true
  | a :: p', b :: t' => (a =? b) && starts p' t'
  | _, [] => false
  end.
Lemma two_heads p q r r' : p ++ r = q ++ r' -> starts p q || starts q p = true.
Proof.
  revert q. induction p as [|a p IH]; intros [|b q] H; cbn [starts app orb] in *; try reflexivity.
  injection H as -> H. rewrite N.eqb_refl. cbn [andb]. now apply IH.
Qed.

(** The validators that describe themselves in the same words: line and text, and a base validator and its decoding counterpart. *)
Definition twins (k k' : kind) : Prop :=
  match k, k' with
  | Line, Text | Text, Line | Base32, Base32Decoded | Base32Decoded, Base32 | Base64, Base64Decoded | Base64Decoded, Base64
  | Base64Url, Base64UrlDecoded | Base64UrlDecoded, Base64Url => True
  | _, _ => False
  end.
Lemma heads_apart k k' : existsb (fun p => existsb (fun q => starts p q || starts q p) (heads k')) (heads k) = true -> k = k' \/ twins k k'.
Proof. destruct k, k'; vm_compute; intros H; (discriminate H || auto). Qed.

(** C125. The description tells the kind of the validator, but for the twins. *)
Theorem C125_kind_partial : forall k k' t, describes k t -> describes k' t -> k = k' \/ twins k k'.
Proof.
  intros k k' t H H'. destruct (describes_head k t H) as (p & r & I & E). destruct (describes_head k' t H') as (q & r' & I' & E').
  apply heads_apart. apply existsb_exists. exists p. split; [exact I|]. apply existsb_exists. exists q. split; [exact I'|].
  apply (two_heads p q r r'). congruence.
Qed.
Print Assumptions C125_kind_partial.
(** C125 is false for them: every description of one is a description of the other. *)
Theorem C125_kind_refuted : forall k k' t, twins k k' -> describes k t -> describes k' t.
Proof. intros k k' t T H. destruct k, k'; cbn [twins] in T; try contradiction; cbn [describes] in *; exact H. Qed.
Print Assumptions C125_kind_refuted.

(** C125 is false for [validators::Result]: its description is the name of the error type, which describes no validator of any kind, so the type and its
    [Result] refuse one value in different words. The name tells the kind but for semver and semver_req. *)
Theorem C125_result_refuted : forall k w, wrap_expect k = Some w -> forall k' t, describes k' t -> t <> w.
Proof.
  intros k w W k' t H E. subst t. destruct (describes_head k' w H) as (p & r & I & E).
  assert (A : hd 0 w = 97).
  { destruct k'; cbn [heads In] in I; decompose [or] I; try contradiction; subst; reflexivity. }
  destruct k; cbn [wrap_expect] in W; try discriminate W; injection W as <-; vm_compute in A; discriminate A.
Qed.
Print Assumptions C125_result_refuted.
Theorem C125_result_name : forall k k' w, wrap_expect k = Some w -> wrap_expect k' = Some w ->
  k = k' \/ k = Semver /\ k' = SemverReq \/ k = SemverReq /\ k' = Semver.
Proof. intros k k' w H H'. assert (E : wrap_expect k = wrap_expect k') by congruence. destruct k, k'; vm_compute in E; (discriminate E || discriminate H || auto). Qed.
Print Assumptions C125_result_name.

(** What a description asks for, in words: a text, for every validator ("string", "line", "email", "domain name", "url", "phone number"); "data" for the base
    validators; "a boolean" or "a number `0` or `1`" for boolean; "a positive integer" for byte; "a signed integer"; "a unsigned integer"; "a number". *)
Definition asks_for_integer (k : kind) (z : Z) : Prop :=
  match k with
  | Boolean => z = 0%Z \/ z = 1%Z
  | Byte => (0 < z)%Z
  | UnsignedInteger => (0 <= z)%Z
  | SignedInteger | Number => True
  | _ => False
  end.
Definition asks_for_data (k : kind) : Prop :=
  match k with Base32 | Base32Decoded | Base64 | Base64Decoded | Base64Url | Base64UrlDecoded => True | _ => False end.
Definition asks_for (k : kind) (c : de_call) : Prop :=
  match c with
  | DStr _ | DString _ => True
  | DBytes _ | DByteBuf _ => asks_for_data k
  | DBool _ => k = Boolean
  | DInt _ _ z => asks_for_integer k z
  | DF32 _ | DF64 _ => k = Number
  | _ => False
  end.
Definition asks_for_json (k : kind) (j : json) : Prop :=
  match j with
  | JStr _ => True
  | JBool _ => k = Boolean
  | JInt z => asks_for_integer k z
  | JFloat _ => k = Number
  | _ => False
  end.

Lemma custom_not_type {E A} (r : outcome E A) : omap_err (@DCustom E) r <> Err DType.
Proof. destruct r; discriminate. Qed.

(** C125. A JSON document is refused for its type although the description asks for it in four cases and no other. *)
Theorem C125_json_partial : forall E A k (m : methods E A) j t, describes k t ->
  (own_de k m (json_input j) = Err DType /\ asks_for_json k j <->
   exists z, j = JInt z /\
     (k = SignedInteger /\ (0 <= z \/ z < - 2 ^ 63)%Z \/ k = UnsignedInteger /\ (2 ^ 64 <= z)%Z \/
      k = Number /\ (- 2 ^ 63 <= z < 2 ^ 64)%Z \/ k = Byte /\ (0 < z)%Z)).
Proof.
  intros E A k m j t D. split.
  - intros [H Q]. destruct j; cbn [asks_for_json] in Q; try contradiction.
    + subst k. exfalso. exact (custom_not_type _ H).
    + exists z. split; [reflexivity|]. destruct k; cbn [asks_for_integer] in Q; try contradiction.
      * exfalso. destruct Q as [-> | ->]; exact (custom_not_type _ H).
      * auto 10.
      * right. right. left. split; [reflexivity|]. unfold own_de, de in H. cbn [own_hint json_input present json_call human] in H.
        destruct ((0 <=? z)%Z && (z <? 2 ^ 64)%Z) eqn:B1; [lia|]. destruct ((- 2 ^ 63 <=? z)%Z && (z <? 0)%Z) eqn:B2; [lia|].
        exfalso. exact (custom_not_type _ H).
      * left. split; [reflexivity|]. unfold own_de, de in H. cbn [own_hint json_input present json_call human] in H.
        destruct ((0 <=? z)%Z && (z <? 2 ^ 64)%Z) eqn:B1; [lia|]. destruct ((- 2 ^ 63 <=? z)%Z && (z <? 0)%Z) eqn:B2; [|lia].
        exfalso. exact (custom_not_type _ H).
      * right. left. split; [reflexivity|]. unfold own_de, de in H. cbn [own_hint json_input present json_call human] in H.
        destruct ((0 <=? z)%Z && (z <? 2 ^ 64)%Z) eqn:B1; [|lia]. exfalso. exact (custom_not_type _ H).
    + subst k. exfalso. exact (custom_not_type _ H).
    + exfalso. destruct k; cbn [describes] in D; try contradiction; exact (custom_not_type _ H).
  - intros (z & -> & C). destruct C as [[-> C]|[[-> C]|[[-> C]|[-> C]]]]; unfold own_de, de; cbn [own_hint json_input present json_call human asks_for_json asks_for_integer].
    + split; [|exact I]. destruct ((0 <=? z)%Z && (z <? 2 ^ 64)%Z) eqn:B1; [reflexivity|].
      destruct ((- 2 ^ 63 <=? z)%Z && (z <? 0)%Z) eqn:B2; [lia|]. reflexivity.
    + split; [|lia]. destruct ((0 <=? z)%Z && (z <? 2 ^ 64)%Z) eqn:B1; [lia|].
      destruct ((- 2 ^ 63 <=? z)%Z && (z <? 0)%Z) eqn:B2; [lia|]. reflexivity.
    + split; [|exact I]. destruct ((0 <=? z)%Z && (z <? 2 ^ 64)%Z) eqn:B1; [reflexivity|].
      destruct ((- 2 ^ 63 <=? z)%Z && (z <? 0)%Z) eqn:B2; [reflexivity|]. lia.
    + split; [reflexivity|exact C].
Qed.
Print Assumptions C125_json_partial.

(** C125. The same for formats that present a value as it was written (serde has no visitor method for isize and usize). *)
Theorem C125_binary_partial : forall E A k (m : methods E A) c t, describes k t -> (forall sg z, c <> DInt sg Isize z) ->
  (own_de k m (binary_input c) = Err DType /\ asks_for k c <->
   exists sg w z, c = DInt sg w z /\
     (k = SignedInteger /\ sg = false \/ k = UnsignedInteger /\ (0 <= z)%Z /\ sg = true \/
      k = Number \/ k = Byte /\ (0 < z)%Z /\ (sg = true \/ w <> I128))).
Proof.
  intros E A k m c t D NI. split.
  - intros [H Q]. destruct c; cbn [asks_for] in Q; try contradiction.
    + subst k. exfalso. exact (custom_not_type _ H).
    + assert (W : w <> Isize) by (intros ->; exact (NI sg z eq_refl)).
      exists sg, w, z. split; [reflexivity|]. destruct k; cbn [asks_for_integer] in Q; try contradiction.
      * destruct w; try (exfalso; exact (custom_not_type _ H)). congruence.
      * right. right. right. split; [reflexivity|]. split; [exact Q|]. destruct sg, w; try (left; reflexivity); try (right; discriminate).
        exfalso. exact (custom_not_type _ H).
      * auto.
      * left. split; [reflexivity|]. destruct sg; [|auto]. destruct w; try congruence; exfalso; exact (custom_not_type _ H).
      * right. left. split; [reflexivity|]. split; [exact Q|]. destruct sg; [auto|]. destruct w; try congruence; exfalso; exact (custom_not_type _ H).
    + subst k. exfalso. exact (custom_not_type _ H).
    + subst k. exfalso. exact (custom_not_type _ H).
    + exfalso. destruct k; cbn [describes] in D; try contradiction; exact (custom_not_type _ H).
    + exfalso. destruct k; cbn [describes] in D; try contradiction; exact (custom_not_type _ H).
    + exfalso. destruct k; cbn [asks_for_data] in Q; try contradiction; exact (custom_not_type _ H).
    + exfalso. destruct k; cbn [asks_for_data] in Q; try contradiction; exact (custom_not_type _ H).
  - intros (sg & w & z & -> & C). destruct C as [[-> ->]|[(-> & Z & ->)|[-> |(-> & Z & C)]]]; cbn [asks_for asks_for_integer].
    + split; [|exact I]. destruct w; reflexivity.
    + split; [|exact Z]. destruct w; reflexivity.
    + split; [|exact I]. destruct sg, w; reflexivity.
    + split; [|exact Z]. destruct C as [-> |C]; [destruct w; reflexivity|]. destruct sg, w; try reflexivity. contradiction.
Qed.
Print Assumptions C125_binary_partial.

(** C125 is false: the JSON document 5 is refused by signed_integer because "a signed integer" is expected, by number because "a number" is, and by byte because
    "a positive integer" will do; 2^64 is refused by unsigned_integer because "a unsigned integer" is expected. *)
Theorem C125_asked_for_refuted : forall E A (m : methods E A),
  (forall k, In k [SignedInteger; Number; Byte] -> (exists t, describes k t) /\ asks_for_json k (JInt 5) /\ own_de k m (json_input (JInt 5)) = Err DType) /\
  asks_for_json UnsignedInteger (JInt (2 ^ 64)) /\ own_de UnsignedInteger m (json_input (JInt (2 ^ 64))) = Err DType.
Proof.
  intros E A m. split.
  - intros k K. cbn [In] in K. destruct K as [<-|[<-|[<-|[]]]]; (split; [|split; [cbn; (exact I || lia)|reflexivity]]).
    + exists (int_expect true (fun _ => []) TUnlimited), (fun _ => []), TUnlimited. reflexivity.
    + exists (number_expect (fun _ => []) TUnlimited Allow), (fun _ => []), TUnlimited, Allow. reflexivity.
    + exists (byte_expect (mk_range None None true)), (mk_range None None true). reflexivity.
  - split; [cbn; lia|reflexivity].
Qed.
Print Assumptions C125_asked_for_refuted.

(** The hypotheses of C125 are met: descriptions of several kinds; values that are refused, rightly, and read. *)
Example C125_example :
  describes Email (bs "an ASCII email whose domain part must be an IP") /\ describes Line (bs "a line in 2..=5") /\ describes Text (bs "a line in 2..=5") /\
  describes Uuid (bs "a valid lower-case UUID string without separators") /\ describes Number (bs "a number which must be NaN") /\
  twins Line Text /\ wrap_expect Email = Some (bs "EmailError") /\ ~ asks_for_json Email (JInt 5) /\ asks_for Base64 (DBytes [65]) /\
  let m := Build_methods unit nat (fun _ => Ok 1%nat) (fun _ => Ok 2%nat) (fun _ => Ok 3%nat) (fun _ => Ok 4%nat) (fun _ => Ok 5%nat) (fun _ => Ok 6%nat)
    (fun _ _ _ => Ok 7%nat) (fun _ => Ok 8%nat) (fun _ => Ok 9%nat) (fun _ => Ok 10%nat) (fun _ => Ok 11%nat) in
  own_de Email m (json_input (JInt 5)) = Err DType /\ own_de Email m (json_input (JStr (bs "x"))) = Ok 1%nat /\
  own_de SignedInteger m (json_input (JInt (-5))) = Ok 7%nat /\ own_de UnsignedInteger m (json_input (JInt 5)) = Ok 7%nat /\
  own_de Number m (json_input (JInt (2 ^ 70))) = Ok 9%nat /\ own_de Byte m (binary_input (DInt false I128 5)) = Ok 7%nat /\
  own_de Byte m (binary_input (DInt false I64 5)) = Err DType.
Proof.
  split; [exists {| e_comment := false; e_ip := Must; e_local := Allow; e_two := Allow; e_non_ascii := false |}; reflexivity|]. split; [exists (Some (true, mk_len (Some 2) None (Some 5))); reflexivity|].
  split; [exists (Some (true, mk_len (Some 2) None (Some 5))); reflexivity|]. split; [exists LowerCase, SepDisallow; reflexivity|].
  split; [exists (fun _ => []), TUnlimited, Must; reflexivity|]. split; [exact I|]. split; [reflexivity|]. split; [intros H; exact H|]. split; [exact I|].
  cbv zeta. repeat split.
Qed.
