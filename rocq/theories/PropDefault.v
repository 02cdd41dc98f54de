(** C85: leaving out an argument means the default that the documentation of the crate gives for it. *)
From Verif Require Import Base RangeModel IntModel NumberModel LengthModel MacModel MetaModel MetaSpec MacroModel MacroSpec MacroProofs PropMeta StrFacts LocalProofs.
From Coq Require Import Floats.SpecFloat.
Local Open Scope N_scope.

(** The lines "By default, .." of /repo/validators/src/lib.rs:63-853: argument [x], called [n], writes the documented default of the parameter
    [n] of validator [v]. Parameters whose default cannot be written (bit, byte and length ranges, line and text lengths, countries) are not
    listed. *)
Definition documented (v : validator) (n : ident) (x : meta) : Prop :=
  match v with
  | Vbase32 | Vbase32_decoded | Vbase64 | Vbase64_decoded | Vbase64_url | Vbase64_url_decoded => n = bs "padding" /\ word_written x (bs "Allow")
  | Vbyte => n = bs "ignore_case" /\ bool_written x true
  | Vdomain => In n [bs "ipv4"; bs "local"; bs "port"; bs "at_least_two_labels"] /\ word_written x (bs "Allow")
  | Vemail => In n [bs "comment"; bs "ip"; bs "local"; bs "at_least_two_labels"; bs "non_ascii"] /\ word_written x (bs "Allow")
  | Vhost => In n [bs "local"; bs "port"; bs "at_least_two_labels"] /\ word_written x (bs "Allow")
  | Vhttp_url | Vhttp_ftp_url => n = bs "local" /\ word_written x (bs "Allow")
  | Vip | Vipv4 | Vipv6 => In n [bs "local"; bs "port"] /\ word_written x (bs "Allow")
  | Vmac_address => n = bs "case" /\ word_written x (bs "Any") \/
                    n = bs "separator" /\ x = MList [n] [IMeta (MList [bs "Allow"] [ILit (LitByte 58)] false)] false
  | Vuuid => n = bs "case" /\ word_written x (bs "Any") \/
             n = bs "separator" /\ x = MList [n] [IMeta (MList [bs "Allow"] [ILit (LitByte 45)] false)] false
  | Vnumber => n = bs "nan" /\ word_written x (bs "Allow") \/ n = bs "range" /\ x = MList [n] [IMeta (MPath [bs "Unlimited"])] false
  | Vsigned_integer | Vunsigned_integer => n = bs "range" /\ x = MList [n] [IMeta (MPath [bs "Unlimited"])] false
  | _ => False
  end.

(** The arguments [extra] write, each once, documented defaults of parameters that do not occur in [ms]. *)
Definition defaults (D : ident -> meta -> Prop) (ms extra : list meta) : Prop :=
  Forall (fun x => exists n, named n x /\ D n x /\ forall y, In y ms -> ~ named n y) extra /\ NoDup (List.map meta_path extra).

Lemma value_ext (D : ident -> meta -> Prop) ms extra {A} n (W : meta -> A -> Prop) d v :
  defaults D ms extra -> (forall x, D n x -> forall u, W x u <-> u = d) ->
  (value (ms ++ extra) n W d v <-> value ms n W d v).
Proof.
  intros [F _] K. rewrite Forall_forall in F. split.
  - intros [(x & I & Nx & Wx)|[No E]].
    + apply in_app_or in I as [I|I]; [left; eauto|]. destruct (F x I) as (n' & N' & Dx & Fr).
      assert (n' = n) by (unfold named in *; congruence). subst n'. right. split; [exact Fr|]. apply (K x Dx). exact Wx.
    + right. split; [|exact E]. intros y I. apply No, in_or_app. left. exact I.
  - intros [(x & I & Nx & Wx)|[No ->]].
    + left. exists x. split; [apply in_or_app; left; exact I|]. split; assumption.
    + destruct (List.existsb (fun x => match meta_path x with [i] => eqbs i n | _ => false end) extra) eqn:X.
      * apply existsb_exists in X as (x & I & X). destruct (meta_path x) as [|i [|]] eqn:P; try discriminate X.
        apply eqbs_eq in X. subst i. destruct (F x I) as (n' & N' & Dx & Fr).
        assert (n' = n) by (unfold named in *; congruence). subst n'. left. exists x. split; [apply in_or_app; right; exact I|].
        split; [exact N'|]. apply (K x Dx). reflexivity.
      * right. split; [|reflexivity]. intros y I Ny. apply in_app_or in I as [I|I]; [exact (No y I Ny)|].
        assert (Y : List.existsb (fun x => match meta_path x with [i] => eqbs i n | _ => false end) extra = true).
        { apply existsb_exists. exists y. split; [exact I|]. rewrite Ny. apply eqbs_eq. reflexivity. }
        congruence.
Qed.

Lemma well_named_ext (D : ident -> meta -> Prop) ms extra names :
  defaults D ms extra -> (forall n x, D n x -> In n names) -> (well_named names (ms ++ extra) <-> well_named names ms).
Proof.
  intros [F ND] K. split.
  - intros (used & F2 & N2 & I2). apply Forall2_app_inv_r in F2 as (u1 & u2 & A & B & ->).
    exists u1. split; [exact A|]. split; [|intros i Hi; apply I2, in_or_app; left; exact Hi].
    clear -N2. induction u1 as [|x u1 IH]; [constructor|]. cbn in N2. inversion N2 as [|? ? X Y]; subst.
    constructor; [intros I; apply X, in_or_app; left; exact I|exact (IH Y)].
  - intros (used & F2 & N2 & I2).
    assert (E : exists u2, Forall2 named u2 extra /\ NoDup u2 /\ incl u2 names /\ forall n, In n u2 -> forall y, In y ms -> ~ named n y).
    { clear F2 N2 I2. induction extra as [|x extra IH].
      - exists []. split; [constructor|]. split; [constructor|]. split; [intros i []|intros n []].
      - cbn [List.map] in ND. inversion F as [|? ? (n & Nx & Dx & Fr) F']; subst. inversion ND as [|? ? X ND']; subst.
        destruct (IH F' ND') as (u2 & A & B & C & E). exists (n :: u2). split; [constructor; assumption|].
        split; [|split].
        + constructor; [|exact B]. intros I. apply X. clear -A I Nx. induction A as [|i y u2 ys Hy A IHA]; [destruct I|].
          destruct I as [<-|I]; [left; unfold named in *; congruence|right; exact (IHA I)].
        + intros i [<-|I]; [exact (K _ _ Dx)|exact (C i I)].
        + intros i [<-|I]; [exact Fr|exact (E i I)]. }
    destruct E as (u2 & A & B & C & E). exists (used ++ u2). split; [apply Forall2_app; assumption|].
    split; [|apply incl_app; assumption].
    assert (J : forall i, In i used -> ~ In i u2).
    { intros i I I'. assert (Y : exists y, In y ms /\ named i y).
      { clear -F2 I. induction F2 as [|j y used ms Hy F2 IH]; [destruct I|]. destruct I as [->|I].
        - exists y. split; [left; reflexivity|exact Hy].
        - destruct (IH I) as (z & Z1 & Z2). exists z. split; [right; exact Z1|exact Z2]. }
      destruct Y as (y & Y1 & Y2). exact (E i I' y Y1 Y2). }
    clear -N2 B J. induction used as [|i used IH]; [exact B|]. inversion N2 as [|? ? X Y]; subst. cbn. constructor.
    + intros I. apply in_app_or in I as [I|I]; [exact (X I)|]. exact (J i (or_introl eq_refl) I).
    + apply IH; [exact Y|]. intros j Hj. apply J. right. exact Hj.
Qed.

Lemma arguments_unique m ms ms' : arguments m ms -> arguments m ms' -> ms = ms'.
Proof.
  destruct m as [p|p e|p items tr]; cbn; [congruence|contradiction|]. intros [-> _] [E _].
  revert ms' E. induction ms as [|x ms IH]; intros [|y ms'] E; try discriminate E; [reflexivity|].
  cbn in E. injection E as -> E. f_equal. apply IH. exact E.
Qed.

(** The values that the documented defaults stand for. *)
Lemma word_inj x a b : word_written x a -> word_written x b -> a = b.
Proof. intros (p & [-> | ->]) (q & [E|E]); try discriminate E; injection E; auto. Qed.
Lemma tri_default x u : word_written x (bs "Allow") -> (tri_written x u <-> u = Allow).
Proof.
  intros H. unfold tri_written. split; [|intros ->; exact H]. intros K. apply (word_inj _ _ _ H) in K.
  destruct u; [vm_compute in K; discriminate K|reflexivity|vm_compute in K; discriminate K].
Qed.
Lemma allow_default x u : word_written x (bs "Allow") -> (allow_written x u <-> u = true).
Proof.
  intros H. unfold allow_written. split; [|intros ->; exact H]. intros K. apply (word_inj _ _ _ H) in K.
  destruct u; [reflexivity|vm_compute in K; discriminate K].
Qed.
Lemma case_default x u : word_written x (bs "Any") -> (case_written x u <-> u = AnyCase).
Proof.
  intros H. unfold case_written. split; [|intros ->; exact H]. intros K. apply (word_inj _ _ _ H) in K.
  destruct u; [reflexivity|vm_compute in K; discriminate K|vm_compute in K; discriminate K].
Qed.
Lemma sep_default p c u : sep_written (MList p [IMeta (MList [bs "Allow"] [ILit (LitByte c)] false)] false) u <-> u = SepAllow c.
Proof.
  unfold sep_written, byte_written. split.
  - intros (q & a & E & H). injection E as _ <-. destruct u.
    all: try discriminate H.
    all: destruct H as [H|H]; [discriminate H|].
    all: first [injection H as ->; reflexivity|exfalso; injection H as K _; vm_compute in K; discriminate K|exfalso; injection H as K; vm_compute in K; discriminate K].
  - intros ->. exists p, (MList [bs "Allow"] [ILit (LitByte c)] false). split; [reflexivity|]. right. reflexivity.
Qed.
Lemma bool_default x u : bool_written x true -> (bool_written x u <-> u = true).
Proof.
  intros H. split; [|intros ->; exact H]. destruct H as (p & [-> | [-> | ->]]); intros (q & [E|[E|E]]); try discriminate E; injection E; auto.
Qed.
Lemma range_default {T} (fs : list N -> option T) ltb leb full p u :
  range_option_written fs ltb leb full (MList p [IMeta (MPath [bs "Unlimited"])] false) u <-> u = Unlimited.
Proof.
  unfold range_option_written. split.
  - intros (q & a & E & H). injection E as _ <-. destruct u as [mn mx i|mn mx i|]; [| |reflexivity].
    all: destruct H as [H _]; unfold named in H; cbn [meta_path] in H; injection H as K; vm_compute in K; discriminate K.
  - intros ->. exists p, (MPath [bs "Unlimited"]). split; reflexivity.
Qed.

(** Attribute by attribute. *)
Section Ext.
Variables (f : features) (m m' : meta) (ms extra : list meta).
Hypothesis Am : arguments m ms.
Hypothesis Am' : arguments m' (ms ++ extra).

Lemma attr_ext (P : list meta -> Prop) : (P (ms ++ extra) <-> P ms) ->
  ((exists l, arguments m l /\ P l) <-> (exists l, arguments m' l /\ P l)).
Proof.
  intros E. split; intros (l & A & R).
  - rewrite <- (arguments_unique _ _ _ Am A) in R. exists (ms ++ extra). split; [exact Am'|]. apply E. exact R.
  - rewrite <- (arguments_unique _ _ _ Am' A) in R. exists ms. split; [exact Am|]. apply E. exact R.
Qed.

Lemma opts_ext (D : ident -> meta -> Prop) o : defaults D ms extra -> (forall x, ~ D (bs "serde") x) -> (forall x, ~ D (bs "rocket") x) ->
  (opts_written f (ms ++ extra) o <-> opts_written f ms o).
Proof.
  intros F N1 N2. unfold opts_written. rewrite !(value_ext D) by (try exact F; intros x Hx; exfalso; eapply N1 + eapply N2; exact Hx). reflexivity.
Qed.
End Ext.

Lemma and_iff (A B C D : Prop) : (A <-> B) -> (C <-> D) -> (A /\ C <-> B /\ D).
Proof. tauto. Qed.

(** Two different names, or [False] among the hypotheses. *)
Ltac names_clash :=
  match goal with
  | H : @eq (list N) _ _ |- _ => exfalso; vm_compute in H; discriminate H
  | H : @eq ident _ _ |- _ => exfalso; vm_compute in H; discriminate H
  | H : False |- _ => destruct H
  end.
Ltac split_doc H :=
  cbn [documented In] in H;
  repeat match goal with
  | X : _ \/ _ |- _ => destruct X as [X|X]
  | X : _ /\ _ |- _ => destruct X as [X ?]
  end.
Ltac leaf v F :=
  repeat (apply and_iff);
  [apply (well_named_ext (documented v)); [exact F|
     let n := fresh in let x := fresh in let H := fresh in
     intros n x H; split_doc H; try names_clash; try subst n;
     repeat first [left; reflexivity|right]] | ..];
  first
  [apply (opts_ext _ _ _ (documented v)); [exact F| |]; let x := fresh in let H := fresh in intros x H; split_doc H; names_clash
  |apply (value_ext (documented v)); [exact F|]; let x := fresh in let H := fresh in
   intros x H; split_doc H; try names_clash; intros;
   first [apply tri_default; assumption|apply allow_default; assumption|apply case_default; assumption|apply bool_default; assumption
         |subst x; apply sep_default|subst x; apply range_default]
  |idtac].

Section Attributes.
Variables (f : features) (m m' : meta) (ms extra : list meta).
Hypothesis Am : arguments m ms.
Hypothesis Am' : arguments m' (ms ++ extra).

Lemma base_ext v a : In v [Vbase32; Vbase32_decoded; Vbase64; Vbase64_decoded; Vbase64_url; Vbase64_url_decoded] ->
  defaults (documented v) ms extra -> (base_attribute f m = Ok a <-> base_attribute f m' = Ok a).
Proof.
  intros I F. rewrite !C66_base. apply (attr_ext m m' ms extra Am Am').
  cbn [In] in I; repeat (destruct I as [<-|I]); try contradiction;
  match type of F with defaults (documented ?v) _ _ => leaf v F end.
Qed.
Lemma http_ext v a : In v [Vhttp_url; Vhttp_ftp_url] ->
  defaults (documented v) ms extra -> (http_attribute f m = Ok a <-> http_attribute f m' = Ok a).
Proof.
  intros I F. rewrite !C66_http. apply (attr_ext m m' ms extra Am Am').
  cbn [In] in I; repeat (destruct I as [<-|I]); try contradiction;
  match type of F with defaults (documented ?v) _ _ => leaf v F end.
Qed.
Lemma ip_ext v a : In v [Vip; Vipv4; Vipv6] ->
  defaults (documented v) ms extra -> (ip_attribute f m = Ok a <-> ip_attribute f m' = Ok a).
Proof.
  intros I F. rewrite !C66_ip. apply (attr_ext m m' ms extra Am Am').
  cbn [In] in I; repeat (destruct I as [<-|I]); try contradiction;
  match type of F with defaults (documented ?v) _ _ => leaf v F end.
Qed.
Lemma host_ext a : defaults (documented Vhost) ms extra -> (host_attribute f m = Ok a <-> host_attribute f m' = Ok a).
Proof. intros F. rewrite !C66_host. apply (attr_ext m m' ms extra Am Am'). leaf Vhost F. Qed.
Lemma domain_ext a : defaults (documented Vdomain) ms extra -> (domain_attribute f m = Ok a <-> domain_attribute f m' = Ok a).
Proof. intros F. rewrite !C66_domain. apply (attr_ext m m' ms extra Am Am'). leaf Vdomain F. Qed.
Lemma email_ext a : defaults (documented Vemail) ms extra -> (email_attribute f m = Ok a <-> email_attribute f m' = Ok a).
Proof. intros F. rewrite !C66_email. apply (attr_ext m m' ms extra Am Am'). leaf Vemail F. Qed.
Lemma mac_ext a : defaults (documented Vmac_address) ms extra -> (mac_attribute f m = Ok a <-> mac_attribute f m' = Ok a).
Proof. intros F. unfold mac_attribute. rewrite !C66_mac_uuid. apply (attr_ext m m' ms extra Am Am'). leaf Vmac_address F. Qed.
Lemma uuid_ext a : defaults (documented Vuuid) ms extra -> (uuid_attribute f m = Ok a <-> uuid_attribute f m' = Ok a).
Proof. intros F. unfold uuid_attribute. rewrite !C66_mac_uuid. apply (attr_ext m m' ms extra Am Am'). leaf Vuuid F. Qed.
Lemma byte_ext (fs : list N -> option N) a : defaults (documented Vbyte) ms extra ->
  (byte_attribute fs N.ltb N.leb f m = Ok a <-> byte_attribute fs N.ltb N.leb f m' = Ok a).
Proof. intros F. rewrite !C66_byte. apply (attr_ext m m' ms extra Am Am'). leaf Vbyte F. Qed.
Lemma number_ext {T} (fs : list N -> option T) ltb leb a : defaults (documented Vnumber) ms extra ->
  (number_attribute fs ltb leb f m = Ok a <-> number_attribute fs ltb leb f m' = Ok a).
Proof. intros F. rewrite !C66_number. apply (attr_ext m m' ms extra Am Am'). leaf Vnumber F. Qed.
Lemma int_ext {T} (fs : list N -> option T) ltb leb v a : In v [Vsigned_integer; Vunsigned_integer] -> defaults (documented v) ms extra ->
  (range_attribute fs ltb leb f m = Ok a <-> range_attribute fs ltb leb f m' = Ok a).
Proof.
  intros I F. rewrite !C66_integer. apply (attr_ext m m' ms extra Am Am').
  cbn [In] in I; repeat (destruct I as [<-|I]); try contradiction;
  match type of F with defaults (documented ?v) _ _ => leaf v F end.
Qed.
End Attributes.

Lemma obind_same {E A B} (x y : outcome E A) (k : A -> outcome E B) g :
  (forall a, x = Ok a <-> y = Ok a) -> (obind x k = Ok g <-> obind y k = Ok g).
Proof.
  intros H. destruct x as [a|e|].
  - rewrite (proj1 (H a) eq_refl). reflexivity.
  - destruct y as [b|e'|]; cbn; [|split; discriminate|split; discriminate]. discriminate (proj2 (H b) eq_refl).
  - destruct y as [b|e'|]; cbn; [|split; discriminate|split; discriminate]. discriminate (proj2 (H b) eq_refl).
Qed.
Lemma omap_same {E A B} (h : A -> B) (x y : outcome E A) g :
  (forall a, x = Ok a <-> y = Ok a) -> (omap h x = Ok g <-> omap h y = Ok g).
Proof. intros H. exact (obind_same x y (fun a => Ok (h a)) g H). Qed.

Lemma only_one {A} (Q : A -> Prop) pre x post pre' x' post' : pre ++ x :: post = pre' ++ x' :: post' -> Q x ->
  (forall z, In z (pre' ++ post') -> ~ Q z) -> pre = pre' /\ x = x' /\ post = post'.
Proof.
  revert pre'. induction pre as [|a pre IH]; intros [|b pre'] E Hx H; cbn in E; injection E as <- E.
  - auto.
  - exfalso. apply (H x); [left; reflexivity|exact Hx].
  - exfalso. apply (H x); [|exact Hx]. cbn. rewrite <- E. apply in_or_app. right. left. reflexivity.
  - destruct (IH pre' E Hx) as (-> & -> & ->); [|auto]. intros z Hz. apply H. right. exact Hz.
Qed.

Lemma handler_ext : forall cid (id_from_str : list N -> option cid) cid_eqb compiles float_lit pw v f m m' ms extra d g,
  arguments m ms -> arguments m' (ms ++ extra) -> defaults (documented v) ms extra -> extra <> [] ->
  (handler id_from_str cid_eqb compiles float_lit pw v f m d = Ok g <-> handler id_from_str cid_eqb compiles float_lit pw v f m' d = Ok g).
Proof.
  intros cid ifs ceq comp fl pw v f m m' ms extra d g A A' F NE.
  destruct v; cbn [handler];
  try (exfalso; destruct extra as [|x extra]; [exact (NE eq_refl)|]; destruct F as [F _]; inversion F as [|? ? (n & _ & D & _) _]; exact D);
  apply omap_same; intros a;
  unfold tuple_handler, http_handler, ip_handler, host_handler, domain_handler, email_handler, int_handler, number_handler.
  all: try (apply obind_same; intros b; first
    [eapply base_ext; [exact A|exact A'| |exact F]; cbn; tauto
    |eapply http_ext; [exact A|exact A'| |exact F]; cbn; tauto
    |eapply ip_ext; [exact A|exact A'| |exact F]; cbn; tauto
    |eapply host_ext; [exact A|exact A'|exact F]|eapply domain_ext; [exact A|exact A'|exact F]
    |eapply email_ext; [exact A|exact A'|exact F]|eapply mac_ext; [exact A|exact A'|exact F]
    |eapply uuid_ext; [exact A|exact A'|exact F]|eapply byte_ext; [exact A|exact A'|exact F]]).
  all: destruct d as [[|[|ty [|]]|]| |]; try reflexivity.
  all: match goal with |- context [float_type ?t] => destruct (float_type t) | |- context [int_type ?b ?t] => destruct (int_type b t) end; try reflexivity.
  all: apply obind_same; intros b; first
    [eapply number_ext; [exact A|exact A'|exact F]|eapply int_ext; [exact A|exact A'| |exact F]; cbn; tauto].
Qed.

(** C85: writing out documented defaults of parameters that were left out changes nothing: the macro accepts the one exactly when it accepts
    the other, and generates the same. *)
Theorem C85_documented_defaults : forall cid (id_from_str : list N -> option cid) cid_eqb compiles float_lit pw on f v m m' ms extra pre post fs k g,
  meta_path m = [validator_name v] -> meta_path m' = [validator_name v] ->
  arguments m ms -> arguments m' (ms ++ extra) -> defaults (documented v) ms extra -> extra <> [] ->
  (derive id_from_str cid_eqb compiles float_lit pw on f
     {| di_attrs := pre ++ MList [bs "validator"] [IMeta m] false :: post; di_data := fs; di_params := k |} = Ok g <->
   derive id_from_str cid_eqb compiles float_lit pw on f
     {| di_attrs := pre ++ MList [bs "validator"] [IMeta m'] false :: post; di_data := fs; di_params := k |} = Ok g).
Proof.
  intros cid ifs ceq comp fl pw on f v m m' ms extra pre post fs k g P P' A A' F NE.
  rewrite !derive_lemma. cbn [di_attrs di_data].
  assert (H := fun d g => handler_ext cid ifs ceq comp fl pw v f m m' ms extra d g A A' F NE).
  assert (VN : forall w w', [validator_name w] = [validator_name w'] -> w = w')
    by (intros w w' E; destruct w, w'; first [reflexivity|exfalso; vm_compute in E; discriminate E]).
  split; intros (pr & po & x & w & E & NV & Px & On & R);
    apply (only_one is_validator_attr) in E as (-> & E & ->); try exact NV; try reflexivity; injection E as <-;
    [rewrite P in Px|rewrite P' in Px]; apply VN in Px; subst w; exists pr, po; eexists; exists v;
    (split; [reflexivity|]); (split; [exact NV|]); (split; [eassumption|]); (split; [exact On|]); apply H; exact R.
Qed.
Print Assumptions C85_documented_defaults.

(** The hypotheses are met: [domain] and [domain(port = Allow, local(Allow))]; and an argument that is not the default does change the result. *)
Example C85_example :
  let arg n v := MNameValue [n] (EPath [v]) in
  let m := MPath [bs "domain"] in
  let m' := MList [bs "domain"] [IMeta (arg (bs "port") (bs "Allow")); IMeta (MList [bs "local"] [IMeta (MPath [bs "Allow"])] false)] false in
  let m2 := MList [bs "domain"] [IMeta (arg (bs "port") (bs "Must"))] false in
  let f := {| f_serde := false; f_rocket := false; f_full := false |} in
  meta_path m = [validator_name Vdomain] /\ arguments m [] /\
  arguments m' [arg (bs "port") (bs "Allow"); MList [bs "local"] [IMeta (MPath [bs "Allow"])] false] /\
  defaults (documented Vdomain) [] [arg (bs "port") (bs "Allow"); MList [bs "local"] [IMeta (MPath [bs "Allow"])] false] /\
  domain_attribute f m = domain_attribute f m' /\ is_ok (domain_attribute f m') /\ domain_attribute f m2 <> domain_attribute f m.
Proof.
  cbn zeta. split; [reflexivity|]. split; [reflexivity|]. split; [split; [reflexivity|discriminate]|]. split.
  - split.
    + repeat constructor.
      * exists (bs "port"). split; [reflexivity|]. split; [|intros y []]. split; [cbn; tauto|]. exists [bs "port"]. left. reflexivity.
      * exists (bs "local"). split; [reflexivity|]. split; [|intros y []]. split; [cbn; tauto|]. exists [bs "local"]. right. reflexivity.
    + constructor; [|constructor; [intros []|constructor]]. intros [E|[]]. vm_compute in E. discriminate E.
  - split; [vm_compute; reflexivity|]. split; [eexists; vm_compute; reflexivity|]. vm_compute. discriminate.
Qed.
