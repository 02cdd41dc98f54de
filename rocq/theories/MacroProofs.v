(** Proofs about the derive macro. *)
From Coq Require Import Permutation.
From Verif Require Import Base RangeModel IntModel NumberModel MetaModel MacroModel MetaSpec MetaProofs MacroSpec.
Local Open Scope N_scope.

Lemma named_in_perm : forall names fs, declared fs -> NoDup names ->
  named_in names fs = true <-> exists ns, fs = FNamed ns /\ Permutation ns names.
Proof.
  intros names fs D ND. unfold named_in. destruct fs as [ns|ts|]; try (split; [discriminate|intros (? & E & _); discriminate E]).
  cbn in D. rewrite Bool.andb_true_iff, PeanoNat.Nat.eqb_eq, forallb_forall. split.
  - intros [L H]. exists ns. split; [reflexivity|].
    apply NoDup_Permutation_bis; [exact D|rewrite L; constructor|].
    intros x I. specialize (H x I). apply existsb_exists in H as (y & Iy & E).
    apply str_eqb_eq in E. subst y. exact Iy.
  - intros (ms & E & P). injection E as ->. split; [apply Permutation_length; exact P|].
    intros x I. apply existsb_exists. exists x. split; [eapply Permutation_in; eauto|apply str_eqb_eq; reflexivity].
Qed.

(** Names without repetition, by computation. *)
Fixpoint nodupb (l : list ident) : bool :=
  match l with [] => true | n :: r => negb (existsb (eqbs n) r) && nodupb r end.

Lemma nodupb_nodup : forall l, nodupb l = true -> NoDup l.
Proof.
  induction l as [|n l IH]; intros H; [constructor|]. cbn in H. apply Bool.andb_true_iff in H as [A B].
  constructor; [|exact (IH B)]. intros I. apply Bool.negb_true_iff in A.
  assert (existsb (eqbs n) l = true) by (apply existsb_exists; exists n; split; [exact I|apply str_eqb_eq; reflexivity]).
  congruence.
Qed.

Lemma named_fits : forall l rs fs, nodupb (List.map fst l) = true ->
  forallb (fun x => match x with ReadField n => existsb (eqbs n) (List.map fst l) | ReadZero => false end) rs = true ->
  (declared fs -> named_in (List.map fst l) fs = true ->
   literal_fits fs (Named l) /\ Forall (access_fits fs) rs) /\
  (literal_fits fs (Named l) -> named_in (List.map fst l) fs = true).
Proof.
  intros l rs fs ND R. apply nodupb_nodup in ND. split.
  - intros D H. apply (named_in_perm _ _ D ND) in H as (ns & -> & P). split; [exact P|].
    apply Forall_forall. intros x I. rewrite forallb_forall in R. specialize (R x I).
    destruct x as [n|]; [|discriminate]. apply existsb_exists in R as (y & Iy & E). apply str_eqb_eq in E. subst y.
    cbn. eapply Permutation_in; [apply Permutation_sym; exact P|exact Iy].
  - intros F. destruct fs as [ns|ts|]; cbn in F; try contradiction.
    assert (D : declared (FNamed ns)) by (cbn; eapply Permutation_NoDup; [apply Permutation_sym; exact F|exact ND]).
    apply (named_in_perm _ _ D ND). exists ns. split; [reflexivity|exact F].
Qed.

Lemma tuple_fits : forall t fs,
  (tuple1 fs = true -> literal_fits fs (Tuple [t]) /\ Forall (access_fits fs) [ReadZero]) /\
  (literal_fits fs (Tuple [t]) -> tuple1 fs = true).
Proof.
  intros t fs. split.
  - intros H. destruct fs as [|[|? [|]]|]; cbn in H; try discriminate. split; [reflexivity|].
    constructor; [exact I|constructor].
  - intros H. destruct fs as [|[|? [|]]|]; cbn in H; try contradiction; try discriminate. reflexivity.
Qed.

(** What is shown for every handler: the struct accepted is the struct the generated code builds and reads. *)
Definition fits (ok : syn_fields -> bool) (b : fields_of) (rs : list access) : Prop := forall fs,
  (declared fs -> ok fs = true -> literal_fits fs b /\ Forall (access_fits fs) rs) /\
  (literal_fits fs b -> ok fs = true).

Lemma fits_named : forall l rs, nodupb (List.map fst l) = true ->
  forallb (fun x => match x with ReadField n => existsb (eqbs n) (List.map fst l) | ReadZero => false end) rs = true ->
  fits (named_in (List.map fst l)) (Named l) rs.
Proof. intros l rs A B fs. exact (named_fits l rs fs A B). Qed.

Lemma fits_tuple : forall t, fits tuple1 (Tuple [t]) [ReadZero].
Proof. intros t fs. destruct (tuple_fits t fs) as [A B]. split; [intros _; exact A|exact B]. Qed.

Ltac fits_tac :=
  match goal with
  | |- fits _ (Tuple [?t]) _ => apply (fits_tuple t)
  | |- fits _ (Named ?l) ?rs => refine (fits_named l rs _ _); vm_compute; reflexivity
  end.

Lemma ip_fits : forall n t p, nodupb [n; bs "port"] = true ->
  fits (ip_shape n p) (ip_builds n t p) (ip_reads n p).
Proof.
  intros n t p H. destruct p; cbn [ip_shape ip_builds ip_reads].
  3: apply fits_tuple.
  all: refine (fits_named [(n, t); (bs "port", _)] _ H _); cbn [forallb List.map fst existsb];
    rewrite !str_eqb_refl, ?Bool.orb_true_r; reflexivity.
Qed.

Lemma host_fits : forall a, fits (host_shape a) (host_builds a) (host_reads a).
Proof.
  intros [l p t o]. destruct l, p, t; cbn [host_shape host_builds host_reads ha_local ha_port ha_two tells_local
    is_allow_only is_disallow andb orb negb]; try fits_tac.
Qed.

Lemma domain_fits : forall a, fits (domain_shape a) (domain_builds a) (domain_reads a).
Proof.
  intros [i l p t c o]. destruct i, l, p, t; cbn [domain_shape domain_builds domain_reads da_local da_port da_two da_ipv4
    tells_local is_allow_only is_disallow andb orb negb List.app]; fits_tac.
Qed.

Lemma email_fits : forall a, fits (email_shape a) (email_builds a) (email_reads a).
Proof.
  intros [c i l t n k o]. destruct c, i, l, t; cbn [email_shape email_builds email_reads ea_comment ea_ip ea_local ea_two
    tells_local is_allow_only is_disallow andb orb negb List.app comment_names List.map]; fits_tac.
Qed.

(** ** Choosing the validator *)

Lemma get_ident_spec : forall p i, get_ident p = Some i <-> p = [i].
Proof. intros [|a [|b r]] i; cbn; split; intros E; try discriminate E; congruence. Qed.

Lemma validator_of_name : forall v, validator_of (validator_name v) = Some v.
Proof. destruct v; vm_compute; reflexivity. Qed.

Lemma validator_of_spec : forall s v, validator_of s = Some v <-> s = validator_name v.
Proof.
  intros s v. split; [|intros ->; apply validator_of_name]. unfold validator_of.
  repeat match goal with
         | |- (if eqbs ?s ?x then _ else _) = _ -> _ => destruct (eqbs s x) eqn:?E;
             [intros [= <-]; apply str_eqb_eq in E; exact E|clear E]
         end. discriminate.
Qed.

Lemma from_path_spec : forall on p v, from_path on p = Some v <-> p = [validator_name v] /\ on v = true.
Proof.
  intros on p v. unfold from_path. split.
  - destruct (get_ident p) as [i|] eqn:G; [|discriminate]. destruct (validator_of i) as [w|] eqn:W; [|discriminate].
    destruct (on w) eqn:O; [|discriminate]. intros [= <-]. apply get_ident_spec in G. apply validator_of_spec in W.
    subst. split; [reflexivity|exact O].
  - intros [-> O]. cbn [get_ident]. rewrite validator_of_name, O. reflexivity.
Qed.

Lemma args_meta_spec : forall items tr m, args_meta items tr = Some m <-> items = [IMeta m] /\ tr = false.
Proof.
  intros [|[x|l|r|] [|y z]] [|] m; cbn; split; intros E; try discriminate E; try (destruct E; congruence); try congruence.
  injection E as ->. split; reflexivity.
Qed.

Definition is_validator_attr (x : meta) : Prop := meta_path x = [bs "validator"].

Lemma attr_test : forall x, is_validator_attr x \/ ~ is_validator_attr x.
Proof.
  intros x. unfold is_validator_attr. destruct (meta_path x) as [|a [|b r]]; try (right; discriminate).
  destruct (eqbs a (bs "validator")) eqn:E; [left; apply str_eqb_eq in E; rewrite E; reflexivity|right].
  intros [= ->]. rewrite str_eqb_refl in E. discriminate.
Qed.

Lemma find_skip : forall on x rest used, ~ is_validator_attr x ->
  find_validator on (x :: rest) used = find_validator on rest used.
Proof.
  intros on x rest used H. cbn [find_validator]. unfold is_validator_attr in H.
  destruct (get_ident (meta_path x)) as [i|] eqn:G; [|reflexivity]. apply get_ident_spec in G.
  destruct (eqbs i (bs "validator")) eqn:E; [|reflexivity]. apply str_eqb_eq in E. subst i. contradiction.
Qed.

Lemma find_hit : forall on x rest used r, is_validator_attr x ->
  find_validator on (x :: rest) used = Ok r <->
  used = None /\ exists m v, x = MList [bs "validator"] [IMeta m] false /\ from_path on (meta_path m) = Some v /\
    find_validator on rest (Some (v, m)) = Ok r.
Proof.
  intros on x rest used r H. unfold is_validator_attr in H. cbn [find_validator]. rewrite H. cbn [get_ident].
  rewrite str_eqb_refl. destruct x as [p|p e|p items tr]; cbn [meta_path] in H; subst.
  - split; [discriminate|intros (_ & m & v & E & _); discriminate E].
  - split; [discriminate|intros (_ & m & v & E & _); discriminate E].
  - destruct (args_meta items tr) as [m|] eqn:A.
    + apply args_meta_spec in A as [-> ->]. destruct (from_path on (meta_path m)) as [v|] eqn:F.
      * destruct used as [u|].
        -- split; [discriminate|intros [? _]; discriminate].
        -- split.
           ++ intros E. split; [reflexivity|]. exists m, v. auto.
           ++ intros (_ & m' & v' & E & F' & R). injection E as <-. rewrite F in F'. injection F' as <-. exact R.
      * split; [discriminate|]. intros (_ & m' & v' & E & F' & R). injection E as <-. congruence.
    + split; [discriminate|]. intros (_ & m' & v' & E & F' & R). injection E as -> ->. cbn in A. discriminate.
Qed.

Lemma find_used : forall on attrs u r,
  find_validator on attrs (Some u) = Ok r <-> (forall x, In x attrs -> ~ is_validator_attr x) /\ r = Some u.
Proof.
  intros on attrs u r. induction attrs as [|x rest IH].
  - cbn. split; [intros [= <-]; split; [intros x []|reflexivity]|intros [_ ->]; reflexivity].
  - destruct (attr_test x) as [H|H].
    + rewrite find_hit by exact H. split; [intros [E _]; discriminate E|].
      intros [A _]. exfalso. exact (A x (or_introl eq_refl) H).
    + rewrite find_skip by exact H. rewrite IH. split; intros [A B]; (split; [|exact B]).
      * intros y [<-|I]; [exact H|exact (A y I)].
      * intros y I. apply A. right. exact I.
Qed.

Lemma find_none : forall on attrs v m,
  find_validator on attrs None = Ok (Some (v, m)) <->
  exists pre post, attrs = pre ++ MList [bs "validator"] [IMeta m] false :: post /\
    (forall x, In x (pre ++ post) -> ~ is_validator_attr x) /\ meta_path m = [validator_name v] /\ on v = true.
Proof.
  intros on attrs v m. induction attrs as [|x rest IH].
  - cbn. split; [discriminate|]. intros (pre & post & E & _). destruct pre; discriminate E.
  - destruct (attr_test x) as [H|H].
    + rewrite find_hit by exact H. split.
      * intros (_ & m' & v' & -> & F & R). apply find_used in R as [A E]. injection E as -> ->.
        apply from_path_spec in F as [P O]. exists [], rest. auto.
      * intros (pre & post & E & A & P & O). split; [reflexivity|].
        destruct pre as [|y pre]; cbn in E; injection E as -> ->.
        -- exists m, v. split; [reflexivity|]. split; [apply from_path_spec; auto|]. apply find_used. auto.
        -- exfalso. exact (A y (or_introl eq_refl) H).
    + rewrite find_skip by exact H. rewrite IH. split.
      * intros (pre & post & -> & A & P & O). exists (x :: pre), post. split; [reflexivity|].
        split; [|auto]. intros y [<-|I]; [exact H|exact (A y I)].
      * intros (pre & post & E & A & P & O). destruct pre as [|y pre]; cbn in E; injection E as -> ->.
        -- exfalso. apply H. reflexivity.
        -- exists pre, post. split; [reflexivity|]. split; [|auto]. intros z I. apply A. right. exact I.
Qed.

Lemma find_nothing : forall on attrs,
  find_validator on attrs None = Ok None <-> forall x, In x attrs -> ~ is_validator_attr x.
Proof.
  intros on attrs. induction attrs as [|x rest IH].
  - cbn. split; [intros _ x []|reflexivity].
  - destruct (attr_test x) as [H|H].
    + rewrite find_hit by exact H. split.
      * intros (_ & m & v & _ & _ & R). apply find_used in R as [_ E]. discriminate E.
      * intros A. exfalso. exact (A x (or_introl eq_refl) H).
    + rewrite find_skip by exact H. rewrite IH. split.
      * intros A y [<-|I]; [exact H|exact (A y I)].
      * intros A y I. apply A. right. exact I.
Qed.

Section Derive.
Context {cid : Type}.
Variable id_from_str : list N -> option cid.
Variable cid_eqb : cid -> cid -> bool.
Variable compiles : list N -> bool.
Variable float_lit : fty -> list N -> option SpecFloat.spec_float.
Variable pw : ptr_width.
Notation handler := (handler id_from_str cid_eqb compiles float_lit pw).
Notation derive := (derive id_from_str cid_eqb compiles float_lit pw).

Lemma omap_inv : forall E A B (h : A -> B) (x : outcome E A) b, omap h x = Ok b -> exists a, x = Ok a /\ b = h a.
Proof. intros E A B h [a|e|] b H; cbn in H; try discriminate. injection H as <-. eauto. Qed.

Lemma handler_generates : forall v f m d g, handler v f m d = Ok g -> generated g = v.
Proof. intros v f m d g H. destruct v; apply omap_inv in H as (a & _ & ->); reflexivity. Qed.

Lemma derive_lemma : forall on f d g,
  derive on f d = Ok g <->
  exists pre post m v, di_attrs d = pre ++ MList [bs "validator"] [IMeta m] false :: post /\
    (forall x, In x (pre ++ post) -> ~ is_validator_attr x) /\
    meta_path m = [validator_name v] /\ on v = true /\ handler v f m (di_data d) = Ok g.
Proof.
  intros on f d g. unfold MacroModel.derive. split.
  - intros H. destruct (find_validator on (di_attrs d) None) as [[[v m]|]|e|] eqn:F; cbn in H; try discriminate.
    apply find_none in F as (pre & post & E & A & P & O). exists pre, post, m, v. auto.
  - intros (pre & post & m & v & E & A & P & O & H).
    assert (F : find_validator on (di_attrs d) None = Ok (Some (v, m))) by (apply find_none; exists pre, post; auto).
    rewrite F. exact H.
Qed.

Lemma on_struct_inv : forall A (ok : syn_fields -> bool) d (a b : A), on_struct ok d a = Ok b <->
  a = b /\ exists fs, d = DataStruct fs /\ ok fs = true.
Proof.
  intros A ok d a b. unfold on_struct. destruct d as [fs| |]; try (split; [discriminate|intros (_ & ? & E & _); discriminate E]).
  destruct (ok fs) eqn:O.
  - split; [intros [= <-]; split; [reflexivity|exists fs; auto]|intros [-> _]; reflexivity].
  - split; [discriminate|]. intros (_ & fs' & E & T). injection E as <-. congruence.
Qed.

Lemma obind_ok : forall E A B (x : outcome E A) (k : A -> outcome E B) b,
  (let? a := x in k a) = Ok b <-> exists a, x = Ok a /\ k a = Ok b.
Proof. intros E A B [a|e|] k b; cbn; split; try discriminate; try (intros (? & ? & ?); congruence). eauto. Qed.

(** The struct: accepted means built and read. *)
Definition struct_checked (v : validator) : Prop := v <> Vhttp_url /\ v <> Vhttp_ftp_url.

Lemma shape_of : forall v f m fs g, handler v f m (DataStruct fs) = Ok g -> struct_checked v ->
  exists ok, ok fs = true /\ fits ok (builds g) (reads g).
Proof.
  intros v f m fs g H C. destruct v; apply omap_inv in H as (a & H & ->);
    try (destruct C as [C1 C2]; congruence);
    try (unfold tuple_handler in H; apply obind_ok in H as (x & _ & H); apply on_struct_inv in H as (-> & fs' & E & T);
         injection E as <-; exists tuple1; split; [exact T|]; apply fits_tuple).
  - unfold domain_handler in H. apply obind_ok in H as (x & _ & H). destruct (domain_conflicts x); [discriminate|].
    destruct (domain_shape x fs) eqn:T; [|discriminate]. injection H as ->. exists (domain_shape a). split; [exact T|apply domain_fits].
  - unfold email_handler in H. apply obind_ok in H as (x & _ & H). destruct (email_conflicts x); [discriminate|].
    destruct (email_shape x fs) eqn:T; [|discriminate]. injection H as ->. exists (email_shape a). split; [exact T|apply email_fits].
  - unfold host_handler in H. apply obind_ok in H as (x & _ & H). apply on_struct_inv in H as (-> & fs' & E & T).
    injection E as <-. exists (host_shape a). split; [exact T|apply host_fits].
  - unfold ip_handler in H. apply obind_ok in H as (x & _ & H). apply on_struct_inv in H as (-> & fs' & E & T).
    injection E as <-. exists (ip_shape (bs "ip") (ia_port a)). split; [exact T|apply ip_fits; vm_compute; reflexivity].
  - unfold ip_handler in H. apply obind_ok in H as (x & _ & H). apply on_struct_inv in H as (-> & fs' & E & T).
    injection E as <-. exists (ip_shape (bs "ipv4") (ia_port a)). split; [exact T|apply ip_fits; vm_compute; reflexivity].
  - unfold ip_handler in H. apply obind_ok in H as (x & _ & H). apply on_struct_inv in H as (-> & fs' & E & T).
    injection E as <-. exists (ip_shape (bs "ipv6") (ia_port a)). split; [exact T|apply ip_fits; vm_compute; reflexivity].
  - unfold number_handler in H. destruct fs as [|[|ty [|]]|]; try discriminate.
    exists tuple1. split; [reflexivity|]. apply fits_tuple.
  - unfold tuple_handler in H; apply obind_ok in H as (x & _ & H); apply on_struct_inv in H as (-> & fs' & E & T).
    injection E as <-. exists tuple1. split; [exact T|]. cbn [builds reads simple_builds simple_reads].
    destruct (List.length (pa_countries a)) as [|[|n]]; apply fits_tuple.
  - unfold int_handler in H. destruct fs as [|[|ty [|]]|]; try discriminate.
    exists tuple1. split; [reflexivity|]. apply fits_tuple.
  - unfold int_handler in H. destruct fs as [|[|ty [|]]|]; try discriminate.
    exists tuple1. split; [reflexivity|]. apply fits_tuple.
Qed.

(** Any struct the generated code fits is accepted. *)
Definition typed_field (v : validator) : Prop := v = Vnumber \/ v = Vsigned_integer \/ v = Vunsigned_integer.

Lemma two_named_fits : forall a b s t fs, literal_fits fs (Named [(a, s); (b, t)]) -> two_named fs = true.
Proof.
  intros a b s t fs H. destruct fs as [ns|ts|]; cbn in H; try contradiction. apply Permutation_length in H.
  destruct ns as [|x [|y [|z r]]]; cbn in H; try discriminate. reflexivity.
Qed.

Lemma shape_accept : forall v f m fs fs' g, handler v f m (DataStruct fs) = Ok g -> ~ typed_field v ->
  literal_fits fs' (builds g) -> handler v f m (DataStruct fs') = Ok g.
Proof.
  intros v f m fs fs' g H C L. unfold typed_field in C. destruct v; try (exfalso; tauto);
    apply omap_inv in H as (a & H & ->); cbn [MacroModel.handler];
    try (unfold tuple_handler in H |- *; apply obind_ok in H as (x & X & H); rewrite X; cbn [obind];
         apply on_struct_inv in H as (-> & _); cbn [on_struct];
         rewrite (proj2 (tuple_fits _ fs') L); reflexivity).
  - unfold domain_handler in H |- *. apply obind_ok in H as (x & X & H). rewrite X. cbn [obind].
    destruct (domain_conflicts x); [discriminate|].
    destruct (domain_shape x fs) eqn:T; [|discriminate]. injection H as ->.
    rewrite (proj2 (domain_fits a fs') L). reflexivity.
  - unfold email_handler in H |- *. apply obind_ok in H as (x & X & H). rewrite X. cbn [obind].
    destruct (email_conflicts x); [discriminate|].
    destruct (email_shape x fs) eqn:T; [|discriminate]. injection H as ->.
    rewrite (proj2 (email_fits a fs') L). reflexivity.
  - unfold host_handler in H |- *. apply obind_ok in H as (x & X & H). rewrite X. cbn [obind].
    apply on_struct_inv in H as (-> & _). cbn [on_struct]. rewrite (proj2 (host_fits a fs') L). reflexivity.
  - unfold http_handler in H |- *. apply obind_ok in H as (x & X & H). rewrite X. cbn [obind].
    apply on_struct_inv in H as (-> & _). cbn [on_struct]. rewrite (two_named_fits _ _ _ _ _ L). reflexivity.
  - unfold http_handler in H |- *. apply obind_ok in H as (x & X & H). rewrite X. cbn [obind].
    apply on_struct_inv in H as (-> & _). cbn [on_struct]. rewrite (two_named_fits _ _ _ _ _ L). reflexivity.
  - unfold ip_handler in H |- *. apply obind_ok in H as (x & X & H). rewrite X. cbn [obind].
    apply on_struct_inv in H as (-> & _). cbn [on_struct].
    rewrite (proj2 (ip_fits (bs "ip") TIpAddr (ia_port a) eq_refl fs') L). reflexivity.
  - unfold ip_handler in H |- *. apply obind_ok in H as (x & X & H). rewrite X. cbn [obind].
    apply on_struct_inv in H as (-> & _). cbn [on_struct].
    rewrite (proj2 (ip_fits (bs "ipv4") TIpv4Addr (ia_port a) eq_refl fs') L). reflexivity.
  - unfold ip_handler in H |- *. apply obind_ok in H as (x & X & H). rewrite X. cbn [obind].
    apply on_struct_inv in H as (-> & _). cbn [on_struct].
    rewrite (proj2 (ip_fits (bs "ipv6") TIpv6Addr (ia_port a) eq_refl fs') L). reflexivity.
  - unfold tuple_handler in H |- *; apply obind_ok in H as (x & X & H); rewrite X; cbn [obind].
    apply on_struct_inv in H as (-> & _); cbn [on_struct]. cbn [builds simple_builds] in L.
    destruct (List.length (pa_countries a)) as [|[|n]]; rewrite (proj2 (tuple_fits _ fs') L); reflexivity.
Qed.

(** The types accepted by the number validators. *)
Lemma int_type_spec : forall (sg : bool) ty t, int_type sg ty = Some t ->
  ty = match sg, t with
       | true, Isize => bs "isize" | true, I8 => bs "i8" | true, I16 => bs "i16" | true, I32 => bs "i32"
       | true, I64 => bs "i64" | true, I128 => bs "i128"
       | false, Isize => bs "usize" | false, I8 => bs "u8" | false, I16 => bs "u16" | false, I32 => bs "u32"
       | false, I64 => bs "u64" | false, I128 => bs "u128"
       end.
Proof.
  intros sg ty t. unfold int_type. destruct sg;
  repeat match goal with
         | |- (if eqbs ?s ?x then _ else _) = _ -> _ => destruct (eqbs s x) eqn:?E;
             [intros [= <-]; apply str_eqb_eq in E; exact E|clear E]
         end; discriminate.
Qed.

Lemma float_type_spec : forall ty t, float_type ty = Some t -> ty = match t with F32 => bs "f32" | F64 => bs "f64" end.
Proof.
  intros ty t. unfold float_type.
  repeat match goal with
         | |- (if eqbs ?s ?x then _ else _) = _ -> _ => destruct (eqbs s x) eqn:?E;
             [intros [= <-]; apply str_eqb_eq in E; exact E|clear E]
         end; discriminate.
Qed.

Lemma int_handler_inv : forall sg f m d t a, int_handler pw sg f m d = Ok (t, a) ->
  exists ty, d = DataStruct (FUnnamed [ty]) /\ int_type sg ty = Some t /\
    range_attribute (int_lit sg pw t) Z.ltb Z.leb f m = Ok a.
Proof.
  intros sg f m d t a H. unfold int_handler in H. destruct d as [[|[|ty [|]]|]| |]; try discriminate.
  destruct (int_type sg ty) as [t'|] eqn:T; [|discriminate].
  apply obind_ok in H as (x & X & H). injection H as -> ->. exists ty. auto.
Qed.

Lemma number_handler_inv : forall f m d t a, number_handler float_lit f m d = Ok (t, a) ->
  exists ty, d = DataStruct (FUnnamed [ty]) /\ float_type ty = Some t /\
    number_attribute (float_lit t) SpecFloat.SFltb SpecFloat.SFleb f m = Ok a /\
    number_conflict (na_range a) (na_nan a) (na_conflict a) = false.
Proof.
  intros f m d t a H. unfold number_handler in H. destruct d as [[|[|ty [|]]|]| |]; try discriminate.
  destruct (float_type ty) as [t'|] eqn:T; [|discriminate].
  apply obind_ok in H as (x & X & H). destruct (number_conflict _ _ _) eqn:C; [discriminate|].
  injection H as -> ->. exists ty. auto.
Qed.

(** The struct shown in the compile error. *)
Lemma asked_for_lemma : forall v f m d (g : expansion cid), handler v f m d = Ok g ->
  v <> Vbyte -> v <> Vunsigned_integer ->
  (forall a, g = GPhone a -> (1 < List.length (pa_countries a))%nat) ->
  asked_for g = builds g.
Proof.
  intros v f m d g H N1 N2 P. pose proof (handler_generates _ _ _ _ _ H) as G.
  destruct v; try congruence; apply omap_inv in H as (a & _ & ->); try reflexivity.
  cbn [asked_for builds simple_item simple_builds]. specialize (P a eq_refl).
  destruct (List.length (pa_countries a)) as [|[|n]]; [inversion P|inversion P as [|? Q]; inversion Q|reflexivity].
Qed.
End Derive.

Lemma split_unique : forall A (P : A -> Prop) a x b p y q, a ++ x :: b = p ++ y :: q -> P x ->
  (forall z, In z (p ++ q) -> ~ P z) -> x = y /\ a = p /\ b = q.
Proof.
  intros A P a. induction a as [|u a IH]; intros x b p y q E Hx Hp; destruct p as [|w p]; cbn in E; injection E as E1 E2.
  - auto.
  - exfalso. subst w. apply (Hp x); [left; reflexivity|exact Hx].
  - exfalso. subst. apply (Hp x); [|exact Hx]. cbn. apply in_or_app. right. left. reflexivity.
  - subst w. destruct (IH x b p y q E2 Hx) as (-> & -> & ->); auto. intros z Hz. apply Hp. right. exact Hz.
Qed.
