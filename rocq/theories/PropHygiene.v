(** C93: the generated code means the same whatever the struct and the other items of its module are called. *)
From Coq Require Import List NArith Bool.
From Verif Require Import Base MetaModel MacroModel FeatureModel HygieneModel LocalProofs.
Import ListNotations.

(** The identifier stands for what the author of the macro meant: the struct; the type that the user's own declaration of the field
    names; a name of the crate's prelude, of the standard prelude, or of the language. *)
Definition as_meant (s : list N) (m : list N -> bool) (u : name_use) : Prop :=
  match u_word u with
  | WStruct => resolve s m u = MModule s
  | WField t => resolve s m u = resolve s m (mk_use (WField t) [])
  | W x => resolve s m u = MOutside x
  end.

(** The words that a module has to leave alone. *)
Definition taken : list (list N) :=
  List.map bs ["Result"; "Ok"; "Err"; "Some"; "None"; "Option"; "AsRef"; "Into"; "String"; "str"; "bool"; "char"; "u8"; "u16"; "u32"; "u64"; "u128"; "usize";
    "i8"; "i16"; "i32"; "i64"; "i128"; "isize"; "f32"; "f64"; "unreachable"; "format"; "format_args"; "validators_prelude";
    "ValidateString"; "ValidateBytes"; "ValidateChar"; "ValidateBoolean"; "ValidateNumber"; "ValidateSignedInteger"; "ValidateUnsignedInteger";
    "ValidateLength"; "ValidateJsonValue"; "CollectionLength"; "QualifyDomain"; "ToUriAuthorityString"; "ToEmailString"; "ToJsonString";
    "ToMacAddressString"; "ToUuidString"]%string.

Lemma inner_spec x l : existsb (eqbs x) l = true <-> In x l.
Proof.
  rewrite existsb_exists. split.
  - intros (y & I & E). apply eqbs_eq in E. subst. exact I.
  - intros I. exists x. split; [exact I|apply eqbs_eq; reflexivity].
Qed.

(** What an identifier needs: in terms of its text and the scope. *)
Definition tame (s : list N) (u : name_use) : Prop :=
  match u_word u with
  | WStruct => ~ In s (u_inner u)
  | WField t => ~ In t (u_inner u)
  | W x => In x taken /\ ~ In x (u_inner u)
  end.

Lemma tame_meant s m u : tame s u -> (forall w, In w taken -> m w = false /\ w <> s) -> as_meant s m u.
Proof.
  intros T H. unfold as_meant, tame, resolve in *. destruct u as [w inner]. cbn [u_word u_inner] in *. destruct w as [|t|x]; cbn [word_text].
  - destruct (existsb (eqbs s) inner) eqn:E; [apply inner_spec in E; contradiction|].
    destruct (eqbs s s) eqn:E2; [reflexivity|]. assert (eqbs s s = true) by (apply eqbs_eq; reflexivity). congruence.
  - destruct (existsb (eqbs t) inner) eqn:E; [apply inner_spec in E; contradiction|]. reflexivity.
  - destruct T as [T N]. destruct (existsb (eqbs x) inner) eqn:E; [apply inner_spec in E; contradiction|].
    destruct (H _ T) as [A B]. rewrite A. destruct (eqbs x s) eqn:E2; [apply eqbs_eq in E2; contradiction|]. reflexivity.
Qed.

Definition tameb (u : name_use) : bool :=
  match u_word u with W x => existsb (eqbs x) taken && negb (existsb (eqbs x) (u_inner u)) | _ => true end.
Lemma tameb_all : forall v, forallb tameb (own_uses v [] ++ ser_uses v ++ de_uses v [] ++ form_uses ++ param_uses) = true.
Proof. intros []; vm_compute; reflexivity. Qed.

Lemma words_tame v u x field : u_word u = W x -> In u (own_uses v field ++ ser_uses v ++ de_uses v field ++ form_uses ++ param_uses) ->
  In x taken /\ ~ In x (u_inner u).
Proof.
  intros E I. assert (J : In u (own_uses v [] ++ ser_uses v ++ de_uses v [] ++ form_uses ++ param_uses)).
  { rewrite !in_app_iff in *. destruct I as [I|[I|[I|I]]].
    - left. unfold own_uses in *. destruct I as [I|I]; [left; exact I|right]. apply in_app_iff in I. apply in_app_iff.
      destruct I as [I|I]; [left; exact I|]. exfalso. destruct v; try exact I.
      all: apply in_map_iff in I; destruct I as (t & <- & _); discriminate E.
    - right; left; exact I.
    - right; right; left. unfold de_uses in *. destruct I as [I|I]; [left; exact I|right]. destruct I as [I|I]; [left; exact I|right].
      apply in_app_iff in I. apply in_app_iff. destruct I as [I|I]; [left; exact I|right]. destruct (has_visitor v); [exact I|].
      destruct v; try exact I. destruct I as [I|I]; [left; exact I|]. apply in_map_iff in I. destruct I as (t & <- & _). discriminate E.
    - right; right; right; exact I. }
  assert (K := proj1 (forallb_forall _ _) (tameb_all v) u J). unfold tameb in K. rewrite E in K. apply andb_prop in K. destruct K as [K1 K2].
  split; [apply inner_spec, K1|]. intros N. apply inner_spec in N. rewrite N in K2. discriminate K2.
Qed.

Lemma struct_uses v u field : u_word u = WStruct -> In u (own_uses v field ++ ser_uses v ++ de_uses v field ++ form_uses ++ param_uses) ->
  u_inner u = [] \/ (has_visitor v = true /\ In u (de_uses v field) /\ (u_inner u = visitor_scope \/ u_inner u = method_scope)).
Proof.
  intros E I. rewrite !in_app_iff in I. destruct I as [I|[I|[I|I]]].
  - left. unfold own_uses in I. destruct I as [<-|I]; [reflexivity|]. apply in_app_iff in I. destruct I as [I|I].
    + apply in_map_iff in I. destruct I as (x & <- & _). discriminate E.
    + destruct v; try (exfalso; exact I). all: apply in_map_iff in I; destruct I as (t & <- & _); discriminate E.
  - left. unfold ser_uses in I. destruct I as [<-|I]; [reflexivity|]. apply in_map_iff in I. destruct I as (x & <- & _). discriminate E.
  - assert (I0 := I). unfold de_uses in I. destruct I as [<-|I]; [left; reflexivity|]. destruct I as [<-|I]; [discriminate E|].
    apply in_app_iff in I. destruct I as [I|I]; [apply in_map_iff in I; destruct I as (x & <- & _); discriminate E|].
    destruct (has_visitor v) eqn:V.
    + right. split; [reflexivity|]. split; [exact I0|]. apply in_app_iff in I. destruct I as [I|I].
      * destruct I as [<-|[<-|[<-|[]]]]; [discriminate E|left; reflexivity|right; reflexivity].
      * apply in_map_iff in I. destruct I as (x & <- & _). discriminate E.
    + exfalso. destruct v; try exact I. 1,2: destruct I as [<-|[]]; discriminate E.
      destruct I as [<-|I]; [discriminate E|]. apply in_map_iff in I. destruct I as (t & <- & _). discriminate E.
  - left. destruct I as [I|I]; (destruct I as [<-|I]; [reflexivity|]); apply in_map_iff in I; destruct I as (x & <- & _); discriminate E.
Qed.

Lemma field_uses v u t field : u_word u = WField t -> In u (own_uses v field ++ ser_uses v ++ de_uses v field ++ form_uses ++ param_uses) ->
  In t field /\ (u_inner u = [] \/ (v = Vlength /\ In u (de_uses v field) /\ u_inner u = de_scope)).
Proof.
  intros E I. rewrite !in_app_iff in I. destruct I as [I|[I|[I|I]]].
  - unfold own_uses in I. destruct I as [<-|I]; [discriminate E|]. apply in_app_iff in I. destruct I as [I|I].
    + apply in_map_iff in I. destruct I as (x & <- & _). discriminate E.
    + destruct v; try (exfalso; exact I). all: apply in_map_iff in I; destruct I as (t' & <- & I'); injection E as ->; split; [exact I'|left; reflexivity].
  - unfold ser_uses in I. destruct I as [<-|I]; [discriminate E|]. apply in_map_iff in I. destruct I as (x & <- & _). discriminate E.
  - assert (I0 := I). unfold de_uses in I. destruct I as [<-|I]; [discriminate E|]. destruct I as [<-|I]; [discriminate E|].
    apply in_app_iff in I. destruct I as [I|I]; [apply in_map_iff in I; destruct I as (x & <- & _); discriminate E|].
    destruct (has_visitor v) eqn:V.
    + exfalso. apply in_app_iff in I. destruct I as [I|I].
      * destruct I as [<-|[<-|[<-|[]]]]; discriminate E.
      * apply in_map_iff in I. destruct I as (x & <- & _). discriminate E.
    + destruct v; try (exfalso; exact I); try (destruct I as [<-|[]]; discriminate E).
      destruct I as [<-|I]; [discriminate E|]. apply in_map_iff in I. destruct I as (t' & <- & I'). injection E as ->. split; [exact I'|].
      right. split; [reflexivity|]. split; [exact I0|reflexivity].
  - exfalso. destruct I as [I|I]; (destruct I as [<-|I]; [discriminate E|]); apply in_map_iff in I; destruct I as (x & <- & _); discriminate E.
Qed.

Lemma uses_parts f o v field u : In u (uses f o v field) -> In u (own_uses v field ++ ser_uses v ++ de_uses v field ++ form_uses ++ param_uses).
Proof.
  unfold uses. rewrite !in_app_iff. intros [I|[I|[I|I]]]; [tauto| | |].
  - destruct (f_serde f && fst (o_serde o)); [tauto|destruct I].
  - destruct (f_serde f && snd (o_serde o)); [tauto|destruct I].
  - assert (K : In u ((if f_rocket f && fst (o_rocket o) then form_uses else []) ++ (if f_rocket f && snd (o_rocket o) then param_uses else []))).
    { destruct v; try exact I. destruct I. }
    apply in_app_iff in K. destruct K as [K|K]; [destruct (f_rocket f && fst (o_rocket o))|destruct (f_rocket f && snd (o_rocket o))]; try tauto; destruct K.
Qed.

(** If no item of the module has one of the words above for a name, the struct neither, the struct is not called [D], [E] or
    [MyVisitor], and the type of the field mentions no [D], then every name in the generated code stands for what was meant. *)
Theorem C93_as_meant_partial : forall f o v s m field,
  (forall w, In w taken -> m w = false /\ w <> s) ->
  s <> bs "D" -> s <> bs "E" -> s <> bs "MyVisitor" -> ~ In (bs "D") field ->
  forall u, In u (uses f o v field) -> as_meant s m u.
Proof.
  intros f o v s m field H D E M F u I. apply uses_parts in I. apply tame_meant; [|exact H]. unfold tame. destruct (u_word u) as [|t|x] eqn:W.
  - destruct (struct_uses v u field W I) as [->|(_ & _ & [-> | ->])]; [intros []| |]; intros K; unfold method_scope, visitor_scope, de_scope in K; cbn [In] in K;
      repeat destruct K as [K|K]; try contradiction; congruence.
  - destruct (field_uses v u t field W I) as [J [->|(_ & _ & ->)]]; [intros []|]. intros K. unfold de_scope in K. destruct K as [<-|[]]. contradiction.
  - exact (words_tame v u x field W I).
Qed.
Print Assumptions C93_as_meant_partial.

(** The code of bit, json, length, semver, semver_req and url never names the struct from inside: it may be called anything that is not one of the words. So
    may every struct that is not deserialised. *)
Theorem C93_any_name : forall f o v s m field,
  (forall w, In w taken -> m w = false /\ w <> s) -> ~ In (bs "D") field ->
  In v [Vbit; Vjson; Vlength; Vsemver; Vsemver_req; Vurl] \/ f_serde f = false \/ snd (o_serde o) = false ->
  forall u, In u (uses f o v field) -> as_meant s m u.
Proof.
  intros f o v s m field H F C u I. assert (I0 := I). apply uses_parts in I. apply tame_meant; [|exact H]. unfold tame. destruct (u_word u) as [|t|x] eqn:W.
  - destruct (struct_uses v u field W I) as [->|(V & J & K)]; [intros []|]. exfalso. destruct C as [C|C].
    + cbn [In] in C. repeat destruct C as [<-|C]; try discriminate V. exact C.
    + unfold uses in I0. replace (f_serde f && snd (o_serde o)) with false in I0 by (destruct C as [-> | ->]; [reflexivity|rewrite andb_false_r; reflexivity]).
      cbn [app] in I0. assert (K0 : u_inner u <> []) by (destruct K as [-> | ->]; discriminate).
      rewrite !in_app_iff in I0. destruct I0 as [I0|[I0|I0]].
      * apply K0. unfold own_uses in I0. destruct I0 as [<-|I0]; [reflexivity|]. apply in_app_iff in I0. destruct I0 as [I0|I0].
        -- apply in_map_iff in I0. destruct I0 as (y & <- & _). discriminate W.
        -- destruct v; try (exfalso; exact I0). all: apply in_map_iff in I0; destruct I0 as (y & <- & _); discriminate W.
      * destruct (f_serde f && fst (o_serde o)); [|destruct I0]. destruct I0 as [<-|I0]; [apply K0; reflexivity|].
        apply in_map_iff in I0. destruct I0 as (y & <- & _). discriminate W.
      * assert (Q : In u ((if f_rocket f && fst (o_rocket o) then form_uses else []) ++ (if f_rocket f && snd (o_rocket o) then param_uses else []))).
        { destruct v; try exact I0. destruct I0. }
        apply in_app_iff in Q.
        destruct Q as [Q|Q]; [destruct (f_rocket f && fst (o_rocket o))|destruct (f_rocket f && snd (o_rocket o))]; try (exfalso; exact Q).
        all: destruct Q as [<-|Q]; [apply K0; reflexivity|]; apply in_map_iff in Q; destruct Q as (y & <- & _); discriminate W.
  - destruct (field_uses v u t field W I) as [J [->|(_ & _ & ->)]]; [intros []|]. intros K. unfold de_scope in K. destruct K as [<-|[]]. contradiction.
  - exact (words_tame v u x field W I).
Qed.
Print Assumptions C93_any_name.

Lemma in_own v field x : In x (plain_words v) -> forall f o, In (mk_use (W x) []) (uses f o v field).
Proof.
  intros I f o. unfold uses. apply in_app_iff. left. unfold own_uses. right. apply in_app_iff. left. apply in_map_iff. exists x.
  split; [reflexivity|]. apply in_app_iff. left. exact I.
Qed.

(** A module with an alias [type Result<T> = ..] or any other item [Result], which is common, breaks the code of every validator: the macro writes [Result<Self, Self::Error>],
    not [::core::result::Result]. *)
Theorem C93_module_refuted : forall f o v s field, exists m u,
  (forall w, m w = true -> w = bs "Result") /\ In u (uses f o v field) /\ ~ as_meant s m u.
Proof.
  intros f o v s field. exists (fun w => eqbs w (bs "Result")), (mk_use (W (bs "Result")) []). split; [|split].
  - intros w E. apply eqbs_eq in E. exact E.
  - apply in_own. unfold plain_words. left. reflexivity.
  - unfold as_meant, resolve. cbn [u_word u_inner word_text existsb].
    destruct (eqbs (bs "Result") s); [discriminate|]. replace (eqbs (bs "Result") (bs "Result")) with true by (vm_compute; reflexivity). discriminate.
Qed.
Print Assumptions C93_module_refuted.

Lemma de_in f o v field u : f_serde f = true -> snd (o_serde o) = true -> In u (de_uses v field) -> In u (uses f o v field).
Proof. intros A B I. unfold uses. rewrite A, B. rewrite !in_app_iff. right; right; left. exact I. Qed.

(** A struct called [D], [E] or [MyVisitor] that is deserialised: inside [deserialize] its name stands for something else, whatever the module
    holds. *)
Theorem C93_struct_refuted : forall f o v s m field, f_serde f = true -> snd (o_serde o) = true ->
  ~ In v [Vbit; Vjson; Vlength; Vsemver; Vsemver_req; Vurl] -> s = bs "D" \/ s = bs "E" \/ s = bs "MyVisitor" ->
  exists u, In u (uses f o v field) /\ ~ as_meant s m u.
Proof.
  intros f o v s m field A B V S. exists (mk_use WStruct method_scope). split.
  - apply de_in; [exact A|exact B|]. unfold de_uses. right; right. apply in_app_iff. right. replace (has_visitor v) with true.
    + apply in_app_iff. left. right; right; left. reflexivity.
    + destruct v; try reflexivity; exfalso; apply V; cbn [In]; tauto.
  - unfold as_meant, resolve. cbn [u_word u_inner word_text]. replace (existsb (eqbs s) method_scope) with true; [discriminate|].
    symmetry. apply inner_spec. unfold method_scope, visitor_scope, de_scope. cbn [In]. destruct S as [->|[->| ->]]; tauto.
Qed.
Print Assumptions C93_struct_refuted.

(** length/mod.rs:181 writes the type of the field inside [deserialize<D>]: a type [D] of the user's, as in [struct L(Vec<D>)], is taken for the
    type parameter. *)
Theorem C93_field_refuted : forall f o s m field, f_serde f = true -> snd (o_serde o) = true -> In (bs "D") field ->
  exists u, In u (uses f o Vlength field) /\ ~ as_meant s m u.
Proof.
  intros f o s m field A B I. exists (mk_use (WField (bs "D")) de_scope). split.
  - apply de_in; [exact A|exact B|]. unfold de_uses. right; right. apply in_app_iff. right. cbn [has_visitor]. right. apply in_map_iff.
    exists (bs "D"). split; [reflexivity|exact I].
  - unfold as_meant, resolve. cbn [u_word u_inner word_text]. replace (existsb (eqbs (bs "D")) de_scope) with true by (vm_compute; reflexivity).
    cbn [existsb]. destruct (eqbs (bs "D") s || m (bs "D")); discriminate.
Qed.
Print Assumptions C93_field_refuted.

(** A struct [Email] in a module with an item [User]; the alias [Result]; a struct [E]. *)
Definition all_on : features := {| f_serde := true; f_rocket := true; f_full := false |}.

(** C93: the list of words that a module must leave alone cannot be shortened: for each of them there is a validator whose code means
    something else as soon as the module declares an item of that name and no other, whatever the struct is called. *)
Theorem C93_each_word_refuted : forall w, In w taken -> exists v f o u, In u (uses f o v []) /\
  forall s m, m w = true -> ~ as_meant s m u.
Proof.
  intros w I.
  assert (forallb (fun w => existsb (fun v => existsb (fun u => match u with mk_use (W x) [] => eqbs x w | _ => false end)
            (uses all_on opts0 v []))
    [Vbase32; Vbase32_decoded; Vboolean; Vbyte; Vemail; Vhttp_url; Vjson; Vlength; Vmac_address; Vuuid; Vnumber; Vdomain; Vsigned_integer;
     Vunsigned_integer]) taken = true) as K by (vm_compute; reflexivity).
  rewrite forallb_forall in K. specialize (K w I). apply existsb_exists in K. destruct K as (v & _ & K).
  apply existsb_exists in K. destruct K as (u & U & K). exists v, all_on, opts0, u. split; [exact U|].
  destruct u as [[| |x] [|]]; try discriminate. apply eqbs_eq in K. subst x. intros s m M. unfold as_meant, resolve. cbn [u_word u_inner word_text existsb].
  rewrite M, orb_true_r. discriminate.
Qed.

Example C93_example :
  (forall u, In u (uses all_on opts0 Vemail []) -> as_meant (bs "Email") (fun x => eqbs x (bs "User")) u) /\
  List.length (uses all_on opts0 Vemail []) = 43%nat /\
  resolve (bs "Email") (fun x => eqbs x (bs "Result")) (mk_use (W (bs "Result")) []) = MModule (bs "Result") /\
  resolve (bs "E") (fun _ => false) (mk_use WStruct method_scope) = MLocal (bs "E").
Proof.
  split; [|vm_compute; repeat split; reflexivity]. apply C93_as_meant_partial; try (intros H; vm_compute in H; discriminate H); [|intros []].
  intros w I. cbn [taken List.map In] in I. repeat destruct I as [<-|I]; try contradiction.
  all: split; [vm_compute; reflexivity|intros H; vm_compute in H; discriminate H].
Qed.
Print Assumptions C93_each_word_refuted.
