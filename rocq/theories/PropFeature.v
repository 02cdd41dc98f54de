(** C86: under every choice of Cargo features the crates compile and the generated code finds the names it uses. *)
From Verif Require Import Base RangeModel IntModel NumberModel MetaModel MacroModel MacroSpec PropMacro FeatureModel.

Fixpoint reach (n : nat) (f : feature) : list feature :=
  match n with O => [f] | S n => f :: flat_map (reach n) (enables f) end.
Lemma reach_enabled S n : forall f g, enabled S f -> In g (reach n f) -> enabled S g.
Proof.
  induction n as [|n IH]; intros f g H I; cbn in I.
  - destruct I as [<-|[]]. exact H.
  - destruct I as [<-|I]; [exact H|]. apply in_flat_map in I as (h & Ih & I). apply (IH h); [|exact I]. exact (implied S f h H Ih).
Qed.

Ltac find_in := cbn [In]; repeat first [left; reflexivity|right].
Ltac unfold_all := cbv [present exported holds cfg_of cfg_too export_cfg error_cfg error_of dpresent dholds dcfg] in *.
(** Splits what is known to be enabled into cases. *)
Ltac cases :=
  repeat match goal with
  | H : False |- _ => destruct H
  | H : In _ [] |- _ => destruct H
  | H : In _ (_ :: _) |- _ => destruct H as [H|H]
  | H : exists _, _ |- _ => destruct H as [? H]
  | H : _ /\ _ |- _ => destruct H
  | H : AnyOf _ = _ |- _ => subst
  | H : _ = _ |- _ => first [discriminate H|injection H as; subst|subst]
  end.
Ltac search :=
  repeat match goal with |- _ /\ _ => split end; try exact I;
  match goal with
  | |- @ex feature _ =>
    match goal with
    | H : enabled ?S ?f |- exists g, In g ?fs /\ _ =>
      match fs with context [?g :: _] =>
        exists g; split; [solve [find_in]|apply (reach_enabled S 6 f g H); vm_compute; solve [repeat first [left; reflexivity|right]]]
      end
    end
  | H : enabled ?S ?f |- enabled ?S ?g => apply (reach_enabled S 6 f g H); vm_compute; solve [repeat first [left; reflexivity|right]]
  end.

(** The library: whatever is compiled names only what is compiled. *)
Theorem C86_library_resolves : forall S i c j, present S i -> In (c, j) (uses i) -> holds S c -> present S j.
Proof.
  intros S i c j P U C. destruct i; cbn [uses] in U; try (exfalso; exact U).
  all: try match goal with t : trait |- _ => destruct t end.
  all: try match goal with v : validator |- _ => destruct v end.
  all: cbn [uses app] in U; try (exfalso; exact U); cbn [In] in U.
  all: repeat match type of U with _ \/ _ => destruct U as [U|U] end; try (exfalso; exact U).
  all: injection U as <- <-; unfold_all; cases; search.
Qed.
Print Assumptions C86_library_resolves.

(** The macro crate: the same, whoever asks for its features. *)
Theorem C86_derive_resolves : forall D m c n, dpresent D m -> In (c, n) (duses m) -> dholds D c -> dpresent D n.
Proof.
  intros D m c n P U C. destruct m; cbn [duses] in U; try (exfalso; exact U).
  all: try match goal with v : validator |- _ => destruct v end.
  all: cbn [duses app] in U; try (exfalso; exact U); cbn [In] in U.
  all: repeat match type of U with _ \/ _ => destruct U as [U|U] end; try (exfalso; exact U).
  all: injection U as <- <-; unfold_all; cases.
  all: match goal with H : ?D ?d |- exists _ : dfeature, _ => exists d; split; [solve [find_in]|exact H] end.
Qed.
Print Assumptions C86_derive_resolves.

Lemma handed_source S d : handed S d -> enabled S Fderive /\
  match d with DV v => enabled S (V v) | Dstd => enabled S Fstd | Dtest => enabled S Ftest | Dfull => enabled S Ffull
  | Dserde => enabled S Fserde | Drocket => enabled S Frocket end.
Proof.
  intros (Hd & f & E & I). split; [exact Hd|]. destruct f; cbn in I; try contradiction; destruct I as [<-|[]]; exact E.
Qed.

(** The generated code: every name of the crate and of its libraries that it uses is exported by the prelude; a name of the standard
    library is used only when the feature [std] is on. *)
Theorem C86_generated_resolves : forall S (D : dfeature -> Prop) v c i,
  (forall d, D d -> handed S d) -> D (DV v) -> In (c, i) (mentions v) -> dholds D c ->
  (i = Istd -> enabled S Fstd) /\ (i <> Istd -> i <> Ibare_string -> exported S i).
Proof.
  intros S D v c i K Hv M C. apply K, handed_source in Hv as [Hd Hv]. cbn in Hv.
  assert (C' : match c with None => True | Some d => match d with DV v => enabled S (V v) | Dstd => enabled S Fstd | Dtest => enabled S Ftest
    | Dfull => enabled S Ffull | Dserde => enabled S Fserde | Drocket => enabled S Frocket end end).
  { destruct c as [d|]; [|exact I]. apply K, handed_source in C as [_ C]. exact C. }
  clear C K. destruct v; cbn [mentions implements List.map app] in M; cbn [In] in M.
  all: repeat match type of M with _ \/ _ => destruct M as [M|M] end; try (exfalso; exact M).
  all: injection M as <- <-; split; intros; try congruence; unfold_all; repeat split; try exact I.
  all: search.
Qed.
Print Assumptions C86_generated_resolves.

(** The macro crate is built with the feature of a validator, or of std, test, full, serde or rocket, exactly when validators itself
    has it and has derive. *)
Theorem C86_handed : forall S d, handed S d <-> enabled S Fderive /\
  match d with DV v => enabled S (V v) | Dstd => enabled S Fstd | Dtest => enabled S Ftest | Dfull => enabled S Ffull
  | Dserde => enabled S Fserde | Drocket => enabled S Frocket end.
Proof.
  intros S d. split; [apply handed_source|]. intros [Hd E]. split; [exact Hd|].
  destruct d; eexists; (split; [exact E|]); cbn; auto.
Qed.
Print Assumptions C86_handed.

(** The same for whatever [#[derive(Validator)]] generates, from the features with which validators has the macro built. *)
Theorem C86_expansion_resolves :
  forall S cid (id_from_str : list N -> option cid) cid_eqb compiles float_lit pw on f d g c i,
  (forall v, on v = true -> handed S (DV v)) -> (f_serde f = true -> handed S Dserde) -> (f_rocket f = true -> handed S Drocket) ->
  derive id_from_str cid_eqb compiles float_lit pw on f d = Ok g ->
  In (c, i) (mentions (generated g)) ->
  match c with None => True | Some Dserde => f_serde f = true | Some Drocket => f_rocket f = true | Some x => handed S x end ->
  (i = Istd -> enabled S Fstd) /\ (i <> Istd -> i <> Ibare_string -> exported S i).
Proof.
  intros S cid ifs ceq comp fl pw on f d g c i Kon Ks Kr E M C.
  destruct (C70_one_attribute _ _ _ _ _ _ _ _ _ _ E) as [On _].
  apply (C86_generated_resolves S (handed S) (generated g) c i); [auto|exact (Kon _ On)|exact M|].
  destruct c as [[]|]; cbn; auto.
Qed.
Print Assumptions C86_expansion_resolves.

(** Asking for more features takes nothing away. *)
Lemma enabled_mono (S S' : feature -> Prop) f : (forall f, S f -> S' f) -> enabled S f -> enabled S' f.
Proof. intros K H. induction H as [f H|f g H IH I]; [apply asked, K, H|exact (implied _ f g IH I)]. Qed.
Theorem C86_additive : forall (S S' : feature -> Prop) i, (forall f, S f -> S' f) -> exported S i -> exported S' i.
Proof.
  intros S S' i K [[A B] C]. assert (Q : forall c, holds S c -> holds S' c).
  { intros [|fs] H; [exact I|]. destruct H as (f & I' & E). exists f. split; [exact I'|]. exact (enabled_mono _ _ _ K E). }
  repeat split; apply Q; assumption.
Qed.
Print Assumptions C86_additive.

(** Without the feature [std] the user's crate may be [#![no_std]], where [String] is not in scope: the code of every validator but json
    avoids that name. *)
Theorem C86_no_std_partial : forall v c i, In (c, i) (mentions v) -> v <> Vjson -> i <> Ibare_string.
Proof.
  intros v c i M N ->. destruct v; try (exfalso; apply N; reflexivity); cbn [mentions implements List.map app In] in M.
  all: repeat match type of M with _ \/ _ => destruct M as [M|M]; [discriminate M|] end; exact M.
Qed.
Print Assumptions C86_no_std_partial.

Definition asks (l : list feature) (f : feature) : Prop := In f l.
Lemma enabled_within (S : feature -> Prop) l : (forall f, S f -> In f l) -> (forall f g, In f l -> In g (enables f) -> In g l) -> forall f, enabled S f -> In f l.
Proof. intros A B f H. induction H as [f H|f g H IH I]; [exact (A f H)|exact (B f g IH I)]. Qed.

(** json/mod.rs:219,223: json needs no [std], yet its code says [String], not [validators_prelude::String]. *)
Theorem C86_no_std_refuted : exists S c, handed S (DV Vjson) /\ ~ enabled S Fstd /\ In (c, Ibare_string) (mentions Vjson) /\ c = None.
Proof.
  exists (asks [Fderive; V Vjson]), None. split; [|split; [|split; [|reflexivity]]].
  - split; [apply asked; left; reflexivity|]. exists (V Vjson). split; [apply asked; right; left; reflexivity|left; reflexivity].
  - intros H. apply (enabled_within _ [Fderive; V Vjson; Fserde_json; Fserde]) in H.
    + cbn in H. repeat destruct H as [H|H]; try discriminate H; exact H.
    + intros f I. cbn in *. tauto.
    + intros f g I J. cbn in I. repeat destruct I as [<-|I]; cbn in J; try (destruct J as [<-|J]); cbn; tauto.
  - cbn. do 8 right. repeat first [left; reflexivity|right].
Qed.
Print Assumptions C86_no_std_refuted.

(** The macro crate builds exactly when some validator is asked for: the feature [derive] alone does not build. *)
Theorem C86_derive_alone_refuted : exists S, enabled S Fderive /\ refuses_to_build (handed S).
Proof.
  exists (asks [Fderive]). split; [apply asked; left; reflexivity|]. intros v H. apply handed_source in H as [_ H].
  apply (enabled_within _ [Fderive]) in H; [cbn in H; destruct H as [H|[]]; discriminate H| |].
  - intros f I. exact I.
  - intros f g [<-|[]] [].
Qed.
Print Assumptions C86_derive_alone_refuted.
Theorem C86_derive_builds : forall S v, enabled S Fderive -> enabled S (V v) -> ~ refuses_to_build (handed S).
Proof. intros S v A B R. apply (R v). split; [exact A|]. exists (V v). split; [exact B|left; reflexivity]. Qed.
Print Assumptions C86_derive_builds.

(** The hypothesis that the macro's features come from validators is needed: if another crate turns on [validators-derive/serde], the code
    generated for a [line] names serde, which is not exported. *)
Example C86_unified_features :
  let S := asks [Fderive; V Vline] in let D d := handed S d \/ d = Dserde in
  D (DV Vline) /\ In (Some Dserde, Xserde) (mentions Vline) /\ dholds D (Some Dserde) /\ ~ exported S Xserde.
Proof.
  cbn zeta. split; [|split; [|split; [right; reflexivity|]]].
  - left. split; [apply asked; left; reflexivity|]. exists (V Vline). split; [apply asked; right; left; reflexivity|left; reflexivity].
  - cbn. repeat first [left; reflexivity|right].
  - intros [[H _] _]. cbn in H. destruct H as (f & [<-|[]] & H). apply (enabled_within _ [Fderive; V Vline]) in H.
    + cbn in H. repeat destruct H as [H|H]; try discriminate H; exact H.
    + intros g I. cbn in *. tauto.
    + intros g h I J. cbn in I. repeat destruct I as [<-|I]; cbn in J; contradiction.
Qed.

(** Asking for http_url alone brings in url, its library and std. *)
Example C86_example :
  let S := asks [Fderive; V Vhttp_url] in
  handed S (DV Vhttp_url) /\ enabled S Fstd /\ exported S Xurl /\ exported S Ifn_ipv6 /\ ~ exported S Iprotocol.
Proof.
  cbn zeta. assert (A : enabled (asks [Fderive; V Vhttp_url]) Fderive) by (apply asked; left; reflexivity).
  assert (B : enabled (asks [Fderive; V Vhttp_url]) (V Vhttp_url)) by (apply asked; right; left; reflexivity).
  split; [|split; [|split; [|split]]].
  - split; [exact A|]. exists (V Vhttp_url). split; [exact B|left; reflexivity].
  - search.
  - unfold_all; repeat split; search.
  - unfold_all; repeat split; search.
  - intros [[H _] _]. cbn in H. destruct H as (f & [<-|[]] & H).
    apply (enabled_within _ [Fderive; V Vhttp_url; V Vurl; Fstr_utils; Furl_dep; Fstd]) in H.
    + cbn in H. repeat destruct H as [H|H]; try discriminate H; exact H.
    + intros g I. cbn in *. tauto.
    + intros g h I J. cbn in I. repeat destruct I as [<-|I]; cbn in J; repeat (destruct J as [<-|J]); cbn; tauto.
Qed.
