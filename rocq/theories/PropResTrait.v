(** Property C133: a validators::Result can do what its value and its error can. *)
From Verif Require Import Base MacroModel DeModel ResTraitModel HostModel KeyModel PropKey.
From Verif Require HttpModel.
Local Open Scope N_scope.

(** A linear order: equal only if the same, the other way round when swapped, and transitive. *)
Definition linear {A} (c : A -> A -> comparison) : Prop :=
  (forall x y, c x y = Eq <-> x = y) /\ (forall x y, c y x = CompOpp (c x y)) /\
  (forall x y z, c x y = Lt -> c y z = Lt -> c x z = Lt).

(** C133: comparison of results is a linear order if that of values and that of errors are, and equality is that of both; every accepted value
    comes before every error, and a result compares with another as what is taken out of them does. *)
Theorem C133_order : forall E A (ca : A -> A -> comparison) (ce : E -> E -> comparison),
  (linear ca -> linear ce -> linear (res_cmp ca ce)) /\
  (forall (qa : A -> A -> bool) (qe : E -> E -> bool), (forall a b, qa a b = true <-> a = b) -> (forall e f, qe e f = true <-> e = f) ->
     forall x y, res_eqb qa qe x y = true <-> x = y) /\
  (forall x y a e, into_std_result x = Ok a -> into_std_result y = Err e -> res_cmp ca ce x y = Lt) /\
  (forall x y a b, into_std_result x = Ok a -> into_std_result y = Ok b -> res_cmp ca ce x y = ca a b) /\
  (forall x y e f, into_std_result x = Err e -> into_std_result y = Err f -> res_cmp ca ce x y = ce e f).
Proof.
  intros E A ca ce. split; [|split; [|split; [|split]]].
  - intros (A1 & A2 & A3) (E1 & E2 & E3). split; [|split].
    + intros [a|e] [b|f]; cbn [res_cmp]; try (split; discriminate).
      * rewrite A1. split; congruence.
      * rewrite E1. split; congruence.
    + intros [a|e] [b|f]; cbn [res_cmp]; auto.
    + intros [a|e] [b|f] [d|g]; cbn [res_cmp]; try discriminate; eauto.
  - intros qa qe QA QE [a|e] [b|f]; cbn [res_eqb]; try (split; discriminate).
    + rewrite QA. split; congruence.
    + rewrite QE. split; congruence.
  - intros [a'|e'] [b'|f'] a e H K; try discriminate. reflexivity.
  - intros [a'|e'] [b'|f'] a b H K; try discriminate. cbn in H, K. injection H as ->. injection K as ->. reflexivity.
  - intros [a'|e'] [b'|f'] e f H K; try discriminate. cbn in H, K. injection H as ->. injection K as ->. reflexivity.
Qed.
Print Assumptions C133_order.

(** C133: a result has a trait if its value and its error have it, with the default third parameter; and only then. *)
Theorem C133_traits : forall t e tr, result_impl t e unit_traits true tr = true <-> t tr = true /\ e tr = true.
Proof. intros t e tr. destruct tr; cbn [result_impl unit_traits andb]; rewrite ?andb_true_r, andb_true_iff; reflexivity. Qed.
Print Assumptions C133_traits.

(** C133: with an error type of the crate a result can be printed if its value can, whatever the validator, and cloned if its value can, but for
    four validators. *)
Theorem C133_own_partial : forall v t,
  (result_impl t (error_traits v) unit_traits true TDebug = t TDebug) /\
  (~ In v [Vjson; Vphone; Vsemver; Vsemver_req] -> result_impl t (error_traits v) unit_traits true TClone = t TClone).
Proof.
  intros v t. split.
  - cbn. apply andb_true_r.
  - intros N. cbn [result_impl]. destruct v; cbn [error_traits]; rewrite ?andb_true_r; try reflexivity; exfalso; apply N; cbn; tauto.
Qed.
Print Assumptions C133_own_partial.

(** C133: what is missing. With an error type of the crate no result can be compared, sorted, hashed or copied, whatever the value and the third
    parameter; those of json, phone, semver and semver_req cannot be cloned. The derived impls are of no use with them. *)
Theorem C133_own_lacks : forall v t k u,
  (forall tr, In tr [TCopy; TPartialEq; TEq; TPartialOrd; TOrd; THash] -> result_impl t (error_traits v) k u tr = false) /\
  (In v [Vjson; Vphone; Vsemver; Vsemver_req] -> result_impl t (error_traits v) k u TClone = false).
Proof.
  intros v t k u. split.
  - intros tr H. assert (error_traits v tr = false) as E by (repeat (destruct H as [<- |H]; [reflexivity|]); destruct H).
    repeat (destruct H as [<- |H]; [cbn [result_impl]; rewrite E; now rewrite andb_false_r|]). destruct H.
  - intros H. assert (error_traits v TClone = false) as E by (repeat (destruct H as [<- |H]; [reflexivity|]); destruct H).
    cbn [result_impl]. rewrite E. now rewrite andb_false_r.
Qed.
Print Assumptions C133_own_lacks.

(** Finding. So a result of an email validator cannot be compared although the value can. *)
Theorem C133_own_refuted : exists v t, (forall tr, t tr = true) /\ result_impl t (error_traits v) unit_traits true TPartialEq = false.
Proof. exists Vemail, unit_traits. split; reflexivity. Qed.
Print Assumptions C133_own_refuted.

(** Finding. With another third parameter a result has no [Debug], although both its value and its error have. *)
Theorem C133_debug_refuted : exists t e k, t TDebug = true /\ e TDebug = true /\ k TDebug = true /\ result_impl t e k false TDebug = false.
Proof. exists unit_traits, unit_traits, unit_traits. repeat split. Qed.
Print Assumptions C133_debug_refuted.

(** Non-triviality: protocols and hosts have linear orders, so results of one with the other as the error have. *)
Example C133_example :
  linear host_cmp /\ linear protocol_cmp /\ linear (res_cmp host_cmp protocol_cmp) /\
  res_cmp host_cmp protocol_cmp (ROk (HDomain (bs "z"))) (RErr HttpModel.HTTP) = Lt /\
  res_cmp host_cmp protocol_cmp (RErr HttpModel.FTP) (RErr HttpModel.HTTP) = Gt /\
  (forall a b, host_eqb a b = true <-> a = b) /\
  into_std_result (E := HttpModel.protocol) (ROk (HDomain (bs "z"))) = Ok (HDomain (bs "z")) /\
  result_impl unit_traits (error_traits Vemail) unit_traits true TClone = true /\ ~ In Vemail [Vjson; Vphone; Vsemver; Vsemver_req].
Proof.
  assert (linear host_cmp) as LH by (split; [|split]; intros x y; apply (C131_order x y)).
  assert (linear protocol_cmp) as LP by (split; [|split]; intros x y; apply (C131_protocols x y)).
  split; [exact LH|]. split; [exact LP|]. split; [apply C133_order; assumption|].
  split; [reflexivity|]. split; [reflexivity|]. split; [intros a b; apply (C131_order a b)|]. split; [reflexivity|].
  split; [reflexivity|]. intros H. repeat (destruct H as [H|H]; [discriminate H|]). exact H.
Qed.
