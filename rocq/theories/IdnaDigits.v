(** The IDNA fragment of IdnaFrag.v accepts dotted IPv4 addresses. *)
From Verif Require Import Base MacModel MacSpec NetModel NetSpec NetProofs DomainModel DomainSpec DomainProofs IdnaFrag.
Local Open Scope N_scope.

Definition digits (ds : list N) : Prop := Forall (fun c => 48 <= c <= 57) ds.

Lemma radix10 c d : radix_digit 10 c d -> 48 <= c <= 57.
Proof.
  intros [(a & Ha & Hn) Hd]. cbn in Ha. destruct Ha as [<-|[<-|[]]].
  - assert (X : List.In d [0;1;2;3;4;5;6;7;8;9]) by (cbn; lia).
    cbn [List.In] in X. repeat (destruct X as [<-|X]; [cbn in Hn; injection Hn as <-; lia|]). destruct X.
  - assert (X : List.In d [0;1;2;3;4;5;6;7;8;9]) by (cbn; lia).
    cbn [List.In] in X. repeat (destruct X as [<-|X]; [cbn in Hn; injection Hn as <-; lia|]). destruct X.
Qed.

Lemma numeral_digits ds n : numeral 10 ds n -> digits ds.
Proof.
  induction 1 as [c d H | ds n c d H IH K]; unfold digits in *.
  - constructor; [exact (radix10 _ _ H) | constructor].
  - apply Forall_app. split; [exact IH|]. constructor; [exact (radix10 _ _ K) | constructor].
Qed.

Lemma labels_digits ds : ds <> [] -> digits ds -> labels ds = [ds].
Proof.
  intros Hn H. induction H as [|c ds Hc H IH]; [congruence|]. cbn [labels].
  replace (c =? 46) with false by (symmetry; apply N.eqb_neq; lia).
  destruct ds; [reflexivity|]. rewrite IH by discriminate. reflexivity.
Qed.
Lemma labels_cons ds r : digits ds -> labels (ds ++ 46 :: r) = ds :: labels r.
Proof.
  intros H. induction H as [|c ds Hc H IH]; [reflexivity|]. cbn [app labels].
  replace (c =? 46) with false by (symmetry; apply N.eqb_neq; lia). rewrite IH. reflexivity.
Qed.

Lemma digit_ldh c : 48 <= c <= 57 -> ldh c = true.
Proof. intros H. unfold ldh. replace (48 <=? c) with true by (symmetry; apply N.leb_le; lia).
  replace (c <=? 57) with true by (symmetry; apply N.leb_le; lia). reflexivity. Qed.

Lemma ok_digits ds : (1 <= List.length ds <= 3)%nat -> digits ds -> ok_label ds = true.
Proof.
  intros L H. unfold digits in H.
  destruct ds as [|a [|b [|c [|? ?]]]]; cbn in L; try lia; rewrite ?Forall_cons_iff in H;
    unfold ok_label; cbn [List.length forallb nth ends_with rev app];
    rewrite ?digit_ldh by tauto;
    repeat match goal with |- context [?x =? 45] => replace (x =? 45) with false by (symmetry; apply N.eqb_neq; lia) end.
  all: cbn; rewrite ?andb_true_r.
  all: try reflexivity.
Qed.

Lemma dotted_ok t a : v4_text t a -> ok_name t = true /\ Forall (fun c => c = 46 \/ ldh c = true) t /\
  forallb (fun c => c <? 128) t = true.
Proof.
  intros (d1 & d2 & d3 & d4 & n1 & n2 & n3 & n4 & O1 & O2 & O3 & O4 & _ & ->).
  pose proof (octet_length _ _ O1) as L1. pose proof (octet_length _ _ O2) as L2.
  pose proof (octet_length _ _ O3) as L3. pose proof (octet_length _ _ O4) as L4.
  pose proof (numeral_digits _ _ (proj1 O1)) as D1. pose proof (numeral_digits _ _ (proj1 O2)) as D2.
  pose proof (numeral_digits _ _ (proj1 O3)) as D3. pose proof (numeral_digits _ _ (proj1 O4)) as D4.
  assert (N4 : d4 <> []) by (intros ->; cbn in L4; lia).
  assert (F : Forall (fun c => c = 46 \/ 48 <= c <= 57) (d1 ++ [46] ++ d2 ++ [46] ++ d3 ++ [46] ++ d4)).
  { assert (K : forall d, digits d -> Forall (fun c => c = 46 \/ 48 <= c <= 57) d).
    { intros d H. eapply Forall_impl; [|exact H]. cbn. auto. }
    rewrite !Forall_app. repeat split; auto. }
  split; [|split].
  - unfold ok_name. apply andb_true_iff. split.
    + cbn [app]. rewrite (labels_cons _ _ D1), (labels_cons _ _ D2), (labels_cons _ _ D3), (labels_digits _ N4 D4).
      cbn [forallb]. rewrite !ok_digits by assumption. reflexivity.
    + apply Nat.leb_le. repeat (rewrite app_length; cbn [List.length]). lia.
  - eapply Forall_impl; [|exact F]. cbn. intros c [H|H]; [left; exact H | right; exact (digit_ldh c H)].
  - apply forallb_forall. rewrite Forall_forall in F. intros c Hc. apply N.ltb_lt. destruct (F c Hc); lia.
Qed.

Theorem idna_ascii_digits : forall x a, v4_dotted x a -> idna_ascii x = Some x.
Proof.
  intros x a (t & Hx & Ht). destruct (dotted_ok t a Ht) as (A & B & C).
  assert (X : forallb (fun c => c <? 128) x = true /\ Forall (fun c => c = 46 \/ ldh c = true) x).
  { destruct Hx as [->| ->]; [auto|]. split; [rewrite forallb_app, C; reflexivity|]. apply Forall_app. auto. }
  destruct X as [X1 X2]. unfold idna_ascii. rewrite X1. unfold idna_frag. rewrite (map_id _ X2).
  assert (S : strip_last 46 x = t).
  { destruct Hx as [->| ->]; [exact (v4_text_no_final_dot t a Ht) | apply strip_last_snoc]. }
  rewrite S, A. reflexivity.
Qed.
