(** Proofs about the attribute parsers. *)
From Verif Require Import Base RangeModel LengthModel MacModel PhoneModel PhoneProofs MetaModel MetaSpec.
From Coq Require Import Permutation.
Local Open Scope N_scope.

Lemma str_eqb_eq : forall a b, eqbs a b = true <-> a = b.
Proof.
  induction a as [|x a IH]; intros [|y b]; cbn [eqbs]; split; try (intros H; discriminate H); try reflexivity.
  - intros H. apply andb_prop in H. destruct H as [H1 H2]. apply N.eqb_eq in H1. apply IH in H2. congruence.
  - intros H. injection H as -> ->. rewrite N.eqb_refl. cbn [andb]. apply IH. reflexivity.
Qed.
Lemma str_eqb_refl : forall a, eqbs a a = true.
Proof. intros a. apply str_eqb_eq. reflexivity. Qed.
Lemma str_eqb_neq : forall a b, a <> b -> eqbs a b = false.
Proof. intros a b H. destruct (eqbs a b) eqn:E; [|reflexivity]. apply str_eqb_eq in E. contradiction. Qed.
Lemma str_eqb_false : forall a b, eqbs a b = false -> a <> b.
Proof. intros a b H ->. rewrite str_eqb_refl in H. discriminate. Qed.

Lemma str_eq_dec : forall a b : list N, {a = b} + {a <> b}.
Proof. intros a b. destruct (eqbs a b) eqn:E; [left; apply str_eqb_eq, E|right; apply str_eqb_false, E]. Qed.

Lemma is_set_in : forall flags i, is_set flags i = true <-> In i flags.
Proof.
  intros flags i. unfold is_set. rewrite existsb_exists. split.
  - intros (x & H & E). apply str_eqb_eq in E. subst. exact H.
  - intros H. exists i. split; [exact H|apply str_eqb_refl].
Qed.

(** Distinctness of names, decided by computation. *)
Fixpoint distinct (l : list (list N)) : bool :=
  match l with [] => true | x :: l => negb (existsb (eqbs x) l) && distinct l end.
Lemma distinct_nodup : forall l, distinct l = true -> NoDup l.
Proof.
  induction l as [|x l IH]; cbn [distinct]; intros H; [constructor|].
  apply andb_prop in H. destruct H as [H1 H2]. constructor; [|apply IH, H2].
  intros HI. apply is_set_in in HI. unfold is_set in HI. rewrite HI in H1. discriminate.
Qed.

(** *** Argument lists *)
Lemma all_metas_spec : forall items ms, all_metas items = Some ms <-> items = List.map IMeta ms.
Proof.
  induction items as [|[m|l|r|] items IH]; intros ms; cbn [all_metas].
  - split; [intros H; injection H as <-; reflexivity|]. destruct ms; [reflexivity|discriminate].
  - destruct (all_metas items) as [ms'|] eqn:E.
    + split; [intros H; injection H as <-; cbn [List.map]; f_equal; apply IH; reflexivity|].
      destruct ms as [|m0 ms]; cbn [List.map]; intros H; [discriminate|]. injection H as <- H.
      apply IH in H. injection H as ->. reflexivity.
    + split; [discriminate|]. destruct ms as [|m0 ms]; cbn [List.map]; intros H; [discriminate|].
      injection H as <- H. apply IH in H. discriminate.
  - split; [discriminate|]. destruct ms; discriminate.
  - split; [discriminate|]. destruct ms; discriminate.
  - split; [discriminate|]. destruct ms; discriminate.
Qed.

Lemma args_metas_spec : forall items tr ms,
  args_metas items tr = Some ms <-> items = List.map IMeta ms /\ (tr = true -> ms <> []).
Proof.
  intros items tr ms. unfold args_metas. destruct items as [|i items].
  - destruct tr.
    + split; [discriminate|]. intros [H1 H2]. destruct ms; [|discriminate]. exfalso. apply H2; reflexivity.
    + rewrite all_metas_spec. split; [intros H; split; [exact H|discriminate]|tauto].
  - rewrite all_metas_spec. split; [|tauto]. intros H. split; [exact H|]. intros _ ->. discriminate.
Qed.

Lemma args_meta_spec : forall items tr m, args_meta items tr = Some m <-> items = [IMeta m] /\ tr = false.
Proof.
  intros items tr m. unfold args_meta. split.
  - destruct items as [|[m'|l|r|] [|? ?]]; try discriminate; destruct tr; try discriminate.
    intros H. injection H as ->. split; reflexivity.
  - intros [-> ->]. reflexivity.
Qed.

Lemma args_lit_spec : forall items tr l, args_lit items tr = Some l <-> items = [ILit l] /\ tr = false.
Proof.
  intros items tr l. unfold args_lit. split.
  - destruct items as [|[m'|l'|r|] [|? ?]]; try discriminate; destruct tr; try discriminate.
    intros H. injection H as ->. split; reflexivity.
  - intros [-> ->]. reflexivity.
Qed.

Lemma args_range_spec : forall items tr r, args_range items tr = Some r <-> items = [IRange r] /\ tr = false.
Proof.
  intros items tr l. unfold args_range. split.
  - destruct items as [|[m'|l'|r|] [|? ?]]; try discriminate; destruct tr; try discriminate.
    intros H. injection H as ->. split; reflexivity.
  - intros [-> ->]. reflexivity.
Qed.

Lemma get_ident_spec : forall p i, get_ident p = Some i <-> p = [i].
Proof.
  intros p i. unfold get_ident. destruct p as [|a [|b p]]; split; try discriminate;
    intros H; injection H as ->; reflexivity.
Qed.

Lemma args_ident_spec : forall items tr i,
  args_ident items tr = Some i <-> items = [IMeta (MPath [i])] /\ tr = false.
Proof.
  intros items tr i. unfold args_ident. split.
  - destruct (args_meta items tr) as [[p|p e|p x y]|] eqn:E; try discriminate.
    intros H. apply get_ident_spec in H. subst p. apply args_meta_spec in E. exact E.
  - intros [-> ->]. reflexivity.
Qed.

Lemma all_idents_spec : forall items is,
  all_idents items = Some is <-> items = List.map (fun i => IMeta (MPath [i])) is.
Proof.
  induction items as [|x items IH]; intros is.
  - cbn [all_idents]. split; [intros H; injection H as <-; reflexivity|]. destruct is; [reflexivity|discriminate].
  - split.
    + destruct x as [[p|p e|p x y]|l|r|]; cbn [all_idents]; try discriminate.
      destruct (get_ident p) as [i|] eqn:Ei; [|discriminate]. apply get_ident_spec in Ei. subst p.
      destruct (all_idents items) as [is'|] eqn:E; [|discriminate]. intros H. injection H as <-.
      cbn [List.map]. f_equal. apply IH. reflexivity.
    + destruct is as [|i is]; cbn [List.map]; intros H; [discriminate|]. injection H as -> H.
      cbn [all_idents]. cbn [get_ident]. apply IH in H. rewrite H. reflexivity.
Qed.

Lemma args_idents_spec : forall items tr is,
  args_idents items tr = Some is <->
  is <> [] /\ items = List.map (fun i => IMeta (MPath [i])) is /\ tr = false.
Proof.
  intros items tr is. unfold args_idents. destruct items as [|x items].
  - split; [discriminate|]. intros (H & H2 & _). destruct is; [contradiction|discriminate].
  - destruct tr.
    + split; [discriminate|]. intros (_ & _ & H). discriminate.
    + rewrite all_idents_spec. split; [|tauto]. intros H. split; [|split; [exact H|reflexivity]].
      intros ->. discriminate.
Qed.

(** *** Single values *)
Lemma word_spec : forall A (from_ident : ident -> outcome macro_err A) m v,
  word_from_meta from_ident m = Ok v <-> exists w, word_written m w /\ from_ident w = Ok v.
Proof.
  intros A fi m v. unfold word_from_meta, word_written. split.
  - destruct m as [p|p e|p items tr]; try discriminate.
    + destruct e as [| | |q| |]; try discriminate. destruct (get_ident q) as [i|] eqn:E; [|discriminate].
      apply get_ident_spec in E. subst q. intros H. exists i. split; [exists p; left; reflexivity|exact H].
    + destruct (args_ident items tr) as [i|] eqn:E; [|discriminate]. apply args_ident_spec in E.
      destruct E as [-> ->]. intros H. exists i. split; [exists p; right; reflexivity|exact H].
  - intros (w & (p & [-> | ->]) & H); cbn; exact H.
Qed.

Ltac word_cases :=
  repeat match goal with
  | |- context [if eqbs ?a ?b then _ else _] =>
      let E := fresh "EQ" in destruct (eqbs a b) eqn:E; [apply str_eqb_eq in E; subst a|apply str_eqb_false in E]
  end.

Lemma tri_spec : forall m v, tri_from_meta m = Ok v <-> tri_written m v.
Proof.
  intros m v. unfold tri_from_meta, tri_written. rewrite word_spec. split.
  - intros (w & Hw & H). unfold tri_from_ident in H. revert H.
    word_cases; intros H; try discriminate; injection H as <-; exact Hw.
  - intros H. eexists. split; [exact H|]. destruct v; reflexivity.
Qed.

Lemma allow_spec : forall m v, allow_from_meta m = Ok v <-> allow_written m v.
Proof.
  intros m v. unfold allow_from_meta, allow_written. rewrite word_spec. split.
  - intros (w & Hw & H). unfold allow_from_ident in H. revert H.
    word_cases; intros H; try discriminate; injection H as <-; exact Hw.
  - intros H. eexists. split; [exact H|]. destruct v; reflexivity.
Qed.

Lemma case_spec : forall m v, case_from_meta m = Ok v <-> case_written m v.
Proof.
  intros m v. unfold case_from_meta, case_written. rewrite word_spec. split.
  - intros (w & Hw & H). unfold case_from_ident in H. revert H.
    word_cases; intros H; try discriminate; injection H as <-; exact Hw.
  - intros H. eexists. split; [exact H|]. destruct v; reflexivity.
Qed.

Lemma sep_spec : forall m v, sep_from_meta m = Ok v <-> sep_written m v.
Proof.
  intros m v. unfold sep_from_meta, sep_written, byte_written. split.
  - destruct m as [p|p e|p items tr]; try discriminate.
    destruct (args_meta items tr) as [a|] eqn:E; [|discriminate]. apply args_meta_spec in E.
    destruct E as [-> ->]. intros H. exists p, a. split; [reflexivity|]. revert H.
    destruct a as [q|q e|q items tr].
    + destruct (get_ident q) as [i|] eqn:Eq; [|discriminate]. apply get_ident_spec in Eq. subst q.
      word_cases; intros H; try discriminate. injection H as <-. reflexivity.
    + destruct (get_ident q) as [i|] eqn:Eq; [|discriminate]. apply get_ident_spec in Eq. subst q.
      destruct e as [[| | |c| |]| | | | |]; try discriminate.
      word_cases; intros H; try discriminate; injection H as <-; left; reflexivity.
    + destruct (get_ident q) as [i|] eqn:Eq; [|discriminate]. apply get_ident_spec in Eq. subst q.
      destruct (args_lit items tr) as [[| | |c| |]|] eqn:El;
        try (word_cases; intros H; discriminate).
      apply args_lit_spec in El. destruct El as [-> ->].
      word_cases; intros H; try discriminate; injection H as <-; right; reflexivity.
  - intros (p & a & -> & H). destruct v as [c|c|].
    + destruct H as [-> | ->]; reflexivity.
    + destruct H as [-> | ->]; reflexivity.
    + subst a. reflexivity.
Qed.

Lemma bool_spec : forall m v, meta_2_bool m = Ok v <-> bool_written m v.
Proof.
  intros m v. unfold meta_2_bool, bool_written. split.
  - destruct m as [p|p e|p items tr]; try discriminate.
    + destruct e as [[]| |[]| | |]; try discriminate; intros H; injection H as ->; eauto.
    + destruct (args_lit items tr) as [[| |b| | |]|] eqn:E; try discriminate.
      apply args_lit_spec in E. destruct E as [-> ->]. intros H. injection H as ->. eauto.
  - intros (p & [-> | [-> | ->]]); reflexivity.
Qed.

Section Number.
Context {T : Type}.
Variable from_str : list N -> option T.

Lemma lit_num_spec : forall l v,
  lit_2_number from_str l = Ok v <-> exists d, digits_of l d /\ from_str d = Some v.
Proof.
  intros l v. unfold lit_2_number, base10_parse, digits_of. split.
  - destruct l as [d|d| | | |]; try discriminate; intros H; exists d;
      (destruct (from_str d) as [x|]; [injection H as ->; auto|discriminate]).
  - intros (d & [-> | ->] & H); rewrite H; reflexivity.
Qed.

Lemma num_spec : forall m v, meta_2_number from_str m = Ok v <-> num_written from_str m v.
Proof.
  intros m v. unfold num_written. split.
  - destruct m as [p|p e|p items tr]; cbn [meta_2_number]; try discriminate.
    + destruct e as [l|l|l| | |]; cbn [expr_2_number]; try discriminate.
      * intros H. apply lit_num_spec in H. destruct H as (d & Hd & H).
        exists p, l, d. split; [exact Hd|]. left. auto.
      * destruct l as [d|d| | | |]; try discriminate; unfold base10_parse; intros H;
          (exists p; eexists; exists d; split; [|right; split; [|reflexivity]]);
          try (destruct (from_str (45 :: d)); [injection H as ->; reflexivity|discriminate]);
          unfold digits_of; auto.
      * intros H. apply lit_num_spec in H. destruct H as (d & Hd & H).
        exists p, l, d. split; [exact Hd|]. left. auto.
    + destruct (args_lit items tr) as [l|] eqn:E; [|discriminate]. apply args_lit_spec in E.
      destruct E as [-> ->]. intros H. assert (L : lit_2_number from_str l = Ok v) by (destruct l; try discriminate; exact H).
      apply lit_num_spec in L. destruct L as (d & Hd & L). exists p, l, d. split; [exact Hd|]. left. auto.
  - intros (p & l & d & Hd & [[H [-> | [-> | ->]]] | [H ->]]); cbn [meta_2_number expr_2_number].
    + apply lit_num_spec. eauto.
    + apply lit_num_spec. eauto.
    + destruct Hd as [-> | ->]; cbn [args_lit]; unfold base10_parse; rewrite H; reflexivity.
    + destruct Hd as [-> | ->]; unfold base10_parse; rewrite H; reflexivity.
Qed.

Lemma number_opt_spec : forall m v, number_opt from_str m = Some v <-> num_written from_str m v.
Proof.
  intros m v. rewrite <- num_spec. unfold number_opt.
  destruct (meta_2_number from_str m); split; intros H; inversion H; reflexivity.
Qed.
End Number.

Lemma flags_loop_spec : forall en n1 n2 is a b r, n1 <> n2 ->
  flags_loop en n1 n2 is a b = Ok r <->
  (is = [] /\ r = (a, b)) \/
  (is <> [] /\ en = true /\ NoDup is /\ incl is [n1; n2] /\ (In n1 is -> a = false) /\ (In n2 is -> b = false) /\
   (fst r = true <-> a = true \/ In n1 is) /\ (snd r = true <-> b = true \/ In n2 is)).
Proof.
  intros en n1 n2 is. induction is as [|i is IH]; intros a b r Hn.
  - cbn [flags_loop]. split.
    + intros H. injection H as <-. left. split; reflexivity.
    + intros [[_ ->]|[H _]]; [reflexivity|contradiction].
  - cbn [flags_loop]. split.
    + destruct (eqbs i n1) eqn:E1; [apply str_eqb_eq in E1; subst i|apply str_eqb_false in E1].
      * destruct a; cbn [obind]; [discriminate|]. cbn [fst snd]. destruct en; [|discriminate].
        intros H. apply (IH true b r Hn) in H. right. split; [discriminate|]. split; [reflexivity|].
        destruct H as [[-> ->]|(_ & _ & H1 & H2 & H3 & H4 & H5 & H6)]; cbn [fst snd].
        -- split; [constructor; [intros []|constructor]|]. split; [intros x [<-|[]]; left; reflexivity|].
           split; [reflexivity|]. split; [intros [<-|[]]; contradiction|].
           split; [split; [intros _; right; left; reflexivity|reflexivity]|].
           split; [auto|]. intros [H|[H|[]]]; [exact H|contradiction].
        -- assert (N1 : ~ In n1 is) by (intros HI; specialize (H3 HI); discriminate).
           split; [constructor; assumption|].
           split; [intros x [<-|Hx]; [left; reflexivity|apply H2, Hx]|].
           split; [reflexivity|]. split; [intros [Hx|Hx]; [contradiction|auto]|].
           split; [split; [intros _; right; left; reflexivity|intros _; apply H5; left; reflexivity]|].
           rewrite H6. split; [intros [H|H]; [auto|right; right; exact H]|].
           intros [H|[H|H]]; [auto|contradiction|auto].
      * destruct (eqbs i n2) eqn:E2; [apply str_eqb_eq in E2; subst i|discriminate].
        destruct b; cbn [obind]; [discriminate|]. cbn [fst snd]. destruct en; [|discriminate].
        intros H. apply (IH a true r Hn) in H. right. split; [discriminate|]. split; [reflexivity|].
        destruct H as [[-> ->]|(_ & _ & H1 & H2 & H3 & H4 & H5 & H6)]; cbn [fst snd].
        -- split; [constructor; [intros []|constructor]|]. split; [intros x [<-|[]]; right; left; reflexivity|].
           split; [intros [H|[]]; symmetry in H; contradiction|]. split; [reflexivity|].
           split; [split; [auto|intros [H|[H|[]]]; [exact H|symmetry in H; contradiction]]|].
           split; [intros _; right; left; reflexivity|reflexivity].
        -- assert (N1 : ~ In n2 is) by (intros HI; specialize (H4 HI); discriminate).
           split; [constructor; assumption|].
           split; [intros x [<-|Hx]; [right; left; reflexivity|apply H2, Hx]|].
           split; [intros [Hx|Hx]; [symmetry in Hx; contradiction|auto]|]. split; [reflexivity|].
           split; [|split; [intros _; right; left; reflexivity|intros _; apply H6; left; reflexivity]].
           rewrite H5. split; [intros [H|H]; [auto|right; right; exact H]|].
           intros [H|[H|H]]; [auto|symmetry in H; contradiction|auto].
    + intros [[H _]|(_ & -> & ND & HI & Ha & Hb & H1 & H2)]; [discriminate|].
      inversion ND as [|? ? NI ND']; subst.
      destruct (HI i (or_introl eq_refl)) as [<-|[<-|[]]].
      * rewrite str_eqb_refl. rewrite (Ha (or_introl eq_refl)). cbn [obind fst snd]. apply (IH true b r Hn).
        destruct is as [|j is].
        -- left. split; [reflexivity|]. destruct r as [x y]. cbn [fst snd] in *. f_equal.
           ++ apply H1. right. left. reflexivity.
           ++ destruct y, b; try reflexivity.
              ** destruct (proj1 H2 eq_refl) as [H|[H|[]]]; [discriminate|contradiction].
              ** apply H2. left. reflexivity.
        -- right. split; [discriminate|]. split; [reflexivity|]. split; [exact ND'|].
           split; [intros x Hx; apply HI; right; exact Hx|].
           split; [intros Hx; contradiction|]. split; [intros Hx; apply Hb; right; exact Hx|].
           split; [split; [auto|intros _; apply H1; right; left; reflexivity]|].
           rewrite H2. split; [intros [H|[H|H]]; [auto|contradiction|auto]|intros [H|H]; [auto|right; right; exact H]].
      * rewrite (str_eqb_neq n2 n1) by congruence. rewrite str_eqb_refl. rewrite (Hb (or_introl eq_refl)).
        cbn [obind fst snd]. apply (IH a true r Hn).
        destruct is as [|j is].
        -- left. split; [reflexivity|]. destruct r as [x y]. cbn [fst snd] in *. f_equal.
           ++ destruct x, a; try reflexivity.
              ** destruct (proj1 H1 eq_refl) as [H|[H|[]]]; [discriminate|symmetry in H; contradiction].
              ** apply H1. left. reflexivity.
           ++ apply H2. right. left. reflexivity.
        -- right. split; [discriminate|]. split; [reflexivity|]. split; [exact ND'|].
           split; [intros x Hx; apply HI; right; exact Hx|].
           split; [intros Hx; apply Ha; right; exact Hx|]. split; [intros Hx; contradiction|].
           split; [|split; [auto|intros _; apply H2; right; left; reflexivity]].
           rewrite H1. split; [intros [H|[H|H]]; [auto|symmetry in H; contradiction|auto]|intros [H|H]; [auto|right; right; exact H]].
Qed.

Lemma flags_spec : forall en n1 n2 m v, n1 <> n2 ->
  meta_2_flags en n1 n2 m = Ok v <-> flags_written en n1 n2 m v.
Proof.
  intros en n1 n2 m v Hn. unfold meta_2_flags, flags_written.
  destruct m as [p|p e|p items tr].
  - destruct en; split.
    + intros H. injection H as <-. auto.
    + intros [_ ->]. reflexivity.
    + discriminate.
    + intros [H _]. discriminate.
  - split.
    + destruct e as [[| |b| | |]| | | | |]; try discriminate. intros H. exists b.
      split; [reflexivity|]. destruct b, en; cbn [andb negb] in H; try discriminate;
        injection H as <-; split; auto; intros X; discriminate.
    + intros (b & -> & -> & H). destruct b, en; cbn [andb negb]; try reflexivity.
      specialize (H eq_refl). discriminate.
  - split.
    + destruct (args_idents items tr) as [is|] eqn:E; [|discriminate]. apply args_idents_spec in E.
      destruct E as (E1 & -> & ->). intros H. apply (flags_loop_spec en n1 n2 is false false v Hn) in H.
      destruct H as [[H _]|(_ & H1 & H2 & H3 & _ & _ & H4 & H5)]; [contradiction|].
      split; [exact H1|]. split; [reflexivity|]. exists is. repeat split; try assumption.
      * intros H. apply H4 in H. destruct H as [H|H]; [discriminate|exact H].
      * intros H. apply H4. right. exact H.
      * intros H. apply H5 in H. destruct H as [H|H]; [discriminate|exact H].
      * intros H. apply H5. right. exact H.
    + intros (H1 & -> & is & E1 & -> & H2 & H3 & H4 & H5).
      assert (E : args_idents (map (fun i => IMeta (MPath [i])) is) false = Some is)
        by (apply args_idents_spec; auto).
      rewrite E. apply (flags_loop_spec en n1 n2 is false false v Hn). right.
      repeat split; auto.
      * intros H. right. apply H4, H.
      * intros [H|H]; [discriminate|apply H4, H].
      * intros H. right. apply H5, H.
      * intros [H|H]; [discriminate|apply H5, H].
Qed.

Lemma serde_spec : forall f m v, serde_from_meta f m = Ok v <-> serde_written f m v.
Proof. intros f m v. apply flags_spec. discriminate. Qed.
Lemma rocket_spec : forall f m v, rocket_from_meta f m = Ok v <-> rocket_written f m v.
Proof. intros f m v. apply flags_spec. discriminate. Qed.

(** *** The loop over the parameters *)
Definition good_table {St} (tbl : list (param St)) : Prop :=
  NoDup (List.map p_name tbl) /\
  (forall p, In p tbl -> forall v s, p_get p (p_set p v s) = v) /\
  (forall p q, In p tbl -> In q tbl -> p_name p <> p_name q -> forall v s, p_get q (p_set p v s) = p_get q s) /\
  (forall s t, (forall p, In p tbl -> p_get p s = p_get p t) -> s = t).

(** What the loop does to the variable of parameter [p]. *)
Definition effect {St} (ms : list meta) (st a : St) (p : param St) : Prop :=
  (exists m, In m ms /\ named (p_name p) m /\ p_read p m = Ok (p_get p a)) \/
  ((forall m, In m ms -> ~ named (p_name p) m) /\ p_get p a = p_get p st).

Lemma named_fun : forall n n' m, named n m -> named n' m -> n = n'.
Proof. unfold named. intros n n' m H H'. rewrite H in H'. injection H' as ->. reflexivity. Qed.

Lemma find_name : forall St (tbl : list (param St)) i,
  match find (fun p => eqbs i (p_name p)) tbl with
  | Some p => In p tbl /\ p_name p = i
  | None => ~ In i (List.map p_name tbl)
  end.
Proof.
  intros St tbl i. destruct (find (fun p => eqbs i (p_name p)) tbl) as [p|] eqn:E.
  - apply find_some in E. destruct E as [H E]. apply str_eqb_eq in E. auto.
  - intros H. apply in_map_iff in H. destruct H as (p & Hp & HI).
    apply (find_none _ _ E) in HI. rewrite Hp, str_eqb_refl in HI. discriminate.
Qed.

Lemma in_used : forall used ms i, Forall2 named used ms -> In i used -> exists m, In m ms /\ named i m.
Proof.
  intros used ms i H. induction H as [|u m us ms Hm HF IH]; intros HI; [destruct HI|].
  destruct HI as [->|HI]; [exists m; split; [left; reflexivity|exact Hm]|].
  destruct (IH HI) as (m' & H1 & H2). exists m'. split; [right; exact H1|exact H2].
Qed.

Lemma used_in : forall used ms i m, Forall2 named used ms -> In m ms -> named i m -> In i used.
Proof.
  intros used ms i m H. induction H as [|u m' us ms Hm HF IH]; intros HI Hn; [destruct HI|].
  destruct HI as [->|HI]; [left; exact (named_fun _ _ _ Hm Hn)|right; apply IH; assumption].
Qed.

Lemma loop_ok : forall St (tbl : list (param St)), good_table tbl -> forall ms flags st a,
  attr_loop tbl flags st ms = Ok a <->
  (exists used, Forall2 named used ms /\ NoDup used /\ incl used (List.map p_name tbl) /\
                (forall i, In i used -> ~ In i flags)) /\
  (forall p, In p tbl -> effect ms st a p).
Proof.
  intros St tbl (ND & GS & GO & EXT) ms. induction ms as [|m ms IH]; intros flags st a; cbn [attr_loop].
  - split.
    + intros H. injection H as ->. split.
      * exists []. split; [constructor|]. split; [constructor|]. split; [intros x []|intros x []].
      * intros p _. right. split; [intros m []|reflexivity].
    + intros [_ H]. f_equal. apply EXT. intros p Hp. destruct (H p Hp) as [(m & [] & _)|[_ E]]. symmetry. exact E.
  - split.
    + destruct (get_ident (meta_path m)) as [i|] eqn:Ei; [|discriminate]. apply get_ident_spec in Ei.
      pose proof (find_name _ tbl i) as Hf. destruct (find _ tbl) as [p|]; [|discriminate].
      destruct Hf as [Hp Hpn]. destruct (p_read p m) as [v| |] eqn:Er; cbn [obind]; try discriminate.
      destruct (is_set flags i) eqn:Ef; [discriminate|]. intros H. apply IH in H.
      destruct H as [(used & F & NDu & IN & DJ) EF]. split.
      * exists (i :: used). split; [constructor; [exact Ei|exact F]|].
        split; [constructor; [|exact NDu]|].
        { intros HI. apply (DJ i HI). left. reflexivity. }
        split; [intros x [<-|Hx]; [rewrite <- Hpn; apply in_map, Hp|apply IN, Hx]|].
        intros x [<-|Hx] Hfl; [apply is_set_in in Hfl; congruence|]. apply (DJ x Hx). right. exact Hfl.
      * intros q Hq. destruct (str_eq_dec (p_name q) i) as [Eq|Nq].
        { assert (q = p).
          { assert (E : p_name q = p_name p) by congruence. clear - ND Hq Hp E.
            induction tbl as [|x tbl IH]; [destruct Hq|]. cbn [map] in ND. inversion ND as [|? ? NI ND']; subst.
            destruct Hq as [->|Hq], Hp as [->|Hp]; auto.
            - exfalso. apply NI. rewrite E. apply in_map, Hp.
            - exfalso. apply NI. rewrite <- E. apply in_map, Hq. }
          subst q. left. exists m. split; [left; reflexivity|]. split; [unfold named; congruence|].
          destruct (EF p Hp) as [(m' & HI & Hn & _)|[_ E]].
          - exfalso. apply (DJ i); [|left; reflexivity]. rewrite <- Hpn. eapply used_in; eassumption.
          - rewrite E, GS by assumption. exact Er. }
        { destruct (EF q Hq) as [(m' & HI & Hn & E)|[HN E]].
          - left. exists m'. split; [right; exact HI|]. split; assumption.
          - right. split.
            + intros m' [<-|HI]; [|apply HN, HI]. intros Hn. apply Nq. eapply named_fun; eassumption.
            + rewrite E. apply GO; try assumption. congruence. }
    + intros [(used & F & NDu & IN & DJ) EF]. inversion F as [|i ? us ? Hi F']; subst.
      inversion NDu as [|? ? NI NDu']; subst.
      unfold named in Hi. rewrite Hi. cbn [get_ident].
      pose proof (find_name _ tbl i) as Hf. destruct (find _ tbl) as [p|].
      2:{ exfalso. apply Hf, IN. left. reflexivity. }
      destruct Hf as [Hp Hpn].
      assert (Er : p_read p m = Ok (p_get p a)).
      { destruct (EF p Hp) as [(m' & HI & Hn & E)|[HN _]].
        - destruct HI as [<-|HI]; [exact E|]. exfalso. apply NI. rewrite <- Hpn. eapply used_in; eassumption.
        - exfalso. apply (HN m (or_introl eq_refl)). unfold named. congruence. }
      rewrite Er. cbn [obind].
      destruct (is_set flags i) eqn:Ef; [exfalso; apply is_set_in in Ef; apply (DJ i (or_introl eq_refl) Ef)|].
      apply IH. split.
      * exists us. split; [exact F'|]. split; [exact NDu'|]. split; [intros x Hx; apply IN; right; exact Hx|].
        intros x Hx [<-|Hfl]; [contradiction|]. apply (DJ x (or_intror Hx) Hfl).
      * intros q Hq. destruct (str_eq_dec (p_name q) i) as [Eq|Nq].
        { right. split.
          - intros m' HI Hn. apply NI. rewrite <- Eq. eapply used_in; eassumption.
          - assert (q = p).
            { assert (E : p_name q = p_name p) by congruence. clear - ND Hq Hp E.
              induction tbl as [|x tbl IH]; [destruct Hq|]. cbn [map] in ND. inversion ND as [|? ? NI ND']; subst.
              destruct Hq as [->|Hq], Hp as [->|Hp]; auto.
              - exfalso. apply NI. rewrite E. apply in_map, Hp.
              - exfalso. apply NI. rewrite <- E. apply in_map, Hq. }
            subst q. symmetry. apply GS. exact Hp. }
        { destruct (EF q Hq) as [(m' & HI & Hn & E)|[HN E]].
          - destruct HI as [<-|HI]; [exfalso; apply Nq; exact (named_fun _ _ _ Hn Hi)|].
            left. exists m'. auto.
          - right. split; [intros m' HI; apply HN; right; exact HI|].
            rewrite E. symmetry. apply GO; try assumption. congruence. }
Qed.

Lemma build_ok : forall St (tbl : list (param St)) d m a, good_table tbl ->
  build_from_meta tbl d m = Ok a <->
  exists ms, arguments m ms /\ well_named (List.map p_name tbl) ms /\ (forall p, In p tbl -> effect ms d a p).
Proof.
  intros St tbl d m a G. unfold build_from_meta. destruct m as [p|p e|p items tr]; cbn [arguments].
  - split.
    + intros H. injection H as <-. exists []. split; [reflexivity|]. split.
      * exists []. split; [constructor|]. split; [constructor|intros x []].
      * intros q _. right. split; [intros m []|reflexivity].
    + intros (ms & -> & _ & H). f_equal. destruct G as (_ & _ & _ & EXT). apply EXT.
      intros q Hq. destruct (H q Hq) as [(m & [] & _)|[_ E]]. symmetry. exact E.
  - split; [discriminate|]. intros (ms & [] & _).
  - split.
    + destruct (args_metas items tr) as [ms|] eqn:E; [|discriminate]. apply args_metas_spec in E.
      intros H. apply (loop_ok St tbl G) in H. destruct H as [(used & F & ND & IN & _) EF].
      exists ms. split; [exact E|]. split; [|exact EF]. exists used. auto.
    + intros (ms & E & (used & F & ND & IN) & EF). apply args_metas_spec in E. rewrite E.
      apply (loop_ok St tbl G). split; [|exact EF]. exists used. repeat split; auto.
Qed.

(** From the value parsers to the written forms. *)
Lemma effect_value : forall St (p : param St) (W : meta -> p_ty p -> Prop) ms d a,
  (forall m v, p_read p m = Ok v <-> W m v) ->
  (effect ms d a p <-> value ms (p_name p) W (p_get p d) (p_get p a)).
Proof.
  intros St p W ms d a H. unfold effect, value. split.
  - intros [(m & H1 & H2 & H3)|H1]; [left; exists m; split; [exact H1|]; split; [exact H2|apply H, H3]|right; exact H1].
  - intros [(m & H1 & H2 & H3)|H1]; [left; exists m; split; [exact H1|]; split; [exact H2|apply H, H3]|right; exact H1].
Qed.

(** Order of the parameters. *)
Lemma forall2_swap : forall A B (R : A -> B -> Prop) l l', Forall2 R l l' -> Forall2 (fun b a => R a b) l' l.
Proof. intros A B R l l' H. induction H; constructor; assumption. Qed.

Lemma well_named_perm : forall names ms ns, Permutation ms ns -> well_named names ms -> well_named names ns.
Proof.
  intros names ms ns HP (used & F & ND & IN).
  apply forall2_swap in F. destruct (Permutation_Forall2 HP F) as (used' & HP' & F').
  exists used'. apply forall2_swap in F'. split; [exact F'|]. split; [eapply Permutation_NoDup; eassumption|].
  intros x Hx. apply IN. eapply Permutation_in; [apply Permutation_sym, HP'|exact Hx].
Qed.

Lemma effect_perm : forall St ms ns d a (p : param St), Permutation ms ns -> effect ms d a p -> effect ns d a p.
Proof.
  intros St ms ns d a p HP [(m & H1 & H)|[H1 H2]].
  - left. exists m. split; [eapply Permutation_in; eassumption|exact H].
  - right. split; [|exact H2]. intros m Hm. apply H1. eapply Permutation_in; [apply Permutation_sym, HP|exact Hm].
Qed.
