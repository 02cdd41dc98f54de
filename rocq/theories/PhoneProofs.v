(** Proofs about the phone validator. *)
From Coq Require Import Permutation.
From Verif Require Import Base IntModel Serde PhoneModel.
Local Open Scope N_scope.

(** The library reads the text for country [c] as the number [p], which is a valid number of that country. *)
Definition matched {cid phone perr} (parse : option cid -> list N -> phone + perr) (country : phone -> option cid)
    (valid : phone -> bool) (c : cid) (s : list N) (p : phone) : Prop :=
  parse (Some c) s = inl p /\ country p = Some c /\ valid p = true.

(** The library can read the text for country [c] (the number need not be valid). *)
Definition readable {cid phone perr} (parse : option cid -> list N -> phone + perr) (s : list N) (c : cid) : Prop :=
  exists p, parse (Some c) s = inl p.

Section WithPhonenumber.
Variable cid : Type.
Variable cid_eqb : cid -> cid -> bool.
Variable phone : Type.
Variable perr : Type.
Variable pn_parse : option cid -> list N -> phone + perr.
Variable pn_country : phone -> option cid.
Variable pn_valid : phone -> bool.
Hypothesis cid_eqb_spec : forall a b, cid_eqb a b = true <-> a = b.

Let Matched := matched pn_parse pn_country pn_valid.
Let Readable := readable pn_parse.
Let loop := phone_v_loop cid cid_eqb phone perr pn_parse pn_country pn_valid.
Let many := phone_v_many cid cid_eqb phone perr pn_parse pn_country pn_valid.
Let parse_str := phone_parse_str cid cid_eqb phone perr pn_parse pn_country pn_valid.

Lemma matches_spec c s p : pn_parse (Some c) s = inl p ->
  p_matches cid cid_eqb phone pn_country pn_valid c p = true <-> Matched c s p.
Proof.
  intros H. unfold p_matches, Matched, matched. destruct (pn_country p) as [id|].
  - rewrite andb_true_iff, cid_eqb_spec. split; [intros [-> Hv]; auto|].
    intros (_ & E & Hv). injection E as ->. auto.
  - split; [discriminate|intros (_ & E & _); discriminate].
Qed.

Lemma loop_spec cs s m0 : NoDup cs -> (forall c, In c cs -> ~ In c (List.map fst m0)) -> NoDup (List.map fst m0) ->
  (forall m, loop cs s m0 = Ok m -> Forall (Readable s) cs /\ NoDup (List.map fst m) /\
     forall c p, In (c, p) m <-> In (c, p) m0 \/ (In c cs /\ Matched c s p)) /\
  (Forall (Readable s) cs -> exists m, loop cs s m0 = Ok m) /\
  loop cs s m0 <> Panic /\
  (forall e, loop cs s m0 = Err e -> exists c x, In c cs /\ e = PParseError x /\ pn_parse (Some c) s = inr x).
Proof.
  unfold loop. revert m0. induction cs as [|c cs IH]; intros m0 Hnd Hfresh Hm0; cbn [phone_v_loop].
  - repeat split.
    + constructor.
    + injection H as ->. exact Hm0.
    + injection H as ->. auto.
    + injection H as ->. intros [H|[[] _]]. exact H.
    + eauto.
    + discriminate.
    + discriminate.
  - inversion_clear Hnd as [|? ? Hc Hnd']. unfold p_parse.
    destruct (pn_parse (Some c) s) as [p|x] eqn:Ep; cbn [obind].
    + set (m1 := if p_matches cid cid_eqb phone pn_country pn_valid c p then map_insert cid cid_eqb phone c p m0 else m0).
      assert (Hfil : filter (fun e => negb (cid_eqb (fst e) c)) m0 = m0).
      { assert (Hf := Hfresh c (or_introl eq_refl)). clear - Hf cid_eqb_spec.
        induction m0 as [|[a b] m IHm]; [reflexivity|]. cbn in *.
        destruct (cid_eqb a c) eqn:E; [apply cid_eqb_spec in E; destruct Hf; left; exact E|].
        cbn. f_equal. apply IHm. intros I; apply Hf; right; exact I. }
      assert (Hin : forall c' p', In (c', p') m1 <-> In (c', p') m0 \/ (c' = c /\ Matched c s p')).
      { intros c' p'. unfold m1. pose proof (matches_spec c s p Ep) as Hm.
        destruct (p_matches cid cid_eqb phone pn_country pn_valid c p).
        - unfold map_insert. rewrite Hfil. cbn [In]. split.
          + intros [H|H]; [injection H as <- <-; right; split; [reflexivity|apply Hm; reflexivity]|left; exact H].
          + intros [H|[-> (H & _)]]; [right; exact H|left]. rewrite Ep in H. injection H as ->. reflexivity.
        - split; [intros H; left; exact H|]. intros [H|[-> H]]; [exact H|].
          assert (p' = p) as -> by (destruct H as (H & _); rewrite Ep in H; injection H as ->; reflexivity).
          apply Hm in H. discriminate H. }
      assert (Hnd1 : NoDup (List.map fst m1)).
      { unfold m1. destruct (p_matches _ _ _ _ _ c p); [|exact Hm0]. unfold map_insert. rewrite Hfil. cbn.
        constructor; [apply Hfresh; left; reflexivity|exact Hm0]. }
      assert (Hf1 : forall c', In c' cs -> ~ In c' (List.map fst m1)).
      { intros c' Hc' I. apply in_map_iff in I. destruct I as ([a b] & <- & I). apply Hin in I.
        destruct I as [I|[-> _]].
        - apply (Hfresh a (or_intror Hc')). apply in_map_iff. exists (a, b). auto.
        - contradiction. }
      destruct (IH m1 Hnd' Hf1 Hnd1) as (H1 & H2 & H3 & H4). split; [|split; [|split; [exact H3|]]].
      * intros m Hm. destruct (H1 m Hm) as (G1 & G2 & G3). split; [|split; [exact G2|]].
        { constructor; [exists p; exact Ep|exact G1]. }
        intros c' p'. rewrite G3, Hin. cbn [In]. split.
        { intros [[H|[-> H]]|[H H']]; auto. }
        { intros [H|[[->|H] H']]; auto. }
      * intros H. inversion_clear H. apply H2. assumption.
      * intros e He. destruct (H4 e He) as (c' & x & I & J). exists c', x. split; [right; exact I|exact J].
    + repeat split; try discriminate.
      * intros H. inversion_clear H as [|? ? [p Hp] _]. rewrite Ep in Hp. discriminate.
      * intros e H. injection H as <-. exists c, x. split; [left; reflexivity|auto].
Qed.

Lemma many_spec cs s : NoDup cs ->
  (forall m, many cs s = Ok m -> Forall (Readable s) cs /\ m <> [] /\ NoDup (List.map fst m) /\
     forall c p, In (c, p) m <-> In c cs /\ Matched c s p) /\
  (Forall (Readable s) cs -> (exists c p, In c cs /\ Matched c s p) -> exists m, many cs s = Ok m) /\
  many cs s <> Panic.
Proof.
  intros Hnd. destruct (loop_spec cs s [] Hnd (fun _ _ H => H) (NoDup_nil _)) as (H1 & H2 & H3 & H4).
  unfold many, phone_v_many. fold loop. destruct (loop cs s []) as [m0|e|] eqn:E; cbn [obind].
  - destruct (H1 m0 eq_refl) as (G1 & G2 & G3).
    assert (G3' : forall c p, In (c, p) m0 <-> In c cs /\ Matched c s p).
    { intros c p. rewrite G3. split; [intros [[]|H]; exact H|auto]. }
    destruct m0 as [|x m0].
    + repeat split; try discriminate. intros _ (c & p & I & J).
      destruct (proj2 (G3' c p) (conj I J)).
    + split; [|split; [eauto|discriminate]].
      intros m H. injection H as <-. split; [exact G1|]. split; [discriminate|]. split; [exact G2|exact G3'].
  - repeat split; try discriminate. intros H. destruct (H2 H) as [m Hm]. discriminate.
  - destruct (H3 eq_refl).
Qed.

Lemma parse_str_many cs s : (2 <= List.length cs)%nat -> parse_str cs s = omap PMany (many cs s).
Proof.
  intros H. unfold parse_str, phone_parse_str, phone_v_parse_str. fold many.
  destruct cs as [|a [|b cs]]; cbn in H; try lia. destruct (many (a :: b :: cs) s); reflexivity.
Qed.

Lemma phone_many cs s : (2 <= List.length cs)%nat -> NoDup cs ->
  (forall v, parse_str cs s = Ok v -> Forall (Readable s) cs /\ exists m, v = PMany m /\ m <> [] /\
     NoDup (List.map fst m) /\ forall c p, In (c, p) m <-> In c cs /\ Matched c s p) /\
  (Forall (Readable s) cs -> (exists c p, In c cs /\ Matched c s p) -> is_ok (parse_str cs s)).
Proof.
  intros Hlen Hnd. rewrite (parse_str_many cs s Hlen). destruct (many_spec cs s Hnd) as (H1 & H2 & _). split.
  - intros v H. destruct (many cs s) as [m| |]; try discriminate. injection H as <-.
    destruct (H1 m eq_refl) as (G1 & G2). split; [exact G1|]. exists m. split; [reflexivity|exact G2].
  - intros G1 G2. destruct (H2 G1 G2) as [m ->]. exists (PMany m). reflexivity.
Qed.

Lemma phone_ok_iff cs s : (2 <= List.length cs)%nat -> NoDup cs ->
  is_ok (parse_str cs s) <-> Forall (Readable s) cs /\ exists c p, In c cs /\ Matched c s p.
Proof.
  intros Hlen Hnd. destruct (phone_many cs s Hlen Hnd) as [H1 H2]. split; [|intros [G1 G2]; apply H2; assumption].
  intros [v Hv]. destruct (H1 v Hv) as (G1 & m & -> & G2 & G3 & G4). split; [exact G1|].
  destruct m as [|[c p] m]; [contradiction|]. exists c, p. apply G4. left. reflexivity.
Qed.

Lemma phone_permute cs cs' s : (2 <= List.length cs)%nat -> NoDup cs -> Permutation cs cs' ->
  (is_ok (parse_str cs s) <-> is_ok (parse_str cs' s)) /\
  (forall m m', parse_str cs s = Ok (PMany m) -> parse_str cs' s = Ok (PMany m') -> Permutation m m').
Proof.
  intros Hlen Hnd HP. assert (Hlen' : (2 <= List.length cs')%nat) by (rewrite <- (Permutation_length HP); exact Hlen).
  assert (Hnd' : NoDup cs') by (eapply Permutation_NoDup; eassumption).
  split.
  - rewrite (phone_ok_iff cs s Hlen Hnd), (phone_ok_iff cs' s Hlen' Hnd').
    split; intros (H & c & p & I & J); split.
    + eapply Permutation_Forall; eassumption.
    + exists c, p. split; [eapply Permutation_in; eassumption|exact J].
    + eapply Permutation_Forall; [apply Permutation_sym; eassumption|eassumption].
    + exists c, p. split; [eapply Permutation_in; [apply Permutation_sym; eassumption|eassumption]|exact J].
  - intros m m' Hm Hm'.
    destruct (proj1 (phone_many cs s Hlen Hnd) _ Hm) as (_ & k & Ek & _ & N1 & I1). injection Ek as <-.
    destruct (proj1 (phone_many cs' s Hlen' Hnd') _ Hm') as (_ & k & Ek & _ & N2 & I2). injection Ek as <-.
    apply NoDup_Permutation; [eapply NoDup_map_inv; eassumption|eapply NoDup_map_inv; eassumption|].
    intros [c p]. rewrite I1, I2. split; intros [I J]; split; try exact J.
    + eapply Permutation_in; eassumption.
    + eapply Permutation_in; [apply Permutation_sym; eassumption|eassumption].
Qed.

Lemma phone_one c s v : parse_str [c] s = Ok v <-> exists p, v = POne p /\ Matched c s p.
Proof.
  unfold parse_str, phone_parse_str, phone_v_parse_str, phone_v_one, p_parse.
  destruct (pn_parse (Some c) s) as [p|x] eqn:Ep; cbn [obind omap].
  - pose proof (matches_spec c s p Ep) as Hm.
    destruct (p_matches cid cid_eqb phone pn_country pn_valid c p); cbn [obind omap]; split.
    + intros H. injection H as <-. exists p. split; [reflexivity|apply Hm; reflexivity].
    + intros (q & -> & Hq). assert (q = p) as -> by (destruct Hq as (Hq & _); rewrite Ep in Hq; injection Hq as ->; reflexivity).
      reflexivity.
    + discriminate.
    + intros (q & -> & Hq). assert (q = p) as -> by (destruct Hq as (Hq & _); rewrite Ep in Hq; injection Hq as ->; reflexivity).
      apply Hm in Hq. discriminate.
  - split; [discriminate|]. intros (q & _ & Hq & _). rewrite Ep in Hq. discriminate.
Qed.

Lemma phone_any s v : parse_str [] s = Ok v <-> exists p, v = POne p /\ pn_parse None s = inl p /\ pn_valid p = true.
Proof.
  unfold parse_str, phone_parse_str, phone_v_parse_str, phone_v_any, p_parse.
  destruct (pn_parse None s) as [p|x]; cbn [obind omap].
  - destruct (pn_valid p) eqn:Ev; cbn [obind omap]; split.
    + intros H. injection H as <-. exists p. auto.
    + intros (q & -> & E & _). injection E as ->. reflexivity.
    + discriminate.
    + intros (q & -> & E & Hv). injection E as ->. congruence.
  - split; [discriminate|]. intros (q & _ & E & _). discriminate.
Qed.

Lemma phone_no_panic cs s : NoDup cs -> parse_str cs s <> Panic.
Proof.
  intros Hnd. destruct cs as [|a [|b cs]].
  - unfold parse_str, phone_parse_str, phone_v_parse_str, phone_v_any, p_parse.
    destruct (pn_parse None s) as [p|x]; cbn; [destruct (pn_valid p)|]; discriminate.
  - unfold parse_str, phone_parse_str, phone_v_parse_str, phone_v_one, p_parse.
    destruct (pn_parse (Some a) s) as [p|x]; cbn; [destruct (p_matches _ _ _ _ _ a p)|]; discriminate.
  - rewrite (parse_str_many (a :: b :: cs) s) by (cbn; lia). destruct (many_spec (a :: b :: cs) s Hnd) as (_ & _ & H).
    destruct (many (a :: b :: cs) s); [discriminate|discriminate|contradiction].
Qed.

Lemma countries_spec from_str idents set cs : NoDup set ->
  meta_2_countries cid cid_eqb from_str set idents = Some cs <->
  exists new, cs = set ++ new /\ List.map from_str idents = List.map Some new /\ NoDup (set ++ new).
Proof.
  revert set. induction idents as [|i idents IH]; intros set Hnd; cbn [meta_2_countries List.map].
  - split.
    + intros H. injection H as <-. exists []. rewrite app_nil_r. auto.
    + intros ([|n new] & -> & H & _); [rewrite app_nil_r; reflexivity|discriminate H].
  - destruct (from_str i) as [c|].
    + destruct (existsb (cid_eqb c) set) eqn:E.
      * split; [discriminate|]. intros ([|n new] & _ & H & Hn); [discriminate H|]. cbn in H. injection H as <- H.
        apply existsb_exists in E. destruct E as (x & Hx & Ex). apply cid_eqb_spec in Ex. subst x.
        apply NoDup_remove in Hn. destruct Hn as [_ Hn]. destruct Hn. apply in_or_app. left. exact Hx.
      * assert (Hnd' : NoDup (set ++ [c])).
        { apply NoDup_rev in Hnd. rewrite <- (rev_involutive (set ++ [c])). apply NoDup_rev. rewrite rev_app_distr. cbn.
          constructor; [|exact Hnd]. intros I. apply in_rev in I.
          assert (X : existsb (cid_eqb c) set = true) by (apply existsb_exists; exists c; split; [exact I|apply cid_eqb_spec; reflexivity]).
          congruence. }
        rewrite (IH (set ++ [c]) Hnd'). split.
        { intros (new & -> & H & Hn). exists (c :: new). rewrite <- app_assoc in *. cbn. rewrite H. auto. }
        { intros ([|n new] & -> & H & Hn); [discriminate H|]. cbn in H. injection H as <- H. exists new.
          rewrite <- app_assoc. auto. }
    + split; [discriminate|]. intros ([|n new] & _ & H & _); discriminate H.
Qed.
End WithPhonenumber.
