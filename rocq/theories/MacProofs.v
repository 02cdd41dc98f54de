(** Proofs about mac_address and uuid. *)
From Verif Require Import Base IntStr IntStrProofs MacModel MacSpec.
Local Open Scope N_scope.

(** Digits. *)
Lemma hex_digit_iff case c d : hex_digit case c = Some d <-> is_hex case c d.
Proof.
  split.
  - intros H.
    assert (Hb : d < 16 /\ c < 128).
    { unfold hex_digit in H. destruct case;
      repeat match type of H with context [if ?b then _ else _] => destruct b eqn:? end;
      try discriminate; injection H as <-; lia. }
    assert (Hall : forallb (fun n => match hex_digit case (N.of_nat n) with
        | Some d => existsb (fun a => match nth_error a (N.to_nat d) with Some x => x =? N.of_nat n | None => false end)
                            (hex_alphabets case)
        | None => true end) (seq 0 128) = true) by (destruct case; vm_compute; reflexivity).
    rewrite forallb_forall in Hall. specialize (Hall (N.to_nat c)).
    rewrite N2Nat.id, H in Hall.
    assert (Hin : In (N.to_nat c) (seq 0 128)) by (apply in_seq; lia).
    specialize (Hall Hin). apply existsb_exists in Hall. destruct Hall as (a & Ha & He).
    exists a. split; [exact Ha|]. destruct (nth_error a _); [|discriminate].
    apply N.eqb_eq in He. congruence.
  - intros (a & Ha & Hn).
    assert (Hd : (N.to_nat d < 16)%nat).
    { destruct (Nat.lt_ge_cases (N.to_nat d) 16) as [|Hge]; [assumption|].
      exfalso. rewrite (proj2 (nth_error_None a (N.to_nat d))) in Hn; [discriminate|].
      destruct case; cbn in Ha; decompose [or] Ha; subst; try contradiction; exact Hge. }
    assert (Hall : forallb (fun a => forallb (fun n => match nth_error a n with
        | Some x => match hex_digit case x with Some y => y =? N.of_nat n | None => false end
        | None => true end) (seq 0 16)) (hex_alphabets case) = true) by (destruct case; vm_compute; reflexivity).
    rewrite forallb_forall in Hall. specialize (Hall a Ha).
    rewrite forallb_forall in Hall. specialize (Hall (N.to_nat d)).
    rewrite Hn in Hall.
    assert (Hin : In (N.to_nat d) (seq 0 16)) by (apply in_seq; lia).
    specialize (Hall Hin). destruct (hex_digit case c); [|discriminate].
    apply N.eqb_eq in Hall. rewrite N2Nat.id in Hall. congruence.
Qed.

Lemma hex_digit_bound case c d : hex_digit case c = Some d -> d < 16.
Proof.
  unfold hex_digit. intros H. destruct case;
  repeat match type of H with context [if ?b then _ else _] => destruct b eqn:? end;
  try discriminate; injection H as <-; lia.
Qed.

Lemma hex_denotes_bound case cs x : hex_denotes case cs x -> x < 16 ^ N.of_nat (List.length cs).
Proof.
  induction 1 as [|c d cs x Hc H IH]; [cbn; lia|].
  apply hex_digit_iff, hex_digit_bound in Hc. cbn [List.length].
  rewrite Nat2N.inj_succ, N.pow_succ_r by lia. nia.
Qed.

Lemma lor_shift acc d : d < 16 -> N.lor (acc * 16) d = acc * 16 + d.
Proof.
  intros Hd. replace (acc * 16) with (N.shiftl acc 4) by (rewrite N.shiftl_mul_pow2; reflexivity).
  rewrite <- N.lxor_lor, <- N.add_nocarry_lxor; [reflexivity| |].
  all: apply N.bits_inj; intros i; rewrite N.land_spec, N.bits_0;
    destruct (N.lt_ge_cases i 4) as [Hi|Hi];
    [rewrite N.shiftl_spec_low by exact Hi; reflexivity|];
    replace d with (d mod 2 ^ 4) by (apply N.mod_small; exact Hd);
    rewrite N.mod_pow2_bits_high by exact Hi; apply andb_false_r.
Qed.

(** Decoding: the accumulated number, as long as it fits the word. *)
Lemma handle_decode_spec case w : forall cs acc x,
  (acc + 1) * 16 ^ N.of_nat (List.length cs) <= 2 ^ w ->
  (handle_decode w case cs acc = Ok x <->
   exists y, hex_denotes case cs y /\ x = acc * 16 ^ N.of_nat (List.length cs) + y).
Proof.
  induction cs as [|c cs IH]; intros acc x Hw; cbn [handle_decode].
  - split.
    + intros H. injection H as <-. exists 0. split; [constructor|]. cbn. lia.
    + intros (y & Hy & ->). inversion Hy; subst. cbn. f_equal. lia.
  - cbn [List.length] in Hw. rewrite Nat2N.inj_succ, N.pow_succ_r in Hw by lia.
    assert (Hpos : 1 <= 16 ^ N.of_nat (List.length cs)).
    { assert (16 ^ N.of_nat (List.length cs) <> 0) by (apply N.pow_nonzero; lia). lia. }
    rewrite N.shiftl_mul_pow2. change (2 ^ 4) with 16.
    rewrite N.mod_small by nia.
    destruct (hex_digit case c) as [d|] eqn:Ed.
    + pose proof (hex_digit_bound _ _ _ Ed) as Hd. rewrite lor_shift by exact Hd.
      rewrite IH by nia.
      split.
      * intros (y & Hy & ->). exists (d * 16 ^ N.of_nat (List.length cs) + y). split.
        -- constructor; [apply hex_digit_iff, Ed|exact Hy].
        -- cbn [List.length]. rewrite Nat2N.inj_succ, N.pow_succ_r by lia. nia.
      * intros (y & Hy & ->). inversion Hy as [|c' d' cs' y' Hc' Hy']; subst.
        apply hex_digit_iff in Hc'. rewrite Ed in Hc'. injection Hc' as <-.
        exists y'. split; [exact Hy'|]. cbn [List.length]. rewrite Nat2N.inj_succ, N.pow_succ_r by lia. nia.
    + split; [discriminate|]. intros (y & Hy & _). inversion Hy as [|c' d' cs' y' Hc' Hy']; subst.
      apply hex_digit_iff in Hc'. congruence.
Qed.

Lemma handle_decode_no_panic case w : forall cs acc, handle_decode w case cs acc <> Panic.
Proof.
  induction cs as [|c cs IH]; intros acc; cbn [handle_decode]; [discriminate|].
  destruct (hex_digit case c); [apply IH|discriminate].
Qed.

Lemma handle_check_decode case w : forall cs acc,
  handle_check case cs = omap (fun _ => tt) (handle_decode w case cs acc).
Proof.
  induction cs as [|c cs IH]; intros acc; cbn [handle_decode handle_check]; [reflexivity|].
  destruct (hex_digit case c); [apply IH|reflexivity].
Qed.

(** The splitting of the [Allow] arm as a recursion on the rest of the text. *)
Fixpoint split_allow (c : N) (sizes : list nat) (v : list N) : outcome hex_err (list N) :=
  match sizes with
  | [] => Err HInvalid
  | [g] => if Nat.eqb (List.length v) g then Ok v else Err HInvalid
  | g :: sizes' =>
      match skipn g v with
      | [] => Panic
      | e :: rest =>
          let? r := split_allow c sizes' (if e =? c then rest else e :: rest) in
          Ok (firstn g v ++ r)
      end
  end.

Ltac explode v n :=
  lazymatch n with
  | O => idtac
  | S ?m => destruct v as [|? v]; [|explode v m]
  end.

Ltac split_ifs :=
  repeat match goal with
  | |- context [if negb (?a =? ?b) then _ else _] => destruct (a =? b); cbn [negb]
  | |- context [if (?a =? ?b) then _ else _] => destruct (a =? b)
  end.

Lemma mac_iter_allow c v : mac_iter (SepAllow c) v =
  if ((12 <=? List.length v) && (List.length v <=? 17))%nat then split_allow c mac_sizes v else Err HInvalid.
Proof.
  unfold mac_iter.
  destruct ((12 <=? List.length v) && (List.length v <=? 17))%nat eqn:El; cbn [negb]; [|reflexivity].
  apply andb_true_iff in El as [E1 E2]. apply Nat.leb_le in E1, E2.
  explode v 18%nat; cbn [List.length] in *; try lia; clear E1 E2.
  all: cbv -[N.eqb].
  all: split_ifs; try reflexivity.
Qed.

Lemma uuid_iter_allow c v : uuid_iter (SepAllow c) v =
  if ((32 <=? List.length v) && (List.length v <=? 36))%nat then split_allow c uuid_sizes v else Err HInvalid.
Proof.
  unfold uuid_iter.
  destruct ((32 <=? List.length v) && (List.length v <=? 36))%nat eqn:El; cbn [negb]; [|reflexivity].
  apply andb_true_iff in El as [E1 E2]. apply Nat.leb_le in E1, E2.
  explode v 37%nat; cbn [List.length] in *; try lia; clear E1 E2.
  all: cbv -[N.eqb].
  all: split_ifs; try reflexivity.
Qed.

(** [split_allow] finds only groupings. *)
Lemma split_allow_sound c : forall sizes v d, split_allow c sizes v = Ok d -> grouped (SepAllow c) sizes v d.
Proof.
  induction sizes as [|g sizes IH]; intros v d H; [discriminate|].
  destruct sizes as [|g' sizes].
  - cbn [split_allow] in H. destruct (Nat.eqb_spec (List.length v) g) as [<-|]; [|discriminate].
    injection H as <-. constructor.
  - cbn [split_allow] in H. fold (split_allow c (g' :: sizes)) in H.
    destruct (skipn g v) as [|e rest] eqn:Es; [discriminate|].
    assert (Hg : List.length (firstn g v) = g).
    { rewrite firstn_length. apply (f_equal (@List.length N)) in Es. rewrite skipn_length in Es.
      cbn [List.length] in Es. lia. }
    assert (Ev : v = firstn g v ++ e :: rest) by (rewrite <- Es; symmetry; apply firstn_skipn).
    change (match sizes with [] => if Nat.eqb (List.length (if e =? c then rest else e :: rest)) g'
              then Ok (if e =? c then rest else e :: rest) else Err HInvalid | _ => _ end)
      with (split_allow c (g' :: sizes) (if e =? c then rest else e :: rest)) in H.
    destruct (split_allow c (g' :: sizes) (if e =? c then rest else e :: rest)) as [r| |] eqn:Er; [|discriminate|discriminate].
    cbn [obind] in H. injection H as <-. apply IH in Er.
    set (gr := firstn g v) in *. clearbody gr. subst v g.
    destruct (N.eqb_spec e c) as [->|].
    + change (gr ++ c :: rest) with (gr ++ [c] ++ rest). constructor; [right; reflexivity|exact Er].
    + change (gr ++ e :: rest) with (gr ++ [] ++ (e :: rest)). constructor; [left; reflexivity|exact Er].
Qed.

Lemma grouped_digits sep sizes v d : grouped sep sizes v d -> List.length d = list_sum sizes.
Proof.
  induction 1 as [g|g s sizes v d Hs H IH]; cbn [list_sum fold_right]; [cbn; lia|].
  rewrite app_length, IH. reflexivity.
Qed.

(** ... and finds every grouping when the separator is not a digit. *)
Lemma split_allow_complete c : forall sizes v d, grouped (SepAllow c) sizes v d ->
  ~ In c d -> (forall g, In g sizes -> g <> 0%nat) -> split_allow c sizes v = Ok d.
Proof.
  intros sizes v d H. induction H as [g|g s sizes v d Hs H IH]; intros Hc Hz.
  - cbn [split_allow]. rewrite Nat.eqb_refl. reflexivity.
  - assert (Hc' : ~ In c d) by (intros X; apply Hc, in_or_app; right; exact X).
    assert (Hz' : forall g, In g sizes -> g <> 0%nat) by (intros g0 X; apply Hz; right; exact X).
    specialize (IH Hc' Hz').
    assert (Hne : sizes <> []) by (intros ->; inversion H).
    assert (Hhead : exists e v', v = e :: v' /\ e <> c).
    { destruct H as [g0|g0 s0 sizes0 v0 d0 Hs0 H0].
      - destruct g0 as [|e g0]; [exfalso; apply (Hz' 0%nat); [left; reflexivity|reflexivity]|].
        exists e, g0. split; [reflexivity|]. intros ->. apply Hc'. left. reflexivity.
      - destruct g0 as [|e g0]; [exfalso; apply (Hz' 0%nat); [left; reflexivity|reflexivity]|].
        exists e, (g0 ++ s0 ++ v0). split; [reflexivity|]. intros ->. apply Hc'. left. reflexivity. }
    destruct Hhead as (e & v' & -> & He).
    destruct sizes as [|g' sizes]; [contradiction|].
    cbn [split_allow]. fold (split_allow c (g' :: sizes)).
    assert (Esk : skipn (List.length g) (g ++ s ++ e :: v') = s ++ e :: v')
      by (rewrite skipn_app, skipn_all, Nat.sub_diag; reflexivity).
    assert (Efs : firstn (List.length g) (g ++ s ++ e :: v') = g)
      by (rewrite firstn_app, firstn_all, Nat.sub_diag; cbn; apply app_nil_r).
    rewrite Esk, Efs. destruct Hs as [-> | ->]; cbn [app].
    + apply N.eqb_neq in He. rewrite He.
      change (match sizes with [] => _ | _ => _ end) with (split_allow c (g' :: sizes) (e :: v')).
      rewrite IH. reflexivity.
    + rewrite N.eqb_refl.
      change (match sizes with [] => _ | _ => _ end) with (split_allow c (g' :: sizes) (e :: v')).
      rewrite IH. reflexivity.
Qed.

(** [split_allow] panics only on texts that are too short for their separators. *)
Lemma split_allow_panic c : forall sizes v, split_allow c sizes v = Panic ->
  (List.length v <= list_sum (removelast sizes) + count_occ N.eq_dec v c)%nat.
Proof.
  induction sizes as [|g sizes IH]; intros v H; [discriminate|].
  destruct sizes as [|g' sizes].
  - cbn [split_allow] in H. destruct (Nat.eqb _ _); discriminate.
  - cbn [split_allow] in H. fold (split_allow c (g' :: sizes)) in H.
    change (removelast (g :: g' :: sizes)) with (g :: removelast (g' :: sizes)).
    cbn [list_sum fold_right]. fold (list_sum (removelast (g' :: sizes))).
    destruct (skipn g v) as [|e rest] eqn:Es.
    + apply (f_equal (@List.length N)) in Es. rewrite skipn_length in Es. cbn in Es. lia.
    + assert (Ev : v = firstn g v ++ e :: rest) by (rewrite <- Es; symmetry; apply firstn_skipn).
      assert (Hg : (List.length (firstn g v) <= g)%nat) by (rewrite firstn_length; lia).
      set (gr := firstn g v) in *. clearbody gr. subst v.
      change (match sizes with [] => _ | _ => _ end)
        with (split_allow c (g' :: sizes) (if e =? c then rest else e :: rest)) in H.
      destruct (split_allow c (g' :: sizes) (if e =? c then rest else e :: rest)) eqn:Er; try discriminate.
      apply IH in Er. rewrite app_length, count_occ_app. cbn [List.length].
      destruct (N.eqb_spec e c) as [->|Hne].
      * rewrite count_occ_cons_eq by reflexivity. lia.
      * rewrite count_occ_cons_neq in * by exact Hne. cbn [List.length] in Er. lia.
Qed.

(** The whole iterator. *)
Lemma grouped_disallow sizes v d : grouped SepDisallow sizes v d -> v = d.
Proof.
  induction 1 as [g|g s sizes v d Hs H IH]; [reflexivity|]. cbn in Hs. subst. reflexivity.
Qed.

Lemma grouped_disallow_intro : forall sizes v, sizes <> [] -> List.length v = list_sum sizes ->
  grouped SepDisallow sizes v v.
Proof.
  induction sizes as [|g sizes IH]; intros v Hne Hl; [contradiction|].
  destruct sizes as [|g' sizes].
  - cbn in Hl. replace g with (List.length v) by lia. constructor.
  - change (list_sum (g :: g' :: sizes)) with (g + list_sum (g' :: sizes))%nat in Hl.
    assert (Hg : List.length (firstn g v) = g) by (rewrite firstn_length; lia).
    pose proof (grouped_cons SepDisallow (firstn g v) [] (g' :: sizes) (skipn g v) (skipn g v) eq_refl) as X.
    rewrite Hg in X. cbn [app] in X. rewrite firstn_skipn in X. apply X. apply IH; [discriminate|].
    rewrite skipn_length. lia.
Qed.

Lemma grouped_cons_inv sep n m sizes v d : grouped sep (n :: m :: sizes) v d ->
  exists g s v' d', List.length g = n /\ sep_form sep s /\ grouped sep (m :: sizes) v' d' /\
    v = g ++ s ++ v' /\ d = g ++ d'.
Proof.
  intros H. inversion H as [|g s sizes' v' d' Hs Hg]; subst. exists g, s, v', d'. repeat split; assumption.
Qed.

Lemma grouped_last_inv sep n v d : grouped sep [n] v d -> List.length v = n /\ d = v.
Proof.
  intros H. inversion H as [g|g s sizes' v' d' Hs Hg]; subst; [split; reflexivity|inversion Hg].
Qed.

Lemma mac_iter_must c v d : mac_iter (SepMust c) v = Ok d <-> grouped (SepMust c) mac_sizes v d.
Proof.
  split.
  - intros H. unfold mac_iter in H.
    destruct (Nat.eqb_spec (List.length v) 17) as [El|]; cbn [negb] in H; [|discriminate].
    explode v 18%nat; try discriminate; clear El.
    cbn [idx nth_error obind slice slice_from Nat.leb List.length andb Nat.sub firstn skipn app] in H.
    repeat match type of H with context [negb (?a =? ?b)] => destruct (N.eqb_spec a b); cbn [negb orb] in H;
      [subst|discriminate] end.
    injection H as <-. unfold mac_sizes.
    repeat match goal with
    | |- grouped _ (2%nat :: _ :: _) (?a :: ?b :: ?s :: ?r) (_ :: _ :: ?d) =>
        apply (grouped_cons (SepMust s) [a; b] [s]); [reflexivity|]
    end.
    apply (grouped_last _ [_; _]).
  - intros H. unfold mac_sizes in H.
    repeat match goal with
    | X : grouped _ (_ :: _ :: _) _ _ |- _ =>
        apply grouped_cons_inv in X as (? & ? & ? & ? & ? & ? & ? & -> & ->)
    | X : grouped _ [_] _ _ |- _ => apply grouped_last_inv in X as [? ->]
    | X : sep_form _ _ |- _ => cbn in X; subst
    end.
    repeat match goal with
    | X : List.length ?g = ?n |- _ => is_var g; explode g (S n); try discriminate X; clear X
    end.
    cbn [app]. unfold mac_iter.
    cbn [idx nth_error obind slice slice_from Nat.leb List.length andb Nat.sub firstn skipn app Nat.eqb negb].
    rewrite !N.eqb_refl. reflexivity.
Qed.

Lemma uuid_iter_must c v d : uuid_iter (SepMust c) v = Ok d <-> grouped (SepMust c) uuid_sizes v d.
Proof.
  split.
  - intros H. unfold uuid_iter in H.
    destruct (Nat.eqb_spec (List.length v) 36) as [El|]; cbn [negb] in H; [|discriminate].
    explode v 37%nat; try discriminate; clear El.
    cbn [idx nth_error obind slice slice_from Nat.leb List.length andb Nat.sub firstn skipn app] in H.
    repeat match type of H with context [negb (?a =? ?b)] => destruct (N.eqb_spec a b); cbn [negb orb] in H;
      [subst|discriminate] end.
    injection H as <-. unfold uuid_sizes.
    apply (grouped_cons (SepMust c) [_; _; _; _; _; _; _; _] [c]); [reflexivity|].
    apply (grouped_cons (SepMust c) [_; _; _; _] [c]); [reflexivity|].
    apply (grouped_cons (SepMust c) [_; _; _; _] [c]); [reflexivity|].
    apply (grouped_cons (SepMust c) [_; _; _; _] [c]); [reflexivity|].
    apply (grouped_last _ [_; _; _; _; _; _; _; _; _; _; _; _]).
  - intros H. unfold uuid_sizes in H.
    repeat match goal with
    | X : grouped _ (_ :: _ :: _) _ _ |- _ =>
        apply grouped_cons_inv in X as (? & ? & ? & ? & ? & ? & ? & -> & ->)
    | X : grouped _ [_] _ _ |- _ => apply grouped_last_inv in X as [? ->]
    | X : sep_form _ _ |- _ => cbn in X; subst
    end.
    repeat match goal with
    | X : List.length ?g = ?n |- _ => is_var g; explode g (S n); try discriminate X; clear X
    end.
    cbn [app]. unfold uuid_iter.
    cbn [idx nth_error obind slice slice_from Nat.leb List.length andb Nat.sub firstn skipn app Nat.eqb negb].
    rewrite !N.eqb_refl. reflexivity.
Qed.

Lemma grouped_allow_length c sizes v d : grouped (SepAllow c) sizes v d ->
  (list_sum sizes <= List.length v <= list_sum sizes + (List.length sizes - 1))%nat.
Proof.
  induction 1 as [g|g s sizes v d Hs H IH]; [cbn; lia|].
  assert (sizes <> []) by (intros ->; inversion H).
  change (list_sum (List.length g :: sizes)) with (List.length g + list_sum sizes)%nat.
  rewrite !app_length. destruct sizes; [contradiction|]. cbn [List.length] in *.
  destruct Hs as [-> | ->]; cbn [List.length]; lia.
Qed.

(** The two iterators against the grouping relation. *)
Definition iter_of (mac : bool) := if mac then mac_iter else uuid_iter.
Definition sizes_of (mac : bool) := if mac then mac_sizes else uuid_sizes.

Lemma iter_allow mac c v : iter_of mac (SepAllow c) v =
  if ((list_sum (sizes_of mac) <=? List.length v) &&
      (List.length v <=? list_sum (sizes_of mac) + (List.length (sizes_of mac) - 1)))%nat
  then split_allow c (sizes_of mac) v else Err HInvalid.
Proof. destruct mac; [apply mac_iter_allow|apply uuid_iter_allow]. Qed.

Lemma iter_disallow mac v : iter_of mac SepDisallow v =
  if Nat.eqb (List.length v) (list_sum (sizes_of mac)) then Ok v else Err HSeparatorDisallow.
Proof. destruct mac; cbn; destruct (Nat.eqb _ _); reflexivity. Qed.

Lemma iter_must mac c v d : iter_of mac (SepMust c) v = Ok d <-> grouped (SepMust c) (sizes_of mac) v d.
Proof. destruct mac; [apply mac_iter_must|apply uuid_iter_must]. Qed.

Lemma iter_sound mac sep v d : iter_of mac sep v = Ok d -> grouped sep (sizes_of mac) v d.
Proof.
  destruct sep as [c|c|].
  - apply iter_must.
  - rewrite iter_allow. destruct (_ && _)%bool; [apply split_allow_sound|discriminate].
  - rewrite iter_disallow. destruct (Nat.eqb_spec (List.length v) (list_sum (sizes_of mac))); [|discriminate].
    intros H. injection H as <-. apply grouped_disallow_intro; [destruct mac; discriminate|assumption].
Qed.

Lemma iter_complete mac sep v d : grouped sep (sizes_of mac) v d ->
  (forall c, sep = SepAllow c -> ~ In c d) -> iter_of mac sep v = Ok d.
Proof.
  intros H Hc. destruct sep as [c|c|].
  - apply iter_must, H.
  - rewrite iter_allow. pose proof (grouped_allow_length _ _ _ _ H) as [L1 L2].
    apply Nat.leb_le in L1, L2. rewrite L1, L2. cbn [andb].
    apply split_allow_complete; [exact H|apply Hc; reflexivity|].
    destruct mac; cbn; intros g Hg; lia.
  - rewrite iter_disallow. pose proof (grouped_digits _ _ _ _ H) as L.
    apply grouped_disallow in H as ->. rewrite L, Nat.eqb_refl. reflexivity.
Qed.

Lemma iter_must_no_panic mac c v : iter_of mac (SepMust c) v <> Panic.
Proof.
  destruct mac; cbn [iter_of].
  - unfold mac_iter. destruct (Nat.eqb_spec (List.length v) 17) as [El|]; cbn [negb]; [|discriminate].
    explode v 18%nat; try discriminate. clear El.
    cbn [idx nth_error obind slice slice_from Nat.leb List.length andb Nat.sub firstn skipn app].
    destruct (_ || _)%bool; discriminate.
  - unfold uuid_iter. destruct (Nat.eqb_spec (List.length v) 36) as [El|]; cbn [negb]; [|discriminate].
    explode v 37%nat; try discriminate. clear El.
    cbn [idx nth_error obind slice slice_from Nat.leb List.length andb Nat.sub firstn skipn app].
    destruct (_ || _)%bool; discriminate.
Qed.

Lemma iter_panic mac sep v : iter_of mac sep v = Panic ->
  exists c, sep = SepAllow c /\ (list_sum (sizes_of mac) <= List.length v)%nat /\
    split_allow c (sizes_of mac) v = Panic.
Proof.
  destruct sep as [c|c|]; intros H.
  - exfalso. exact (iter_must_no_panic mac c v H).
  - exists c. split; [reflexivity|]. rewrite iter_allow in H.
    destruct (Nat.leb_spec (list_sum (sizes_of mac)) (List.length v)); [|discriminate].
    split; [assumption|]. destruct (_ && _)%bool; [exact H|discriminate].
  - rewrite iter_disallow in H. destruct (Nat.eqb _ _); discriminate.
Qed.

(** Parsing. *)
Definition parse_of (mac : bool) := if mac then mac_parse_str else uuid_parse_str.
Definition validate_of (mac : bool) := if mac then mac_validate_str else uuid_validate_str.

Definition width_of (mac : bool) : N := if mac then 64 else 128.

Lemma obind_ok_id {E A} (x : outcome E A) : (let? y := x in Ok y) = x.
Proof. destruct x; reflexivity. Qed.

Lemma parse_of_unfold mac case sep v : parse_of mac case sep v =
  (let? iter := iter_of mac sep v in handle_decode (width_of mac) case iter 0).
Proof. destruct mac; apply obind_ok_id. Qed.

Lemma decode_fits mac sep v d : grouped sep (sizes_of mac) v d ->
  (0 + 1) * 16 ^ N.of_nat (List.length d) <= 2 ^ width_of mac.
Proof. intros H. rewrite (grouped_digits _ _ _ _ H). destruct mac; vm_compute; discriminate. Qed.

Lemma parse_sound mac case sep v x : parse_of mac case sep v = Ok x ->
  exists digits, grouped sep (sizes_of mac) v digits /\ hex_denotes case digits x.
Proof.
  rewrite parse_of_unfold. destruct (iter_of mac sep v) as [d| |] eqn:Ei; cbn [obind]; try discriminate.
  apply iter_sound in Ei. intros H.
  apply (handle_decode_spec case (width_of mac) d 0 x (decode_fits _ _ _ _ Ei)) in H as (y & Hy & ->).
  exists d. split; [exact Ei|]. rewrite N.mul_0_l, N.add_0_l. exact Hy.
Qed.

Lemma hex_denotes_in case cs x : hex_denotes case cs x -> forall c, In c cs -> exists d, is_hex case c d.
Proof.
  induction 1 as [|c d cs x Hc H IH]; intros c' Hi; [destruct Hi|].
  destruct Hi as [<-|Hi]; [exists d; exact Hc|apply IH, Hi].
Qed.

Lemma parse_complete mac case sep v digits x : sep_not_digit case sep ->
  grouped sep (sizes_of mac) v digits -> hex_denotes case digits x -> parse_of mac case sep v = Ok x.
Proof.
  intros Hs Hg Hd. rewrite parse_of_unfold, (iter_complete mac sep v digits Hg); cbn [obind].
  - apply handle_decode_spec; [exact (decode_fits _ _ _ _ Hg)|].
    exists x. split; [exact Hd|lia].
  - intros c -> Hi. destruct (hex_denotes_in _ _ _ Hd c Hi) as [d Hd']. exact (Hs c d eq_refl Hd').
Qed.

Lemma parse_exact mac case sep v x : sep_not_digit case sep ->
  (parse_of mac case sep v = Ok x <->
   exists digits, grouped sep (sizes_of mac) v digits /\ hex_denotes case digits x).
Proof.
  intros Hs. split; [apply parse_sound|]. intros (d & Hg & Hd). exact (parse_complete _ _ _ _ _ _ Hs Hg Hd).
Qed.

Lemma parse_bound mac case sep v x : parse_of mac case sep v = Ok x ->
  x < 16 ^ N.of_nat (list_sum (sizes_of mac)).
Proof.
  intros H. apply parse_sound in H as (d & Hg & Hd). rewrite <- (grouped_digits _ _ _ _ Hg).
  exact (hex_denotes_bound _ _ _ Hd).
Qed.

Lemma validate_parse mac case sep v :
  validate_of mac case sep v = omap (fun _ => tt) (parse_of mac case sep v).
Proof.
  destruct mac; cbn [validate_of parse_of].
  - unfold mac_validate_str, mac_v_validate_str, mac_parse_str, mac_v_parse_str.
    destruct (mac_iter sep v) as [d| |]; cbn [obind omap]; [|reflexivity|reflexivity].
    rewrite (handle_check_decode case 64 d 0). destruct (handle_decode 64 case d 0); reflexivity.
  - unfold uuid_validate_str, uuid_v_validate_str, uuid_parse_str, uuid_v_parse_str.
    destruct (uuid_iter sep v) as [d| |]; cbn [obind omap]; [|reflexivity|reflexivity].
    rewrite (handle_check_decode case 128 d 0). destruct (handle_decode 128 case d 0); reflexivity.
Qed.

Lemma parse_panic mac case sep v : parse_of mac case sep v = Panic ->
  exists c, sep = SepAllow c /\ (list_sum (sizes_of mac) <= List.length v)%nat /\ (List.length v <= list_sum (removelast (sizes_of mac)) + count_occ N.eq_dec v c)%nat /\
    split_allow c (sizes_of mac) v = Panic.
Proof.
  rewrite parse_of_unfold. destruct (iter_of mac sep v) as [d| |] eqn:Ei; cbn [obind]; try discriminate.
  - intros H. exfalso. exact (handle_decode_no_panic _ _ _ _ H).
  - intros _. apply iter_panic in Ei as (c & -> & Hl & Hp). exists c. repeat split; try assumption.
    exact (split_allow_panic c _ v Hp).
Qed.

(** [split_allow] looks at no more than one separator per boundary. *)
Lemma split_allow_panic_short c : forall sizes v, split_allow c sizes v = Panic ->
  (List.length v <= list_sum (removelast sizes) + (List.length sizes - 2))%nat.
Proof.
  induction sizes as [|g sizes IH]; intros v H; [discriminate|].
  destruct sizes as [|g' sizes].
  - cbn [split_allow] in H. destruct (Nat.eqb _ _); discriminate.
  - cbn [split_allow] in H. fold (split_allow c (g' :: sizes)) in H.
    change (removelast (g :: g' :: sizes)) with (g :: removelast (g' :: sizes)).
    cbn [list_sum fold_right]. fold (list_sum (removelast (g' :: sizes))).
    destruct (skipn g v) as [|e rest] eqn:Es.
    + apply (f_equal (@List.length N)) in Es. rewrite skipn_length in Es. cbn in Es. lia.
    + assert (Ev : v = firstn g v ++ e :: rest) by (rewrite <- Es; symmetry; apply firstn_skipn).
      assert (Hg : (List.length (firstn g v) <= g)%nat) by (rewrite firstn_length; lia).
      set (gr := firstn g v) in *. clearbody gr. subst v.
      change (match sizes with [] => _ | _ => _ end)
        with (split_allow c (g' :: sizes) (if e =? c then rest else e :: rest)) in H.
      destruct (split_allow c (g' :: sizes) (if e =? c then rest else e :: rest)) eqn:Er; try discriminate.
      pose proof (IH _ Er) as Hr. rewrite app_length. cbn [List.length] in *.
      destruct sizes as [|g'' sizes].
      * cbn [split_allow] in Er. destruct (Nat.eqb _ _); discriminate.
      * cbn [List.length] in *. destruct (e =? c); cbn [List.length] in Hr; lia.
Qed.

Lemma uuid_no_panic case sep v : parse_of false case sep v <> Panic.
Proof.
  intros H. apply parse_panic in H as (c & _ & L1 & _ & Hp). apply split_allow_panic_short in Hp.
  cbn in L1, Hp. lia.
Qed.

(** Formatting. *)
Definition alphabet_of (upper : bool) : case_option := if upper then UpperCase else LowerCase.

Lemma hex_char_digit upper d : d < 16 -> hex_digit (alphabet_of upper) (hex_char upper d) = Some d.
Proof.
  intros Hd. unfold hex_char, hex_digit. destruct upper; cbn [alphabet_of];
  destruct (N.ltb_spec d 10);
  repeat match goal with |- context [if ?b then _ else _] => destruct b eqn:? end; try (f_equal; lia); lia.
Qed.

Lemma hex_denotes_snoc case cs x c d : hex_denotes case cs x -> is_hex case c d ->
  hex_denotes case (cs ++ [c]) (x * 16 + d).
Proof.
  intros H Hc. induction H as [|c' d' cs x Hc' H IH].
  - cbn [app]. replace (0 * 16 + d) with (d * 16 ^ N.of_nat (@List.length N []) + 0) by (cbn; lia).
    constructor; [exact Hc|constructor].
  - cbn [app].
    replace ((d' * 16 ^ N.of_nat (List.length cs) + x) * 16 + d)
      with (d' * 16 ^ N.of_nat (List.length (cs ++ [c])) + (x * 16 + d)).
    + constructor; assumption.
    + rewrite app_length. cbn [List.length]. rewrite Nat2N.inj_add, N.pow_add_r.
      change (16 ^ N.of_nat 1) with 16. lia.
Qed.

Lemma hex_loop_denotes upper : forall fuel x, x < 16 ^ N.of_nat fuel ->
  hex_denotes (alphabet_of upper) (hex_loop fuel upper x) x.
Proof.
  induction fuel as [|fuel IH]; intros x Hx.
  - cbn in Hx. replace x with 0 by lia. constructor.
  - cbn [hex_loop]. pose proof (N.div_mod x 16 ltac:(lia)) as Dm.
    pose proof (N.mod_lt x 16 ltac:(lia)) as Hm.
    assert (Hc : is_hex (alphabet_of upper) (hex_char upper (x mod 16)) (x mod 16))
      by (apply hex_digit_iff, hex_char_digit, Hm).
    rewrite Nat2N.inj_succ, N.pow_succ_r in Hx by lia.
    destruct (N.eqb_spec (x / 16) 0) as [E|E].
    + rewrite Dm at 2. rewrite E. replace (16 * 0 + x mod 16) with (0 * 16 + x mod 16) by lia.
      apply (hex_denotes_snoc _ [] 0); [constructor|exact Hc].
    + rewrite Dm at 3. rewrite (N.mul_comm 16). apply hex_denotes_snoc; [|exact Hc].
      apply IH. apply N.div_lt_upper_bound; lia.
Qed.

Lemma hex_loop_length upper : forall fuel w x, x < 16 ^ N.of_nat w -> (0 < w)%nat ->
  (List.length (hex_loop fuel upper x) <= w)%nat.
Proof.
  induction fuel as [|fuel IH]; intros w x Hx Hw; [cbn; lia|].
  cbn [hex_loop]. destruct (N.eqb_spec (x / 16) 0) as [E|E]; [cbn; lia|].
  rewrite app_length. cbn [List.length]. destruct w as [|w]; [lia|].
  rewrite Nat2N.inj_succ, N.pow_succ_r in Hx by lia.
  assert (Hd : x / 16 < 16 ^ N.of_nat w) by (apply N.div_lt_upper_bound; lia).
  assert (w <> 0%nat) by (intros ->; cbn in Hd; lia).
  specialize (IH w (x / 16) Hd). lia.
Qed.

Lemma hex_denotes_zeros upper k cs x : hex_denotes (alphabet_of upper) cs x ->
  hex_denotes (alphabet_of upper) (repeat 48 k ++ cs) x.
Proof.
  intros H. induction k as [|k IH]; [exact H|]. cbn [repeat app].
  replace x with (0 * 16 ^ N.of_nat (List.length (repeat 48 k ++ cs)) + x) by lia.
  constructor; [|exact IH]. apply hex_digit_iff. destruct upper; reflexivity.
Qed.

Lemma hex_fmt_spec w upper x : x < 16 ^ N.of_nat w -> (0 < w <= 32)%nat ->
  hex_denotes (alphabet_of upper) (hex_fmt w upper x) x /\ List.length (hex_fmt w upper x) = w.
Proof.
  intros Hx Hw. unfold hex_fmt. split.
  - apply hex_denotes_zeros, hex_loop_denotes.
    eapply N.lt_le_trans; [exact Hx|]. apply N.pow_le_mono_r; lia.
  - rewrite app_length, repeat_length. pose proof (hex_loop_length upper 32 w x Hx ltac:(lia)). lia.
Qed.

Lemma is_hex_weaken case c d : is_hex (alphabet_of (case_upper case)) c d -> is_hex case c d.
Proof.
  intros (a & Ha & Hn). destruct case; cbn in *; exists a; split; try assumption.
  destruct Ha as [<-|[]]. left. reflexivity.
Qed.

Lemma hex_denotes_weaken case cs x : hex_denotes (alphabet_of (case_upper case)) cs x -> hex_denotes case cs x.
Proof. induction 1; constructor; [apply is_hex_weaken|]; assumption. Qed.

Definition show_of (mac : bool) := if mac then to_mac_address_string else to_uuid_string.

Lemma show_disallow mac case x : show_of mac case SepDisallow x =
  hex_fmt (list_sum (sizes_of mac)) (case_upper case) x.
Proof. destruct mac; reflexivity. Qed.

Lemma roundtrip_disallow mac case x : x < 16 ^ N.of_nat (list_sum (sizes_of mac)) ->
  parse_of mac case SepDisallow (show_of mac case SepDisallow x) = Ok x.
Proof.
  intros Hx. rewrite show_disallow.
  destruct (hex_fmt_spec (list_sum (sizes_of mac)) (case_upper case) x Hx) as [Hd Hl];
    [destruct mac; cbn; lia|].
  eapply parse_complete.
  - intros c d X. discriminate X.
  - apply grouped_disallow_intro; [destruct mac; discriminate|exact Hl].
  - apply hex_denotes_weaken, Hd.
Qed.

(** With a separator the printed text is never accepted back. *)
Lemma le_byte_bound x i : le_byte x i < 256.
Proof. apply N.mod_lt. discriminate. Qed.

Lemma dec_byte c : c < 256 ->
  (1 <= List.length (dec_of_N c) <= 3)%nat /\ (List.length (dec_of_N c) = 1%nat -> c < 10) /\
  Forall (fun b => 48 <= b) (dec_of_N c).
Proof.
  intros Hc.
  assert (Hall : forallb (fun n => let s := dec_of_N (N.of_nat n) in
     ((1 <=? List.length s) && (List.length s <=? 3))%nat &&
     (negb (Nat.eqb (List.length s) 1) || (N.of_nat n <? 10)) && forallb (fun b => 48 <=? b) s) (seq 0 256) = true)
    by (vm_compute; reflexivity).
  rewrite forallb_forall in Hall. specialize (Hall (N.to_nat c)).
  rewrite N2Nat.id in Hall. cbn zeta in Hall.
  assert (Hin : In (N.to_nat c) (seq 0 256)) by (apply in_seq; lia).
  specialize (Hall Hin). apply andb_true_iff in Hall as [H12 H3]. apply andb_true_iff in H12 as [H1 H2].
  apply andb_true_iff in H1 as [H0 H1].
  split; [split; apply Nat.leb_le; assumption|]. split.
  - intros E. rewrite E in H2. cbn [Nat.eqb negb orb] in H2. apply N.ltb_lt, H2.
  - rewrite forallb_forall in H3. apply Forall_forall. intros b Hb. apply N.leb_le, H3, Hb.
Qed.

Lemma hex_fmt_chars upper x : x < 256 -> List.length (hex_fmt 2 upper x) = 2%nat /\ Forall (fun b => 48 <= b) (hex_fmt 2 upper x).
Proof.
  intros Hx. destruct (hex_fmt_spec 2 upper x Hx ltac:(lia)) as [Hd Hl]. split; [exact Hl|].
  apply Forall_forall. intros c Hc. destruct (hex_denotes_in _ _ _ Hd c Hc) as [d Hh].
  apply hex_digit_iff in Hh. unfold hex_digit in Hh.
  destruct upper; cbn [alphabet_of] in Hh;
  repeat match type of Hh with context [if ?b then _ else _] => destruct b eqn:? end; try discriminate; lia.
Qed.

Lemma show_sep_shape mac case sep c x : sep_allow sep = Some c -> c < 256 ->
  List.length (show_of mac case sep x) =
    (list_sum (sizes_of mac) + (List.length (sizes_of mac) - 1) * List.length (dec_of_N c))%nat /\ Forall (fun b => 48 <= b) (show_of mac case sep x).
Proof.
  intros Hs Hc. destruct (dec_byte c Hc) as (_ & _ & Hd).
  assert (Hb : forall i, List.length (hex_fmt 2 (case_upper case) (le_byte x i)) = 2%nat /\                      Forall (fun b => 48 <= b) (hex_fmt 2 (case_upper case) (le_byte x i)))
    by (intros i; apply hex_fmt_chars, le_byte_bound).
  split.
  - destruct mac; cbn [show_of]; [unfold to_mac_address_string|unfold to_uuid_string]; rewrite Hs;
    rewrite !app_length, !(fun i => proj1 (Hb i)); cbn [sizes_of]; cbn; lia.
  - destruct mac; cbn [show_of]; [unfold to_mac_address_string|unfold to_uuid_string]; rewrite Hs;
    repeat (first [exact Hd | apply Hb | apply Forall_app; split]).
Qed.

Lemma grouped_no_sep c sizes v d : grouped (SepAllow c) sizes v d \/ grouped (SepMust c) sizes v d -> ~ In c v -> v = d.
Proof.
  intros [H|H]; induction H as [g|g s sizes v d Hs H IH]; intros Hc; try reflexivity.
  - assert (Hv : ~ In c v) by (intros X; apply Hc, in_or_app; right; apply in_or_app; right; exact X).
    rewrite (IH Hv). destruct Hs as [-> | ->]; [reflexivity|].
    exfalso. apply Hc, in_or_app. right. left. reflexivity.
  - cbn in Hs. subst s. exfalso. apply Hc, in_or_app. right. left. reflexivity.
Qed.

Lemma roundtrip_sep_fails mac case sep c x : sep_allow sep = Some c -> c < 256 ->
  exists e, parse_of mac case sep (show_of mac case sep x) = Err e.
Proof.
  intros Hs Hc. destruct (show_sep_shape mac case sep c x Hs Hc) as [Hl Hf].
  destruct (dec_byte c Hc) as (Hk & Hk1 & _).
  set (v := show_of mac case sep x) in *. clearbody v.
  assert (Hn : List.length v = (list_sum (sizes_of mac) + (List.length (sizes_of mac) - 1))%nat -> ~ In c v).
  { intros E Hi. rewrite Forall_forall in Hf. specialize (Hf c Hi).
    assert (c < 10); [|lia]. apply Hk1. destruct mac; cbn in *; lia. }
  destruct (parse_of mac case sep v) as [y|e|] eqn:Ep; [|exists e; reflexivity|].
  - exfalso. apply parse_sound in Ep as (d & Hg & _).
    assert (Hor : grouped (SepAllow c) (sizes_of mac) v d \/ grouped (SepMust c) (sizes_of mac) v d).
    { destruct sep; cbn in Hs; try discriminate; injection Hs as ->; tauto. }
    assert (Hlen : (List.length v <= list_sum (sizes_of mac) + (List.length (sizes_of mac) - 1))%nat).
    { destruct Hor as [Ha|Ha]; [exact (proj2 (grouped_allow_length _ _ _ _ Ha))|].
      assert (X : grouped (SepAllow c) (sizes_of mac) v d).
      { clear -Ha. induction Ha as [g|g s sizes v d Hs H IH]; constructor; [right; exact Hs|exact IH]. }
      exact (proj2 (grouped_allow_length _ _ _ _ X)). }
    assert (E : List.length v = (list_sum (sizes_of mac) + (List.length (sizes_of mac) - 1))%nat)
      by (destruct mac; cbn in *; lia).
    pose proof (grouped_no_sep c _ _ _ Hor (Hn E)) as <-.
    pose proof (grouped_digits _ _ _ _ Hg) as L. destruct mac; cbn in L, E; lia.
  - exfalso. apply parse_panic in Ep as (c' & -> & _ & _ & Hp).
    apply split_allow_panic_short in Hp. rewrite Hl in Hp. clear Hn Hl Hk1.
    generalize dependent (List.length (dec_of_N c)). intros k Hk Hp.
    destruct mac; cbn [sizes_of removelast list_sum fold_right List.length mac_sizes uuid_sizes Nat.sub Nat.add] in Hp; lia.
Qed.
