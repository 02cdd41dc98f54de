(** Proofs about the base32/base64 scanners. *)
From Verif Require Import Base BaseModel BaseSpec.
Local Open Scope N_scope.

Lemma in_alphabet_iff f c : in_alphabet f c = true <-> In c (alphabet f).
Proof.
  split.
  - intros H.
    assert (Hc : c < 128) by (destruct f; unfold in_alphabet in H; lia).
    assert (Hall : forallb (fun n => implb (in_alphabet f (N.of_nat n))
                     (existsb (N.eqb (N.of_nat n)) (alphabet f))) (seq 0 128) = true)
      by (destruct f; vm_compute; reflexivity).
    rewrite forallb_forall in Hall.
    specialize (Hall (N.to_nat c)). rewrite N2Nat.id in Hall.
    rewrite H in Hall. cbn [implb] in Hall.
    assert (Hin : In (N.to_nat c) (seq 0 128)) by (apply in_seq; lia).
    specialize (Hall Hin). apply existsb_exists in Hall.
    destruct Hall as (x & Hx & He). apply N.eqb_eq in He. subst. exact Hx.
  - intros H.
    assert (Hall : forallb (in_alphabet f) (alphabet f) = true) by (destruct f; vm_compute; reflexivity).
    rewrite forallb_forall in Hall. auto.
Qed.

Lemma in_alphabet_ascii f c : in_alphabet f c = true -> c < 128 /\ c <> 61.
Proof. destruct f; unfold in_alphabet; lia. Qed.

Lemma Forall_alphabet f l : Forall (fun c => In c (alphabet f)) l <-> forallb (in_alphabet f) l = true.
Proof.
  rewrite forallb_forall, Forall_forall. split; intros H x Hx; apply in_alphabet_iff; auto.
Qed.

Lemma land_mask f n : Nat.land n (block_mask f) = (n mod block f)%nat.
Proof.
  destruct f; cbn [block block_mask].
  - change 7%nat with (Nat.ones 3). rewrite Nat.land_ones. reflexivity.
  - change 3%nat with (Nat.ones 2). rewrite Nat.land_ones. reflexivity.
  - change 3%nat with (Nat.ones 2). rewrite Nat.land_ones. reflexivity.
Qed.

(** The loop on a block of the given length, as a function of the suffix not yet scanned. *)
Fixpoint tail_scan (f : flavour) (padding : tri) (ll p : nat) (l : list N) : outcome base_err unit :=
  match l with
  | [] => Ok tt
  | e :: r =>
      if in_alphabet f e then tail_scan f padding ll (S p) r
      else if e =? 61 then
        if is_disallow padding then Err BPaddingDisallow
        else if pad_pos f p then
          if negb (Nat.eqb ll (block f)) then Err BInvalid
          else if forallb (fun e => e =? 61) r then Ok tt else Err BInvalid
        else Err BInvalid
      else Err BInvalid
  end.

Lemma base_loop_tail f padding ll lb : forall rem p, (p + rem = List.length lb)%nat ->
  base_loop f padding ll lb p rem = tail_scan f padding ll p (skipn p lb).
Proof.
  induction rem as [|rem IH]; intros p Hp; cbn [base_loop].
  - rewrite skipn_all2 by lia. reflexivity.
  - unfold idx.
    destruct (nth_error lb p) as [e|] eqn:En.
    2:{ apply nth_error_None in En. lia. }
    assert (Hs : skipn p lb = e :: skipn (S p) lb).
    { clear -En. revert lb En. induction p as [|p IHp]; intros [|x lb] En; cbn in *; try discriminate.
      - injection En as ->. reflexivity.
      - apply IHp in En. exact En. }
    rewrite Hs. cbn [obind tail_scan].
    destruct (in_alphabet f e).
    + rewrite Nat.add_1_r. apply IH. lia.
    + destruct (e =? 61); [|reflexivity].
      unfold handle_padding, slice_from.
      destruct (is_disallow padding); [reflexivity|].
      destruct (pad_pos f p); [|reflexivity].
      destruct (negb _); [reflexivity|].
      replace (p + 1 <=? List.length lb)%nat with true by (symmetry; apply Nat.leb_le; lia).
      cbn [obind]. rewrite Nat.add_1_r. reflexivity.
Qed.

Definition last_len (f : flavour) (n : nat) : nat :=
  if Nat.eqb (n mod block f) 0 then block f else (n mod block f)%nat.

Lemma last_len_facts f n : n <> 0%nat ->
  (1 <= last_len f n <= block f)%nat /\ (last_len f n <= n)%nat /\
  Nat.divide (block f) (n - last_len f n) /\
  (last_len f n = block f <-> Nat.divide (block f) n) /\
  ((n <= block f)%nat -> last_len f n = n).
Proof.
  intros Hn. unfold last_len.
  assert (Hb : block f <> 0%nat) by (destruct f; discriminate).
  pose proof (Nat.mod_upper_bound n (block f) Hb) as Hu.
  pose proof (Nat.div_mod n (block f) Hb) as Hd.
  destruct (Nat.eqb_spec (n mod block f) 0) as [E|E].
  - rewrite E in Hd.
    assert (Hq : (n / block f <> 0)%nat) by (intros X; rewrite X in Hd; lia).
    assert (Hle : (block f <= n)%nat) by nia.
    repeat split; try lia.
    + exists (n / block f - 1)%nat. nia.
    + intros _. exists (n / block f)%nat. nia.
  - repeat split; try lia.
    + apply Nat.mod_le; assumption.
    + exists (n / block f)%nat. rewrite Hd at 1. rewrite Nat.add_sub. apply Nat.mul_comm.
    + intros X. apply Nat.mod_divide in X; lia.
    + intros X. destruct (Nat.eq_dec n (block f)) as [->|X'].
      * rewrite Nat.mod_same in E by assumption. lia.
      * apply Nat.mod_small. lia.
Qed.

(** The scanner written over the two parts of the input. *)
Lemma scanner_eq f padding v : v <> [] ->
  let n := List.length v in let ll := last_len f n in
  base_v_parse_u8_slice f padding v =
  if is_must padding && negb (Nat.eqb ll (block f)) then Err BPaddingMust
  else if forallb (in_alphabet f) (firstn (n - ll) v)
       then tail_scan f padding ll 0 (skipn (n - ll) v) else Err BInvalid.
Proof.
  intros Hv n ll. unfold base_v_parse_u8_slice. fold n.
  assert (Hn : n <> 0%nat) by (unfold n; destruct v; cbn; congruence).
  destruct (Nat.eqb_spec n 0) as [E|_]; [contradiction|].
  rewrite land_mask. fold (last_len f n). fold ll.
  destruct (last_len_facts f n Hn) as (H1 & H2 & H3 & H4 & H5). fold ll in H1, H2, H3, H4, H5.
  destruct (is_must padding && negb (Nat.eqb ll (block f))); [reflexivity|].
  destruct (Nat.ltb_spec (block f) n) as [Hlt|Hge].
  - destruct (forallb (in_alphabet f) (firstn (n - ll) v)); [|reflexivity].
    unfold slice_from. fold n.
    replace (n - ll <=? n)%nat with true by (symmetry; apply Nat.leb_le; lia).
    cbn [obind]. rewrite base_loop_tail; [reflexivity|].
    rewrite skipn_length. fold n. lia.
  - rewrite (H5 Hge), Nat.sub_diag. cbn [firstn forallb skipn obind].
    rewrite base_loop_tail; [reflexivity|]. fold n. lia.
Qed.

Lemma tail_scan_no_panic f padding ll : forall l p, tail_scan f padding ll p l <> Panic.
Proof.
  induction l as [|e r IH]; intros p; cbn [tail_scan]; [discriminate|].
  destruct (in_alphabet f e); [apply IH|].
  destruct (e =? 61); [|discriminate].
  destruct (is_disallow padding); [discriminate|].
  destruct (pad_pos f p); [|discriminate].
  destruct (negb _); [discriminate|].
  destruct (forallb _ r); discriminate.
Qed.

Lemma scanner_no_panic f padding v : base_v_parse_u8_slice f padding v <> Panic.
Proof.
  destruct v as [|x v]; [discriminate|].
  rewrite scanner_eq by discriminate.
  destruct (_ && _); [discriminate|].
  destruct (forallb _ _); [|discriminate].
  apply tail_scan_no_panic.
Qed.

Lemma forallb_eq61 r : forallb (fun e => e =? 61) r = true -> r = repeat 61 (List.length r).
Proof.
  induction r as [|x r IH]; cbn; [reflexivity|].
  intros H. apply andb_true_iff in H as [Hx Hr]. apply N.eqb_eq in Hx. subst. f_equal. auto.
Qed.

Lemma forallb_repeat61 k : forallb (fun e => e =? 61) (repeat 61 k) = true.
Proof. induction k; cbn; auto. Qed.

(** Acceptance of the tail. *)
Lemma tail_scan_ok f padding ll : forall l p,
  tail_scan f padding ll p l = Ok tt <->
  exists body k, l = body ++ repeat 61 k /\ forallb (in_alphabet f) body = true /\
    (k <> 0%nat -> pad_pos f (p + List.length body) = true /\ ll = block f /\ padding <> Disallow).
Proof.
  induction l as [|e r IH]; intros p; cbn [tail_scan].
  - split; [|reflexivity]. intros _. exists [], 0%nat. cbn. repeat split; contradiction.
  - destruct (in_alphabet f e) eqn:Ee.
    + rewrite IH. split.
      * intros (b & k & -> & Hb & Hk). exists (e :: b), k. cbn [app forallb List.length].
        rewrite Ee. split; [reflexivity|]. split; [exact Hb|].
        intros Hk0. rewrite Nat.add_succ_r. exact (Hk Hk0).
      * intros (b & k & Hl & Hb & Hk). destruct b as [|x b].
        -- destruct k; cbn in Hl; [discriminate|]. injection Hl as -> _.
           destruct (in_alphabet_ascii _ _ Ee). congruence.
        -- cbn in Hl. injection Hl as -> ->. cbn in Hb. rewrite Ee in Hb. cbn in Hb.
           exists b, k. split; [reflexivity|]. split; [exact Hb|].
           intros Hk0. specialize (Hk Hk0).
           cbn [List.length] in Hk; rewrite Nat.add_succ_r in Hk. exact Hk.
    + destruct (N.eqb_spec e 61) as [->|Hne].
      * split.
        -- destruct padding; cbn [is_disallow]; try discriminate.
           all: destruct (pad_pos f p) eqn:Ep; [|discriminate].
           all: destruct (Nat.eqb_spec ll (block f)) as [El|]; cbn [negb]; [|discriminate].
           all: destruct (forallb _ r) eqn:Er; [|discriminate].
           all: intros _; exists [], (S (List.length r)); cbn [app repeat forallb List.length].
           all: rewrite <- (forallb_eq61 r Er), Nat.add_0_r; repeat split; auto; discriminate.
        -- intros (b & k & Hl & Hb & Hk). destruct b as [|x b].
           ++ destruct k as [|k]; [discriminate|]. cbn in Hl. injection Hl as ->.
              destruct Hk as (Hk1 & Hk2 & Hk3); [discriminate|].
              cbn [List.length] in Hk1. rewrite Nat.add_0_r in Hk1.
              rewrite Hk1, Hk2, Nat.eqb_refl, forallb_repeat61. cbn [negb].
              destruct padding; cbn; congruence.
           ++ cbn in Hl. injection Hl as <- _. cbn in Hb. rewrite Ee in Hb. discriminate.
      * split; [discriminate|].
        intros (b & k & Hl & Hb & Hk). destruct b as [|x b].
        -- destruct k as [|k]; [discriminate|]. cbn in Hl. congruence.
        -- cbn in Hl. injection Hl as <- _. cbn in Hb. rewrite Ee in Hb. discriminate.
Qed.

Lemma pad_pos_count f p k : (p + k = block f)%nat -> pad_pos f p = true <-> pad_count f k.
Proof.
  intros H. destruct f; cbn [block] in H; cbn [pad_count In];
  do 9 (destruct p as [|p]; [cbn; split; [intros; try discriminate; lia|intros; try reflexivity; lia]|]); lia.
Qed.

Lemma pad_count_bound f k : pad_count f k -> (0 < k < block f)%nat.
Proof. destruct f; cbn; lia. Qed.

Lemma chars_block f : chars_per_block f = block f.
Proof. destruct f; reflexivity. Qed.

Lemma scanner_ok f padding v : base_v_parse_u8_slice f padding v = Ok tt <-> base_shape f padding v.
Proof.
  destruct (list_eq_dec N.eq_dec v []) as [->|Hv].
  { split; [discriminate|]. intros (b & k & _ & X & _). contradiction. }
  rewrite scanner_eq by assumption. cbv zeta.
  set (n := List.length v). set (ll := last_len f n).
  assert (Hn : n <> 0%nat) by (unfold n; destruct v; cbn; congruence).
  destruct (last_len_facts f n Hn) as (H1 & H2 & H3 & H4 & H5). fold ll in H1, H2, H3, H4, H5.
  unfold base_shape. change (chars_per_block f) with (block f). fold n.
  assert (Hsplit : v = firstn (n - ll) v ++ skipn (n - ll) v) by (symmetry; apply firstn_skipn).
  assert (Hl1 : List.length (firstn (n - ll) v) = (n - ll)%nat) by (rewrite firstn_length; fold n; lia).
  assert (Hl2 : List.length (skipn (n - ll) v) = ll) by (rewrite skipn_length; fold n; lia).
  set (v1 := firstn (n - ll) v) in *. set (v2 := skipn (n - ll) v) in *. clearbody v1 v2.
  split.
  - intros H.
    destruct (is_must padding && negb (Nat.eqb ll (block f))) eqn:Em; [discriminate|].
    destruct (forallb (in_alphabet f) v1) eqn:Ef; [|discriminate].
    apply tail_scan_ok in H. destruct H as (b & k & Hb1 & Hb2 & Hk). cbn [Nat.add] in Hk.
    exists (v1 ++ b), k.
    split; [rewrite <- app_assoc, <- Hb1; exact Hsplit|]. split; [exact Hv|].
    split.
    { apply Forall_alphabet. rewrite forallb_app, Ef, Hb2. reflexivity. }
    split.
    + intros Hk0. destruct (Hk Hk0) as (K1 & K2 & K3). split; [|split]; [|apply H4, K2|exact K3].
      apply (pad_pos_count f (List.length b) k); [|exact K1].
      rewrite <- K2, <- Hl2, Hb1, app_length, repeat_length. reflexivity.
    + intros ->. cbn in Em. apply H4. destruct (Nat.eqb_spec ll (block f)); [assumption|discriminate].
  - intros (b & k & Hb & _ & Hf & Hk & Hm). apply Forall_alphabet in Hf.
    assert (Em : is_must padding && negb (Nat.eqb ll (block f)) = false).
    { destruct padding; try reflexivity. cbn. apply negb_false_iff, Nat.eqb_eq, H4, Hm. reflexivity. }
    rewrite Em.
    (* the padding lies in the last block *)
    assert (Hkl : (k <= ll)%nat).
    { destruct (Nat.eq_dec k 0) as [->|Hk0]; [lia|].
      destruct (Hk Hk0) as (K1 & K2 & _). apply H4 in K2. apply pad_count_bound in K1. lia. }
    assert (Hnb : n = (List.length b + k)%nat)
      by (unfold n; rewrite Hb, app_length, repeat_length; reflexivity).
    assert (E1 : v1 = firstn (n - ll) b /\ v2 = skipn (n - ll) b ++ repeat 61 k).
    { assert (X : b = firstn (n - ll) b ++ skipn (n - ll) b) by (symmetry; apply firstn_skipn).
      assert (Y : v1 ++ v2 = firstn (n - ll) b ++ (skipn (n - ll) b ++ repeat 61 k))
        by (rewrite app_assoc, <- X, <- Hsplit; exact Hb).
      assert (Z : List.length v1 = List.length (firstn (n - ll) b))
        by (rewrite firstn_length, Hl1; lia).
      clear -Y Z. revert Y Z. generalize (firstn (n - ll) b) (skipn (n - ll) b ++ repeat 61 k).
      clear. intros l1 l2. revert l1. induction v1 as [|x v1 IH]; intros [|y l1] Y Z; cbn in *; try discriminate.
      - split; auto.
      - injection Y as -> Y. injection Z as Z. destruct (IH _ Y Z) as [-> ->]. split; reflexivity. }
    destruct E1 as [E1 E2].
    assert (Hff : forallb (in_alphabet f) (firstn (n - ll) b) = true /\
                  forallb (in_alphabet f) (skipn (n - ll) b) = true).
    { rewrite <- (firstn_skipn (n - ll) b), forallb_app in Hf. apply andb_true_iff in Hf. exact Hf. }
    destruct Hff as [Hf1 Hf2]. rewrite E1, Hf1. apply tail_scan_ok.
    exists (skipn (n - ll) b), k. split; [exact E2|]. split; [exact Hf2|].
    intros Hk0. destruct (Hk Hk0) as (K1 & K2 & K3). apply H4 in K2.
    split; [|split]; [|exact K2|exact K3].
    cbn [Nat.add]. apply (pad_pos_count f _ k); [|exact K1].
    rewrite skipn_length. lia.
Qed.

Lemma tail_scan_disallow f padding ll : forall l p,
  tail_scan f padding ll p l = Err BPaddingDisallow -> padding = Disallow /\ In 61 l.
Proof.
  induction l as [|e r IH]; intros p; cbn [tail_scan]; [discriminate|].
  destruct (in_alphabet f e).
  { intros H. apply IH in H as [H1 H2]. split; [exact H1|right; exact H2]. }
  destruct (N.eqb_spec e 61) as [->|]; [|discriminate].
  destruct padding; cbn [is_disallow].
  3:{ intros _. split; [reflexivity|left; reflexivity]. }
  all: destruct (pad_pos f p); [|discriminate]; destruct (negb _); [discriminate|];
       destruct (forallb _ r); discriminate.
Qed.

Lemma tail_scan_must f padding ll : forall l p,
  tail_scan f padding ll p l <> Err BPaddingMust /\ tail_scan f padding ll p l <> Err BDecode.
Proof.
  induction l as [|e r IH]; intros p; cbn [tail_scan]; [split; discriminate|].
  destruct (in_alphabet f e); [apply IH|].
  destruct (e =? 61); [|split; discriminate].
  destruct (is_disallow padding); [split; discriminate|].
  destruct (pad_pos f p); [|split; discriminate].
  destruct (negb _); [split; discriminate|].
  destruct (forallb _ r); split; discriminate.
Qed.

Lemma scanner_errors f padding v :
  (base_v_parse_u8_slice f padding v = Err BPaddingMust <->
     padding = Must /\ v <> [] /\ ~ Nat.divide (block f) (List.length v)) /\
  (base_v_parse_u8_slice f padding v = Err BPaddingDisallow -> padding = Disallow /\ In 61 v) /\
  base_v_parse_u8_slice f padding v <> Err BDecode.
Proof.
  destruct (list_eq_dec N.eq_dec v []) as [->|Hv].
  { repeat split; try discriminate. intros (_ & X & _). contradiction. }
  rewrite scanner_eq by assumption. cbv zeta.
  set (n := List.length v). set (ll := last_len f n).
  assert (Hn : n <> 0%nat) by (unfold n; destruct v; cbn; congruence).
  destruct (last_len_facts f n Hn) as (H1 & H2 & H3 & H4 & H5). fold ll in H1, H2, H3, H4, H5.
  destruct (is_must padding && negb (Nat.eqb ll (block f))) eqn:Em.
  - split; [|split]; try discriminate. split; [|reflexivity]. intros _.
    destruct padding; try discriminate. split; [reflexivity|]. split; [exact Hv|].
    intros X. apply H4 in X. rewrite X, Nat.eqb_refl in Em. discriminate.
  - assert (Hno : ~ (padding = Must /\ v <> [] /\ ~ Nat.divide (block f) n)).
    { intros (-> & _ & X). cbn in Em. apply X, H4. apply negb_false_iff, Nat.eqb_eq in Em. exact Em. }
    destruct (forallb (in_alphabet f) (firstn (n - ll) v)).
    + destruct (tail_scan_must f padding ll (skipn (n - ll) v) 0) as [X Y].
      split; [|split]; try exact Y.
      * split; [intros Z; contradiction|intros Z; contradiction].
      * intros Z. apply tail_scan_disallow in Z as [Z1 Z2]. split; [exact Z1|].
        rewrite <- (firstn_skipn (n - ll) v). apply in_or_app. right. exact Z2.
    + split; [|split]; try discriminate. split; [discriminate|intros Z; contradiction].
Qed.

Lemma base_shape_bytes f padding v : base_shape f padding v -> Forall (fun c => In c (alphabet f) \/ c = 61) v.
Proof.
  intros (b & k & -> & _ & Hb & _). apply Forall_app. split.
  - eapply Forall_impl; [|exact Hb]. cbn. auto.
  - apply Forall_forall. intros x Hx. apply repeat_spec in Hx. auto.
Qed.

Lemma base_parse_ok f padding v r :
  base_parse_str f padding v = Ok r <-> r = v /\ base_shape f padding v.
Proof.
  unfold base_parse_str, base_v_parse_str. rewrite <- scanner_ok.
  destruct (base_v_parse_u8_slice f padding v) as [[]| |]; cbn; split; try discriminate.
  - intros H. injection H as <-. auto.
  - intros [-> _]. reflexivity.
  - intros [_ H]. discriminate.
  - intros [_ H]. discriminate.
Qed.
