(** Proofs about the line and text validators. *)
From Verif Require Import Base RangeModel LengthModel AttrProofs Utf8 LineModel LineSpec.
Local Open Scope N_scope.

Lemma white_iff : forall c, is_whitespace c = true <-> white c.
Proof.
  intros c. unfold is_whitespace, white, In. rewrite !orb_true_iff, !andb_true_iff, !N.leb_le, !N.eqb_eq.
  split; intros H; repeat match goal with H : _ \/ _ |- _ => destruct H end; subst; try lia; tauto.
Qed.
Lemma white_false : forall c, is_whitespace c = false <-> ~ white c.
Proof. intros c. rewrite <- white_iff. destruct (is_whitespace c); split; congruence. Qed.

Lemma ctl_iff : forall k c, ctl k c = true <-> forbidden k c.
Proof.
  intros [] c; unfold ctl, forbidden; rewrite !orb_true_iff, ?andb_true_iff, !N.leb_le, !N.eqb_eq; lia.
Qed.
Lemma ctl_false : forall k c, ctl k c = false <-> ~ forbidden k c.
Proof. intros k c. rewrite <- ctl_iff. destruct (ctl k c); split; congruence. Qed.

Lemma len_nil : forall byte, len byte [] = 0.
Proof. intros []; reflexivity. Qed.
Lemma len_cons : forall byte c s, len byte (c :: s) = unit_len byte c + len byte s.
Proof.
  intros [] c s; unfold len, unit_len.
  - cbn [utf8 flat_map]. rewrite app_length, Nat2N.inj_add, utf8_char_len. reflexivity.
  - cbn [List.length]. lia.
Qed.
Lemma len_app : forall byte s t, len byte (s ++ t) = len byte s + len byte t.
Proof.
  intros byte s t. induction s as [|c s IH]; simpl; [rewrite len_nil; lia|]. rewrite !len_cons, IH. lia.
Qed.
Lemma unit_len_pos : forall byte c, 1 <= unit_len byte c.
Proof. intros [] c; unfold unit_len; [apply len_utf8_pos|lia]. Qed.

Lemma over_mono : forall chk n n', over chk n = true -> n <= n' -> over chk n' = true.
Proof. intros [m|] n n'; simpl; [rewrite !N.ltb_lt; lia|auto]. Qed.
Lemma over_mono_f : forall chk n n', over chk n' = false -> n <= n' -> over chk n = false.
Proof.
  intros chk n n' H Hn. destruct (over chk n) eqn:E; [|reflexivity].
  rewrite (over_mono _ _ _ E Hn) in H. discriminate.
Qed.

Lemma over0 : forall chk, over chk 0 = false.
Proof. intros [m|]; simpl; [lia|reflexivity]. Qed.

(** What the inner loop adds to the trimmed counter. *)
Fixpoint core (byte : bool) (cs : list N) (temp : N) : N :=
  match cs with
  | [] => 0
  | c :: cs => if is_whitespace c then core byte cs (temp + unit_len byte c)
               else temp + unit_len byte c + core byte cs 0
  end.

Lemma core_white : forall byte b temp, Forall white b -> core byte b temp = 0.
Proof.
  intros byte b temp H. revert temp. induction H as [|c b Hc Hb IH]; intros temp; simpl; [reflexivity|].
  apply white_iff in Hc. rewrite Hc. apply IH.
Qed.
Lemma core_app : forall byte q x b temp, ~ white x -> Forall white b ->
  core byte (q ++ x :: b) temp = temp + len byte (q ++ [x]).
Proof.
  intros byte q x b temp Hx Hb. revert temp. induction q as [|c q IH]; intros temp; simpl.
  - apply white_false in Hx. rewrite Hx, core_white by assumption. rewrite len_cons, len_nil. lia.
  - rewrite len_cons. destruct (is_whitespace c); rewrite IH; lia.
Qed.

Lemma inner_spec : forall k byte chk cs counter trimmed temp, over chk counter = false ->
  match inner k byte chk cs counter trimmed temp with
  | Ok (c, t) => Forall (fun x => ~ forbidden k x) cs /\ c = counter + len byte cs /\
                 t = trimmed + core byte cs temp /\ over chk c = false
  | Err LInvalid => Exists (forbidden k) cs
  | Err LTooLong => over chk (counter + len byte cs) = true
  | _ => False
  end.
Proof.
  intros k byte chk cs. induction cs as [|c cs IH]; intros counter trimmed temp Ho; simpl.
  - rewrite len_nil. repeat split; auto; lia.
  - destruct (ctl k c) eqn:Ec.
    { left. apply ctl_iff. exact Ec. }
    apply ctl_false in Ec.
    destruct (over chk (counter + unit_len byte c)) eqn:Eo.
    { eapply over_mono; [exact Eo|]. rewrite len_cons. lia. }
    destruct (is_whitespace c) eqn:Ew.
    + specialize (IH (counter + unit_len byte c) trimmed (temp + unit_len byte c) Eo).
      destruct (inner k byte chk cs _ _ _) as [[c' t']|[]|]; auto.
      * destruct IH as (H1 & -> & -> & H4). rewrite len_cons. repeat split; auto; try lia.
      * rewrite len_cons, N.add_assoc. exact IH.
    + specialize (IH (counter + unit_len byte c) (trimmed + (temp + unit_len byte c)) 0 Eo).
      destruct (inner k byte chk cs _ _ _) as [[c' t']|[]|]; auto.
      * destruct IH as (H1 & -> & -> & H4). rewrite len_cons. repeat split; auto; try lia.
      * rewrite len_cons, N.add_assoc. exact IH.
Qed.

Lemma outer_white : forall k byte chk1 chk2 fin empty a rest c0, Forall white a -> over chk1 c0 = false ->
  outer k byte chk1 chk2 fin empty (a ++ rest) c0 =
  if over chk1 (c0 + len byte a) then Err LTooLong
  else outer k byte chk1 chk2 fin empty rest (c0 + len byte a).
Proof.
  intros k byte chk1 chk2 fin empty a rest c0 Ha. revert c0.
  induction Ha as [|c a Hc Ha IH]; intros c0 Ho.
  - rewrite len_nil, N.add_0_r, Ho. reflexivity.
  - cbn [app outer]. apply white_iff in Hc. rewrite Hc. simpl negb. cbv iota.
    rewrite len_cons, N.add_assoc.
    destruct (over chk1 (c0 + unit_len byte c)) eqn:Eo.
    + rewrite (over_mono _ _ _ Eo); [reflexivity|lia].
    + apply IH. exact Eo.
Qed.

(** Everything the outer loop can do. *)
Lemma outer_cases : forall k byte chk1 chk2 fin empty s a m b, trims s a m b ->
  over chk1 0 = false -> over chk2 0 = false -> (chk2 = None \/ chk2 = chk1) ->
  let r := outer k byte chk1 chk2 fin empty s 0 in
  (r = Err LTooLong /\ over chk1 (len byte s) = true) \/
  (r = Err LInvalid /\ Exists (forbidden k) (m ++ b)) \/
  (Forall (fun x => ~ forbidden k x) (m ++ b) /\ over chk2 (len byte s) = false /\
   r = match m with [] => empty (len byte s) | _ => fin (len byte s) (len byte m) end /\
   (m = [] -> over chk1 (len byte s) = false)).
Proof.
  intros k byte chk1 chk2 fin empty s a m b (Hs & Ha & Hb & Hm) Ho1 Ho2 Hchk. cbv zeta.
  subst s. rewrite outer_white by assumption. rewrite !N.add_0_l.
  destruct (over chk1 (len byte a)) eqn:E1.
  { left. split; [reflexivity|]. eapply over_mono; [exact E1|]. rewrite len_app. lia. }
  destruct Hm as [[-> ->]|[(c & m' & -> & Hc) (q & x & Hq & Hx)]].
  - right; right. simpl. rewrite app_nil_r. split; [constructor|]. split; [|auto].
    destruct Hchk as [->| ->]; [reflexivity|exact E1].
  - apply white_false in Hc as Hc'. cbn [app outer]. rewrite Hc'. simpl negb. cbv iota.
    destruct (over chk1 (len byte a + unit_len byte c)) eqn:E2.
    { left. split; [reflexivity|]. eapply over_mono; [exact E2|]. rewrite len_app, len_cons. lia. }
    destruct (ctl k c) eqn:Ec.
    { right; left. split; [reflexivity|]. left. apply ctl_iff. exact Ec. }
    assert (Eo2 : over chk2 (len byte a + unit_len byte c) = false) by (destruct Hchk as [->| ->]; [reflexivity|exact E2]).
    pose proof (inner_spec k byte chk2 (m' ++ b) (len byte a + unit_len byte c) (unit_len byte c) 0 Eo2) as Hi.
    assert (Hlen : len byte (a ++ c :: m' ++ b) = len byte a + unit_len byte c + len byte (m' ++ b))
      by (rewrite len_app, len_cons; lia).
    destruct (inner k byte chk2 (m' ++ b) _ _ _) as [[c1 t1]|[]|]; simpl; try contradiction.
    + destruct Hi as (H1 & -> & -> & H4). right; right.
      split; [constructor; [apply ctl_false; exact Ec|exact H1]|].
      split; [rewrite Hlen; exact H4|]. split; [|discriminate].
      rewrite Hlen. f_equal. rewrite len_cons. f_equal.
      destruct m' as [|d m'].
      * simpl. rewrite core_white by assumption. rewrite len_nil. reflexivity.
      * destruct q as [|d' q]; [simpl in Hq; discriminate|].
        simpl in Hq. injection Hq as _ Hq.
        assert (Hqq : (d :: m') = q ++ [x]) by exact Hq. rewrite Hqq, <- app_assoc. simpl.
        rewrite core_app by assumption. lia.
    + right; left. split; [reflexivity|]. right. exact Hi.
    + left. split; [reflexivity|]. rewrite Hlen. destruct Hchk as [Hn|He]; [rewrite Hn in Hi; discriminate|rewrite <- He; exact Hi].
Qed.

Lemma trims_exists : forall s, exists a m b, trims s a m b.
Proof.
  assert (Hend : forall s, exists p b, s = p ++ b /\ Forall white b /\ (p = [] \/ exists q x, p = q ++ [x] /\ ~ white x)).
  { intros s. induction s as [|x s IH] using rev_ind.
    - exists [], []. repeat split; auto.
    - destruct (is_whitespace x) eqn:E.
      + destruct IH as (p & b & -> & Hb & Hp). exists p, (b ++ [x]). rewrite app_assoc. split; [reflexivity|].
        split; [|exact Hp]. apply Forall_app. split; [exact Hb|]. constructor; [apply white_iff; exact E|constructor].
      + exists (s ++ [x]), []. rewrite app_nil_r. split; [reflexivity|]. split; [constructor|].
        right. exists s, x. split; [reflexivity|]. apply white_false. exact E. }
  assert (Hbeg : forall s, exists a r, s = a ++ r /\ Forall white a /\ (r = [] \/ exists c r', r = c :: r' /\ ~ white c)).
  { intros s. induction s as [|x s IH].
    - exists [], []. repeat split; auto.
    - destruct (is_whitespace x) eqn:E.
      + destruct IH as (a & r & -> & Ha & Hr). exists (x :: a), r. split; [reflexivity|].
        split; [|exact Hr]. constructor; [apply white_iff; exact E|exact Ha].
      + exists [], (x :: s). split; [reflexivity|]. split; [constructor|]. right. exists x, s.
        split; [reflexivity|]. apply white_false. exact E. }
  intros s. destruct (Hbeg s) as (a & r & -> & Ha & Hr).
  destruct Hr as [->|(c & r' & -> & Hc)].
  - exists a, [], []. split; [reflexivity|]. auto.
  - destruct (Hend (c :: r')) as (p & b & Hp & Hb & Hq).
    destruct Hq as [->|(q & x & -> & Hx)].
    + simpl in Hp. subst b. inversion Hb; subst. contradiction.
    + exists a, (q ++ [x]), b. split; [rewrite Hp; reflexivity|]. split; [exact Ha|]. split; [exact Hb|].
      right. split; [|eauto].
      destruct q as [|d q]; simpl in *; injection Hp as -> Hp; eauto.
Qed.

Lemma forall_not_exists : forall k l, Forall (fun x => ~ forbidden k x) l -> Exists (forbidden k) l -> False.
Proof. intros k l H1 H2. apply Exists_exists in H2. destruct H2 as (x & Hx & Hf). rewrite Forall_forall in H1. exact (H1 x Hx Hf). Qed.

(** The scanning loops. *)
Lemma scan_chars_spec : forall k cs c0,
  match scan_chars k cs c0 with
  | Ok c => Forall (fun x => ~ forbidden k x) cs /\ c = c0 + len false cs
  | Err LInvalid => Exists (forbidden k) cs
  | _ => False
  end.
Proof.
  intros k cs. induction cs as [|c cs IH]; intros c0; simpl.
  - split; [constructor|]. rewrite len_nil. lia.
  - destruct (ctl k c) eqn:E; [left; apply ctl_iff; exact E|].
    specialize (IH (c0 + 1)). destruct (scan_chars k cs (c0 + 1)) as [c'|[]|]; try contradiction.
    + destruct IH as [H1 ->]. split; [constructor; [apply ctl_false; exact E|exact H1]|]. rewrite len_cons. unfold unit_len. lia.
    + right. exact IH.
Qed.

Lemma scan_bytes_raw : forall k bs,
  match scan_bytes k bs with
  | Ok _ => Forall (fun x => ~ forbidden k x) bs
  | Err LInvalid => Exists (forbidden k) bs
  | _ => False
  end.
Proof.
  intros k bs. induction bs as [|c bs IH]; simpl; [constructor|].
  destruct (ctl k c) eqn:E; [left; apply ctl_iff; exact E|].
  destruct (scan_bytes k bs) as [c'|[]|]; try contradiction.
  - constructor; [apply ctl_false; exact E|exact IH].
  - right. exact IH.
Qed.

Lemma forbidden_ascii : forall k c, forbidden k c -> c < 128.
Proof. intros [] c; simpl; lia. Qed.

Lemma utf8_forbidden : forall k s, Exists (forbidden k) (utf8 s) <-> Exists (forbidden k) s.
Proof.
  intros k s. rewrite !Exists_exists. unfold utf8. split.
  - intros (b & Hb & Hf). apply in_flat_map in Hb. destruct Hb as (c & Hc & Hb).
    exists c. split; [exact Hc|]. apply forbidden_ascii in Hf as Hf'.
    apply utf8_char_bytes in Hb. destruct Hb as [[_ ->]|[_ Hb]]; [exact Hf|lia].
  - intros (c & Hc & Hf). exists c. split; [|exact Hf]. apply in_flat_map. exists c. split; [exact Hc|].
    apply forbidden_ascii in Hf. rewrite utf8_char_ascii by assumption. left. reflexivity.
Qed.

Lemma not_exists_forall : forall k l, ~ Exists (forbidden k) l -> Forall (fun x => ~ forbidden k x) l.
Proof. intros k l H. apply Forall_Exists_neg. exact H. Qed.

Lemma scan_bytes_spec : forall k s,
  match scan_bytes k (utf8 s) with
  | Ok _ => Forall (fun x => ~ forbidden k x) s
  | Err LInvalid => Exists (forbidden k) s
  | _ => False
  end.
Proof.
  intros k s. pose proof (scan_bytes_raw k (utf8 s)) as H.
  destruct (scan_bytes k (utf8 s)) as [?|[]|]; try contradiction.
  - apply not_exists_forall. intros Hc. apply utf8_forbidden in Hc. exact (forall_not_exists _ _ H Hc).
  - apply utf8_forbidden. exact H.
Qed.

Lemma take_len : forall n s, len false (take n s) = N.min n (len false s).
Proof. intros n s. unfold len, take. rewrite firstn_length. lia. Qed.
Lemma take_all : forall n s, len false s <= n -> take n s = s.
Proof. intros n s H. unfold take, len in *. apply firstn_all2. lia. Qed.
Lemma take_forall : forall k n s, Exists (forbidden k) (take n s) -> Exists (forbidden k) s.
Proof.
  intros k n s. rewrite !Exists_exists. intros (x & Hx & Hf). exists x. split; [|exact Hf].
  unfold take in Hx. rewrite <- (firstn_skipn (N.to_nat n) s). apply in_or_app. left. exact Hx.
Qed.

Lemma at_most_some : forall m n, at_most (Some m) n <-> n <= m.
Proof. intros m n. unfold at_most. split; [auto|]. intros H x Hx. injection Hx as <-. exact H. Qed.
Lemma at_least_some : forall m n, at_least (Some m) n <-> m <= n.
Proof. intros m n. unfold at_least. split; [auto|]. intros H x Hx. injection Hx as <-. exact H. Qed.
Lemma at_most_none : forall n, at_most None n <-> True.
Proof. intros n. unfold at_most. split; [auto|]. discriminate. Qed.
Lemma at_least_none : forall n, at_least None n <-> True.
Proof. intros n. unfold at_least. split; [auto|]. discriminate. Qed.

(** C11 *)
Lemma line_plain_ok : forall k byte min max s,
  handle_str k byte min None max s = Ok tt <->
  Forall (fun x => ~ forbidden k x) s /\ at_least min (len byte s) /\ at_most max (len byte s).
Proof.
  intros k byte min max s. unfold handle_str.
  pose proof (scan_bytes_spec k s) as HB.
  destruct byte.
  - assert (HL : len true s = N.of_nat (List.length (utf8 s))) by reflexivity.
    assert (HS : scan_bytes k (utf8 s) = Ok tt <-> Forall (fun x => ~ forbidden k x) s).
    { destruct (scan_bytes k (utf8 s)) as [[]|[]|]; try contradiction; split; auto; try discriminate.
      intros Hc. exfalso. exact (forall_not_exists _ _ Hc HB). }
    destruct max as [mx|], min as [mn|]; rewrite ?at_most_some, ?at_least_some, ?at_most_none, ?at_least_none, <- ?HL.
    + destruct (mx <? len true s) eqn:E1; [split; [discriminate|lia]|].
      destruct (len true s <? mn) eqn:E2; [split; [discriminate|lia]|]. rewrite HS. split; [intros H; split; [exact H|lia]|tauto].
    + destruct (mx <? len true s) eqn:E1; [split; [discriminate|lia]|]. rewrite HS. split; [intros H; split; [exact H|lia]|tauto].
    + destruct (len true s <? mn) eqn:E2; [split; [discriminate|lia]|]. rewrite HS. split; [intros H; split; [exact H|lia]|tauto].
    + rewrite HS. tauto.
  - destruct max as [mx|].
    + pose proof (scan_chars_spec k (take (mx + 1) s) 0) as HC. rewrite take_len in HC.
      assert (HI : Exists (forbidden k) (take (mx + 1) s) -> ~ Forall (fun x => ~ forbidden k x) s)
        by (intros H1 H2; exact (forall_not_exists _ _ H2 (take_forall _ _ _ H1))).
      destruct min as [mn|]; rewrite ?at_most_some, ?at_least_some, ?at_most_none, ?at_least_none;
        (destruct (scan_chars k (take (mx + 1) s) 0) as [n|[]|]; simpl; try contradiction;
         [destruct HC as [HF ->]; rewrite N.add_0_l | split; [discriminate | tauto]]).
      * destruct (N.min (mx + 1) (len false s) <? mn) eqn:E1; [split; [discriminate|lia]|].
        destruct (mx <? N.min (mx + 1) (len false s)) eqn:E2; [split; [discriminate|lia]|].
        rewrite take_all in HF by lia. split; [intros _; split; [exact HF|lia]|auto].
      * destruct (N.min (mx + 1) (len false s) <=? mx) eqn:E2; [|split; [discriminate|lia]].
        rewrite take_all in HF by lia. split; [intros _; split; [exact HF|lia]|auto].
    + destruct min as [mn|]; rewrite ?at_most_some, ?at_least_some, ?at_most_none, ?at_least_none.
      * pose proof (scan_chars_spec k s 0) as HC.
        destruct (scan_chars k s 0) as [n|[]|]; simpl; try contradiction.
        -- destruct HC as [HF ->]. rewrite N.add_0_l.
           destruct (mn <=? len false s) eqn:E; [split; [intros _; split; [exact HF|lia]|auto]|split; [discriminate|lia]].
        -- split; [discriminate|]. intros [H _]. exfalso. exact (forall_not_exists _ _ H HC).
      * destruct (scan_bytes k (utf8 s)) as [[]|[]|]; try contradiction.
        -- tauto.
        -- split; [discriminate|]. intros [H _]. exfalso. exact (forall_not_exists _ _ H HB).
Qed.

(** C12 *)
Lemma len_zero : forall byte m, len byte m = 0 -> m = [].
Proof. intros byte [|c m] H; [reflexivity|]. rewrite len_cons in H. pose proof (unit_len_pos byte c). lia. Qed.

Lemma trimmed_ok_iff : forall k byte chk1 chk2 fin empty s a m b, trims s a m b ->
  over chk1 0 = false -> over chk2 0 = false -> (chk2 = None \/ chk2 = chk1) ->
  (outer k byte chk1 chk2 fin empty s 0 = Ok tt ->
   Forall (fun x => ~ forbidden k x) (m ++ b) /\ over chk2 (len byte s) = false /\
   (m = [] -> over chk1 (len byte s) = false) /\
   match m with [] => empty (len byte s) | _ => fin (len byte s) (len byte m) end = Ok tt) /\
  (Forall (fun x => ~ forbidden k x) (m ++ b) -> over chk1 (len byte s) = false ->
   match m with [] => empty (len byte s) | _ => fin (len byte s) (len byte m) end = Ok tt ->
   outer k byte chk1 chk2 fin empty s 0 = Ok tt).
Proof.
  intros k byte chk1 chk2 fin empty s a m b Ht H1 H2 H3.
  destruct (outer_cases k byte chk1 chk2 fin empty s a m b Ht H1 H2 H3) as [[Hr Ho]|[[Hr He]|(HF & Ho & Hr & Hm)]].
  - rewrite Hr. split; [discriminate|]. congruence.
  - rewrite Hr. split; [discriminate|]. intros Hc. exfalso. exact (forall_not_exists _ _ Hc He).
  - rewrite Hr. split; auto.
Qed.

(** The final test of the shapes, when the counters are exact. *)
Definition lens_ok (byte : bool) (min : option N) (t : N) (max : option N) (s m : list N) : Prop :=
  at_least min (len byte s) /\ at_most max (len byte s) /\ t <= len byte m.

Lemma line_trim_ok : forall k byte min t max s a m b, trims s a m b ->
  (handle_str k byte min (Some t) max s = Ok tt <->
   Forall (fun x => ~ forbidden k x) (m ++ b) /\ lens_ok byte min t max s m).
Proof.
  intros k byte min t max s a m b Ht. unfold handle_str, lens_ok.
  destruct max as [mx|].
  - destruct byte.
    + destruct min as [mn|]; rewrite ?at_most_some, ?at_least_some, ?at_most_none, ?at_least_none.
      * match goal with |- outer ?k ?byte ?c1 ?c2 ?fin ?empty s 0 = _ <-> _ =>
          destruct (trimmed_ok_iff k byte c1 c2 fin empty s a m b Ht) as [T1 T2]; [apply over0|apply over0|auto|] end.
        split.
        -- intros H. apply T1 in H. destruct H as (HF & Ho & Hm & H). split; [exact HF|].
           simpl in Ho. destruct m as [|c m].
           ++ rewrite len_nil. destruct (t =? 0) eqn:E; [|discriminate]. destruct (len true s <? mn) eqn:E2; [discriminate|]. lia.
           ++ destruct ((t <=? len true (c :: m)) && (mn <=? len true s)) eqn:E; [|discriminate]. lia.
        -- intros (HF & HL & HM & HT). apply T2; [exact HF|simpl; lia|].
           destruct m as [|c m].
           ++ rewrite len_nil in HT. destruct (t =? 0) eqn:E; [|lia]. destruct (len true s <? mn) eqn:E2; [lia|reflexivity].
           ++ destruct ((t <=? len true (c :: m)) && (mn <=? len true s)) eqn:E; [|lia].
              destruct (len true s <=? mx) eqn:E2; [reflexivity|lia].
      * match goal with |- outer ?k ?byte ?c1 ?c2 ?fin ?empty s 0 = _ <-> _ =>
          destruct (trimmed_ok_iff k byte c1 c2 fin empty s a m b Ht) as [T1 T2]; [apply over0|apply over0|auto|] end.
        split.
        -- intros H. apply T1 in H. destruct H as (HF & Ho & Hm & H). split; [exact HF|].
           destruct m as [|c m].
           ++ rewrite len_nil. specialize (Hm eq_refl). simpl in Hm. destruct (t =? 0) eqn:E; [|discriminate]. split; [exact I|]. lia.
           ++ destruct (t <=? len true (c :: m)) eqn:E; [|discriminate].
              destruct (len true s <=? mx) eqn:E2; [|discriminate]. split; [exact I|]. lia.
        -- intros (HF & HL & HM & HT). apply T2; [exact HF|simpl; lia|].
           destruct m as [|c m].
           ++ rewrite len_nil in HT. destruct (t =? 0) eqn:E; [reflexivity|lia].
           ++ destruct (t <=? len true (c :: m)) eqn:E; [|lia].
              destruct (len true s <=? mx) eqn:E2; [reflexivity|lia].
    + (* characters: only the first max + 1 of them are looked at *)
      destruct (N.le_gt_cases (len false s) mx) as [Hle|Hgt].
      * rewrite take_all by lia.
        destruct min as [mn|]; rewrite ?at_most_some, ?at_least_some, ?at_most_none, ?at_least_none.
        -- match goal with |- outer ?k ?byte ?c1 ?c2 ?fin ?empty s 0 = _ <-> _ =>
             destruct (trimmed_ok_iff k byte c1 c2 fin empty s a m b Ht) as [T1 T2]; [apply over0|apply over0|auto|] end.
           split.
           ++ intros H. apply T1 in H. destruct H as (HF & Ho & Hm & H). split; [exact HF|].
              destruct m as [|c m].
              ** rewrite len_nil. destruct (t =? 0) eqn:E; [|discriminate]. destruct (len false s <? mn) eqn:E2; [discriminate|]. lia.
              ** destruct ((t <=? len false (c :: m)) && (mn <=? len false s)) eqn:E; [|discriminate]. lia.
           ++ intros (HF & HL & HM & HT). apply T2; [exact HF|reflexivity|].
              destruct m as [|c m].
              ** rewrite len_nil in HT. destruct (t =? 0) eqn:E; [|lia]. destruct (len false s <? mn) eqn:E2; [lia|].
                 destruct (mx <? len false s) eqn:E3; [lia|reflexivity].
              ** destruct ((t <=? len false (c :: m)) && (mn <=? len false s)) eqn:E; [|lia].
                 destruct (len false s <=? mx) eqn:E2; [reflexivity|lia].
        -- match goal with |- outer ?k ?byte ?c1 ?c2 ?fin ?empty s 0 = _ <-> _ =>
             destruct (trimmed_ok_iff k byte c1 c2 fin empty s a m b Ht) as [T1 T2]; [apply over0|apply over0|auto|] end.
           split.
           ++ intros H. apply T1 in H. destruct H as (HF & Ho & Hm & H). split; [exact HF|]. split; [exact I|]. split; [exact Hle|].
              destruct m as [|c m].
              ** rewrite len_nil. destruct (t =? 0) eqn:E; [|discriminate]. lia.
              ** destruct (t <=? len false (c :: m)) eqn:E; [|discriminate]. lia.
           ++ intros (HF & HL & HM & HT). apply T2; [exact HF|reflexivity|].
              destruct m as [|c m].
              ** rewrite len_nil in HT. destruct (t =? 0) eqn:E; [|lia]. destruct (len false s <=? mx) eqn:E2; [reflexivity|lia].
              ** destruct (t <=? len false (c :: m)) eqn:E; [|lia].
                 destruct (len false s <=? mx) eqn:E2; [reflexivity|lia].
      * destruct (trims_exists (take (mx + 1) s)) as (a' & m' & b' & Ht').
        assert (HLt : len false (take (mx + 1) s) = mx + 1) by (rewrite take_len; lia).
        destruct min as [mn|]; rewrite ?at_most_some, ?at_least_some, ?at_most_none, ?at_least_none;
        (match goal with |- outer ?k ?byte ?c1 ?c2 ?fin ?empty ?s' 0 = _ <-> _ =>
             destruct (trimmed_ok_iff k byte c1 c2 fin empty s' a' m' b' Ht') as [T1 _]; [apply over0|apply over0|auto|] end);
        (split; [|lia]); intros H; apply T1 in H; destruct H as (_ & _ & _ & H); exfalso; rewrite HLt in H;
        destruct m' as [|c m'];
        repeat match type of H with context [if ?c then _ else _] => destruct c eqn:?; try discriminate end; lia.
  - assert (E : forall fin empty, outer k byte None None fin empty s 0 = Ok tt <->
        Forall (fun x => ~ forbidden k x) (m ++ b) /\
        match m with [] => empty (len byte s) | _ => fin (len byte s) (len byte m) end = Ok tt).
    { intros fin empty. destruct (trimmed_ok_iff k byte None None fin empty s a m b Ht) as [T1 T2]; [apply over0|apply over0|auto|].
      split; [intros H; apply T1 in H; tauto|]. intros [H1 H2]. apply T2; auto. }
    destruct min as [mn|]; rewrite ?at_most_some, ?at_least_some, ?at_most_none, ?at_least_none; rewrite E.
    + apply and_iff_compat_l. destruct m as [|c m].
      * rewrite len_nil. destruct (t =? 0) eqn:E1; [|split; [discriminate|lia]].
        destruct (mn <=? len byte s) eqn:E2; [split; [lia|reflexivity]|split; [discriminate|lia]].
      * destruct ((t <=? len byte (c :: m)) && (mn <=? len byte s)) eqn:E2; [split; [lia|reflexivity]|split; [discriminate|lia]].
    + apply and_iff_compat_l. destruct m as [|c m].
      * rewrite len_nil. destruct (t =? 0) eqn:E1; [split; [lia|reflexivity]|split; [discriminate|lia]].
      * destruct (t <=? len byte (c :: m)) eqn:E2; [split; [lia|reflexivity]|split; [discriminate|lia]].
Qed.

(** C14 *)
Definition err_ok (k : line_kind) (byte : bool) (min tmin max : option N) (s m : list N)
    (r : outcome line_err unit) : Prop :=
  match r with
  | Ok _ => True
  | Err LInvalid => Exists (forbidden k) s
  | Err LTooLong => ~ at_most max (len byte s)
  | Err LTooShort =>
      (byte = true \/ tmin = None \/ at_most max (len byte s)) ->
      (forall mn mx, min = Some mn -> max = Some mx -> mn <= mx) ->
      ~ at_least min (len byte s) \/ exists t, tmin = Some t /\ len byte m < t
  | Panic => False
  end.

Lemma exists_mid : forall k a l, Exists (forbidden k) l -> Exists (forbidden k) (a ++ l).
Proof. intros k a l H. apply Exists_app. right. exact H. Qed.

Ltac lower_errs :=
  repeat match goal with
  | |- err_ok _ _ _ _ _ _ _ (if ?c then _ else _) => destruct c eqn:?
  end; simpl; auto;
  unfold at_most, at_least;
  try (intros Hc; specialize (Hc _ eq_refl); lia);
  try (intros ? ?; first
        [ right; eexists; split; [reflexivity|]; first [rewrite len_nil; lia | lia]
        | left; intros Hc; specialize (Hc _ eq_refl); lia
        | match goal with H : _ && _ = false |- _ => apply andb_false_iff in H; destruct H end;
          [right; eexists; split; [reflexivity|]; lia | left; intros Hc; specialize (Hc _ eq_refl); lia] ]).

Lemma outer_err_ok : forall k byte chk1 chk2 fin empty min tmin max s a m b, trims s a m b ->
  (chk2 = None \/ chk2 = chk1) -> (forall mx, chk1 = Some mx -> max = Some mx) ->
  (m = [] -> over chk1 (len byte s) = false -> err_ok k byte min tmin max s m (empty (len byte s))) ->
  (m <> [] -> err_ok k byte min tmin max s m (fin (len byte s) (len byte m))) ->
  err_ok k byte min tmin max s m (outer k byte chk1 chk2 fin empty s 0).
Proof.
  intros k byte chk1 chk2 fin empty min tmin max s a m b Ht Hchk Hmax He Hf.
  destruct (outer_cases k byte chk1 chk2 fin empty s a m b Ht (over0 _) (over0 _) Hchk) as [[Hr Ho]|[[Hr Hx]|(HF & Ho & Hr & Hm)]].
  - rewrite Hr. simpl. destruct chk1 as [mx|]; [|discriminate]. rewrite (Hmax mx eq_refl), at_most_some. simpl in Ho. lia.
  - rewrite Hr. simpl. destruct Ht as (-> & _). apply exists_mid. exact Hx.
  - rewrite Hr. destruct m as [|c m]; [apply He; auto|apply Hf; discriminate].
Qed.

Lemma line_err_ok : forall k byte min tmin max s a m b, trims s a m b ->
  err_ok k byte min tmin max s m (handle_str k byte min tmin max s).
Proof.
  intros k byte min tmin max s a m b Ht. unfold handle_str.
  destruct tmin as [t|].
  - destruct max as [mx|].
    + destruct byte.
      * destruct min as [mn|]; (eapply outer_err_ok; [exact Ht|auto|intros; congruence| |]); intros Hm; subst; try intros Ho; cbv beta; lower_errs.
      * destruct (N.le_gt_cases (len false s) mx) as [Hle|Hgt].
        -- rewrite take_all by lia.
           destruct min as [mn|]; (eapply outer_err_ok; [exact Ht|auto|intros; congruence| |]); intros Hm; subst; try intros Ho; cbv beta; lower_errs.
        -- (* only the first max + 1 characters are looked at *)
           destruct (trims_exists (take (mx + 1) s)) as (a' & m' & b' & Ht').
           assert (HLt : len false (take (mx + 1) s) = mx + 1) by (rewrite take_len; lia).
           assert (Hlong : ~ at_most (Some mx) (len false s)) by (rewrite at_most_some; lia).
           assert (Hgen : forall r, err_ok k false min (Some t) (Some mx) (take (mx + 1) s) m' r ->
                          err_ok k false min (Some t) (Some mx) s m r).
           { intros [?|[]|] H; simpl in *; auto.
             - eapply take_forall. exact H.
             - intros [Hc|[Hc|Hc]]; try discriminate. contradiction. }
           apply Hgen.
           destruct min as [mn|]; (eapply outer_err_ok; [exact Ht'|auto|intros; congruence| |]); intros Hm; subst; try intros Ho; cbv beta; lower_errs.
    + destruct min as [mn|]; (eapply outer_err_ok; [exact Ht|auto|discriminate| |]); intros Hm; subst; try intros Ho; cbv beta; lower_errs.
  - pose proof (scan_bytes_spec k s) as HB.
    assert (HBS : forall mn mx, err_ok k byte mn None mx s m (scan_bytes k (utf8 s)))
      by (intros mn mx; destruct (scan_bytes k (utf8 s)) as [?|[]|]; simpl; auto; contradiction).
    destruct byte.
    + assert (HL : len true s = N.of_nat (List.length (utf8 s))) by reflexivity.
      destruct max as [mx|], min as [mn|]; rewrite <- ?HL; try apply HBS; lower_errs; try apply HBS.
    + destruct max as [mx|].
      * pose proof (scan_chars_spec k (take (mx + 1) s) 0) as HC. rewrite take_len in HC.
        destruct min as [mn|]; (destruct (scan_chars k (take (mx + 1) s) 0) as [n|[]|]; simpl; try contradiction;
          [destruct HC as [HF ->]; rewrite N.add_0_l | eapply take_forall; exact HC]).
        -- destruct (N.min (mx + 1) (len false s) <? mn) eqn:E1.
           ++ simpl. intros _ Hmm. specialize (Hmm _ _ eq_refl eq_refl). left. rewrite at_least_some. lia.
           ++ lower_errs.
        -- lower_errs.
      * destruct min as [mn|]; [|apply HBS].
        pose proof (scan_chars_spec k s 0) as HC.
        destruct (scan_chars k s 0) as [n|[]|]; simpl; try contradiction; [|exact HC].
        destruct HC as [HF ->]. rewrite N.add_0_l. lower_errs.
Qed.

(** Attributes that the macro accepts. *)
Definition good_len (l : len_attr) : Prop :=
  (forall a b, l_tmin l = Some a -> l_min l = Some b -> a <= b) /\
  (forall a b, l_min l = Some a -> l_max l = Some b -> a <= b) /\
  (forall a b, l_tmin l = Some a -> l_max l = Some b -> a <= b).

Lemma length_from_meta_good : forall ps l, length_from_meta ps = Ok l -> good_len l.
Proof.
  intros ps l H. unfold length_from_meta in H. destruct (length_params lstate0 ps) as [st|e|]; try discriminate.
  simpl in H. apply length_check_ok in H. destruct H as (-> & H1 & H2 & H3). split; [|split]; simpl; auto.
Qed.

Lemma utf8_params_good : forall ps st st', utf8_params st ps = Ok st' ->
  (forall b l, us_length st = Some (b, l) -> good_len l) ->
  (forall b l, us_length st' = Some (b, l) -> good_len l).
Proof.
  induction ps as [|p ps IH]; intros st st' H Hst; simpl in H.
  - injection H as <-. exact Hst.
  - destruct (utf8_handler st p) as [st1|e|] eqn:E; try discriminate. simpl in H.
    apply (IH st1 st' H). clear IH H. intros b l Hl.
    destruct p as [lp|lp|[]|[]|]; simpl in E; try discriminate.
    + destruct (length_from_meta lp) as [v|e|] eqn:E1; try discriminate. simpl in E.
      destruct (us_length_set st); try discriminate. injection E as <-. simpl in Hl. injection Hl as <- <-.
      eapply length_from_meta_good; eauto.
    + destruct (length_from_meta lp) as [v|e|] eqn:E1; try discriminate. simpl in E.
      destruct (us_length_set st); try discriminate. injection E as <-. simpl in Hl. injection Hl as <- <-.
      eapply length_from_meta_good; eauto.
    + destruct (us_serde_set st); try discriminate. injection E as <-. simpl in Hl. eauto.
    + destruct (us_rocket_set st); try discriminate. injection E as <-. simpl in Hl. eauto.
Qed.

Lemma accepted_good : forall b l, accepted_attr (Some (b, l)) -> good_len l.
Proof.
  intros b l [[ps|] H]; simpl in H; [|discriminate].
  destruct (utf8_params _ ps) as [st|e|] eqn:E; try discriminate. simpl in H. injection H as H.
  eapply utf8_params_good; [exact E| |exact H]. simpl. discriminate.
Qed.

Lemma line_v_eq : forall k a s, line_v_parse_str k a s = handle_str k (a_byte a) (a_min a) (a_tmin a) (a_max a) s.
Proof. intros k [[b l]|] s; reflexivity. Qed.

Lemma line_parse_ok : forall k a s r, line_parse_str k a s = Ok r <->
  r = s /\ handle_str k (a_byte a) (a_min a) (a_tmin a) (a_max a) s = Ok tt.
Proof.
  intros k a s r. unfold line_parse_str. rewrite line_v_eq.
  destruct (handle_str _ _ _ _ _ _) as [[]|e|]; simpl; split; try discriminate.
  - intros H. injection H as <-. auto.
  - intros [-> _]. reflexivity.
  - intros [_ H]. discriminate.
  - intros [_ H]. discriminate.
Qed.

Lemma line_entry_points : forall k a s,
  line_parse_string k a s = line_parse_str k a s /\
  line_validate_str k a s = omap (fun _ => tt) (line_parse_str k a s).
Proof.
  intros k a s. split; [reflexivity|]. unfold line_validate_str, line_parse_str.
  destruct (line_v_parse_str k a s); reflexivity.
Qed.

Lemma trims_fun : forall s a m b a' m' b', trims s a m b -> trims s a' m' b' -> a = a' /\ m = m' /\ b = b'.
Proof.
  assert (Hpre : forall a r a' r', a ++ r = a' ++ r' -> Forall white a -> Forall white a' ->
            (r = [] \/ exists c t, r = c :: t /\ ~ white c) -> (r' = [] \/ exists c t, r' = c :: t /\ ~ white c) -> a = a' /\ r = r').
  { induction a as [|x a IH]; intros r [|x' a'] r' He Ha Ha' Hr Hr'; simpl in He.
    - auto.
    - subst r. inversion Ha'; subst. destruct Hr as [Hr|(c & t & Hr & Hc)]; [discriminate|]. injection Hr as -> _. contradiction.
    - subst r'. inversion Ha; subst. destruct Hr' as [Hq|(c & t & Hq & Hc)]; [discriminate|]. injection Hq as -> _. contradiction.
    - injection He as -> He. inversion Ha; inversion Ha'; subst. destruct (IH r a' r' He) as [-> ->]; auto. }
  assert (Hsuf : forall m b m' b', m ++ b = m' ++ b' -> Forall white b -> Forall white b' ->
            (exists t c, m = t ++ [c] /\ ~ white c) -> (exists t c, m' = t ++ [c] /\ ~ white c) -> m = m' /\ b = b').
  { intros m b m' b' He Hb Hb' (t & c & -> & Hc) (t' & c' & -> & Hc').
    apply (f_equal (@rev N)) in He. rewrite !rev_app_distr in He.
    assert (HF : forall l, Forall white l -> Forall white (rev l)).
    { intros l Hl. apply Forall_forall. intros x Hx. apply in_rev in Hx. rewrite Forall_forall in Hl. auto. }
    destruct (Hpre (rev b) (rev (t ++ [c])) (rev b') (rev (t' ++ [c']))) as [H1 H2].
    - rewrite !rev_app_distr. exact He.
    - auto.
    - auto.
    - right. rewrite rev_app_distr. simpl. eauto.
    - right. rewrite rev_app_distr. simpl. eauto.
    - apply (f_equal (@rev N)) in H1. apply (f_equal (@rev N)) in H2. rewrite !rev_involutive in H1, H2. auto. }
  intros s a m b a' m' b' (Hs & Ha & Hb & Hm) (Hs' & Ha' & Hb' & Hm').
  destruct (Hpre a (m ++ b) a' (m' ++ b')) as [-> Hmb]; auto.
  - congruence.
  - destruct Hm as [[-> ->]|[(c & t & -> & Hc) _]]; [left; reflexivity|right]. exists c, (t ++ b). auto.
  - destruct Hm' as [[-> ->]|[(c & t & -> & Hc) _]]; [left; reflexivity|right]. exists c, (t ++ b'). auto.
  - split; [reflexivity|].
    destruct Hm as [[-> ->]|[Hm1 Hm2]].
    + simpl in Hmb. symmetry in Hmb. apply app_eq_nil in Hmb. destruct Hmb as [-> ->]. auto.
    + destruct Hm' as [[-> ->]|[Hm1' Hm2']].
      * simpl in Hmb. apply app_eq_nil in Hmb. destruct Hmb as [-> ->]. auto.
      * apply (Hsuf m b m' b'); auto.
Qed.

Lemma line_satisfiable : forall k a, accepted_attr a -> exists s,
  Forall (fun c => is_scalar c = true) s /\ line_parse_str k a s = Ok s.
Proof.
  intros k a Ha.
  set (n := N.max (match a_min a with Some m => m | None => 0 end) (match a_tmin a with Some m => m | None => 0 end)).
  set (s := repeat 97 (N.to_nat n)).
  assert (Hs : Forall (fun c => c = 97) s) by (apply Forall_forall; intros x Hx; exact (repeat_spec _ _ _ Hx)).
  exists s. split; [eapply Forall_impl; [|exact Hs]; intros c ->; reflexivity|].
  assert (Hf : Forall (fun x => ~ forbidden k x) s).
  { eapply Forall_impl; [|exact Hs]. intros c ->. destruct k; simpl; lia. }
  assert (Hl : forall byte, len byte s = n).
  { intros byte. unfold s. rewrite <- (N2Nat.id n) at 2. generalize (N.to_nat n). clear.
    induction n as [|n IH]; [apply len_nil|]. simpl repeat. rewrite len_cons, IH. destruct byte; unfold unit_len, len_utf8; simpl; lia. }
  assert (Hb1 : at_least (a_min a) n) by (intros m Hm; unfold n; rewrite Hm; lia).
  assert (Hb2 : at_most (a_max a) n).
  { intros m Hm. destruct a as [[b l]|]; [|discriminate]. apply accepted_good in Ha. destruct Ha as (H1 & H2 & H3).
    simpl in *. unfold n. destruct (l_min l) as [x|] eqn:E1, (l_tmin l) as [y|] eqn:E2; simpl.
    - specialize (H2 _ _ eq_refl Hm). specialize (H3 _ _ eq_refl Hm). lia.
    - specialize (H2 _ _ eq_refl Hm). lia.
    - specialize (H3 _ _ eq_refl Hm). lia.
    - lia. }
  apply line_parse_ok. split; [reflexivity|].
  destruct (a_tmin a) as [t|] eqn:Et.
  - assert (Ht : trims s [] s []).
    { split; [simpl; rewrite app_nil_r; reflexivity|]. split; [constructor|]. split; [constructor|].
      assert (Hw : ~ white 97) by (rewrite <- white_false; reflexivity).
      unfold s. destruct (N.to_nat n) as [|j]; [left; auto|right]. split.
      - exists 97, (repeat 97 j). auto.
      - exists (repeat 97 j), 97. split; [|exact Hw]. clear. induction j as [|j IH]; [reflexivity|]. simpl in *. rewrite <- IH. reflexivity. }
    apply (line_trim_ok k _ _ t _ s [] s [] Ht). rewrite app_nil_r. split; [exact Hf|].
    split; [rewrite Hl; exact Hb1|]. split; [rewrite Hl; exact Hb2|]. rewrite Hl. unfold n. lia.
  - apply line_plain_ok. rewrite Hl. auto.
Qed.
