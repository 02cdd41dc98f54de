(** Facts about byte positions in strings. *)
From Verif Require Import Base Utf8.
Local Open Scope N_scope.

(** Specification: the bytes of a Rust [str]. *)
Definition valid_str (s : list N) : Prop := exists cs, Forall (fun c => is_scalar c = true) cs /\ s = utf8 cs.

Lemma utf8_char_head c : exists b r, utf8_char c = b :: r /\ is_cont b = false.
Proof.
  unfold utf8_char, is_cont.
  destruct (N.ltb_spec c 128); [eexists; eexists; split; [reflexivity|lia]|].
  destruct (N.ltb_spec c 2048); [eexists; eexists; split; [reflexivity|lia]|].
  destruct (N.ltb_spec c 65536); eexists; eexists; (split; [reflexivity|lia]).
Qed.

Lemma valid_head b s : valid_str (b :: s) -> is_cont b = false.
Proof.
  intros (cs & _ & E). destruct cs as [|c cs]; [discriminate|]. cbn [utf8 flat_map] in E.
  destruct (utf8_char_head c) as (x & r & Ex & Hx). rewrite Ex in E. injection E as -> _. exact Hx.
Qed.

Lemma valid_after : forall a x b, valid_str (a ++ x :: b) -> x < 128 -> valid_str b.
Proof.
  intros a x b (cs & Hs & E) Hx. revert a E. induction cs as [|c cs IH]; intros a E.
  - destruct a; discriminate.
  - apply Forall_inv_tail in Hs as Hs'. specialize (IH Hs').
    change (utf8 (c :: cs)) with (utf8_char c ++ utf8 cs) in E.
    apply app_eq_app in E as [l [[E1 E2]|[E1 E2]]].
    + apply (IH l). symmetry. exact E2.
    + destruct l as [|y l].
      * apply (IH []). exact E2.
      * injection E2 as <- E2.
        assert (Hin : In x (utf8_char c)) by (rewrite E1; apply in_or_app; right; left; reflexivity).
        apply utf8_char_bytes in Hin as [[Hc _]|[_ Hb]]; [|lia].
        rewrite utf8_char_ascii in E1 by exact Hc.
        destruct a as [|z a]; [|destruct a; discriminate].
        injection E1 as _ <-. cbn in E2. subst b. exists cs. split; [exact Hs'|reflexivity].
Qed.

Lemma boundary_after a x b : valid_str (a ++ x :: b) -> x < 128 ->
  is_char_boundary (a ++ x :: b) (S (List.length a)) = true.
Proof.
  intros Hv Hx. apply valid_after in Hv; [|exact Hx]. unfold is_char_boundary.
  replace (a ++ x :: b) with ((a ++ [x]) ++ b) by (rewrite <- app_assoc; reflexivity).
  replace (S (List.length a)) with (List.length (a ++ [x])) by (rewrite app_length; cbn; lia).
  rewrite nth_error_app2, Nat.sub_diag by lia. destruct b as [|y b]; cbn [nth_error].
  - rewrite app_nil_r. apply Nat.eqb_refl.
  - rewrite (valid_head _ _ Hv). reflexivity.
Qed.

Lemma boundary_at a x b : x < 128 -> is_char_boundary (a ++ x :: b) (List.length a) = true.
Proof.
  intros Hx. unfold is_char_boundary. destruct (List.length a) as [|n] eqn:E; [reflexivity|]. rewrite <- E.
  rewrite nth_error_app2, Nat.sub_diag by lia. cbn [nth_error].
  unfold is_cont. destruct (N.leb_spec 128 x); [lia|]. reflexivity.
Qed.

Lemma boundary_len a : is_char_boundary a (List.length a) = true.
Proof.
  unfold is_char_boundary. destruct (List.length a) as [|n] eqn:E; [reflexivity|]. rewrite <- E.
  rewrite (proj2 (nth_error_None a (List.length a))) by lia. apply Nat.eqb_refl.
Qed.

Lemma boundary_0 a : is_char_boundary a 0 = true.
Proof. reflexivity. Qed.

Lemma firstn_skipn_mid (a m b : list N) : firstn (List.length m) (skipn (List.length a) (a ++ m ++ b)) = m.
Proof.
  rewrite skipn_app, skipn_all, Nat.sub_diag. cbn [app skipn].
  rewrite firstn_app, firstn_all, Nat.sub_diag. cbn. apply app_nil_r.
Qed.

Lemma str_slice_mid {E} a m b : is_char_boundary (a ++ m ++ b) (List.length a) = true ->
  is_char_boundary (a ++ m ++ b) (List.length a + List.length m) = true ->
  @str_slice E (a ++ m ++ b) (List.length a) (List.length a + List.length m) = Ok m.
Proof.
  intros H1 H2. unfold str_slice. rewrite H1, H2.
  rewrite (proj2 (Nat.leb_le (List.length a) (List.length a + List.length m))) by lia.
  rewrite (proj2 (Nat.leb_le (List.length a + List.length m) (List.length (a ++ m ++ b))))
    by (rewrite !app_length; lia).
  cbn [andb]. replace (List.length a + List.length m - List.length a)%nat with (List.length m) by lia.
  rewrite firstn_skipn_mid. reflexivity.
Qed.

(** The text before an ASCII byte, and after it. *)
Lemma str_slice_before {E} a x b : x < 128 -> @str_slice E (a ++ x :: b) 0 (List.length a) = Ok a.
Proof.
  intros Hx. apply (@str_slice_mid E [] a (x :: b)); [reflexivity|]. cbn [app List.length Nat.add]. apply boundary_at, Hx.
Qed.

Lemma str_slice_after {E} a x b : valid_str (a ++ x :: b) -> x < 128 ->
  @str_slice_from E (a ++ x :: b) (List.length a + 1) = Ok b.
Proof.
  intros Hv Hx. unfold str_slice_from.
  replace (a ++ x :: b) with ((a ++ [x]) ++ b ++ []) by (rewrite app_nil_r, <- app_assoc; reflexivity).
  replace (List.length a + 1)%nat with (List.length (a ++ [x])) by (rewrite app_length; cbn; lia).
  replace (List.length ((a ++ [x]) ++ b ++ [])) with (List.length (a ++ [x]) + List.length b)%nat
    by (rewrite !app_length; cbn; lia).
  apply str_slice_mid.
  - rewrite app_nil_r, <- app_assoc. cbn [app]. rewrite app_length. cbn [List.length].
    replace (List.length a + 1)%nat with (S (List.length a)) by lia. apply boundary_after; assumption.
  - replace (List.length (a ++ [x]) + List.length b)%nat with (List.length ((a ++ [x]) ++ b ++ []))
      by (rewrite !app_length; cbn; lia).
    apply boundary_len.
Qed.

(** Between two ASCII bytes. *)
Lemma str_slice_between {E} a x m y b : valid_str (a ++ x :: m ++ y :: b) -> x < 128 -> y < 128 ->
  @str_slice E (a ++ x :: m ++ y :: b) (S (List.length a)) (S (List.length a) + List.length m) = Ok m.
Proof.
  intros Hv Hx Hy. pose proof (boundary_after a x (m ++ y :: b) Hv Hx) as B1.
  replace (a ++ x :: m ++ y :: b) with ((a ++ [x]) ++ m ++ y :: b) in * by (rewrite <- app_assoc; reflexivity).
  replace (S (List.length a)) with (List.length (a ++ [x])) in * by (rewrite app_length; cbn; lia).
  apply str_slice_mid; [exact B1|].
  rewrite app_assoc. replace (List.length (a ++ [x]) + List.length m)%nat with (List.length ((a ++ [x]) ++ m))
    by (rewrite app_length; reflexivity).
  apply boundary_at, Hy.
Qed.

Lemma rposition_some : forall c l i, rposition c l = Some i <->
  exists a b, l = a ++ c :: b /\ List.length a = i /\ ~ In c b.
Proof.
  intros c. induction l as [|x l IH]; intros i; cbn [rposition].
  - split; [discriminate|]. intros ([|? ?] & b & E & _); discriminate.
  - destruct (rposition c l) as [j|] eqn:Er.
    + split.
      * intros H. injection H as <-. destruct (proj1 (IH j) eq_refl) as (a & b & -> & <- & Hb).
        exists (x :: a), b. repeat split. exact Hb.
      * intros ([|y a] & b & E & <- & Hb).
        -- injection E as -> ->. exfalso. destruct (proj1 (IH j) eq_refl) as (a & b' & -> & _).
           apply Hb, in_or_app. right. left. reflexivity.
        -- injection E as -> ->. f_equal. cbn [List.length].
           assert (X : Some j = Some (List.length a)) by (apply IH; exists a, b; repeat split; exact Hb).
           injection X as ->. reflexivity.
    + assert (Hn : ~ In c l).
      { intros Hi. clear -Er Hi. induction l as [|y l IH]; [destruct Hi|]. cbn [rposition] in Er.
        destruct (rposition c l); [discriminate|]. destruct (N.eqb_spec y c); [discriminate|].
        destruct Hi as [->|Hi]; [contradiction|]. apply IH; [reflexivity|exact Hi]. }
      destruct (N.eqb_spec x c) as [->|Hx].
      * split.
        -- intros H. injection H as <-. exists [], l. repeat split. exact Hn.
        -- intros ([|y a] & b & E & <- & Hb); [reflexivity|]. injection E as -> ->. exfalso.
           apply Hn, in_or_app. right. left. reflexivity.
      * split; [discriminate|]. intros ([|y a] & b & E & <- & Hb); injection E as -> ->; [contradiction|].
        exfalso. apply Hn, in_or_app. right. left. reflexivity.
Qed.

Lemma rposition_none c l : rposition c l = None <-> ~ In c l.
Proof.
  split.
  - intros H Hi. assert (X : exists i, rposition c l = Some i).
    { clear H. induction l as [|x l IH]; [destruct Hi|]. cbn [rposition].
      destruct (rposition c l) as [j|] eqn:E; [exists (S j); reflexivity|].
      destruct Hi as [->|Hi]; [rewrite N.eqb_refl; exists 0%nat; reflexivity|].
      destruct (IH Hi) as [j Hj]. discriminate Hj. }
    destruct X as [i X]. congruence.
  - intros Hn. destruct (rposition c l) as [i|] eqn:E; [|reflexivity].
    apply rposition_some in E as (a & b & -> & _). exfalso. apply Hn, in_or_app. right. left. reflexivity.
Qed.

Lemma position_some : forall c l i, position c l = Some i <->
  exists a b, l = a ++ c :: b /\ List.length a = i /\ ~ In c a.
Proof.
  intros c. induction l as [|x l IH]; intros i; cbn [position].
  - split; [discriminate|]. intros ([|? ?] & b & E & _); discriminate.
  - destruct (N.eqb_spec x c) as [->|Hx].
    + split.
      * intros H. injection H as <-. exists [], l. repeat split. intros [].
      * intros ([|y a] & b & E & <- & Ha); [reflexivity|]. injection E as -> ->. exfalso. apply Ha. left. reflexivity.
    + destruct (position c l) as [j|] eqn:E.
      * split.
        -- intros H. injection H as <-. destruct (proj1 (IH j) eq_refl) as (a & b & -> & <- & Ha).
           exists (x :: a), b. repeat split. intros [->|Hi]; [contradiction|exact (Ha Hi)].
        -- intros ([|y a] & b & E' & <- & Ha); injection E' as -> ->; [contradiction|]. cbn [List.length]. f_equal.
           assert (X : Some j = Some (List.length a)).
           { apply IH. exists a, b. repeat split. intros Hi. apply Ha. right. exact Hi. }
           injection X as ->. reflexivity.
      * split; [discriminate|]. intros ([|y a] & b & E' & <- & Ha); injection E' as -> ->; [contradiction|].
        assert (X : None = Some (List.length a)).
        { apply IH. exists a, b. repeat split. intros Hi. apply Ha. right. exact Hi. }
        discriminate X.
Qed.

Lemma position_none c l : position c l = None <-> ~ In c l.
Proof.
  induction l as [|x l IH]; cbn [position In]; [tauto|].
  destruct (N.eqb_spec x c) as [->|Hx].
  - split; [discriminate|]. intros H. exfalso. apply H. left. reflexivity.
  - destruct (position c l); split; intros H; try discriminate; try reflexivity.
    + exfalso. destruct IH as [_ IH]. assert (X : Some n = None) by (apply IH; tauto). discriminate X.
    + intros [->|Hi]; [contradiction|]. apply IH in Hi; [exact Hi|reflexivity].
Qed.
