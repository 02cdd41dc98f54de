(** The address parsers accept exactly the RFC forms, and printing inverts. *)
From Verif Require Import Base IntStr IntStrProofs MacModel MacSpec MacProofs NetModel NetSpec.
Local Open Scope N_scope.

(** Numerals. *)
Lemma to_digit_iff radix c d : to_digit radix c = Some d <-> radix_digit radix c d.
Proof.
  unfold to_digit, radix_digit. split.
  - intros H. destruct (hex_digit AnyCase c) as [d'|] eqn:E; [|discriminate].
    destruct (N.ltb_spec d' radix); [|discriminate]. injection H as <-.
    split; [apply hex_digit_iff, E|assumption].
  - intros [Hh Hd]. apply hex_digit_iff in Hh. rewrite Hh. apply N.ltb_lt in Hd. rewrite Hd. reflexivity.
Qed.

Fixpoint hval (radix : N) (ds : list N) (acc : N) : option N :=
  match ds with
  | [] => Some acc
  | c :: r => match to_digit radix c with Some d => hval radix r (acc * radix + d) | None => None end
  end.

Lemma hval_app radix : forall a b acc,
  hval radix (a ++ b) acc = match hval radix a acc with Some v => hval radix b v | None => None end.
Proof.
  induction a as [|c a IH]; intros b acc; [reflexivity|]. cbn [app hval].
  destruct (to_digit radix c); [apply IH|reflexivity].
Qed.

Lemma numeral_iff radix ds n : numeral radix ds n <-> ds <> [] /\ hval radix ds 0 = Some n.
Proof.
  split.
  - induction 1 as [c d Hc|ds n c d H [IH1 IH2] Hc].
    + split; [discriminate|]. cbn [hval]. apply to_digit_iff in Hc. rewrite Hc. reflexivity.
    + split; [destruct ds; discriminate|]. rewrite hval_app, IH2. cbn [hval].
      apply to_digit_iff in Hc. rewrite Hc. reflexivity.
  - intros [Hne H]. revert n Hne H. induction ds as [|c ds IH] using rev_ind; intros n Hne H; [congruence|].
    rewrite hval_app in H. destruct (hval radix ds 0) as [v|] eqn:Ev; [|discriminate].
    cbn [hval] in H. destruct (to_digit radix c) as [d|] eqn:Ed; [|discriminate]. injection H as <-.
    apply to_digit_iff in Ed. destruct ds as [|x ds].
    + cbn in Ev. injection Ev as <-. cbn [app]. replace (0 * radix + d) with d by lia. constructor. exact Ed.
    + apply num_snoc; [apply IH; [discriminate|reflexivity]|exact Ed].
Qed.

Lemma hval_digits radix : forall ds acc v, hval radix ds acc = Some v ->
  Forall (fun c => exists d, to_digit radix c = Some d) ds.
Proof.
  induction ds as [|c ds IH]; intros acc v H; constructor; cbn [hval] in H;
  destruct (to_digit radix c) as [d|] eqn:E; try discriminate; [exists d; reflexivity|exact (IH _ _ H)].
Qed.

Lemma numeral_digits radix ds n : numeral radix ds n -> Forall (fun c => exists d, to_digit radix c = Some d) ds.
Proof. intros H. apply numeral_iff in H as [_ H]. exact (hval_digits _ _ _ _ H). Qed.

Definition stops (radix : N) (rest : list N) : Prop :=
  match rest with [] => True | c :: _ => to_digit radix c = None end.

Lemma num_loop_spec radix max : forall s r cnt res cnt' rest,
  num_loop radix max s r cnt = Some (res, cnt', rest) <->
  exists ds, s = ds ++ rest /\ hval radix ds r = Some res /\ cnt' = (cnt + List.length ds)%nat /\
    (ds = [] \/ (cnt' <= max)%nat) /\ stops radix rest.
Proof.
  induction s as [|c s IH]; intros r cnt res cnt' rest; cbn [num_loop].
  - split.
    + intros H. injection H as <- <- <-. exists []. repeat split; [cbn; lia|left; reflexivity].
    + intros (ds & E & Hv & -> & _ & _). symmetry in E. apply app_eq_nil in E as [-> ->].
      cbn in Hv. injection Hv as <-. f_equal. f_equal. f_equal. cbn. lia.
  - destruct (to_digit radix c) as [d|] eqn:Ed.
    + destruct (Nat.ltb_spec max (S cnt)) as [Hm|Hm].
      * split; [discriminate|]. intros (ds & E & Hv & -> & Hx & Hs). destruct ds as [|x ds].
        -- cbn in E. subst rest. cbn in Hs. congruence.
        -- cbn [List.length] in Hx. destruct Hx as [Hx|Hx]; [discriminate|lia].
      * rewrite IH. split.
        -- intros (ds & -> & Hv & -> & Hx & Hs). exists (c :: ds). cbn [hval List.length app]. rewrite Ed.
           repeat split; [exact Hv|lia| |exact Hs]. right. destruct Hx as [->|Hx]; [cbn; lia|lia].
        -- intros (ds & E & Hv & -> & Hx & Hs). destruct ds as [|x ds].
           ++ cbn in E. subst rest. cbn in Hs. congruence.
           ++ injection E as <- ->. exists ds. cbn [hval List.length] in *. rewrite Ed in Hv.
              repeat split; [exact Hv|lia| |exact Hs]. right. destruct Hx as [Hx|Hx]; [discriminate|exact Hx].
    + split.
      * intros H. injection H as <- <- <-. exists []. repeat split; [cbn; lia|left; reflexivity|exact Ed].
      * intros (ds & E & Hv & -> & Hx & Hs). destruct ds as [|x ds].
        -- cbn in E. subst rest. cbn in Hv. injection Hv as <-. f_equal. f_equal. f_equal. cbn. lia.
        -- injection E as <- ->. cbn [hval] in Hv. rewrite Ed in Hv. discriminate.
Qed.

Lemma read_number_spec radix max zp hi s n rest :
  read_number radix max zp hi s = Some (n, rest) <->
  exists ds, s = ds ++ rest /\ numeral radix ds n /\ (List.length ds <= max)%nat /\
    (zp = false -> forall r, ds = 48 :: r -> r = []) /\ n <= hi /\ stops radix rest.
Proof.
  unfold read_number. split.
  - intros H. destruct (num_loop radix max s 0 0) as [[[res cnt] rest']|] eqn:E; [|discriminate].
    apply num_loop_spec in E as (ds & -> & Hv & -> & Hx & Hs).
    destruct (Nat.eqb_spec (0 + List.length ds) 0) as [|Hn]; [discriminate|].
    destruct (negb zp && _ && _) eqn:Ez; [discriminate|].
    destruct (N.leb_spec res hi) as [Hh|]; [|discriminate]. injection H as <- <-.
    exists ds. split; [reflexivity|]. split.
    { apply numeral_iff. split; [intros ->; apply Hn; reflexivity|exact Hv]. }
    split; [destruct Hx as [->|Hx]; [exfalso; apply Hn; reflexivity|exact Hx]|].
    split; [|split; assumption].
    intros -> r ->. cbn [app negb andb List.length] in Ez. rewrite N.eqb_refl in Ez. cbn [andb] in Ez.
    apply Nat.ltb_ge in Ez. destruct r; [reflexivity|cbn in Ez; lia].
  - intros (ds & -> & Hn & Hl & Hz & Hh & Hs). apply numeral_iff in Hn as [Hne Hv].
    assert (E : num_loop radix max (ds ++ rest) 0 0 = Some (n, List.length ds, rest)).
    { apply num_loop_spec. exists ds. repeat split; try assumption. right. exact Hl. }
    rewrite E. destruct ds as [|c ds]; [congruence|]. cbn [List.length Nat.eqb app].
    destruct (negb zp && (c =? 48) && (1 <? S (List.length ds))%nat) eqn:Ez.
    + exfalso. apply andb_true_iff in Ez as [Ez E3]. apply andb_true_iff in Ez as [E1 E2].
      destruct zp; [discriminate|]. apply N.eqb_eq in E2. subst c.
      rewrite (Hz eq_refl ds eq_refl) in E3. discriminate.
    + apply N.leb_le in Hh. rewrite Hh. reflexivity.
Qed.

(** An octet has at most three digits. *)
Lemma hval_mono radix : 1 <= radix -> forall ds acc v, hval radix ds acc = Some v ->
  acc * radix ^ N.of_nat (List.length ds) <= v.
Proof.
  intros Hr. induction ds as [|c ds IH]; intros acc v H; cbn [hval] in H.
  - injection H as <-. cbn. lia.
  - destruct (to_digit radix c) as [d|] eqn:E; [|discriminate]. apply IH in H.
    cbn [List.length]. rewrite Nat2N.inj_succ, N.pow_succ_r by lia. nia.
Qed.

Lemma to_digit_zero radix c : to_digit radix c = Some 0 -> c = 48.
Proof.
  unfold to_digit. destruct (hex_digit AnyCase c) as [d|] eqn:E; [|discriminate].
  destruct (d <? radix); [|discriminate]. intros H. injection H as ->. unfold hex_digit in E.
  repeat match type of E with context [if ?b then _ else _] => destruct b eqn:? end;
  try discriminate; injection E; lia.
Qed.

Lemma octet_length ds n : octet ds n -> (1 <= List.length ds <= 3)%nat.
Proof.
  intros (Hn & Hb & Hz). apply numeral_iff in Hn as [Hne Hv].
  destruct ds as [|c ds]; [congruence|]. cbn [hval List.length] in *.
  destruct (to_digit 10 c) as [d|] eqn:Ed; [|discriminate].
  destruct (N.eqb_spec d 0) as [->|Hd].
  - apply to_digit_zero in Ed as ->. rewrite (Hz ds eq_refl). cbn. lia.
  - apply hval_mono in Hv; [|lia].
    assert (H10 : 10 ^ N.of_nat (List.length ds) <= 255) by nia.
    destruct (Nat.le_gt_cases (List.length ds) 2) as [|Hgt]; [lia|].
    assert (10 ^ 3 <= 10 ^ N.of_nat (List.length ds)) by (apply N.pow_le_mono_r; lia).
    change (10 ^ 3) with 1000 in *. lia.
Qed.

Lemma read_octet_spec s n rest :
  read_number 10 3 false 255 s = Some (n, rest) <->
  exists ds, s = ds ++ rest /\ octet ds n /\ stops 10 rest.
Proof.
  rewrite read_number_spec. split.
  - intros (ds & -> & Hn & Hl & Hz & Hh & Hs). exists ds. repeat split; try assumption. exact (Hz eq_refl).
  - intros (ds & -> & Ho & Hs). pose proof (octet_length _ _ Ho) as Hl. destruct Ho as (Hn & Hb & Hz).
    exists ds. repeat split; try assumption; [lia|]. intros _. exact Hz.
Qed.

Lemma read_sep_S {A} sep i (p : parser A) s x :
  read_separator sep (S i) p s = Some x <-> exists s', s = sep :: s' /\ p s' = Some x.
Proof.
  unfold read_separator, read_given_char. change (0 <? S i)%nat with true. cbn [andb].
  destruct s as [|c s]; [split; [discriminate|intros (? & ? & _); discriminate]|].
  destruct (N.eqb_spec c sep) as [->|Hc].
  - split; [intros H; exists s; split; [reflexivity|exact H]|]. intros (s' & E & H). injection E as ->. exact H.
  - split; [discriminate|]. intros (s' & E & H). injection E as -> ->. contradiction.
Qed.

Lemma read_octets_S n i s xs rest : read_octets (S n) (S i) s = Some (xs, rest) <->
  exists ds x xs' s', octet ds x /\ xs = x :: xs' /\ s = 46 :: ds ++ s' /\ stops 10 s' /\
    read_octets n (S (S i)) s' = Some (xs', rest).
Proof.
  cbn [read_octets]. split.
  - intros H. destruct (read_separator 46 (S i) _ s) as [[x s']|] eqn:E; [|discriminate].
    apply read_sep_S in E as (s1 & -> & E). apply read_octet_spec in E as (ds & -> & Ho & Hs).
    destruct (read_octets n (S (S i)) s') as [[xs' s'']|] eqn:E2; [|discriminate].
    injection H as <- <-. exists ds, x, xs', s'. repeat split; try assumption; apply Ho.
  - intros (ds & x & xs' & s' & Ho & -> & -> & Hs & H).
    assert (E : read_separator 46 (S i) (read_number 10 3 false 255) (46 :: ds ++ s') = Some (x, s')).
    { apply read_sep_S. exists (ds ++ s'). split; [reflexivity|]. apply read_octet_spec.
      exists ds. repeat split; try assumption; apply Ho. }
    rewrite E, H. reflexivity.
Qed.

Lemma read_octets_0 n s : read_octets (S n) 0 s =
  match read_number 10 3 false 255 s with
  | None => None
  | Some (x, s') => match read_octets n 1 s' with None => None | Some (xs, s'') => Some (x :: xs, s'') end
  end.
Proof. reflexivity. Qed.

Lemma read_ipv4_spec s a rest : read_ipv4_addr s = Some (a, rest) <->
  exists t, s = t ++ rest /\ v4_text t a /\ stops 10 rest.
Proof.
  unfold read_ipv4_addr. split.
  - intros H. rewrite read_octets_0 in H.
    destruct (read_number 10 3 false 255 s) as [[x1 s1]|] eqn:E1; [|discriminate].
    apply read_octet_spec in E1 as (d1 & -> & O1 & S1).
    destruct (read_octets 3 1 s1) as [[xs s'']|] eqn:E; [|discriminate]. injection H as <- <-.
    apply read_octets_S in E as (d2 & x2 & xs2 & s2 & O2 & -> & -> & S2 & E).
    apply read_octets_S in E as (d3 & x3 & xs3 & s3 & O3 & -> & -> & S3 & E).
    apply read_octets_S in E as (d4 & x4 & xs4 & s4 & O4 & -> & -> & S4 & E).
    cbn [read_octets] in E. injection E as <- <-.
    exists (d1 ++ [46] ++ d2 ++ [46] ++ d3 ++ [46] ++ d4). split.
    { rewrite <- !app_assoc. reflexivity. }
    split; [|exact S4]. exists d1, d2, d3, d4, x1, x2, x3, x4. repeat split; try assumption; apply O1 || apply O2 || apply O3 || apply O4.
  - intros (t & -> & (d1 & d2 & d3 & d4 & n1 & n2 & n3 & n4 & O1 & O2 & O3 & O4 & -> & ->) & Hs).
    rewrite read_octets_0. rewrite <- !app_assoc. cbn [app].
    assert (E1 : read_number 10 3 false 255 (d1 ++ 46 :: d2 ++ 46 :: d3 ++ 46 :: d4 ++ rest)
                 = Some (n1, 46 :: d2 ++ 46 :: d3 ++ 46 :: d4 ++ rest)).
    { apply read_octet_spec. exists d1. split; [reflexivity|]. split; [exact O1|reflexivity]. }
    rewrite E1.
    assert (E : read_octets 3 1 (46 :: d2 ++ 46 :: d3 ++ 46 :: d4 ++ rest) = Some ([n2; n3; n4], rest)).
    { apply read_octets_S. exists d2, n2, [n3; n4], (46 :: d3 ++ 46 :: d4 ++ rest).
      split; [exact O2|]. split; [reflexivity|]. split; [reflexivity|]. split; [reflexivity|].
      apply read_octets_S. exists d3, n3, [n4], (46 :: d4 ++ rest).
      split; [exact O3|]. split; [reflexivity|]. split; [reflexivity|]. split; [reflexivity|].
      apply read_octets_S. exists d4, n4, [], rest.
      split; [exact O4|]. split; [reflexivity|]. split; [reflexivity|]. split; [exact Hs|]. reflexivity. }
    rewrite E. reflexivity.
Qed.

Lemma v4_text_length s a : v4_text s a -> (List.length s <= 15)%nat.
Proof.
  intros (d1 & d2 & d3 & d4 & n1 & n2 & n3 & n4 & O1 & O2 & O3 & O4 & -> & ->).
  apply octet_length in O1, O2, O3, O4. rewrite !app_length. cbn [List.length]. lia.
Qed.

Theorem ipv4_from_str_spec s a : ipv4_from_str s = Some a <-> v4_text s a.
Proof.
  unfold ipv4_from_str, parse_with. split.
  - destruct (_ <? _)%nat; [discriminate|]. destruct (read_ipv4_addr s) as [[x r]|] eqn:E; [|discriminate].
    destruct r; [|discriminate]. intros H. injection H as <-.
    apply read_ipv4_spec in E as (t & -> & Ht & _). rewrite app_nil_r. exact Ht.
  - intros H. pose proof (v4_text_length _ _ H) as Hl.
    destruct (Nat.ltb_spec 15 (List.length s)); [lia|].
    assert (E : read_ipv4_addr s = Some (a, [])).
    { apply read_ipv4_spec. exists s. rewrite app_nil_r. repeat split. exact H. }
    rewrite E. reflexivity.
Qed.

(** IPv6 groups. *)
Definition pre (i : nat) : list N := match i with O => [] | S _ => [58] end.

Lemma read_sep_pre {A} i (p : parser A) s x :
  read_separator 58 i p s = Some x <-> exists s', s = pre i ++ s' /\ p s' = Some x.
Proof.
  destruct i as [|i].
  - unfold read_separator. cbn [Nat.ltb Nat.leb pre app]. split; [intros H; exists s; split; [reflexivity|exact H]|].
    intros (s' & -> & H). exact H.
  - apply read_sep_S.
Qed.

Lemma h16_read s n rest : read_number 16 4 true 65535 s = Some (n, rest) <->
  exists ds, s = ds ++ rest /\ h16 ds n /\ stops 16 rest.
Proof.
  rewrite read_number_spec. split.
  - intros (ds & -> & Hn & Hl & _ & Hh & Hs). exists ds. repeat split; assumption.
  - intros (ds & -> & [Hn Hl] & Hs). exists ds. repeat split; try assumption; [discriminate|].
    apply numeral_iff in Hn as [_ Hv].
    assert (Hub : forall ds acc v, hval 16 ds acc = Some v -> v < (acc + 1) * 16 ^ N.of_nat (List.length ds)).
    { clear. induction ds as [|c ds IH]; intros acc v H; cbn [hval] in H.
      - injection H as <-. cbn. lia.
      - destruct (to_digit 16 c) as [d|] eqn:E; [|discriminate]. apply IH in H.
        apply to_digit_iff in E as [_ E].
        cbn [List.length]. rewrite Nat2N.inj_succ, N.pow_succ_r by lia. nia. }
    apply Hub in Hv. assert (16 ^ N.of_nat (List.length ds) <= 16 ^ 4) by (apply N.pow_le_mono_r; lia).
    change (16 ^ 4) with 65536 in *. lia.
Qed.

Lemma h16_bound ds n : h16 ds n -> n < 65536.
Proof.
  intros H. assert (E : read_number 16 4 true 65535 ds = Some (n, [])).
  { apply h16_read. exists ds. rewrite app_nil_r. repeat split; apply H. }
  apply read_number_spec in E as (? & _ & _ & _ & _ & E & _). lia.
Qed.

Lemma groups_weaken s l : groups false s l -> groups true s l.
Proof. induction 1 as [| |]; [apply groups_one; assumption|discriminate|apply groups_cons; assumption]. Qed.

Lemma read_groups_sound : forall left i s l v4 rest, read_groups left i s = (l, v4, rest) ->
  (List.length l <= left)%nat /\
  ((l = [] /\ rest = s /\ v4 = false) \/ exists t, s = pre i ++ t ++ rest /\ groups v4 t l).
Proof.
  induction left as [|left IH]; intros i s l v4 rest H; cbn [read_groups] in H.
  - injection H as <- <- <-. split; [cbn; lia|left; repeat split].
  - destruct (if (1 <? S left)%nat then read_separator 58 i read_ipv4_addr s else None) as [[a s']|] eqn:E4.
    + assert (Hl : (1 <? S left)%nat = true) by (destruct (1 <? S left)%nat; [reflexivity|discriminate]).
      rewrite Hl in E4. apply Nat.ltb_lt in Hl.
      apply read_sep_pre in E4 as (s1 & -> & E4). apply read_ipv4_spec in E4 as (t & -> & Ht & Hs).
      pose proof Ht as (d1 & d2 & d3 & d4 & n1 & n2 & n3 & n4 & _ & _ & _ & _ & -> & _).
      injection H as <- <- <-. split; [cbn; lia|]. right. exists t. split; [reflexivity|].
      apply groups_v4; [reflexivity|exact Ht].
    + destruct (read_separator 58 i (read_number 16 4 true 65535) s) as [[g s']|] eqn:E6.
      * apply read_sep_pre in E6 as (s1 & -> & E6). apply h16_read in E6 as (ds & -> & Hd & Hs).
        destruct (read_groups left (S i) s') as [[gs b] s''] eqn:Er. injection H as <- <- <-.
        apply IH in Er as [Hlen [(-> & -> & ->)|(t & -> & Ht)]].
        -- split; [cbn; lia|]. right. exists ds. split; [reflexivity|]. apply groups_one, Hd.
        -- split; [cbn; lia|]. right. exists (ds ++ [58] ++ t). split.
           ++ cbn [pre]. rewrite <- !app_assoc. reflexivity.
           ++ apply groups_cons; assumption.
      * injection H as <- <- <-. split; [cbn; lia|left; repeat split].
Qed.

(** A text after the groups at which the parser stops. *)
Definition group_end (rest : list N) : Prop := rest = [] \/ exists r, rest = 58 :: 58 :: r.

Lemma digit_colon radix : to_digit radix 58 = None.
Proof. reflexivity. Qed.
Lemma digit_dot radix : to_digit radix 46 = None.
Proof. reflexivity. Qed.

Lemma first_nondigit : forall a b x u v, Forall (fun c => exists d, to_digit 16 c = Some d) a ->
  Forall (fun c => exists d, to_digit 16 c = Some d) b -> to_digit 16 x = None ->
  a ++ x :: u = b ++ v -> stops 16 v -> a = b /\ v = x :: u.
Proof.
  induction a as [|c a IH]; intros b x u v Ha Hb Hx E Hv.
  - destruct b as [|d b]; [split; [reflexivity|symmetry; exact E]|].
    injection E as <- _. apply Forall_inv in Hb as [? Hb]. congruence.
  - destruct b as [|d b].
    + cbn in E. subst v. cbn in Hv. apply Forall_inv in Ha as [? Ha]. congruence.
    + injection E as <- E. destruct (IH b x u v) as [-> ->]; try assumption;
      [exact (Forall_inv_tail Ha)|exact (Forall_inv_tail Hb)|]. split; reflexivity.
Qed.

Lemma digits_10_16 ds : Forall (fun c => exists d, to_digit 10 c = Some d) ds ->
  Forall (fun c => exists d, to_digit 16 c = Some d) ds.
Proof.
  intros H. eapply Forall_impl; [|exact H]. intros c [d Hd]. exists d.
  apply to_digit_iff in Hd as [H1 H2]. apply to_digit_iff. split; [exact H1|lia].
Qed.

Lemma octet_digits ds n : octet ds n -> Forall (fun c => exists d, to_digit 16 c = Some d) ds.
Proof. intros (H & _). apply digits_10_16, (numeral_digits _ _ _ H). Qed.

(** A dotted address does not start where a group followed by a colon (or nothing) stands. *)
Lemma no_ipv4_here d X : Forall (fun c => exists e, to_digit 16 c = Some e) d ->
  (X = [] \/ exists r, X = 58 :: r) -> read_ipv4_addr (d ++ X) = None.
Proof.
  intros Hd HX. destruct (read_ipv4_addr (d ++ X)) as [[a r]|] eqn:E; [|reflexivity]. exfalso.
  apply read_ipv4_spec in E as (t & E & (d1 & d2 & d3 & d4 & n1 & n2 & n3 & n4 & O1 & _ & _ & _ & _ & ->) & _).
  rewrite <- !app_assoc in E. cbn [app] in E. symmetry in E.
  apply first_nondigit in E as [_ E]; [|exact (octet_digits _ _ O1)|exact Hd|reflexivity|].
  - destruct HX as [->|[r' ->]]; discriminate.
  - destruct HX as [->|[r' ->]]; [exact I|reflexivity].
Qed.

Lemma sep_none {A} i (p : parser A) s : p s = None -> read_separator 58 i p (pre i ++ s) = None.
Proof.
  intros H. destruct (read_separator 58 i p (pre i ++ s)) as [x|] eqn:E; [|reflexivity].
  apply read_sep_pre in E as (s' & E & Hp). apply app_inv_head in E as <-. congruence.
Qed.

Lemma read_groups_end left i rest : group_end rest -> (i = 0%nat -> rest = [] \/ exists r, rest = 58 :: r) ->
  read_groups left i rest = ([], false, rest).
Proof.
  intros He _. destruct left as [|left]; [reflexivity|]. cbn [read_groups].
  assert (H4 : read_separator 58 i read_ipv4_addr rest = None).
  { destruct He as [->|[r ->]]; destruct i as [|i]; reflexivity. }
  assert (H6 : read_separator 58 i (read_number 16 4 true 65535) rest = None).
  { destruct He as [->|[r ->]]; destruct i as [|i]; reflexivity. }
  rewrite H4, H6. destruct (1 <? S left)%nat; reflexivity.
Qed.

Lemma read_groups_complete b t l : groups b t l -> forall left i rest, (List.length l <= left)%nat ->
  group_end rest -> exists flag, read_groups left i (pre i ++ t ++ rest) = (l, flag, rest) /\
    (flag = true -> b = true).
Proof.
  induction 1 as [d n Hd|s n1 n2 n3 n4 Hb Hv|d n s l Hd Hg IH]; intros left i rest Hl He.
  - destruct left as [|left]; [cbn in Hl; lia|]. exists false. split; [|discriminate]. cbn [read_groups].
    assert (Hdig : Forall (fun c => exists e, to_digit 16 c = Some e) d) by (exact (numeral_digits _ _ _ (proj1 Hd))).
    rewrite (sep_none i read_ipv4_addr (d ++ rest)).
    2: { apply no_ipv4_here; [exact Hdig|]. destruct He as [->|[r ->]]; [left; reflexivity|right; eexists; reflexivity]. }
    assert (E : read_separator 58 i (read_number 16 4 true 65535) (pre i ++ d ++ rest) = Some (n, rest)).
    { apply read_sep_pre. exists (d ++ rest). split; [reflexivity|]. apply h16_read. exists d.
      split; [reflexivity|]. split; [exact Hd|]. destruct He as [->|[r ->]]; [exact I|reflexivity]. }
    rewrite E. rewrite (read_groups_end left (S i) rest He) by discriminate.
    destruct (1 <? S left)%nat; reflexivity.
  - destruct left as [|[|left]]; [cbn in Hl; lia|cbn in Hl; lia|]. exists true. split; [|intros _; exact Hb].
    cbn [read_groups]. change (1 <? S (S left))%nat with true. cbn iota.
    assert (E : read_separator 58 i read_ipv4_addr (pre i ++ s ++ rest) = Some ([n1; n2; n3; n4], rest)).
    { apply read_sep_pre. exists (s ++ rest). split; [reflexivity|]. apply read_ipv4_spec. exists s.
      split; [reflexivity|]. split; [exact Hv|]. destruct He as [->|[r ->]]; [exact I|reflexivity]. }
    rewrite E. reflexivity.
  - destruct left as [|left]; [cbn in Hl; lia|]. cbn [List.length] in Hl.
    destruct (IH left (S i) rest ltac:(lia) He) as (flag & IHe & IHf).
    exists flag. split; [|exact IHf]. cbn [read_groups].
    assert (Hdig : Forall (fun c => exists e, to_digit 16 c = Some e) d) by (exact (numeral_digits _ _ _ (proj1 Hd))).
    rewrite <- !app_assoc.
    rewrite (sep_none i read_ipv4_addr (d ++ [58] ++ s ++ rest)).
    2: { apply no_ipv4_here; [exact Hdig|]. right. eexists. reflexivity. }
    assert (E : read_separator 58 i (read_number 16 4 true 65535) (pre i ++ d ++ [58] ++ s ++ rest)
                = Some (n, [58] ++ s ++ rest)).
    { apply read_sep_pre. exists (d ++ [58] ++ s ++ rest). split; [reflexivity|]. apply h16_read. exists d.
      split; [reflexivity|]. split; [exact Hd|reflexivity]. }
    rewrite E. cbn [pre] in IHe. rewrite IHe. destruct (1 <? S left)%nat; reflexivity.
Qed.

Lemma read_given_spec c s x : read_given_char c s = Some x <-> s = c :: snd x.
Proof.
  unfold read_given_char. destruct s as [|d s]; [split; discriminate|].
  destruct (N.eqb_spec d c) as [->|Hd].
  - destruct x as [[] x]. cbn. split; [intros H; injection H as ->; reflexivity|intros H; injection H as ->; reflexivity].
  - split; [discriminate|]. intros H. injection H as -> _. contradiction.
Qed.

Theorem ipv6_from_str_spec s l : ipv6_from_str s = Some l <-> v6_text s l.
Proof.
  unfold ipv6_from_str, parse_with, read_ipv6_addr. split.
  - destruct (read_groups 8 0 s) as [[head hv4] r] eqn:Eh.
    apply read_groups_sound in Eh as [Hlen Hh].
    destruct (Nat.eqb_spec (List.length head) 8) as [E8|E8].
    + destruct r; [|discriminate]. intros H. injection H as <-. left. split; [|exact E8].
      destruct Hh as [(-> & _)|(t & -> & Ht)]; [discriminate|]. cbn [pre app]. rewrite app_nil_r.
      destruct hv4; [exact Ht|apply groups_weaken, Ht].
    + destruct hv4; [discriminate|].
      destruct (read_given_char 58 r) as [[[] r1]|] eqn:E1; [|discriminate].
      apply read_given_spec in E1. cbn in E1. subst r.
      destruct (read_given_char 58 r1) as [[[] r2]|] eqn:E2; [|discriminate].
      apply read_given_spec in E2. cbn in E2. subst r1.
      destruct (read_groups (8 - (List.length head + 1)) 0 r2) as [[tail tv4] r3] eqn:Et.
      apply read_groups_sound in Et as [Htl Ht].
      destruct r3; [|discriminate]. intros H. injection H as <-. right.
      assert (Ho : exists h, s = h ++ 58 :: 58 :: r2 /\ opt_groups false h head).
      { destruct Hh as [(-> & <- & _)|(t & -> & Hg)].
        - exists []. split; [reflexivity|left; split; reflexivity].
        - exists t. split; [reflexivity|right; exact Hg]. }
      destruct Ho as (h & -> & Ho).
      exists h, r2, head, tail. split; [reflexivity|]. split; [exact Ho|]. split.
      { destruct Ht as [(-> & <- & _)|(t & -> & Hg)]; [left; split; reflexivity|].
        right. cbn [pre app]. rewrite app_nil_r. destruct tv4; [exact Hg|apply groups_weaken, Hg]. }
      split; [lia|reflexivity].
  - intros [[Hg Hl]|(h & t & lh & lt & -> & Hh & Ht & Hlen & ->)].
    + destruct (read_groups_complete _ _ _ Hg 8 0 [] ltac:(lia) (or_introl eq_refl)) as (flag & E & _).
      cbn [pre app] in E. rewrite app_nil_r in E. rewrite E, Hl. reflexivity.
    + assert (Eh : read_groups 8 0 (h ++ [58; 58] ++ t) = (lh, false, [58; 58] ++ t)).
      { assert (He : group_end ([58; 58] ++ t)) by (right; exists t; reflexivity).
        destruct Hh as [[-> ->]|Hg].
        - apply read_groups_end; [exact He|]. intros _. right. eexists. reflexivity.
        - destruct (read_groups_complete _ _ _ Hg 8 0 ([58; 58] ++ t) ltac:(lia) He) as (flag & E & Hf).
          destruct flag; [specialize (Hf eq_refl); discriminate|]. exact E. }
      rewrite Eh. destruct (Nat.eqb_spec (List.length lh) 8); [lia|].
      cbn [app read_given_char]. rewrite N.eqb_refl.
      assert (Et : exists flag, read_groups (8 - (List.length lh + 1)) 0 t = (lt, flag, [])).
      { destruct Ht as [[-> ->]|Hg].
        - exists false. apply read_groups_end; [left; reflexivity|]. intros _. left. reflexivity.
        - destruct (read_groups_complete _ _ _ Hg (8 - (List.length lh + 1)) 0 [] ltac:(lia) (or_introl eq_refl))
            as (flag & E & _). exists flag. cbn [pre app] in E. rewrite app_nil_r in E. exact E. }
      destruct Et as [flag Et]. cbv zeta. cbn [read_given_char]. rewrite N.eqb_refl. cbv iota. rewrite Et. reflexivity.
Qed.

(** Parsed values are addresses. *)
Lemma octet_bound ds n : octet ds n -> n < 256.
Proof. intros (_ & H & _). lia. Qed.

Lemma v4_text_addr s a : v4_text s a -> v4_addr a.
Proof.
  intros (d1 & d2 & d3 & d4 & n1 & n2 & n3 & n4 & O1 & O2 & O3 & O4 & -> & _).
  apply octet_bound in O1, O2, O3, O4. split; [reflexivity|]. repeat constructor; assumption.
Qed.

Lemma groups_bound b s l : groups b s l -> Forall (fun x => x < 65536) l.
Proof.
  induction 1 as [d n Hd|s n1 n2 n3 n4 Hb Hv|d n s l Hd Hg IH].
  - constructor; [exact (h16_bound _ _ Hd)|constructor].
  - apply v4_text_addr in Hv as [_ Hv]. repeat match goal with X : Forall _ (_ :: _) |- _ => inversion X; clear X; subst end.
    constructor; [nia|constructor; [nia|constructor]].
  - constructor; [exact (h16_bound _ _ Hd)|exact IH].
Qed.

Lemma opt_groups_bound b s l : opt_groups b s l -> Forall (fun x => x < 65536) l.
Proof. intros [[_ ->]|H]; [constructor|exact (groups_bound _ _ _ H)]. Qed.

Lemma v6_text_addr s l : v6_text s l -> v6_addr l.
Proof.
  intros [[Hg Hl]|(h & t & lh & lt & -> & Hh & Ht & Hlen & ->)].
  - split; [exact Hl|exact (groups_bound _ _ _ Hg)].
  - split.
    + rewrite !app_length, repeat_length. lia.
    + apply Forall_app. split; [exact (opt_groups_bound _ _ _ Hh)|]. apply Forall_app.
      split; [|exact (opt_groups_bound _ _ _ Ht)]. apply Forall_forall. intros x Hx.
      apply repeat_spec in Hx as ->. lia.
Qed.

(** Printing. *)
Lemma dec_octet n : n < 256 -> octet (dec_of_N n) n.
Proof.
  intros Hn.
  assert (Hall : forallb (fun k => match hval 10 (dec_of_N (N.of_nat k)) 0 with
       | Some v => (v =? N.of_nat k) | None => false end &&
       match dec_of_N (N.of_nat k) with [] => false | c :: r => negb (c =? 48) || match r with [] => true | _ => false end end)
     (seq 0 256) = true) by (vm_compute; reflexivity).
  rewrite forallb_forall in Hall. specialize (Hall (N.to_nat n)). rewrite N2Nat.id in Hall.
  assert (Hin : In (N.to_nat n) (seq 0 256)) by (apply in_seq; lia).
  specialize (Hall Hin). apply andb_true_iff in Hall as [H1 H2].
  destruct (hval 10 (dec_of_N n) 0) as [v|] eqn:Ev; [|discriminate]. apply N.eqb_eq in H1. subst v.
  split; [|split].
  - apply numeral_iff. split; [intros E; rewrite E in H2; discriminate|exact Ev].
  - lia.
  - intros r E. rewrite E in H2. cbn in H2. destruct r; [reflexivity|discriminate].
Qed.

Lemma ipv4_display_text a : v4_addr a -> v4_text (ipv4_display a) a.
Proof.
  intros [Hl Hf]. destruct a as [|a [|b [|c [|d [|]]]]]; try discriminate Hl.
  repeat match goal with X : Forall _ (_ :: _) |- _ => inversion X; clear X; subst end.
  exists (dec_of_N a), (dec_of_N b), (dec_of_N c), (dec_of_N d), a, b, c, d.
  split; [apply dec_octet; assumption|]. split; [apply dec_octet; assumption|].
  split; [apply dec_octet; assumption|]. split; [apply dec_octet; assumption|]. split; reflexivity.
Qed.

Lemma hex_loop_hval : forall fuel x, x < 16 ^ N.of_nat (S fuel) ->
  hval 16 (hex_loop (S fuel) false x) 0 = Some x /\ hex_loop (S fuel) false x <> [].
Proof.
  induction fuel as [|fuel IH]; intros x Hx.
  - cbn [hex_loop]. change (16 ^ N.of_nat 1) with 16 in Hx.
    assert (E : x / 16 = 0) by (apply N.div_small; exact Hx). rewrite E. cbn [N.eqb].
    rewrite (N.mod_small x 16 Hx). cbn [hval]. split; [|discriminate].
    pose proof (hex_char_digit false x Hx) as Hd. cbn [alphabet_of] in Hd.
    assert (Ht : to_digit 16 (hex_char false x) = Some x).
    { apply to_digit_iff. split; [|exact Hx]. apply hex_digit_iff in Hd as (al & Ha & Hn).
      exists al. split; [|exact Hn]. cbn in *. destruct Ha as [<-|[]]. right. left. reflexivity. }
    rewrite N.eqb_refl. cbn [hval]. rewrite Ht. reflexivity.
  - change (hex_loop (S (S fuel)) false x) with
      (if x / 16 =? 0 then [hex_char false (x mod 16)] else hex_loop (S fuel) false (x / 16) ++ [hex_char false (x mod 16)]).
    pose proof (N.mod_lt x 16 ltac:(lia)) as Hm.
    assert (Ht : to_digit 16 (hex_char false (x mod 16)) = Some (x mod 16)).
    { apply to_digit_iff. split; [|exact Hm]. pose proof (hex_char_digit false _ Hm) as Hd.
      cbn [alphabet_of] in Hd. apply hex_digit_iff in Hd as (al & Ha & Hn).
      exists al. split; [|exact Hn]. cbn in *. destruct Ha as [<-|[]]. right. left. reflexivity. }
    pose proof (N.div_mod x 16 ltac:(lia)) as Dm.
    destruct (N.eqb_spec (x / 16) 0) as [E|E].
    + split; [|discriminate]. cbn [hval]. rewrite Ht. f_equal. lia.
    + rewrite (Nat2N.inj_succ (S fuel)), N.pow_succ_r in Hx by lia.
      destruct (IH (x / 16)) as [IH1 IH2]; [apply N.div_lt_upper_bound; lia|].
      split; [|intros X; apply app_eq_nil in X as [_ X]; discriminate].
      rewrite hval_app, IH1. cbn [hval]. rewrite Ht. f_equal. lia.
Qed.

Lemma hex16_h16 x : x < 65536 -> h16 (hex16 x) x.
Proof.
  intros Hx. unfold hex16, hex_fmt.
  assert (Hb : x < 16 ^ N.of_nat 32).
  { eapply N.lt_le_trans; [exact Hx|]. vm_compute. discriminate. }
  destruct (hex_loop_hval 31 x Hb) as [Hv Hne].
  pose proof (hex_loop_length false 32 4 x Hx ltac:(lia)) as Hl.
  set (d := hex_loop 32 false x) in *. change (hex_loop (S 31) false x) with d in Hv, Hne. clearbody d.
  destruct d as [|c d]; [congruence|].
  replace (repeat 48 (1 - List.length (c :: d))) with (@nil N) by reflexivity. cbn [app].
  split; [apply numeral_iff; split; [discriminate|exact Hv]|exact Hl].
Qed.

Lemma fmt_subslice_groups : forall l, l <> [] -> Forall (fun x => x < 65536) l -> groups false (fmt_subslice l) l.
Proof.
  induction l as [|x l IH]; intros Hne Hf; [congruence|].
  destruct l as [|y l].
  - cbn [fmt_subslice fmt_tail]. rewrite app_nil_r. apply groups_one, hex16_h16, (Forall_inv Hf).
  - change (fmt_subslice (x :: y :: l)) with (hex16 x ++ [58] ++ fmt_subslice (y :: l)).
    apply groups_cons; [apply hex16_h16, (Forall_inv Hf)|]. apply IH; [discriminate|exact (Forall_inv_tail Hf)].
Qed.

Lemma fmt_subslice_opt l : Forall (fun x => x < 65536) l -> opt_groups false (fmt_subslice l) l.
Proof.
  intros Hf. destruct l as [|x l]; [left; split; reflexivity|]. right. apply fmt_subslice_groups; [discriminate|exact Hf].
Qed.

(** The zero span. *)
Definition span_ok (all : list N) (sp : nat * nat) : Prop :=
  snd sp = 0%nat \/ exists A B, all = A ++ repeat 0 (snd sp) ++ B /\ List.length A = fst sp.

Lemma longest_zeros_ok : forall segs pre0 longest current,
  span_ok pre0 longest ->
  (snd current = 0%nat \/ exists A, pre0 = A ++ repeat 0 (snd current) /\ List.length A = fst current) ->
  span_ok (pre0 ++ segs) (longest_zeros segs (List.length pre0) longest current).
Proof.
  induction segs as [|x segs IH]; intros pre0 longest current Hl Hc; cbn [longest_zeros].
  - rewrite app_nil_r. exact Hl.
  - replace (pre0 ++ x :: segs) with ((pre0 ++ [x]) ++ segs) by (rewrite <- app_assoc; reflexivity).
    replace (S (List.length pre0)) with (List.length (pre0 ++ [x])) by (rewrite app_length; cbn; lia).
    assert (Hmono : span_ok (pre0 ++ [x]) longest).
    { destruct Hl as [Hl|(A & B & -> & HA)]; [left; exact Hl|]. right. exists A, (B ++ [x]).
      split; [rewrite <- !app_assoc; reflexivity|exact HA]. }
    destruct (N.eqb_spec x 0) as [->|Hx].
    + assert (Hcur : exists A, pre0 ++ [0] = A ++ repeat 0 (S (snd current)) /\
                List.length A = (if Nat.eqb (snd current) 0 then List.length pre0 else fst current)).
      { destruct (Nat.eqb_spec (snd current) 0) as [E|E].
        - exists pre0. rewrite E. split; reflexivity.
        - destruct Hc as [Hc|(A & -> & HA)]; [contradiction|]. exists A. split; [|exact HA].
          rewrite <- app_assoc. f_equal. rewrite <- (repeat_cons (snd current) 0). reflexivity. }
      apply IH.
      * cbn [snd fst]. destruct (snd longest <? S (snd current))%nat; [|exact Hmono].
        right. destruct Hcur as (A & E & HA). exists A, []. cbn [snd fst]. rewrite app_nil_r. split; assumption.
      * right. exact Hcur.
    + apply IH; [exact Hmono|]. left. reflexivity.
Qed.

Lemma to_ipv4_mapped_some l a : to_ipv4_mapped l = Some a -> v6_addr l ->
  exists n1 n2 n3 n4, a = [n1; n2; n3; n4] /\ v4_addr a /\
    l = [0; 0; 0; 0; 0; 65535; n1 * 256 + n2; n3 * 256 + n4].
Proof.
  intros H [Hl Hf]. destruct l as [|s0 [|s1 [|s2 [|s3 [|s4 [|s5 [|ab [|cd [|]]]]]]]]]; try discriminate Hl.
  cbn [to_ipv4_mapped] in H.
  destruct ((s0 =? 0) && (s1 =? 0) && (s2 =? 0) && (s3 =? 0) && (s4 =? 0) && (s5 =? 65535)) eqn:E; [|discriminate].
  injection H as <-.
  repeat match goal with X : andb _ _ = true |- _ => apply andb_true_iff in X as [? X] end.
  repeat match goal with X : (_ =? _) = true |- _ => apply N.eqb_eq in X; subst
                       | X : andb _ _ = true |- _ => apply andb_true_iff in X as [? X] end.
  repeat match goal with X : Forall _ (_ :: _) |- _ => inversion X; clear X; subst end.
  exists (ab / 256), (ab mod 256), (cd / 256), (cd mod 256). split; [reflexivity|]. split.
  - split; [reflexivity|].
    repeat constructor; first [apply N.mod_lt; discriminate | apply N.div_lt_upper_bound; lia].
  - pose proof (N.div_mod ab 256 ltac:(lia)). pose proof (N.div_mod cd 256 ltac:(lia)).
    repeat f_equal; lia.
Qed.

Lemma ipv6_display_text l : v6_addr l -> v6_text (ipv6_display l) l.
Proof.
  intros Ha. pose proof Ha as [Hl Hf]. unfold ipv6_display.
  destruct (to_ipv4_mapped l) as [a|] eqn:Em.
  - apply to_ipv4_mapped_some in Em as (n1 & n2 & n3 & n4 & -> & H4 & ->); [|exact Ha].
    right. exists [], (bs "ffff" ++ [58] ++ ipv4_display [n1; n2; n3; n4]), [], [65535; n1 * 256 + n2; n3 * 256 + n4].
    split; [reflexivity|]. split; [left; split; reflexivity|]. split.
    + right. apply groups_cons.
      * split; [|cbn; lia]. apply numeral_iff. split; [discriminate|reflexivity].
      * apply groups_v4; [reflexivity|]. apply ipv4_display_text, H4.
    + split; [cbn; lia|reflexivity].
  - set (z := longest_zeros l 0 (0%nat, 0%nat) (0%nat, 0%nat)).
    assert (Hz : span_ok l z).
    { apply (longest_zeros_ok l [] (0%nat, 0%nat) (0%nat, 0%nat)); left; reflexivity. }
    clearbody z. destruct (Nat.ltb_spec 1 (snd z)) as [H1|H1].
    + destruct Hz as [Hz|(A & B & -> & HA)]; [lia|]. right.
      exists (fmt_subslice A), (fmt_subslice B), A, B.
      assert (E1 : firstn (fst z) (A ++ repeat 0 (snd z) ++ B) = A).
      { rewrite <- HA, firstn_app, firstn_all, Nat.sub_diag. cbn. apply app_nil_r. }
      assert (E2 : skipn (fst z + snd z) (A ++ repeat 0 (snd z) ++ B) = B).
      { rewrite app_assoc, skipn_app.
        assert (E : List.length (A ++ repeat 0 (snd z)) = (fst z + snd z)%nat)
          by (rewrite app_length, repeat_length; lia).
        rewrite E, Nat.sub_diag, <- E, skipn_all. reflexivity. }
      rewrite E1, E2. split; [reflexivity|].
      apply Forall_app in Hf as [F1 F2]. apply Forall_app in F2 as [_ F2].
      split; [apply fmt_subslice_opt, F1|]. split.
      { destruct (fmt_subslice_opt B F2) as [X|X]; [left; exact X|right; apply groups_weaken, X]. }
      rewrite !app_length, repeat_length in Hl. split; [lia|].
      f_equal. f_equal. f_equal. lia.
    + left. split; [|exact Hl]. apply groups_weaken, fmt_subslice_groups; [|exact Hf].
      destruct l; discriminate.
Qed.

(** Round trips. *)
Theorem ipv4_roundtrip a : v4_addr a -> ipv4_from_str (ipv4_display a) = Some a.
Proof. intros H. apply ipv4_from_str_spec, ipv4_display_text, H. Qed.

Theorem ipv6_roundtrip a : v6_addr a -> ipv6_from_str (ipv6_display a) = Some a.
Proof. intros H. apply ipv6_from_str_spec, ipv6_display_text, H. Qed.
