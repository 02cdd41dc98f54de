(** The grammars of the standards and the forms that the validators read. *)
From Verif Require Import Base IntStr IntStrProofs MacModel MacSpec MacProofs NetModel NetSpec NetProofs IpModel IpSpec IpProofs DomainModel DomainSpec
  DomainProofs IdnaFrag StdSpec.
Local Open Scope N_scope.

Lemma digit_in c : DIGIT c -> to_digit 10 c = Some (c - 48).
Proof.
  unfold DIGIT. intros H. apply to_digit_iff. split; [|lia]. exists (bs "0123456789ABCDEF"). split; [left; reflexivity|].
  assert (X : In c (List.map N.of_nat (List.seq 48 10))) by (apply in_map_iff; exists (N.to_nat c); split; [lia|apply in_seq; lia]).
  cbn in X. repeat destruct X as [<- | X]; try reflexivity; contradiction.
Qed.
Lemma digit_out c d : to_digit 10 c = Some d -> DIGIT c /\ d = c - 48.
Proof.
  intros H. pose proof (digit10_range _ _ H) as R. split; [exact R|]. rewrite (digit_in c R) in H. congruence.
Qed.

Definition hexv (c : N) : N := if c <=? 57 then c - 48 else if c <=? 70 then c - 55 else c - 87.
Lemma hexdig_in c : HEXDIG c -> to_digit 16 c = Some (hexv c).
Proof.
  intros H. assert (X : In c (List.map N.of_nat (List.seq 48 10 ++ List.seq 65 6 ++ List.seq 97 6))).
  { apply in_map_iff. exists (N.to_nat c). split; [lia|]. rewrite !in_app_iff, !in_seq. unfold HEXDIG in H. lia. }
  cbn in X. repeat destruct X as [<- | X]; try reflexivity; contradiction.
Qed.
Lemma hexdig_out c d : to_digit 16 c = Some d -> HEXDIG c /\ d = hexv c.
Proof.
  intros H. assert (R : HEXDIG c).
  { unfold HEXDIG. unfold to_digit in H. destruct (hex_digit AnyCase c) as [d'|] eqn:E; [|discriminate]. unfold hex_digit in E.
    repeat match type of E with context [if ?b then _ else _] => destruct b eqn:? end; try discriminate; lia. }
  split; [exact R|]. rewrite (hexdig_in c R) in H. congruence.
Qed.

Lemma dec_octet_iff ds : dec_octet ds <-> exists n, octet ds n.
Proof.
  split.
  - intros H. assert (K : forall n, ds <> [] -> hval 10 ds 0 = Some n -> n <= 255 -> (forall r, ds = 48 :: r -> r = []) ->
      exists n, octet ds n).
    { intros n A B C D. exists n. split; [apply numeral_iff; split; assumption|]. split; assumption. }
    destruct H as [a A|a b A B|b c A B|b c A B|c A]; eapply K; clear K;
    try (discriminate || (cbn [hval]; rewrite ?digit_in by (unfold DIGIT in *; lia); reflexivity));
    try (unfold DIGIT in *; lia); intros r E; injection E; intros; subst; try reflexivity; try lia.
  - intros [n O]. pose proof (octet_length _ _ O) as L. destruct O as (H & B & Z). apply numeral_iff in H as [_ H].
    destruct ds as [|a [|b [|c [|]]]]; cbn [List.length] in L; try lia; cbn [hval] in H;
    repeat match type of H with context [to_digit 10 ?x] => let E := fresh "E" in destruct (to_digit 10 x) eqn:E; [apply digit_out in E as [? ->]|discriminate] end;
    injection H as <-; unfold DIGIT in *.
    + apply do_one. assumption.
    + apply do_two; [|assumption]. assert (a <> 48) by (intros ->; specialize (Z _ eq_refl); discriminate). lia.
    + assert (a <> 48) by (intros ->; specialize (Z _ eq_refl); discriminate).
      assert (a = 49 \/ (a = 50 /\ b <= 52) \/ (a = 50 /\ b = 53 /\ c <= 53)) as [-> |[[-> X]|(-> & -> & X)]] by lia.
      * apply do_100; assumption.
      * apply do_200; [lia|assumption].
      * apply do_250. lia.
Qed.

Lemma v4_iff s : IPv4address s <-> exists a, v4_text s a.
Proof.
  split.
  - intros (a & b & c & d & A & B & C & D & ->). apply dec_octet_iff in A as [n1 A], B as [n2 B], C as [n3 C], D as [n4 D].
    exists [n1; n2; n3; n4], a, b, c, d, n1, n2, n3, n4. auto 10.
  - intros (x & d1 & d2 & d3 & d4 & n1 & n2 & n3 & n4 & A & B & C & D & _ & ->). exists d1, d2, d3, d4.
    repeat split; apply dec_octet_iff; eexists; eassumption.
Qed.

Lemma hval_hex ds : Forall HEXDIG ds -> forall acc, hval 16 ds acc = Some (fold_left (fun v c => v * 16 + hexv c) ds acc).
Proof.
  induction 1 as [|c ds H _ IH]; intros acc; [reflexivity|]. cbn [hval fold_left]. rewrite (hexdig_in c H). apply IH.
Qed.
Lemma piece_iff ds : hex_piece ds <-> exists n, h16 ds n.
Proof.
  split.
  - intros [L F]. exists (fold_left (fun v c => v * 16 + hexv c) ds 0). split; [|lia]. apply numeral_iff.
    split; [destruct ds; [cbn in L; lia|discriminate]|]. apply hval_hex. exact F.
  - intros (n & H & L). pose proof (numeral_digits _ _ _ H) as F. apply numeral_iff in H as [Ne _].
    split; [destruct ds; [contradiction|cbn in *; lia]|]. eapply Forall_impl; [|exact F]. intros c [d X]. apply (hexdig_out c d X).
Qed.

(** A sequence of groups without an IPv4 address. *)
Lemma head_in : forall k r a, pieces k r -> hex_piece a -> forall b, exists l, groups b (r ++ a) l /\ List.length l = S k.
Proof.
  intros k r a H A b. induction H as [|k p r P _ (l & G & L)].
  - apply piece_iff in A as [n A]. exists [n]. split; [apply groups_one; exact A|reflexivity].
  - apply piece_iff in P as [n P]. exists (n :: l). split; [|cbn; lia]. rewrite <- !app_assoc. exact (groups_cons _ _ _ _ _ P G).
Qed.
Lemma head_out : forall s l, groups false s l -> exists k r a, pieces k r /\ hex_piece a /\ s = r ++ a /\ List.length l = S k.
Proof.
  induction 1 as [d n H|s n1 n2 n3 n4 X|d n s l H _ (k & r & a & P & A & -> & L)]; [|discriminate|].
  - exists 0%nat, [], d. split; [constructor|]. split; [apply piece_iff; exists n; exact H|]. auto.
  - exists (S k), (d ++ [58] ++ r), a. split; [constructor; [apply piece_iff; exists n; exact H|exact P]|]. split; [exact A|].
    split; [rewrite <- !app_assoc; reflexivity|cbn; lia].
Qed.
(** A sequence that ends in 32 bits. *)
Lemma tail_in : forall k r t, pieces k r -> ls32 t -> exists l, groups true (r ++ t) l /\ List.length l = S (S k).
Proof.
  intros k r t H T. induction H as [|k p r P _ (l & G & L)].
  - destruct T as [(a & b & A & B & ->)|T].
    + apply piece_iff in A as [n A], B as [m B]. exists [n; m]. split; [|reflexivity].
      exact (groups_cons _ _ _ _ _ A (groups_one _ _ _ B)).
    + apply v4_iff in T as [x T]. pose proof T as (d1 & d2 & d3 & d4 & n1 & n2 & n3 & n4 & _ & _ & _ & _ & -> & _).
      eexists. split; [apply groups_v4; [reflexivity|exact T]|reflexivity].
  - apply piece_iff in P as [n P]. exists (n :: l). split; [|cbn; lia]. rewrite <- !app_assoc. exact (groups_cons _ _ _ _ _ P G).
Qed.
Lemma tail_out : forall s l, groups true s l -> (hex_piece s /\ List.length l = 1%nat) \/
  exists k r t, pieces k r /\ ls32 t /\ s = r ++ t /\ List.length l = S (S k).
Proof.
  induction 1 as [d n H|s n1 n2 n3 n4 _ X|d n s l H _ [[A L]|(k & r & t & P & T & -> & L)]].
  - left. split; [apply piece_iff; exists n; exact H|reflexivity].
  - right. exists 0%nat, [], s. split; [constructor|]. split; [right; apply v4_iff; eexists; exact X|]. auto.
  - right. exists 0%nat, [], (d ++ [58] ++ s). split; [constructor|]. split; [|split; [reflexivity|cbn; lia]].
    left. exists d, s. split; [apply piece_iff; exists n; exact H|]. auto.
  - right. exists (S k), (d ++ [58] ++ r), t. split; [constructor; [apply piece_iff; exists n; exact H|exact P]|]. split; [exact T|].
    split; [rewrite <- !app_assoc; reflexivity|cbn; lia].
Qed.

Lemma head_pieces_in n h : head_pieces n h -> exists l, opt_groups false h l /\ (List.length l <= S n)%nat.
Proof.
  intros [-> |(k & r & a & K & P & A & ->)]; [exists []; split; [left; auto|cbn; lia]|].
  destruct (head_in k r a P A false) as (l & G & L). exists l. split; [right; exact G|lia].
Qed.
Lemma head_pieces_out n h l : opt_groups false h l -> (List.length l <= S n)%nat -> head_pieces n h.
Proof.
  intros [[-> _]|G] L; [left; reflexivity|]. apply head_out in G as (k & r & a & P & A & -> & E). right. exists k, r, a.
  split; [lia|auto].
Qed.
Lemma opt_nil b h l : opt_groups b h l -> List.length l = 0%nat -> h = [].
Proof.
  intros [[-> _]|G] L; [reflexivity|]. destruct G; discriminate.
Qed.

Lemma v6_iff s : IPv6address s <-> exists a, v6_text s a.
Proof.
  split.
  - assert (K : forall h t lh lt, opt_groups false h lh -> opt_groups true t lt -> (List.length lh + List.length lt <= 7)%nat ->
      exists a, v6_text (h ++ bs "::" ++ t) a).
    { intros h t lh lt H T L. eexists. right. exists h, t, lh, lt. split; [reflexivity|]. split; [exact H|]. split; [exact T|]. auto. }
    intros [(r & l & P & T & ->)|[(r & l & P & T & ->)|[(n & m & h & r & l & I & H & P & T & ->)|[(h & l & H & T & ->)|(h & H & ->)]]]].
    + destruct (tail_in _ _ _ P T) as (a & G & L). exists a. left. auto.
    + destruct (tail_in _ _ _ P T) as (a & G & L). apply (K [] (r ++ l) [] a); [left; auto|right; exact G|cbn; lia].
    + destruct (tail_in _ _ _ P T) as (a & G & L). destruct (head_pieces_in _ _ H) as (b & Hb & Lb).
      apply (K h (r ++ l) b a Hb); [right; exact G|]. cbn in I. repeat destruct I as [E|I]; try contradiction; injection E as <- <-; lia.
    + apply piece_iff in T as [n T]. destruct (head_pieces_in _ _ H) as (b & Hb & Lb).
      apply (K h l b [n] Hb); [right; apply groups_one; exact T|cbn; lia].
    + destruct (head_pieces_in _ _ H) as (b & Hb & Lb). destruct (K h [] b [] Hb) as [a A]; [left; auto|cbn; lia|].
      exists a. rewrite app_nil_r in A. exact A.
  - intros (a & [[G L]|(h & t & lh & lt & -> & H & T & L & _)]).
    + apply tail_out in G as [[_ X]|(k & r & t & P & T & -> & E)]; [lia|]. left. exists r, t. replace 6%nat with k by lia. auto.
    + destruct T as [[-> ->]|G].
      * right. right. right. right. exists h. split; [apply (head_pieces_out _ _ lh H); cbn in L; lia|reflexivity].
      * apply tail_out in G as [[A X]|(k & r & u & P & T & -> & E)].
        -- right. right. right. left. exists h, t. split; [apply (head_pieces_out _ _ lh H); lia|auto].
        -- destruct (Nat.eq_dec k 5) as [-> |Hk].
           ++ right. left. exists r, u. rewrite (opt_nil _ _ _ H) by lia. auto.
           ++ right. right. left. exists (4 - k)%nat, k, h, r, u. split; [cbn; assert (k <= 4)%nat by lia; do 5 (destruct k as [|k]; [cbn; auto 10|]); lia|].
              split; [apply (head_pieces_out _ _ lh H); lia|auto].
Qed.

(** Ports. *)
Lemma digits_denote ds : ds <> [] -> Forall DIGIT ds -> denotes_digits ds (Z.of_N (digits_value ds)).
Proof.
  induction ds as [|c ds IH] using rev_ind; intros Ne F; [contradiction|]. apply Forall_app in F as [F C]. apply Forall_inv in C.
  unfold DIGIT in C. unfold digits_value. rewrite fold_left_app. fold (digits_value ds). cbn [fold_left].
  destruct ds as [|x ds].
  - replace (Z.of_N (10 * digits_value [] + (c - 48))) with (Z.of_N c - 48)%Z by (change (digits_value []) with 0; lia). apply dd_one. exact C.
  - replace (Z.of_N (10 * digits_value (x :: ds) + (c - 48))) with (10 * Z.of_N (digits_value (x :: ds)) + (Z.of_N c - 48))%Z by lia.
    apply dd_snoc; [apply IH; [discriminate|exact F]|exact C].
Qed.
Lemma std_port_text ds p : std_port ds p -> port_text ds p.
Proof. intros (Ne & F & -> & L). split; [apply di_plain, digits_denote; assumption|exact L]. Qed.

(** Hexadecimal strings. *)
Lemma hex_is c : HEXDIG c -> is_hex AnyCase c (hexv c).
Proof. intros H. apply hexdig_in in H. apply to_digit_iff in H. exact (proj1 H). Qed.
Lemma hex_out case c d : is_hex case c d -> HEXDIG c.
Proof.
  intros H. apply hex_digit_iff in H. unfold HEXDIG. unfold hex_digit in H. destruct case;
  repeat match type of H with context [if ?b then _ else _] => destruct b eqn:? end; try discriminate; lia.
Qed.
Lemma hex_value_denotes ds : Forall HEXDIG ds -> hex_denotes AnyCase ds (hex_value ds).
Proof.
  induction ds as [|c ds IH] using rev_ind; intros F; [constructor|]. apply Forall_app in F as [F C]. apply Forall_inv in C.
  unfold hex_value. rewrite fold_left_app. fold (hex_value ds). cbn [fold_left]. fold (hexv c). rewrite (N.mul_comm 16).
  apply hex_denotes_snoc; [exact (IH F)|exact (hex_is c C)].
Qed.
Lemma denotes_hexdig case ds x : hex_denotes case ds x -> Forall HEXDIG ds.
Proof. induction 1 as [|c d cs x H _ IH]; constructor; [exact (hex_out _ _ _ H)|exact IH]. Qed.

(** Names. *)
Lemma let_dig_lower x : let_dig x \/ x = 45 -> ldh (lower x) = true /\ x < 128 /\ x <> 46 /\ (lower x = 45 -> x = 45).
Proof.
  unfold let_dig, DIGIT, ldh, lower. intros H. destruct ((65 <=? x) && (x <=? 90)) eqn:E; repeat split; lia.
Qed.
Lemma labels_cons a b : ~ In 46 a -> labels (a ++ 46 :: b) = a :: labels b.
Proof.
  induction a as [|c a IH]; intros N46; cbn [app labels]; [reflexivity|]. destruct (N.eqb_spec c 46) as [-> |_].
  { destruct N46. left. reflexivity. }
  rewrite IH by (intros X; apply N46; right; exact X). reflexivity.
Qed.
Lemma labels_single a : ~ In 46 a -> labels a = [a].
Proof.
  induction a as [|c a IH]; intros N46; [reflexivity|]. cbn [labels]. destruct (N.eqb_spec c 46) as [-> |_].
  { destruct N46. left. reflexivity. }
  rewrite IH by (intros X; apply N46; right; exact X). reflexivity.
Qed.
Lemma ends_last x (l : list N) : ends_with x l = true -> exists u, l = u ++ [x].
Proof.
  destruct l as [|y l _] using rev_ind; [cbn; discriminate|]. rewrite ends_with_snoc.
  intros E. apply N.eqb_eq in E as ->. exists l. reflexivity.
Qed.
Lemma dns_label_ok l : dns_label l -> ok_label (List.map lower l) = true /\ ~ In 46 (List.map lower l) /\ Forall (fun c => c < 128) l.
Proof.
  intros (L & F & H1 & H2 & H3). rewrite Forall_forall in F. split; [|split].
  - unfold ok_label. rewrite !andb_true_iff, !negb_true_iff, map_length. repeat split.
    + destruct l; [cbn in L; lia|reflexivity].
    + apply Nat.leb_le. lia.
    + apply forallb_forall. intros c C. apply in_map_iff in C as (x & <- & X). apply (let_dig_lower x (F x X)).
    + destruct l as [|x l]; [cbn in L; lia|]. cbn [List.map nth]. apply N.eqb_neq. intros E.
      apply (let_dig_lower x (F x (or_introl eq_refl))) in E. subst. exact (H1 l eq_refl).
    + destruct (ends_with 45 (List.map lower l)) eqn:E; [|reflexivity]. apply ends_last in E as [u E].
      destruct l as [|y l _] using rev_ind; [destruct u; discriminate|]. rewrite map_app in E. apply app_inj_tail in E as [_ E].
      apply (let_dig_lower y) in E; [|apply F, in_elt]. subst. destruct (H2 l eq_refl).
    + apply andb_false_iff. destruct l as [|a [|b [|x [|y l]]]]; try (left; reflexivity); try (right; reflexivity).
      cbn [List.map nth]. destruct (N.eqb_spec (lower x) 45) as [E|_]; [|left; reflexivity].
      destruct (N.eqb_spec (lower y) 45) as [E'|_]; [|right; reflexivity].
      apply (let_dig_lower x) in E; [|apply F; cbn; auto]. apply (let_dig_lower y) in E'; [|apply F; cbn; auto]. subst.
      destruct (H3 a b l eq_refl).
  - intros I. apply in_map_iff in I as (x & E & X). destruct (let_dig_lower x (F x X)) as (A & _ & B & _).
    rewrite E in A. discriminate.
  - apply Forall_forall. intros x X. apply (let_dig_lower x (F x X)).
Qed.
Lemma dns_labels_ok d : dns_labels d -> forallb ok_label (labels (List.map lower d)) = true /\ Forall (fun c => c < 128) d /\
  (exists u y, d = u ++ [y] /\ y <> 46).
Proof.
  assert (K : forall l, dns_label l -> exists u y, l = u ++ [y] /\ y <> 46).
  { intros l H. pose proof H as (L & F & _). destruct l as [|y l _] using rev_ind; [cbn in L; lia|]. exists l, y.
    split; [reflexivity|]. rewrite Forall_forall in F. apply (let_dig_lower y), F, in_elt. }
  induction 1 as [l H|l t H _ (IH1 & IH2 & IH3)].
  - destruct (dns_label_ok l H) as (A & B & C). rewrite (labels_single _ B). cbn [forallb]. rewrite A. auto.
  - destruct (dns_label_ok l H) as (A & B & C). rewrite map_app. cbn [app List.map]. change (lower 46) with 46.
    rewrite (labels_cons _ _ B). cbn [forallb]. rewrite A, IH1. split; [reflexivity|]. split.
    + apply Forall_app. split; [exact C|]. constructor; [lia|exact IH2].
    + destruct IH3 as (u & y & -> & Y). exists (l ++ 46 :: u), y. split; [rewrite <- app_assoc; reflexivity|exact Y].
Qed.

(** The law used for names: [to_ascii] accepts host names and gives them in lower case. *)
Definition idna_dns (idna : list N -> option (list N)) : Prop := forall d, dns_name d -> idna d = Some (List.map lower d).
Lemma map_dots_ascii d : Forall (fun c => c < 128) d -> map_dots d = Some (List.map lower d).
Proof.
  induction 1 as [|c d H _ IH]; [reflexivity|]. cbn [map_dots List.map]. destruct (N.ltb_spec c 128); [|lia]. rewrite IH. reflexivity.
Qed.
Lemma idna_ascii_dns : idna_dns idna_ascii.
Proof.
  intros d [D L]. destruct (dns_labels_ok d D) as (A & B & u & y & E & Y). unfold idna_ascii.
  replace (forallb (fun c => c <? 128) d) with true.
  2: { symmetry. apply forallb_forall. intros c C. rewrite Forall_forall in B. apply N.ltb_lt, B, C. }
  unfold idna_frag. rewrite (map_dots_ascii d B).
  assert (S : strip_last 46 (List.map lower d) = List.map lower d).
  { destruct (strip_cases (List.map lower d)) as [X|X]; [congruence|]. exfalso. rewrite E in X at 1. rewrite map_app in X. cbn [List.map] in X.
    apply app_inj_tail in X as [_ X]. apply Y. unfold lower in X. destruct ((65 <=? y) && (y <=? 90)) eqn:Q; lia. }
  rewrite S. unfold ok_name. rewrite A, map_length. replace (List.length d <=? 253)%nat with true; [reflexivity|].
  symmetry. apply Nat.leb_le. exact L.
Qed.
