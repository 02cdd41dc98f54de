(** The local classification of addresses is the documented one. *)
From Verif Require Import Base IntStr NetModel NetSpec IpSpec.
Local Open Scope N_scope.

Lemma div_top s r w k : r < 2 ^ w -> (s * 2 ^ w + r) / 2 ^ (w + k) = s / 2 ^ k.
Proof.
  intros Hr. rewrite N.pow_add_r, <- N.div_div by (apply N.pow_nonzero; lia).
  f_equal. rewrite N.add_comm, N.div_add by (apply N.pow_nonzero; lia).
  rewrite N.div_small by exact Hr. lia.
Qed.

(** IPv4. *)
Lemma v4_num a b c d : number 256 [a; b; c; d] = ((a * 256 + b) * 256 + c) * 256 + d.
Proof. unfold number. cbn [fold_left]. lia. Qed.

Lemma v4_block8 a b c d x : b < 256 -> c < 256 -> d < 256 ->
  in_block 32 (number 256 [a; b; c; d]) (number 256 [x; 0; 0; 0]) 8 <-> a = x.
Proof.
  intros Hb Hc Hd. unfold in_block. rewrite !v4_num. change (2 ^ (32 - 8)) with 16777216.
  replace (((a * 256 + b) * 256 + c) * 256 + d) with (b * 65536 + c * 256 + d + a * 16777216) by lia.
  replace (((x * 256 + 0) * 256 + 0) * 256 + 0) with (0 + x * 16777216) by lia.
  rewrite !N.div_add by lia. rewrite !N.div_small by lia. lia.
Qed.

Lemma v4_block12 a b c d x y : b < 256 -> c < 256 -> d < 256 -> y < 16 ->
  in_block 32 (number 256 [a; b; c; d]) (number 256 [x; y * 16; 0; 0]) 12 <-> a = x /\ b / 16 = y.
Proof.
  intros Hb Hc Hd Hy. unfold in_block. rewrite !v4_num. change (2 ^ (32 - 12)) with 1048576.
  pose proof (N.div_mod b 16 ltac:(lia)) as Dm. pose proof (N.mod_lt b 16 ltac:(lia)) as Hm.
  replace (((a * 256 + b) * 256 + c) * 256 + d)
    with ((b mod 16) * 65536 + c * 256 + d + (a * 16 + b / 16) * 1048576) by lia.
  replace (((x * 256 + y * 16) * 256 + 0) * 256 + 0) with (0 + (x * 16 + y) * 1048576) by lia.
  rewrite !N.div_add by lia. rewrite !N.div_small by lia.
  assert (b / 16 < 16) by (apply N.div_lt_upper_bound; lia). lia.
Qed.

Lemma v4_block16 a b c d x y : c < 256 -> d < 256 -> b < 256 -> y < 256 ->
  in_block 32 (number 256 [a; b; c; d]) (number 256 [x; y; 0; 0]) 16 <-> a = x /\ b = y.
Proof.
  intros Hc Hd Hb Hy. unfold in_block. rewrite !v4_num. change (2 ^ (32 - 16)) with 65536.
  replace (((a * 256 + b) * 256 + c) * 256 + d) with (c * 256 + d + (a * 256 + b) * 65536) by lia.
  replace (((x * 256 + y) * 256 + 0) * 256 + 0) with (0 + (x * 256 + y) * 65536) by lia.
  rewrite !N.div_add by lia. rewrite !N.div_small by lia. lia.
Qed.

Lemma v4_block24 a b c d x y z : d < 256 -> c < 256 -> b < 256 -> y < 256 -> z < 256 ->
  in_block 32 (number 256 [a; b; c; d]) (number 256 [x; y; z; 0]) 24 <-> a = x /\ b = y /\ c = z.
Proof.
  intros Hd Hc Hb Hy Hz. unfold in_block. rewrite !v4_num. change (2 ^ (32 - 24)) with 256.
  replace (((a * 256 + b) * 256 + c) * 256 + d) with (d + ((a * 256 + b) * 256 + c) * 256) by lia.
  replace (((x * 256 + y) * 256 + z) * 256 + 0) with (0 + ((x * 256 + y) * 256 + z) * 256) by lia.
  rewrite !N.div_add by lia. rewrite !N.div_small by lia. lia.
Qed.

Lemma v4_block32 a b c d x y z w : d < 256 -> c < 256 -> b < 256 -> y < 256 -> z < 256 -> w < 256 ->
  in_block 32 (number 256 [a; b; c; d]) (number 256 [x; y; z; w]) 32 <-> a = x /\ b = y /\ c = z /\ d = w.
Proof.
  intros Hd Hc Hb Hy Hz Hw. unfold in_block. rewrite !v4_num. change (2 ^ (32 - 32)) with 1.
  rewrite !N.div_1_r. lia.
Qed.

Lemma div16_1 b : b < 256 -> (b / 16 = 1 <-> 16 <= b <= 31).
Proof.
  intros Hb. pose proof (N.div_mod b 16 ltac:(lia)) as Dm. pose proof (N.mod_lt b 16 ltac:(lia)) as Hm. lia.
Qed.

Theorem is_local_ipv4_spec a : v4_addr a -> (is_local_ipv4 a = true <-> v4_local a).
Proof.
  intros [Hl Hf]. destruct a as [|a [|b [|c [|d [|]]]]]; try discriminate Hl.
  repeat match goal with X : Forall _ (_ :: _) |- _ => inversion X; clear X; subst end.
  assert (E : v4_local [a; b; c; d] <->
    (a = 10 \/ (a = 172 /\ 16 <= b <= 31) \/ (a = 192 /\ b = 168) \/ a = 127 \/ (a = 169 /\ b = 254) \/
     (a = 255 /\ b = 255 /\ c = 255 /\ d = 255) \/ (a = 192 /\ b = 0 /\ c = 2) \/
     (a = 198 /\ b = 51 /\ c = 100) \/ (a = 203 /\ b = 0 /\ c = 113) \/ (a = 0 /\ b = 0 /\ c = 0 /\ d = 0))).
  { unfold v4_local, v4_blocks. split.
    - intros (x & len & Hin & Hb). cbn [In] in Hin.
      repeat destruct Hin as [Hin|Hin]; try contradiction; injection Hin as <- <-.
      + apply v4_block8 in Hb; [|assumption..]. tauto.
      + change 16 with (1 * 16) in Hb at 1. apply (v4_block12 a b c d 172 1) in Hb; [|assumption||lia..].
        rewrite div16_1 in Hb by assumption. tauto.
      + apply v4_block16 in Hb; [|assumption||lia..]. tauto.
      + apply v4_block8 in Hb; [|assumption..]. tauto.
      + apply v4_block16 in Hb; [|assumption||lia..]. tauto.
      + apply v4_block32 in Hb; [|assumption||lia..]. tauto.
      + apply v4_block24 in Hb; [|assumption||lia..]. tauto.
      + apply v4_block24 in Hb; [|assumption||lia..]. tauto.
      + apply v4_block24 in Hb; [|assumption||lia..]. tauto.
      + apply v4_block32 in Hb; [|assumption||lia..]. tauto.
    - intros Hd.
      repeat match type of Hd with _ \/ _ => destruct Hd as [Hd|Hd] end.
      + exists [10; 0; 0; 0], 8. split; [cbn; tauto|]. apply v4_block8; assumption.
      + exists [172; 16; 0; 0], 12. split; [cbn; tauto|].
        apply (v4_block12 a b c d 172 1); [assumption||lia..|]. rewrite div16_1 by assumption. exact Hd.
      + exists [192; 168; 0; 0], 16. split; [cbn; tauto|]. apply v4_block16; [assumption||lia..|exact Hd].
      + exists [127; 0; 0; 0], 8. split; [cbn; tauto|]. apply v4_block8; assumption.
      + exists [169; 254; 0; 0], 16. split; [cbn; tauto|]. apply v4_block16; [assumption||lia..|exact Hd].
      + exists [255; 255; 255; 255], 32. split; [cbn; tauto|]. apply v4_block32; [assumption||lia..|exact Hd].
      + exists [192; 0; 2; 0], 24. split; [cbn; tauto|]. apply v4_block24; [assumption||lia..|exact Hd].
      + exists [198; 51; 100; 0], 24. split; [cbn; tauto|]. apply v4_block24; [assumption||lia..|exact Hd].
      + exists [203; 0; 113; 0], 24. split; [cbn; tauto|]. apply v4_block24; [assumption||lia..|exact Hd].
      + exists [0; 0; 0; 0], 32. split; [cbn; tauto|]. apply v4_block32; [assumption||lia..|exact Hd]. }
  rewrite E. unfold is_local_ipv4, v4_is_private, v4_is_loopback, v4_is_link_local, v4_is_broadcast,
    v4_is_documentation, v4_is_unspecified.
  rewrite ?orb_true_iff, ?andb_true_iff, ?N.eqb_eq, ?N.leb_le. tauto.
Qed.

(** IPv6. *)
Definition rest6 (l : list N) : N := number 65536 l.

Lemma number_app base : forall b a n, fold_left (fun n x => n * base + x) b (n * base ^ N.of_nat (List.length a) + fold_left (fun n x => n * base + x) a 0) =
  fold_left (fun n x => n * base + x) (a ++ b) n.
Proof.
  intros b a n. rewrite fold_left_app. f_equal.
  assert (H : forall a n m, fold_left (fun n x => n * base + x) a (n + m) =
     n * base ^ N.of_nat (List.length a) + fold_left (fun n x => n * base + x) a m).
  { clear. induction a as [|x a IH]; intros n m; [cbn; lia|]. cbn [fold_left List.length].
    replace ((n + m) * base + x) with (n * base + (m * base + x)) by lia. rewrite IH.
    rewrite Nat2N.inj_succ, N.pow_succ_r by lia. lia. }
  rewrite <- (N.add_0_r n) at 2. symmetry. apply H.
Qed.

Lemma number_cons base x l : number base (x :: l) = x * base ^ N.of_nat (List.length l) + number base l.
Proof.
  unfold number. cbn [fold_left]. replace (0 * base + x) with x by lia.
  pose proof (number_app base [] l x) as H. cbn [fold_left] in H. rewrite app_nil_r in H. symmetry. exact H.
Qed.

Lemma number_bound base l : 0 < base -> Forall (fun x => x < base) l -> number base l < base ^ N.of_nat (List.length l).
Proof.
  intros Hb H. induction H as [|x l Hx H IH]; [cbn; lia|].
  rewrite number_cons. cbn [List.length]. rewrite Nat2N.inj_succ, N.pow_succ_r by lia. nia.
Qed.

Lemma v6_top l s0 : v6_addr (s0 :: l) -> forall k, number 65536 (s0 :: l) / 2 ^ (112 + k) = s0 / 2 ^ k.
Proof.
  intros [Hl Hf] k. rewrite number_cons. cbn [List.length] in Hl. injection Hl as Hl. rewrite Hl.
  change (65536 ^ N.of_nat 7) with (2 ^ 112).
  apply div_top. change (2 ^ 112) with (65536 ^ N.of_nat 7). rewrite <- Hl.
  apply number_bound; [lia|exact (Forall_inv_tail Hf)].
Qed.

(** Exhaustive facts about one segment. *)
Fixpoint all_from (fuel : nat) (i : N) (f : N -> bool) : bool :=
  match fuel with O => true | S fuel => f i && all_from fuel (i + 1) f end.

Lemma all_from_spec : forall fuel i f, all_from fuel i f = true ->
  forall x, i <= x < i + N.of_nat fuel -> f x = true.
Proof.
  induction fuel as [|fuel IH]; intros i f H x Hx; [lia|]. cbn [all_from] in H.
  apply andb_true_iff in H as [H1 H2]. destruct (N.eqb_spec x i) as [->|Hne]; [exact H1|].
  apply (IH (i + 1) f H2). lia.
Qed.

Definition seg_facts (x : N) : bool :=
  Bool.eqb (N.land x 65280 =? 65280) (x / 256 =? 255) &&
  (N.land x 15 =? x mod 16) &&
  Bool.eqb (N.land x 65472 =? 65152) (x / 64 =? 1018) &&
  Bool.eqb (N.land x 65472 =? 65216) (x / 64 =? 1019) &&
  Bool.eqb (N.land x 65024 =? 64512) (x / 512 =? 126).

Lemma seg_facts_ok x : x < 65536 -> seg_facts x = true.
Proof.
  intros Hx. assert (H : all_from (N.to_nat 65536) 0 seg_facts = true) by (vm_cast_no_check (eq_refl true)).
  apply (all_from_spec _ _ _ H). rewrite N2Nat.id. lia.
Qed.

Lemma eqbs_eq : forall a b, eqbs a b = true <-> a = b.
Proof.
  induction a as [|x a IH]; intros [|y b]; cbn [eqbs]; try (split; [discriminate|discriminate]); [tauto|].
  rewrite andb_true_iff, N.eqb_eq, IH. split; [intros [-> ->]; reflexivity|].
  intros H. injection H as -> ->. tauto.
Qed.

Lemma number_inj base : 0 < base -> forall a b, List.length a = List.length b ->
  Forall (fun x => x < base) a -> Forall (fun x => x < base) b -> number base a = number base b -> a = b.
Proof.
  intros Hb. induction a as [|x a IH]; intros [|y b] Hl Ha Hb' E; try discriminate; [reflexivity|].
  rewrite !number_cons in E. injection Hl as Hl. rewrite Hl in E.
  pose proof (number_bound base a Hb (Forall_inv_tail Ha)) as B1. rewrite Hl in B1.
  pose proof (number_bound base b Hb (Forall_inv_tail Hb')) as B2.
  set (P := base ^ N.of_nat (List.length b)) in *.
  assert (x = y).
  { assert (E1 : (x * P + number base a) / P = (y * P + number base b) / P) by (rewrite E; reflexivity).
    rewrite !(N.add_comm (_ * P)), !N.div_add, !N.div_small in E1 by lia. lia. }
  subst y. f_equal. apply IH; [exact Hl|exact (Forall_inv_tail Ha)|exact (Forall_inv_tail Hb')|lia].
Qed.

Lemma v6_block_top s0 l block len k c : v6_addr (s0 :: l) -> v6_addr (block :: repeat 0 7) ->
  128 - len = 112 + k -> block / 2 ^ k = c ->
  (in_block 128 (number 65536 (s0 :: l)) (number 65536 (block :: repeat 0 7)) len <-> s0 / 2 ^ k = c).
Proof.
  intros Ha Hb Hk Hc. unfold in_block. rewrite Hk, (v6_top l s0 Ha), (v6_top (repeat 0 7) block Hb), Hc. reflexivity.
Qed.

Lemma addr_block block : block < 65536 -> v6_addr (block :: repeat 0 7).
Proof. intros H. split; [reflexivity|]. repeat constructor; assumption || lia. Qed.

Lemma v6_exact a b : v6_addr a -> v6_addr b ->
  (in_block 128 (number 65536 a) (number 65536 b) 128 <-> a = b).
Proof.
  intros [La Fa] [Lb Fb]. unfold in_block. change (2 ^ (128 - 128)) with 1. rewrite !N.div_1_r. split.
  - apply number_inj; [lia|congruence|assumption|assumption].
  - intros ->. reflexivity.
Qed.

Lemma v6_block32 s0 s1 l : v6_addr (s0 :: s1 :: l) ->
  (in_block 128 (number 65536 (s0 :: s1 :: l)) (number 65536 [8193; 3512; 0; 0; 0; 0; 0; 0]) 32 <->
   s0 = 8193 /\ s1 = 3512).
Proof.
  intros [Hl Hf]. injection Hl as Hl. unfold in_block. change (128 - 32) with (96 + 0).
  rewrite !number_cons. cbn [List.length]. rewrite Hl.
  change (65536 ^ N.of_nat 7) with (65536 * 2 ^ 96). change (65536 ^ N.of_nat 6) with (2 ^ 96).
  change (65536 ^ N.of_nat 5) with (2 ^ 80).
  pose proof (number_bound 65536 l ltac:(lia) (Forall_inv_tail (Forall_inv_tail Hf))) as Hb. rewrite Hl in Hb.
  change (65536 ^ N.of_nat 6) with (2 ^ 96) in Hb.
  replace (s0 * (65536 * 2 ^ 96) + (s1 * 2 ^ 96 + number 65536 l)) with ((s0 * 65536 + s1) * 2 ^ 96 + number 65536 l) by lia.
  rewrite div_top by exact Hb.
  assert (Hs1 : s1 < 65536) by (exact (Forall_inv (Forall_inv_tail Hf))).
  match goal with |- _ = ?x <-> _ => assert (E : x = 8193 * 65536 + 3512) by (vm_compute; reflexivity); rewrite E end.
  change (2 ^ 0) with 1. rewrite N.div_1_r. lia.
Qed.

Lemma to_ipv4_embeds a b : v6_addr a -> (to_ipv4 a = Some b <-> v6_embeds a b).
Proof.
  intros Ha. pose proof Ha as [Hl Hf].
  destruct a as [|s0 [|s1 [|s2 [|s3 [|s4 [|s5 [|ab [|cd [|]]]]]]]]]; try discriminate Hl.
  assert (Hab : ab < 65536 /\ cd < 65536).
  { repeat match goal with X : Forall _ (_ :: _) |- _ => inversion X; clear X; subst end. tauto. }
  destruct Hab as [Hab Hcd].
  pose proof (N.div_mod ab 256 ltac:(lia)) as D1. pose proof (N.mod_lt ab 256 ltac:(lia)) as M1.
  pose proof (N.div_mod cd 256 ltac:(lia)) as D2. pose proof (N.mod_lt cd 256 ltac:(lia)) as M2.
  assert (Q1 : ab / 256 < 256) by (apply N.div_lt_upper_bound; lia).
  assert (Q2 : cd / 256 < 256) by (apply N.div_lt_upper_bound; lia).
  cbn [to_ipv4]. split.
  - destruct ((s0 =? 0) && (s1 =? 0) && (s2 =? 0) && (s3 =? 0) && (s4 =? 0) && ((s5 =? 0) || (s5 =? 65535))) eqn:E;
      [|discriminate].
    intros H. injection H as <-. split.
    + split; [reflexivity|]. repeat constructor; assumption.
    + rewrite !andb_true_iff, orb_true_iff, !N.eqb_eq in E.
      destruct E as [[[[[-> ->] ->] ->] ->] E]. rewrite v4_num. unfold number. cbn [fold_left].
      destruct E as [-> | ->]; [left|right; change (2 ^ 32) with 4294967296]; lia.
  - intros [[Lb Fb] E]. destruct b as [|b0 [|b1 [|b2 [|b3 [|]]]]]; try discriminate Lb.
    repeat match goal with X : Forall _ (_ :: _) |- _ => apply Forall_cons_iff in X as [? X] end.
    set (x := b0 * 256 + b1) in *. set (y := b2 * 256 + b3) in *.
    assert (E' : exists z, (z = 0 \/ z = 65535) /\ [s0; s1; s2; s3; s4; s5; ab; cd] = [0; 0; 0; 0; 0; z; x; y]).
    { destruct E as [E|E].
      - exists 0. split; [left; reflexivity|]. apply (number_inj 65536); [lia|reflexivity|exact (proj2 Ha)| |].
        + repeat constructor; unfold x, y; lia.
        + rewrite E, v4_num. unfold number. cbn [fold_left]. unfold x, y. lia.
      - exists 65535. split; [right; reflexivity|]. apply (number_inj 65536); [lia|reflexivity|exact (proj2 Ha)| |].
        + repeat constructor; unfold x, y; lia.
        + rewrite E, v4_num. unfold number. cbn [fold_left]. unfold x, y. change (2 ^ 32) with 4294967296. lia. }
    destruct E' as (z & Hz & E'). injection E' as -> -> -> -> -> -> -> ->.
    assert (X1 : x / 256 = b0 /\ x mod 256 = b1) by (unfold x in *; lia).
    assert (X2 : y / 256 = b2 /\ y mod 256 = b3) by (unfold y in *; lia).
    destruct X1 as [-> ->], X2 as [-> ->].
    destruct Hz as [-> | ->]; reflexivity.
Qed.

Theorem is_local_ipv6_spec a : v6_addr a -> (is_local_ipv6 a = true <-> v6_local a).
Proof.
  intros Ha. pose proof Ha as [Hl Hf].
  destruct a as [|s0 [|s1 l]]; try discriminate Hl.
  assert (H0 : s0 < 65536) by (exact (Forall_inv Hf)).
  pose proof (seg_facts_ok s0 H0) as Hs. unfold seg_facts in Hs.
  rewrite !andb_true_iff, N.eqb_eq in Hs. destruct Hs as [[[[F1 F2] F3] F4] F5].
  apply Bool.eqb_prop in F1, F3, F4, F5.
  assert (Hmul : v6_multicast (s0 :: s1 :: l) <-> s0 / 256 = 255).
  { unfold v6_multicast. apply (v6_block_top s0 (s1 :: l) 65280 8 8); [exact Ha|apply addr_block; lia|reflexivity|reflexivity]. }
  assert (Hsc : v6_scope (s0 :: s1 :: l) = s0 mod 16).
  { unfold v6_scope. change 112 with (112 + 0). rewrite (v6_top _ _ Ha 0). rewrite N.pow_0_r, N.div_1_r. reflexivity. }
  assert (Hz : v6_addr [0; 0; 0; 0; 0; 0; 0; 0]) by (split; [reflexivity|repeat constructor; lia]).
  assert (Ho : v6_addr [0; 0; 0; 0; 0; 0; 0; 1]) by (split; [reflexivity|repeat constructor; lia]).
  assert (Hbl : (exists b len, In (b, len) v6_blocks /\ in_block 128 (number 65536 (s0 :: s1 :: l)) (number 65536 b) len) <->
    (s0 :: s1 :: l = [0; 0; 0; 0; 0; 0; 0; 0] \/ s0 :: s1 :: l = [0; 0; 0; 0; 0; 0; 0; 1] \/
     s0 / 64 = 1018 \/ s0 / 64 = 1019 \/ s0 / 512 = 126 \/ (s0 = 8193 /\ s1 = 3512))).
  { assert (B3 := v6_block_top s0 (s1 :: l) 65152 10 6 1018 Ha (addr_block 65152 ltac:(lia)) eq_refl eq_refl).
    assert (B4 := v6_block_top s0 (s1 :: l) 65216 10 6 1019 Ha (addr_block 65216 ltac:(lia)) eq_refl eq_refl).
    assert (B5 := v6_block_top s0 (s1 :: l) 64512 7 9 126 Ha (addr_block 64512 ltac:(lia)) eq_refl eq_refl).
    assert (B6 := v6_block32 s0 s1 l Ha).
    assert (B1 := v6_exact _ _ Ha Hz). assert (B2 := v6_exact _ _ Ha Ho).
    cbn [repeat] in B3, B4, B5. change (2 ^ 6) with 64 in *. change (2 ^ 9) with 512 in *.
    unfold v6_blocks. split.
    - intros (b & len & Hin & Hb). cbn [In] in Hin.
      clear Hmul Hsc. destruct Hin as [Hin|[Hin|[Hin|[Hin|[Hin|[Hin|[]]]]]]]; injection Hin as <- <-.
      + left. apply B1, Hb.
      + right; left. apply B2, Hb.
      + right; right; left. apply B3, Hb.
      + right; right; right; left. apply B4, Hb.
      + right; right; right; right; left. apply B5, Hb.
      + right; right; right; right; right. apply B6, Hb.
    - intros Hd. repeat match type of Hd with _ \/ _ => destruct Hd as [Hd|Hd] end.
      + eexists; eexists; split; [left; reflexivity|]. apply B1, Hd.
      + eexists; eexists; split; [right; left; reflexivity|]. apply B2, Hd.
      + eexists; eexists; split; [right; right; left; reflexivity|]. apply B3, Hd.
      + eexists; eexists; split; [right; right; right; left; reflexivity|]. apply B4, Hd.
      + eexists; eexists; split; [right; right; right; right; left; reflexivity|]. apply B5, Hd.
      + eexists; eexists; split; [right; right; right; right; right; left; reflexivity|]. apply B6, Hd. }
  assert (Hem : (exists b, v6_embeds (s0 :: s1 :: l) b /\ v4_local b) <->
     match to_ipv4 (s0 :: s1 :: l) with Some b => is_local_ipv4 b = true | None => False end).
  { split.
    - intros (b & He & Hb). pose proof (proj2 (to_ipv4_embeds _ _ Ha) He) as E. rewrite E.
      apply is_local_ipv4_spec; [exact (proj1 He)|exact Hb].
    - destruct (to_ipv4 (s0 :: s1 :: l)) as [b|] eqn:E; [|intros []]. intros Hb.
      apply (to_ipv4_embeds _ _ Ha) in E. exists b. split; [exact E|].
      apply is_local_ipv4_spec; [exact (proj1 E)|exact Hb]. }
  unfold v6_local. rewrite Hmul, Hsc, Hbl, Hem. unfold is_local_ipv6.
  cbn [nth]. rewrite F1, F2, F3, F4, F5.
  clear Hmul Hsc Hbl Hem.
  destruct (N.eqb_spec (s0 / 256) 255) as [M|M].
  - assert (Hs0 : 65280 <= s0) by (pose proof (N.div_mod s0 256 ltac:(lia)); lia).
    split.
    + intros H. left. split; [exact M|]. destruct (N.eqb_spec (s0 mod 16) 14); [discriminate|assumption].
    + intros [[_ H]|[H|H]].
      * destruct (N.eqb_spec (s0 mod 16) 14); [contradiction|reflexivity].
      * exfalso. pose proof (N.div_mod s0 64 ltac:(lia)). pose proof (N.div_mod s0 512 ltac:(lia)).
        pose proof (N.mod_lt s0 64 ltac:(lia)). pose proof (N.mod_lt s0 512 ltac:(lia)).
        destruct H as [H|[H|[H|[H|[H|[H _]]]]]]; try (injection H as -> _; lia); lia.
      * exfalso. destruct l as [|s2 [|s3 [|s4 [|s5 [|s6 [|s7 [|]]]]]]]; try discriminate Hl.
        cbn [to_ipv4] in H. destruct (N.eqb_spec s0 0); [lia|]. cbn [andb] in H. exact H.
  - destruct (eqbs (s0 :: s1 :: l) [0; 0; 0; 0; 0; 0; 0; 0]) eqn:E1.
    { apply eqbs_eq in E1. cbn [orb]. tauto. }
    destruct (eqbs (s0 :: s1 :: l) [0; 0; 0; 0; 0; 0; 0; 1]) eqn:E2.
    { apply eqbs_eq in E2. cbn [orb]. tauto. }
    cbn [orb].
    assert (N1 : s0 :: s1 :: l <> [0; 0; 0; 0; 0; 0; 0; 0]) by (intros X; apply eqbs_eq in X; congruence).
    assert (N2 : s0 :: s1 :: l <> [0; 0; 0; 0; 0; 0; 0; 1]) by (intros X; apply eqbs_eq in X; congruence).
    destruct (N.eqb_spec (s0 / 64) 1018) as [E3|E3]; [cbn [orb]; tauto|].
    destruct (N.eqb_spec (s0 / 64) 1019) as [E4|E4]; [cbn [orb]; tauto|].
    destruct (N.eqb_spec (s0 / 512) 126) as [E5|E5]; [cbn [orb]; tauto|]. cbn [orb].
    destruct (N.eqb_spec s0 8193) as [E6|E6]; cbn [andb].
    + destruct (N.eqb_spec s1 3512) as [E7|E7]; [tauto|].
      destruct (to_ipv4 (s0 :: s1 :: l)); intuition congruence.
    + destruct (to_ipv4 (s0 :: s1 :: l)); intuition congruence.
Qed.
