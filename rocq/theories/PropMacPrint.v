(** What a MAC address or a UUID is printed as (C27, C30). *)
From Verif Require Import Base IntStr NetSpec NetProofs MacModel MacSpec MacProofs.
Local Open Scope N_scope.

(** [digits] in groups of the given sizes, written as [v] with the text [s] between the groups. *)
Inductive joined (s : list N) : list nat -> list N -> list N -> Prop :=
| joined_last g : joined s [List.length g] g g
| joined_cons g sizes v digits : joined s sizes v digits -> joined s (List.length g :: sizes) (g ++ s ++ v) (g ++ digits).

(** The case in which a policy prints. *)
Definition print_case (case : case_option) : case_option := match case with LowerCase => LowerCase | _ => UpperCase end.

(** What is written between the groups: the byte of the separator in decimal. *)
Definition sep_printed (sep : sep_option) (s : list N) : Prop :=
  match sep with SepMust c | SepAllow c => octet s c | SepDisallow => s = [] end.

Lemma hex_denotes_app case cs ds x y : hex_denotes case cs x -> hex_denotes case ds y ->
  hex_denotes case (cs ++ ds) (x * 16 ^ N.of_nat (List.length ds) + y).
Proof.
  intros H Hd. induction H as [|c d cs x Hc H IH]; [exact Hd|].
  cbn [app]. replace ((d * 16 ^ N.of_nat (List.length cs) + x) * 16 ^ N.of_nat (List.length ds) + y)
    with (d * 16 ^ N.of_nat (List.length (cs ++ ds)) + (x * 16 ^ N.of_nat (List.length ds) + y)).
  - constructor; assumption.
  - rewrite app_length, Nat2N.inj_add, N.pow_add_r. lia.
Qed.

Definition bytes_fmt (u : bool) (x : N) (l : list N) : list N := flat_map (fun i => hex_fmt 2 u (le_byte x i)) l.

Lemma byte_fmt u x i : hex_denotes (alphabet_of u) (hex_fmt 2 u (le_byte x i)) (le_byte x i) /\ List.length (hex_fmt 2 u (le_byte x i)) = 2%nat.
Proof. apply hex_fmt_spec; [apply le_byte_bound|lia]. Qed.

(** The bytes from [k - 1] down to 0 of a number below [256 ^ k] denote the number. *)
Fixpoint down (k : nat) : list N := match k with O => [] | S k => N.of_nat k :: down k end.

Lemma bytes_fmt_down u x : forall k, hex_denotes (alphabet_of u) (bytes_fmt u x (down k)) (x mod 256 ^ N.of_nat k) /\
  List.length (bytes_fmt u x (down k)) = (2 * k)%nat.
Proof.
  induction k as [|k [IH IL]].
  - cbn [down bytes_fmt flat_map]. rewrite N.mod_1_r. split; [constructor|reflexivity].
  - destruct (byte_fmt u x (N.of_nat k)) as [B L]. cbn [down]. unfold bytes_fmt in *. cbn [flat_map].
    split; [|rewrite app_length, L, IL; lia].
    replace (x mod 256 ^ N.of_nat (S k)) with (le_byte x (N.of_nat k) * 16 ^ N.of_nat (List.length (flat_map (fun i => hex_fmt 2 u (le_byte x i)) (down k))) + x mod 256 ^ N.of_nat k).
    + apply hex_denotes_app; assumption.
    + rewrite IL. replace (16 ^ N.of_nat (2 * k)) with (256 ^ N.of_nat k).
      2:{ rewrite Nat2N.inj_mul, N.pow_mul_r. reflexivity. }
      rewrite Nat2N.inj_succ, N.pow_succ_r', (N.mul_comm 256). unfold le_byte.
      rewrite N.mod_mul_r; [lia| |discriminate]. apply N.pow_nonzero. discriminate.
Qed.

Lemma joined_nil : forall sizes digits, sizes <> [] -> List.length digits = list_sum sizes -> joined [] sizes digits digits.
Proof.
  induction sizes as [|n [|m sizes] IH]; intros digits Hn Hl; [congruence| |].
  - cbn in Hl. rewrite Nat.add_0_r in Hl. rewrite <- Hl. apply joined_last.
  - rewrite <- (firstn_skipn n digits). change (list_sum (n :: m :: sizes)) with (n + list_sum (m :: sizes))%nat in Hl.
    assert (L : List.length (firstn n digits) = n) by (rewrite firstn_length; lia).
    rewrite <- L at 1. apply (joined_cons [] (firstn n digits) (m :: sizes) (skipn n digits)).
    apply IH; [discriminate|]. rewrite skipn_length. lia.
Qed.

Lemma print_case_of case : alphabet_of (case_upper case) = print_case case.
Proof. destruct case; reflexivity. Qed.

Lemma mac_join s u x : joined s mac_sizes
  (hex_fmt 2 u (le_byte x 5) ++ s ++ hex_fmt 2 u (le_byte x 4) ++ s ++ hex_fmt 2 u (le_byte x 3) ++ s ++
   hex_fmt 2 u (le_byte x 2) ++ s ++ hex_fmt 2 u (le_byte x 1) ++ s ++ hex_fmt 2 u (le_byte x 0)) (bytes_fmt u x (down 6)).
Proof.
  assert (L : forall i, List.length (hex_fmt 2 u (le_byte x i)) = 2%nat) by (intros i; apply byte_fmt).
  unfold bytes_fmt. cbn [down flat_map]. rewrite app_nil_r.
  change (N.of_nat 5) with 5. change (N.of_nat 4) with 4. change (N.of_nat 3) with 3. change (N.of_nat 2) with 2.
  change (N.of_nat 1) with 1. change (N.of_nat 0) with 0.
  unfold mac_sizes.
  rewrite <- (L 5) at 1. apply joined_cons. rewrite <- (L 4) at 1. apply joined_cons. rewrite <- (L 3) at 1. apply joined_cons.
  rewrite <- (L 2) at 1. apply joined_cons. rewrite <- (L 1) at 1. apply joined_cons. rewrite <- (L 0) at 1. apply joined_last.
Qed.

Lemma uuid_join s u x : joined s uuid_sizes
  (let b i := hex_fmt 2 u (le_byte x i) in
   b 15 ++ b 14 ++ b 13 ++ b 12 ++ s ++ b 11 ++ b 10 ++ s ++ b 9 ++ b 8 ++ s ++ b 7 ++ b 6 ++ s
      ++ b 5 ++ b 4 ++ b 3 ++ b 2 ++ b 1 ++ b 0) (bytes_fmt u x (down 16)).
Proof.
  assert (L : forall i, List.length (hex_fmt 2 u (le_byte x i)) = 2%nat) by (intros i; apply byte_fmt).
  cbv zeta. unfold bytes_fmt. cbn [down flat_map]. rewrite app_nil_r. cbn [N.of_nat Pos.of_succ_nat Pos.succ].
  set (b := fun i => hex_fmt 2 u (le_byte x i)).
  change (joined s uuid_sizes (b 15 ++ b 14 ++ b 13 ++ b 12 ++ s ++ b 11 ++ b 10 ++ s ++ b 9 ++ b 8 ++ s ++ b 7 ++ b 6 ++ s
      ++ b 5 ++ b 4 ++ b 3 ++ b 2 ++ b 1 ++ b 0) (b 15 ++ b 14 ++ b 13 ++ b 12 ++ b 11 ++ b 10 ++ b 9 ++ b 8 ++ b 7 ++ b 6 ++
      b 5 ++ b 4 ++ b 3 ++ b 2 ++ b 1 ++ b 0)).
  assert (Lb : forall i, List.length (b i) = 2%nat) by exact L. clearbody b.
  assert (G8 : List.length (b 15 ++ b 14 ++ b 13 ++ b 12) = 8%nat) by (rewrite !app_length, !Lb; reflexivity).
  assert (G4 : forall i j, List.length (b i ++ b j) = 4%nat) by (intros; rewrite !app_length, !Lb; reflexivity).
  assert (G12 : List.length (b 5 ++ b 4 ++ b 3 ++ b 2 ++ b 1 ++ b 0) = 12%nat) by (rewrite !app_length, !Lb; reflexivity).
  unfold uuid_sizes.
  pose proof (joined_cons s (b 15 ++ b 14 ++ b 13 ++ b 12) _ _ _ (joined_cons s (b 11 ++ b 10) _ _ _ (joined_cons s (b 9 ++ b 8) _ _ _ (joined_cons s (b 7 ++ b 6) _ _ _ (joined_last s (b 5 ++ b 4 ++ b 3 ++ b 2 ++ b 1 ++ b 0)))))) as K.
  rewrite G8, !G4, G12 in K. rewrite <- !app_assoc in K. exact K.
Qed.

(** C27, what is printed: the digits of the address, two by two, in the case of the policy, with the decimal text of the
    separator between the pairs. *)
Theorem C27_mac_prints : forall case sep x, x < 2 ^ 48 -> (forall c, sep_allow sep = Some c -> c < 256) ->
  exists s digits, sep_printed sep s /\ joined s mac_sizes (to_mac_address_string case sep x) digits /\
    hex_denotes (print_case case) digits x.
Proof.
  intros case sep x Hx Hc. unfold to_mac_address_string. destruct (sep_allow sep) as [c|] eqn:Es.
  - exists (dec_of_N c), (bytes_fmt (case_upper case) x (down 6)). split.
    { destruct sep; cbn in Es; try discriminate; injection Es as ->; apply dec_octet, Hc; reflexivity. }
    split; [apply mac_join|]. rewrite <- print_case_of. destruct (bytes_fmt_down (case_upper case) x 6) as [D _].
    rewrite N.mod_small in D; [exact D|exact Hx].
  - destruct (hex_fmt_spec 12 (case_upper case) x Hx ltac:(lia)) as [D L].
    exists [], (hex_fmt 12 (case_upper case) x). split; [destruct sep; [discriminate|discriminate|reflexivity]|].
    split; [apply joined_nil; [discriminate|exact L]|]. rewrite <- print_case_of. exact D.
Qed.
Print Assumptions C27_mac_prints.

Example C27_prints_example :
  to_mac_address_string AnyCase (SepAllow 58) 8796759157291 = bs "085800582758B4586A582B" /\
  joined (bs "58") mac_sizes (bs "085800582758B4586A582B") (bs "080027B46A2B").
Proof.
  split; [reflexivity|].
  repeat (first [exact (joined_last _ (bs "2B")) | refine (joined_cons _ [_; _] _ _ _ _)]).
Qed.

(** C30, the same for a UUID in groups of 8-4-4-4-12. *)
Theorem C30_uuid_prints : forall case sep x, x < 2 ^ 128 -> (forall c, sep_allow sep = Some c -> c < 256) ->
  exists s digits, sep_printed sep s /\ joined s uuid_sizes (to_uuid_string case sep x) digits /\
    hex_denotes (print_case case) digits x.
Proof.
  intros case sep x Hx Hc. unfold to_uuid_string. destruct (sep_allow sep) as [c|] eqn:Es.
  - exists (dec_of_N c), (bytes_fmt (case_upper case) x (down 16)). split.
    { destruct sep; cbn in Es; try discriminate; injection Es as ->; apply dec_octet, Hc; reflexivity. }
    split; [apply uuid_join|]. rewrite <- print_case_of. destruct (bytes_fmt_down (case_upper case) x 16) as [D _].
    rewrite N.mod_small in D; [exact D|exact Hx].
  - destruct (hex_fmt_spec 32 (case_upper case) x Hx ltac:(lia)) as [D L].
    exists [], (hex_fmt 32 (case_upper case) x). split; [destruct sep; [discriminate|discriminate|reflexivity]|].
    split; [apply joined_nil; [discriminate|exact L]|]. rewrite <- print_case_of. exact D.
Qed.
Print Assumptions C30_uuid_prints.

Example C30_prints_example :
  to_uuid_string LowerCase (SepMust 45) 141203788368774900775780918638994323680 = bs "6a3adc454502fb454e8f4598044576ad0bf8f8e0" /\
  joined (bs "45") uuid_sizes (bs "6a3adc454502fb454e8f4598044576ad0bf8f8e0") (bs "6a3adc4502fb4e8f980476ad0bf8f8e0").
Proof.
  split; [vm_compute; reflexivity|].
  apply (joined_cons (bs "45") (bs "6a3adc45") [4; 4; 4; 12]%nat).
  apply (joined_cons (bs "45") (bs "02fb") [4; 4; 12]%nat).
  apply (joined_cons (bs "45") (bs "4e8f") [4; 12]%nat).
  apply (joined_cons (bs "45") (bs "9804") [12]%nat).
  apply (joined_last (bs "45") (bs "76ad0bf8f8e0")).
Qed.
