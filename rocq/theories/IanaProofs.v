(** Blocks of addresses as intervals of numbers. *)
From Verif Require Import Base NetSpec IpSpec IanaSpec.
Local Open Scope N_scope.

Definition within (v : N) (i : N * N) : Prop := fst i <= v < snd i.
Definition interval (w base : N) (p : list N * N) : N * N :=
  let d := 2 ^ (w - snd p) in let q := number base (fst p) / d in (q * d, (q + 1) * d).

Lemma block_interval w base v b len : in_block w v (number base b) len <-> within v (interval w base (b, len)).
Proof.
  unfold in_block, within, interval. cbn [fst snd]. set (d := 2 ^ (w - len)). assert (D : d <> 0) by (apply N.pow_nonzero; lia).
  set (q := number base b / d). pose proof (N.div_mod v d D) as E. pose proof (N.mod_lt v d D) as L. split.
  - intros <-. nia.
  - intros [A B]. symmetry. apply N.div_unique with (r := v - q * d); nia.
Qed.

Lemma table_intervals w base t v :
  (exists b len, In (b, len) t /\ in_block w v (number base b) len) <-> Exists (within v) (List.map (interval w base) t).
Proof.
  split.
  - intros (b & len & I & B). apply Exists_exists. exists (interval w base (b, len)). split; [apply in_map; exact I|apply block_interval; exact B].
  - intros E. apply Exists_exists in E as (i & I & W). apply in_map_iff in I as ([b len] & <- & I). exists b, len.
    split; [exact I|apply block_interval; exact W].
Qed.

Fixpoint any (v : N) (l : list (N * N)) : Prop := match l with [] => False | x :: l => (fst x <= v < snd x) \/ any v l end.
Lemma any_iff v l : Exists (within v) l <-> any v l.
Proof. induction l as [|x l IH]; cbn [any]; [apply Exists_nil|]. rewrite Exists_cons, IH. reflexivity. Qed.

Ltac intervals :=
  repeat match goal with |- context [any ?v (List.map (interval ?w ?b) ?t)] =>
    let l := eval vm_compute in (List.map (interval w b) t) in
    let p := eval cbn [any fst snd] in (any v l) in change (any v (List.map (interval w b) t)) with p end.

Lemma v4_local_num a : v4_local a <-> any (number 256 a) (List.map (interval 32 256) v4_blocks).
Proof. rewrite <- any_iff. apply table_intervals. Qed.
Lemma v4_in_num t a : v4_in t a <-> any (number 256 a) (List.map (interval 32 256) t).
Proof. rewrite <- any_iff. apply table_intervals. Qed.
Lemma v6_in_num t a : v6_in t a <-> any (number 65536 a) (List.map (interval 128 65536) t).
Proof. rewrite <- any_iff. apply table_intervals. Qed.

Lemma v4_number_bound a : v4_addr a -> number 256 a < 2 ^ 32.
Proof.
  intros [L F]. do 4 (destruct a as [|? a]; [discriminate|]). destruct a; [|discriminate].
  repeat (apply Forall_cons_iff in F as [? F]). unfold number. cbn [fold_left]. lia.
Qed.
Lemma v6_number_bound a : v6_addr a -> number 65536 a < 2 ^ 128.
Proof.
  intros [L F]. do 8 (destruct a as [|? a]; [discriminate|]). destruct a; [|discriminate].
  repeat (apply Forall_cons_iff in F as [? F]). unfold number. cbn [fold_left]. lia.
Qed.
Lemma v4_of_number n : n < 2 ^ 32 -> exists b, v4_addr b /\ number 256 b = n.
Proof.
  intros H. exists [n / 2 ^ 24; n / 2 ^ 16 mod 256; n / 2 ^ 8 mod 256; n mod 256].
  change (2 ^ 24) with 16777216. change (2 ^ 16) with 65536. change (2 ^ 8) with 256. change (2 ^ 32) with 4294967296 in H.
  split.
  - split; [reflexivity|]. repeat constructor; try (apply N.mod_lt; lia). apply N.div_lt_upper_bound; lia.
  - unfold number. cbn [fold_left]. zify. lia.
Qed.
