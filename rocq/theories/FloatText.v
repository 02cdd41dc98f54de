(** The scanner reads the grammar of numbers, and the float it makes is the one written. *)
From Verif Require Import Base RangeModel NumberModel NumberSpec NumberProofs NumberCast NumberRound
  FloatModel FloatSpec FloatRound FloatNear FloatUnique.
From Coq Require Import Floats.SpecFloat.
Local Open Scope Z_scope.

(** *** Digits *)

Definition all_digits (ds : list N) : Prop := Forall (fun c => fdigit c = true) ds.

Lemma fdigit_iff c : fdigit c = true <-> (48 <= c <= 57)%N.
Proof. unfold fdigit. lia. Qed.

Lemma digits_number_snoc ds c : digits_number (ds ++ [c]) = 10 * digits_number ds + (Z.of_N c - 48).
Proof. unfold digits_number. rewrite fold_left_app. reflexivity. Qed.

Lemma digit_run_iff ds v : digit_run ds v <-> all_digits ds /\ v = digits_number ds.
Proof.
  split.
  - induction 1 as [|ds c v H [IH1 IH2] Hc]; [split; [constructor|reflexivity]|]. split.
    + apply Forall_app. split; [exact IH1|]. constructor; [apply fdigit_iff; exact Hc|constructor].
    + rewrite digits_number_snoc, IH2. lia.
  - intros [H ->]. induction ds as [|c ds IH] using rev_ind; [constructor|].
    apply Forall_app in H. destruct H as [H1 H2]. inversion H2 as [|? ? H3 _]; subst. apply fdigit_iff in H3.
    rewrite digits_number_snoc. replace (Z.of_N c - 48) with (Z.of_N (c - 48)) by lia. constructor; auto.
Qed.

Lemma digits_bound ds : all_digits ds -> 0 <= digits_number ds < 10 ^ Z.of_nat (List.length ds).
Proof.
  induction ds as [|c ds IH] using rev_ind; intros H; [split; [discriminate|reflexivity]|].
  apply Forall_app in H. destruct H as [H1 H2]. inversion H2 as [|? ? H3 _]; subst. apply fdigit_iff in H3.
  specialize (IH H1). rewrite digits_number_snoc, app_length, Nat2Z.inj_add. simpl (Z.of_nat (List.length [c])).
  rewrite Z.pow_add_r by lia. change (10 ^ 1) with 10. lia.
Qed.

Lemma sat_number_snoc ds c : sat_number (ds ++ [c]) =
  if sat_number ds <? 65536 then 10 * sat_number ds + (Z.of_N c - 48) else sat_number ds.
Proof. unfold sat_number. rewrite fold_left_app. reflexivity. Qed.

Lemma sat_spec ds : all_digits ds -> 0 <= sat_number ds <= digits_number ds /\
  (sat_number ds = digits_number ds \/ 65536 <= sat_number ds).
Proof.
  induction ds as [|c ds IH] using rev_ind; intros H; [split; [split; discriminate|left; reflexivity]|].
  pose proof (digits_bound _ H) as B0.
  apply Forall_app in H. destruct H as [H1 H2]. inversion H2 as [|? ? H3 _]; subst. apply fdigit_iff in H3.
  pose proof (digits_bound _ H1) as B.
  specialize (IH H1). rewrite digits_number_snoc, sat_number_snoc in *. destruct (Z.ltb_spec (sat_number ds) 65536); lia.
Qed.

Definition no_digit_first (s : list N) : Prop := match s with [] => True | c :: _ => fdigit c = false end.

Lemma span_spec s : let '(d, r) := span_digits s in s = d ++ r /\ all_digits d /\ no_digit_first r.
Proof.
  induction s as [|c s IH]; simpl; [repeat split; constructor|].
  destruct (fdigit c) eqn:E.
  - destruct (span_digits s) as [d r]. destruct IH as (-> & A & B). repeat split; [constructor; auto|exact B].
  - repeat split; [constructor|exact E].
Qed.

Lemma span_app d r : all_digits d -> no_digit_first r -> span_digits (d ++ r) = (d, r).
Proof.
  intros H Hr. induction d as [|c d IH]; simpl.
  - destruct r as [|c r]; [reflexivity|]. simpl in *. rewrite Hr. reflexivity.
  - inversion H as [|? ? Hc Hd]; subst. rewrite Hc, IH by auto. reflexivity.
Qed.

(** *** Signs *)

Definition no_sign_first (s : list N) : Prop := match s with [] => True | c :: _ => c <> 43%N /\ c <> 45%N end.

Lemma take_sign_spec s : let '(sg, r) := take_sign s in exists g, s = g ++ r /\ sign_text g sg /\ (g = [] -> no_sign_first r).
Proof.
  destruct s as [|c s]; simpl; [exists []; repeat split; constructor|].
  destruct (N.eqb_spec c 45) as [->|H1]; [exists (bs "-"); split; [reflexivity|split; [constructor|discriminate]]|].
  destruct (N.eqb_spec c 43) as [->|H2]; [exists (bs "+"); split; [reflexivity|split; [constructor|discriminate]]|].
  exists []. split; [reflexivity|]. split; [constructor|]. intros _. split; auto.
Qed.

Lemma take_sign_app g sg r : sign_text g sg -> no_sign_first r -> take_sign (g ++ r) = (sg, r).
Proof.
  intros H Hr. destruct H; [|reflexivity|reflexivity]. simpl. destruct r as [|c r]; [reflexivity|]. simpl in *.
  destruct Hr as [A B]. apply N.eqb_neq in A, B. rewrite A, B. reflexivity.
Qed.

Lemma digit_no_sign c : fdigit c = true -> c <> 43%N /\ c <> 45%N.
Proof. rewrite fdigit_iff. lia. Qed.

(** *** The exponent *)

Lemma read_exponent_spec x e : read_exponent x = Some e <->
  (x = [] /\ e = 0) \/
  (exists c g sg ds, x = c :: g ++ ds /\ (c = 101 \/ c = 69)%N /\ sign_text g sg /\ ds <> [] /\ all_digits ds /\
     e = if sg then - sat_number ds else sat_number ds).
Proof.
  split.
  - destruct x as [|c r]; [intros H; injection H as <-; left; split; reflexivity|]. unfold read_exponent.
    destruct ((c =? 101) || (c =? 69))%N%bool eqn:C; [|discriminate].
    pose proof (take_sign_spec r) as T. destruct (take_sign r) as [sg r1]. destruct T as (g & -> & Hg & _).
    pose proof (span_spec r1) as S. destruct (span_digits r1) as [d q]. destruct S as (-> & Hd & _).
    destruct d as [|d0 d]; [discriminate|]. destruct q; [|discriminate]. intros H. injection H as <-.
    right. exists c, g, sg, (d0 :: d). rewrite app_nil_r. split; [reflexivity|].
    split; [apply orb_true_iff in C; rewrite !N.eqb_eq in C; exact C|]. split; [exact Hg|]. split; [discriminate|]. split; [exact Hd|reflexivity].
  - intros [[-> ->]|(c & g & sg & ds & -> & Hc & Hg & Hne & Hd & ->)]; [reflexivity|]. unfold read_exponent.
    replace ((c =? 101) || (c =? 69))%N%bool with true by (destruct Hc as [-> | ->]; reflexivity).
    destruct ds as [|d0 ds]; [congruence|]. inversion Hd as [|? ? Hd0 _]; subst.
    rewrite (take_sign_app g sg) by (auto; apply digit_no_sign; exact Hd0).
    rewrite <- (app_nil_r (d0 :: ds)) at 1. rewrite span_app by (auto; exact I). reflexivity.
Qed.

Lemma exponent_first x e : read_exponent x = Some e -> match x with [] => True | c :: _ => (c = 101 \/ c = 69)%N end.
Proof. intros H. apply read_exponent_spec in H. destruct H as [[-> _]|(c & g & sg & ds & -> & Hc & _)]; auto. Qed.

(** *** The decimal *)

(** The decimal as the scanner reads it. *)
Definition scanned (s : list N) (ints fr fracs x : list N) (e : Z) : Prop :=
  s = ints ++ fr ++ x /\ all_digits (ints ++ fracs) /\ ints ++ fracs <> [] /\
  ((fr = [] /\ fracs = []) \/ fr = 46%N :: fracs) /\ read_exponent x = Some e.

Lemma read_decimal_spec s m k : read_decimal s = Some (m, k) <->
  exists ints fr fracs x e, scanned s ints fr fracs x e /\ m = digits_number (ints ++ fracs) /\
    k = e - Z.of_nat (List.length fracs).
Proof.
  split.
  - unfold read_decimal. pose proof (span_spec s) as S. destruct (span_digits s) as [ints r1]. destruct S as (-> & Hi & Hr).
    destruct r1 as [|c r1].
    + rewrite !app_nil_r. destruct ints as [|i ints]; [discriminate|]. simpl (read_exponent []). intros H. injection H as <- <-.
      exists (i :: ints), [], [], [], 0. rewrite !app_nil_r. split; [|split; reflexivity].
      split; [rewrite app_nil_r; reflexivity|]. rewrite app_nil_r. split; [exact Hi|]. split; [discriminate|]. split; [left; split; reflexivity|reflexivity].
    + destruct (N.eqb_spec c 46) as [->|Hc].
      * pose proof (span_spec r1) as S. destruct (span_digits r1) as [fracs r2]. destruct S as (-> & Hf & Hr2).
        destruct (ints ++ fracs) as [|i l] eqn:El; [discriminate|]. destruct (read_exponent r2) as [x|] eqn:Ex; [|discriminate].
        intros H. injection H as <- <-. exists ints, (46%N :: fracs), fracs, r2, x. rewrite El. split; [|split; reflexivity].
        split; [reflexivity|]. rewrite El. split; [rewrite <- El; apply Forall_app; split; auto|]. split; [discriminate|].
        split; [right; reflexivity|exact Ex].
      * rewrite app_nil_r. destruct ints as [|i ints]; [discriminate|]. destruct (read_exponent (c :: r1)) as [x|] eqn:Ex; [|discriminate].
        intros H. injection H as <- <-. exists (i :: ints), [], [], (c :: r1), x. rewrite !app_nil_r.
        split; [|split; reflexivity]. split; [reflexivity|]. rewrite app_nil_r. split; [exact Hi|]. split; [discriminate|].
        split; [left; split; reflexivity|exact Ex].
  - intros (ints & fr & fracs & x & e & (-> & Hd & Hne & Hfr & Hx) & -> & ->). apply Forall_app in Hd. destruct Hd as [Hi Hf].
    pose proof (exponent_first x e Hx) as Fx. unfold read_decimal.
    assert (Nx : no_digit_first x) by (destruct x as [|c x]; [exact I|]; simpl; destruct Fx as [-> | ->]; reflexivity).
    destruct Hfr as [[-> ->]| ->].
    + simpl ([] ++ x). rewrite span_app by auto. 
      replace (match x with c :: r => if (c =? 46)%N then span_digits r else ([], x) | [] => ([], []) end) with (@nil N, x).
      * rewrite app_nil_r in *. destruct ints; [congruence|]. rewrite Hx. reflexivity.
      * destruct x as [|c x]; [reflexivity|]. destruct Fx as [-> | ->]; reflexivity.
    + rewrite span_app by (auto; reflexivity). simpl ((46%N :: fracs) ++ x). cbv iota. 
      change ((46 =? 46)%N) with true. cbv iota. rewrite span_app by auto.
      destruct (ints ++ fracs) eqn:El; [congruence|]. rewrite Hx. reflexivity.
Qed.

Lemma decimal_first s m k : decimal_text s m k -> match s with [] => False | c :: _ => (c = 46 \/ 48 <= c <= 57)%N end.
Proof.
  intros H. destruct H as [ints x m e Hne Hr _|ints fracs x m e Hne Hr _].
  - apply digit_run_iff in Hr. destruct Hr as [Hr _]. destruct ints; [congruence|]. inversion Hr as [|? ? Hc _]; subst. right. apply fdigit_iff. exact Hc.
  - apply digit_run_iff in Hr. destruct Hr as [Hr _]. destruct ints as [|i ints]; [left; reflexivity|].
    inversion Hr as [|? ? Hc _]; subst. right. apply fdigit_iff. exact Hc.
Qed.
