(** The boolean validator: specification and proofs. *)
From Verif Require Import Base IntStr IntStrProofs IntModel IntProofs Utf8 BooleanModel.
Local Open Scope N_scope.

(** The documented words, in lower case. *)
Definition bool_words : list (list N * bool) :=
  [(bs "y", true); (bs "yes", true); (bs "t", true); (bs "true", true); (bs "1", true); (bs "on", true);
   (bs "n", false); (bs "no", false); (bs "f", false); (bs "false", false); (bs "0", false); (bs "off", false)].

(** [w] is [s] up to ASCII case: each byte of [s] is the byte of [w] or, when that is a lower
    case letter, its capital. *)
Definition same_but_case (s w : list N) : Prop :=
  Forall2 (fun x y => x = y \/ (97 <= y <= 122 /\ x + 32 = y)) s w.

Lemma letter_iff : forall c e, 97 <= c <= 122 -> (letter c e = true <-> e = c \/ (97 <= c <= 122 /\ e + 32 = c)).
Proof. intros c e H. unfold letter. lia. Qed.

Lemma letter_case : forall c e, 97 <= c <= 122 -> letter c e = true -> e = c \/ (97 <= c <= 122 /\ e + 32 = c).
Proof. intros c e H. rewrite letter_iff; auto. Qed.

Lemma at_end_ok : forall b iter r, at_end b iter = Ok r -> iter = [] /\ r = b.
Proof. intros b [|? ?] r H; simpl in H; [injection H as <-; auto|discriminate]. Qed.

Ltac tree H :=
  repeat match type of H with
  | context [match ?l with [] => _ | _ => _ end] => destruct l as [|? ?]; try discriminate H
  | context [if letter ?c ?e then _ else _] => destruct (letter c e) eqn:?; try discriminate H
  | context [if ?e =? ?n then _ else _] => destruct (e =? n) eqn:?; try discriminate H
  | at_end _ _ = Ok _ => apply at_end_ok in H; destruct H as [? ->]; subst
  | Ok _ = Ok _ => injection H as <-
  end.

Ltac word :=
  unfold same_but_case;
  repeat match goal with
  | |- Forall2 _ [] [] => constructor
  | |- Forall2 _ (_ :: _) (_ :: _) => constructor
  | H : letter ?c ?e = true |- ?e = ?c \/ _ => apply letter_case in H; [exact H|lia]
  | H : (?e =? ?n) = true |- ?e = ?n \/ _ => left; lia
  end.

Lemma bool_str_sound : forall s b, bool_v_parse_str s = Ok b ->
  exists w, In (w, b) bool_words /\ same_but_case s w.
Proof.
  intros s b H. unfold bool_v_parse_str in H. tree H.
  all: match goal with
       | |- exists w, In (w, ?b) _ /\ same_but_case ?s w =>
         let rec try_words ws :=
           match ws with
           | (?w, _) :: ?r => first [solve [exists w; split; [simpl; tauto | cbv [bs]; simpl; word]] | try_words r]
           end in
         let ws := eval unfold bool_words in bool_words in try_words ws
       end.
Qed.

Lemma bool_str_complete : forall s w b, In (w, b) bool_words -> same_but_case s w -> bool_v_parse_str s = Ok b.
Proof.
  intros s w b Hin Hs. unfold bool_words in Hin. unfold same_but_case in Hs.
  simpl in Hin.
  repeat (destruct Hin as [Hin|Hin]; [injection Hin as <- <-; cbv [bs] in Hs; simpl in Hs;
    repeat match goal with
    | H : Forall2 _ _ (_ :: _) |- _ => inversion H; clear H; subst
    | H : Forall2 _ _ [] |- _ => inversion H; clear H; subst
    end;
    repeat match goal with
    | H : _ \/ _ |- _ => destruct H as [->|[? ?]]; [|match goal with H : ?x + 32 = ?n |- _ => assert (x = n - 32) by lia; subst; clear H end]
    end; try lia; reflexivity|]).
  contradiction.
Qed.

Lemma bool_str_total : forall s, exists r, (r = Err BooleanError \/ exists b, r = Ok b) /\ bool_v_parse_str s = r.
Proof.
  intros s. eexists. split; [|reflexivity]. unfold bool_v_parse_str.
  repeat match goal with
  | |- context [match ?l with [] => _ | _ => _ end] => destruct l as [|? ?]
  | |- context [if ?c then _ else _] => destruct c
  | |- context [at_end ?b ?i] => unfold at_end
  end; eauto.
Qed.

Lemma bool_str_iff : forall s b, bool_parse_str s = Ok b <-> exists w, In (w, b) bool_words /\ same_but_case s w.
Proof.
  intros s b. unfold bool_parse_str. split.
  - destruct (bool_v_parse_str s) as [b'|e|] eqn:E; simpl; try discriminate. intros H. injection H as <-.
    apply bool_str_sound. exact E.
  - intros (w & H1 & H2). rewrite (bool_str_complete s w b H1 H2). reflexivity.
Qed.

Lemma bool_parse_str_eq : forall s, bool_parse_str s = bool_v_parse_str s.
Proof. intros s. unfold bool_parse_str. destruct (bool_v_parse_str s); reflexivity. Qed.

Lemma bool_entry_lemma : forall s c b,
  bool_parse_string s = bool_parse_str s /\
  bool_validate_str s = omap (fun _ => tt) (bool_parse_str s) /\
  bool_validate_char c = omap (fun _ => tt) (bool_parse_char c) /\
  bool_parse_bool b = Ok b /\ bool_validate_bool b = Ok tt.
Proof.
  intros s c b. split; [reflexivity|].
  split; [unfold bool_validate_str, bool_parse_str; destruct (bool_v_parse_str s); reflexivity|].
  split; [unfold bool_validate_char, bool_parse_char; destruct (bool_v_parse_char c); reflexivity|].
  split; reflexivity.
Qed.

Lemma bool_char_lemma : forall c, bool_parse_char c = bool_parse_str (utf8_char c).
Proof.
  intros c. rewrite bool_parse_str_eq. unfold bool_parse_char.
  destruct (N.lt_ge_cases c 128) as [H|H].
  - rewrite utf8_char_ascii by assumption. unfold bool_v_parse_char, bool_v_parse_str, letter, at_end.
    repeat match goal with
    | |- context [?a - 32] => let v := eval vm_compute in (a - 32) in change (a - 32) with v
    end.
    repeat match goal with |- context [(c =? ?n)] => destruct (N.eqb_spec c n); [subst c; reflexivity|] end.
    reflexivity.
  - assert (E1 : bool_v_parse_char c = Err BooleanError).
    { unfold bool_v_parse_char. repeat match goal with |- context [(c =? ?n)] => destruct (N.eqb_spec c n); [lia|] end. reflexivity. }
    rewrite E1. simpl.
    destruct (bool_str_total (utf8_char c)) as (r & [->|[b ->]] & Hr); [symmetry; exact Hr|].
    apply bool_str_sound in Hr. destruct Hr as (w & Hw & Hs).
    assert (Hhi : forall x, In x (utf8_char c) -> 128 <= x).
    { intros x Hx. apply utf8_char_bytes in Hx. lia. }
    exfalso. assert (Hne : utf8_char c <> []).
    { intros Hc. pose proof (utf8_char_len c). rewrite Hc in H0. simpl in H0. pose proof (len_utf8_pos c). lia. }
    destruct (utf8_char c) as [|x l]; [congruence|]. specialize (Hhi x (or_introl eq_refl)).
    inversion Hs as [|? y ? ? Hxy Hr' E2 E3]; subst.
    assert (y < 128).
    { unfold bool_words in Hw. cbv [bs] in Hw. simpl in Hw.
      repeat (destruct Hw as [Hw|Hw]; [injection Hw as <- _; lia|]). contradiction. }
    lia.
Qed.

Local Open Scope Z_scope.

Lemma cast_widen : forall sg pw t i, int_min sg pw t <= i <= int_max sg pw t -> cast sg pw t i = i.
Proof.
  intros sg pw t i H. unfold cast, int_min, int_max in *.
  assert (Hb : 0 < bits pw t) by (destruct t, pw; simpl; lia).
  assert (Hp : 2 ^ bits pw t = 2 * 2 ^ (bits pw t - 1)) by (rewrite <- Z.pow_succ_r by lia; f_equal; lia).
  assert (0 < 2 ^ (bits pw t - 1)) by (apply Z.pow_pos_nonneg; lia).
  destruct sg; rewrite Z.mod_small by lia; lia.
Qed.

Lemma bool_int_value : forall sg pw t i, int_min sg pw t <= i <= int_max sg pw t ->
  bool_parse_int sg pw t i = bool_v_parse_int i /\
  bool_validate_int sg pw t i = omap (fun _ => tt) (bool_v_parse_int i).
Proof.
  assert (Hmono : forall sg pw a b i, bits pw a <= bits pw b -> int_min sg pw a <= i <= int_max sg pw a ->
             int_min sg pw b <= i <= int_max sg pw b).
  { intros sg pw a b i Hb Hi. unfold int_min, int_max in *.
    assert (2 ^ bits pw a <= 2 ^ bits pw b) by (apply Z.pow_le_mono_r; lia).
    assert (2 ^ (bits pw a - 1) <= 2 ^ (bits pw b - 1)) by (apply Z.pow_le_mono_r; lia).
    destruct sg; lia. }
  assert (Hc : forall sg pw a b i, bits pw a <= bits pw b -> int_min sg pw a <= i <= int_max sg pw a -> cast sg pw b i = i).
  { intros sg pw a b i Hb Hi. apply cast_widen. eapply Hmono; eauto. }
  intros sg pw t i Hi.
  assert (Hbi : forall b, bits pw t <= bits pw b -> cast sg pw b i = i) by (intros b Hb; eapply Hc; eauto).
  destruct t; simpl; unfold bool_parse_8, bool_parse_16, bool_parse_32, bool_parse_64, bool_parse_128,
    bool_validate_8, bool_validate_16, bool_validate_32, bool_validate_64, bool_validate_128, bool_parse_size, bool_validate_size;
    [| | | | |destruct pw];
    unfold bool_parse_16, bool_parse_32, bool_parse_64, bool_parse_128,
      bool_validate_16, bool_validate_32, bool_validate_64, bool_validate_128;
    unfold bool_parse_32, bool_parse_64, bool_parse_128, bool_validate_32, bool_validate_64, bool_validate_128;
    unfold bool_parse_64, bool_parse_128, bool_validate_64, bool_validate_128;
    unfold bool_parse_128, bool_validate_128;
    repeat (rewrite Hbi by (try destruct pw; simpl; lia));
    destruct (bool_v_parse_int i); split; reflexivity.
Qed.

Lemma dec_zero : dec_of_Z 0 = bs "0". Proof. reflexivity. Qed.
Lemma dec_one : dec_of_Z 1 = bs "1". Proof. reflexivity. Qed.

Lemma bool_int_text : forall i, bool_v_parse_int i = bool_parse_str (dec_of_Z i).
Proof.
  intros i. rewrite bool_parse_str_eq. unfold bool_v_parse_int.
  destruct (Z.eqb_spec i 1) as [->|H1]; [reflexivity|].
  destruct (Z.eqb_spec i 0) as [->|H0]; [reflexivity|].
  destruct (bool_str_total (dec_of_Z i)) as (r & [->|[b ->]] & Hr); [symmetry; exact Hr|].
  exfalso. apply bool_str_sound in Hr. destruct Hr as (w & Hw & Hs).
  assert (Hden : denotes_int true (dec_of_Z i) i) by apply dec_of_Z_denotes.
  assert (Hnl : forall x, In x (dec_of_Z i) -> (x < 58)%N).
  { intros x Hx. unfold dec_of_Z in Hx.
    assert (Hd : forall n, In x (dec_of_N n) -> (x < 58)%N).
    { intros n Hn. destruct (dec_of_N_digits n) as [HF _]. rewrite Forall_forall in HF. specialize (HF x Hn). unfold is_digit in HF. lia. }
    destruct (i <? 0); [destruct Hx as [<-|Hx]; [lia|]|]; eauto. }
  assert (Hw2 : (w = bs "1" \/ w = bs "0") /\ dec_of_Z i = w).
  { unfold bool_words in Hw. simpl in Hw.
    repeat (destruct Hw as [Hw|Hw]; [injection Hw as <- _;
      inversion Hs as [|x y l l' Hxy Hl E1 E2]; subst;
      first [ exfalso; assert (Hin : In x (dec_of_Z i)) by (rewrite <- E1; left; reflexivity); apply Hnl in Hin; lia
            | inversion Hl; subst; split; [first [left; reflexivity | right; reflexivity]|]; try rewrite <- E1; cbv [bs]; simpl; f_equal; lia ]|]).
    contradiction. }
  destruct Hw2 as [[->| ->] Hd]; [rewrite <- dec_one in Hd|rewrite <- dec_zero in Hd];
    apply (f_equal (int_from_str (Z.min i 0) (Z.max i 1))) in Hd;
    rewrite !int_roundtrip in Hd by lia; congruence.
Qed.

Lemma bool_int_lemma : forall sg pw t i, int_min sg pw t <= i <= int_max sg pw t ->
  bool_parse_int sg pw t i = bool_parse_str (dec_of_Z i) /\
  bool_validate_int sg pw t i = omap (fun _ => tt) (bool_parse_int sg pw t i) /\
  (forall b, bool_parse_int sg pw t i = Ok b <-> (i = 1 /\ b = true) \/ (i = 0 /\ b = false)).
Proof.
  intros sg pw t i Hi. destruct (bool_int_value sg pw t i Hi) as [H1 H2]. rewrite H1, H2.
  split; [apply bool_int_text|]. split; [reflexivity|]. intros b. unfold bool_v_parse_int.
  destruct (Z.eqb_spec i 1) as [->|Hn1].
  - split; [intros H; injection H as <-; auto|]. intros [[_ ->]|[H _]]; [reflexivity|discriminate].
  - destruct (Z.eqb_spec i 0) as [->|Hn0].
    + split; [intros H; injection H as <-; auto|]. intros [[H _]|[_ ->]]; [discriminate|reflexivity].
    + split; [discriminate|]. intros [[H _]|[H _]]; contradiction.
Qed.
