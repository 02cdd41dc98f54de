(** Properties C11-C15: line and text validators. *)
From Verif Require Import Base RangeModel LengthModel Utf8 LineModel LineSpec LineProofs.
Local Open Scope N_scope.

(** C11: without [trimmed_min], exactly the strings free of forbidden characters whose length
    is within the bounds are accepted, unchanged. *)
Theorem C11_no_trimmed_min_exact : forall k a s r, a_tmin a = None ->
  (line_parse_str k a s = Ok r <->
   r = s /\ Forall (fun c => ~ forbidden k c) s /\
   at_least (a_min a) (len (a_byte a) s) /\ at_most (a_max a) (len (a_byte a) s)).
Proof. intros k a s r H. rewrite line_parse_ok, H, line_plain_ok. reflexivity. Qed.
Print Assumptions C11_no_trimmed_min_exact.

(** C11/C12: the other entry points agree. *)
Theorem C11_entry_points : forall k a s,
  line_parse_string k a s = line_parse_str k a s /\
  line_validate_str k a s = omap (fun _ => tt) (line_parse_str k a s).
Proof. exact line_entry_points. Qed.
Print Assumptions C11_entry_points.

Example C11_example :
  (* two characters, five bytes *)
  line_parse_str Line (Some (true, mk_len None None (Some 5))) [233; 26085] = Ok [233; 26085] /\
  line_parse_str Line (Some (true, mk_len None None (Some 4))) [233; 26085] = Err LTooLong /\
  line_parse_str Line (Some (false, mk_len (Some 2) None (Some 2))) [233; 26085] = Ok [233; 26085] /\
  line_parse_str Line (Some (false, mk_len (Some 3) None None)) [233; 26085] = Err LTooShort /\
  line_parse_str Line None [97; 10; 98] = Err LInvalid /\
  line_parse_str Text None [97; 10; 98] = Ok [97; 10; 98].
Proof. repeat split. Qed.

(** C12: with [trimmed_min], exactly the strings whose length is within the bounds, whose
    trimmed length reaches the minimum and that have no forbidden character outside the
    leading white space are accepted, unchanged. *)
Theorem C12_trimmed_min_exact : forall k a t s r, a_tmin a = Some t ->
  (line_parse_str k a s = Ok r <->
   r = s /\ exists lead m trail, trims s lead m trail /\
     Forall (fun c => ~ forbidden k c) (m ++ trail) /\
     at_least (a_min a) (len (a_byte a) s) /\ at_most (a_max a) (len (a_byte a) s) /\
     t <= len (a_byte a) m).
Proof.
  intros k a t s r H. rewrite line_parse_ok, H. split.
  - intros [-> Hok]. split; [reflexivity|]. destruct (trims_exists s) as (x & m & y & Ht).
    exists x, m, y. split; [exact Ht|]. apply (line_trim_ok k _ _ t _ s x m y Ht). exact Hok.
  - intros [-> (x & m & y & Ht & HF & HL)]. split; [reflexivity|].
    apply (line_trim_ok k _ _ t _ s x m y Ht). split; [exact HF|exact HL].
Qed.
Print Assumptions C12_trimmed_min_exact.

(** C12: every string has exactly one trimming, so that the statement above is not vacuous
    or ambiguous. *)
Theorem C12_trimming_unique : forall s, (exists a m b, trims s a m b) /\
  (forall a m b a' m' b', trims s a m b -> trims s a' m' b' -> a = a' /\ m = m' /\ b = b').
Proof. intros s. split; [apply trims_exists|]. intros a m b a' m' b'. apply trims_fun. Qed.
Print Assumptions C12_trimming_unique.

Example C12_example :
  (* " ab " has length 4 and trimmed length 2 *)
  line_parse_str Line (Some (false, mk_len (Some 4) (Some 2) (Some 4))) [32; 97; 98; 32] = Ok [32; 97; 98; 32] /\
  line_parse_str Line (Some (false, mk_len (Some 4) (Some 3) (Some 4))) [32; 97; 98; 32] = Err LTooShort /\
  line_parse_str Line (Some (true, mk_len None (Some 2) (Some 3))) [32; 97; 98; 32] = Err LTooLong /\
  line_parse_str Line (Some (true, mk_len None (Some 2) None)) [32; 97; 10; 98] = Err LInvalid /\
  trims [32; 97; 98; 32] [32] [97; 98] [32].
Proof.
  do 4 (split; [reflexivity|]). split; [reflexivity|].
  assert (white 32) by (rewrite <- white_iff; reflexivity).
  assert (~ white 97) by (rewrite <- white_false; reflexivity).
  assert (~ white 98) by (rewrite <- white_false; reflexivity).
  split; [auto|]. split; [auto|]. right. split; [exists 97, [98]; auto|exists [97], 98; auto].
Qed.

(** C13, a finding: with [trimmed_min], control characters that count as white space are not
    looked for in the leading white space.  Witness: a line starting with LF. *)
Theorem C13_line_break_refuted : exists a s, accepted_attr a /\
  line_parse_str Line a s = Ok s /\ Exists (forbidden Line) s.
Proof.
  exists (Some (false, mk_len None (Some 1) None)), [10; 97]. split; [|split; [reflexivity|left; simpl; lia]].
  exists (Some [UCharLength [LTrimmedMin (Some 1)]]). reflexivity.
Qed.
Print Assumptions C13_line_break_refuted.

(** C13, the same for text with U+000C. *)
Theorem C13_text_refuted : exists a s, accepted_attr a /\
  line_parse_str Text a s = Ok s /\ Exists (forbidden Text) s.
Proof.
  exists (Some (true, mk_len None (Some 1) (Some 9))), [12; 97]. split; [|split; [reflexivity|left; simpl; lia]].
  exists (Some [UByteLength [LTrimmedMin (Some 1); LMax (Some 9)]]). reflexivity.
Qed.
Print Assumptions C13_text_refuted.

(** C13, what holds: no forbidden character at all without [trimmed_min]; none outside the
    leading white space otherwise.  Missing: the leading white space. *)
Theorem C13_no_control_partial : forall k a s r, line_parse_str k a s = Ok r ->
  (a_tmin a = None -> Forall (fun c => ~ forbidden k c) r) /\
  (exists lead rest, r = lead ++ rest /\ Forall white lead /\ Forall (fun c => ~ forbidden k c) rest).
Proof.
  intros k a s r H. apply line_parse_ok in H. destruct H as [-> H].
  destruct (a_tmin a) as [t|] eqn:Et.
  - split; [discriminate|]. destruct (trims_exists s) as (x & m & y & Ht).
    apply (line_trim_ok k _ _ t _ s x m y Ht) in H. destruct H as [HF _].
    exists x, (m ++ y). destruct Ht as (-> & Hx & _). auto.
  - apply line_plain_ok in H. destruct H as [HF _]. split; [auto|]. exists [], s. auto.
Qed.
Print Assumptions C13_no_control_partial.

Example C13_example :
  line_parse_str Line (Some (true, mk_len (Some 1) None None)) [97; 13] = Err LInvalid /\
  line_parse_str Line (Some (true, mk_len None (Some 1) None)) [97; 13] = Err LInvalid /\
  line_parse_str Line (Some (true, mk_len None (Some 1) None)) [9; 97] = Ok [9; 97].
Proof. repeat split. Qed.

(** C14, a finding: TooShort for a string that is not too short.  Witness: three spaces and
    "abc" with char_length(trimmed_min = 1, max = 2); it is too long. *)
Theorem C14_too_short_refuted : exists k a s, accepted_attr a /\
  line_parse_str k a s = Err LTooShort /\
  at_least (a_min a) (len (a_byte a) s) /\
  (forall t, a_tmin a = Some t -> forall x m y, trims s x m y -> t <= len (a_byte a) m).
Proof.
  exists Line, (Some (false, mk_len None (Some 1) (Some 2))), [32; 32; 32; 97; 98; 99].
  split; [exists (Some [UCharLength [LTrimmedMin (Some 1); LMax (Some 2)]]); reflexivity|].
  split; [reflexivity|]. split; [discriminate|].
  intros t Ht x m y Htr. simpl in Ht. injection Ht as <-.
  assert (Htr' : trims [32; 32; 32; 97; 98; 99] [32; 32; 32] [97; 98; 99] []).
  { assert (white 32) by (rewrite <- white_iff; reflexivity).
    assert (~ white 97) by (rewrite <- white_false; reflexivity).
    assert (~ white 99) by (rewrite <- white_false; reflexivity).
    split; [reflexivity|]. split; [auto|]. split; [auto|]. right. split; [exists 97, [98; 99]; auto|exists [97; 98], 99; auto]. }
  destruct (trims_fun _ _ _ _ _ _ _ Htr Htr') as (-> & -> & ->). vm_compute. discriminate.
Qed.
Print Assumptions C14_too_short_refuted.

(** C14, what holds: TooLong is always true, Invalid is always true, TooShort is true for byte
    lengths, without [trimmed_min], and for strings that are not too long.  Missing: TooShort
    for too long strings under char_length with [trimmed_min], which is false. *)
Theorem C14_errors_partial : forall k a s, accepted_attr a ->
  match line_parse_str k a s with
  | Ok _ => True
  | Err LTooLong => ~ at_most (a_max a) (len (a_byte a) s)
  | Err LInvalid => Exists (forbidden k) s
  | Err LTooShort =>
      (a_byte a = true \/ a_tmin a = None \/ at_most (a_max a) (len (a_byte a) s)) ->
      ~ at_least (a_min a) (len (a_byte a) s) \/
      exists t x m y, a_tmin a = Some t /\ trims s x m y /\ len (a_byte a) m < t
  | Panic => False
  end.
Proof.
  intros k a s Ha. destruct (trims_exists s) as (x & m & y & Ht).
  pose proof (line_err_ok k (a_byte a) (a_min a) (a_tmin a) (a_max a) s x m y Ht) as H.
  unfold line_parse_str. rewrite line_v_eq. destruct (handle_str _ _ _ _ _ _) as [u|[]|]; simpl in *; auto.
  intros Hc. destruct H as [H|(t & H1 & H2)]; auto.
  - destruct a as [[b l]|]; [|discriminate]. apply accepted_good in Ha. apply Ha.
  - right. exists t, x, m, y. auto.
Qed.
Print Assumptions C14_errors_partial.

Example C14_example :
  accepted_attr (Some (false, mk_len (Some 2) None (Some 3))) /\
  line_parse_str Line (Some (false, mk_len (Some 2) None (Some 3))) [97] = Err LTooShort /\
  line_parse_str Line (Some (false, mk_len (Some 2) None (Some 3))) [97; 97; 97; 97] = Err LTooLong.
Proof. split; [exists (Some [UCharLength [LMax (Some 3); LMin (Some 2)]]); reflexivity|]. split; reflexivity. Qed.

(** C15: every accepted attribute has a string (of scalar values) that passes. *)
Theorem C15_satisfiable : forall k a, accepted_attr a -> exists s,
  Forall (fun c => is_scalar c = true) s /\ line_parse_str k a s = Ok s.
Proof. exact line_satisfiable. Qed.
Print Assumptions C15_satisfiable.

Example C15_example :
  accepted_attr (Some (true, mk_len (Some 5) (Some 4) (Some 5))) /\
  line_parse_str Text (Some (true, mk_len (Some 5) (Some 4) (Some 5))) [97; 97; 97; 97; 97] = Ok [97; 97; 97; 97; 97] /\
  ~ accepted_attr (Some (true, mk_len (Some 5) None (Some 4))).
Proof.
  split; [exists (Some [UByteLength [LMin (Some 5); LTrimmedMin (Some 4); LMax (Some 5)]]); reflexivity|].
  split; [reflexivity|]. intros Hc. apply accepted_good in Hc. destruct Hc as (_ & H & _). specialize (H _ _ eq_refl eq_refl). lia.
Qed.
