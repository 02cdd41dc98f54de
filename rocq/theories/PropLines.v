(** Property C124: an accepted line is one line, free of controls, also for programs that know Unicode. *)
From Verif Require Import Base RangeModel LengthModel Utf8 StrFacts LineModel LineSpec LineProofs PropLine.
From Verif Require Import IpModel DomainModel HostModel EmailModel EmailSpec EmailProofs EmailMain IdnaFrag PropHost PropEmail PropSafe.
Local Open Scope N_scope.

(** Unicode, Annex 14: the characters after which a line ends (classes BK, CR, LF and NL). *)
Definition ends_line (c : N) : Prop := 10 <= c <= 13 \/ c = 133 \/ c = 8232 \/ c = 8233.
(** The control characters (general category Cc): C0, DEL and C1. Among the latter, U+009B begins an escape sequence of a terminal. *)
Definition control (c : N) : Prop := c <= 31 \/ 127 <= c <= 159.
(** The property Bidi_Control: characters that change the order in which text is shown. *)
Definition reorders (c : N) : Prop := c = 1564 \/ c = 8206 \/ c = 8207 \/ 8234 <= c <= 8238 \/ 8294 <= c <= 8297.

(** C124. line: nothing of ASCII, outside leading white space under a trimmed minimum (C13). *)
Theorem C124_line_partial : forall a s r, line_parse_str Line a s = Ok r ->
  exists lead rest, r = lead ++ rest /\ (a_tmin a = None -> lead = []) /\ Forall white lead /\
  forall c, In c rest ->
    (ends_line c -> c = 133 \/ c = 8232 \/ c = 8233) /\ (control c -> c = 9 \/ 128 <= c <= 159).
Proof.
  intros a s r H. assert (K : exists lead rest, r = lead ++ rest /\ (a_tmin a = None -> lead = []) /\ Forall white lead /\
    Forall (fun c0 => ~ forbidden Line c0) rest).
  { destruct (C13_no_control_partial Line a s r H) as [A (l & q & -> & W & F)]. destruct (a_tmin a).
    - exists l, q. split; [reflexivity|]. split; [discriminate|]. auto.
    - exists [], (l ++ q). auto. }
  destruct K as (l & q & -> & E & W & F). exists l, q. split; [reflexivity|]. split; [exact E|]. split; [exact W|]. intros c C. rewrite Forall_forall in F. specialize (F c C).
  unfold forbidden, ends_line, control in *. lia.
Qed.
Print Assumptions C124_line_partial.
Theorem C124_text_partial : forall a s r, line_parse_str Text a s = Ok r -> a_tmin a = None ->
  forall c, In c r -> control c -> 9 <= c <= 11 \/ c = 13 \/ 128 <= c <= 159.
Proof.
  intros a s r H T c C X. destruct (C13_no_control_partial Text a s r H) as [A _]. specialize (A T). rewrite Forall_forall in A. specialize (A c C).
  unfold forbidden, control in *. lia.
Qed.
Print Assumptions C124_text_partial.

(** C124 fails for what is not ASCII: where lengths are counted in characters, or not at all, any character of an accepted line or text can be replaced with
    a line separator, a C1 control or a character that reorders, and more can be put anywhere if there is no greatest length. *)
Theorem C124_line_refuted : forall k a u x w c, 128 <= c -> a_byte a = false -> a_tmin a = None ->
  line_parse_str k a (u ++ [x] ++ w) = Ok (u ++ [x] ++ w) ->
  line_parse_str k a (u ++ [c] ++ w) = Ok (u ++ [c] ++ w) /\
  (a_max a = None -> line_parse_str k a (u ++ [c] ++ [x] ++ w) = Ok (u ++ [c] ++ [x] ++ w)).
Proof.
  intros k a u x w c C B T H. apply C11_no_trimmed_min_exact in H; [|exact T]. destruct H as (_ & F & L & M). rewrite B in *.
  unfold len in L, M. rewrite !app_length in L, M. apply Forall_app in F. destruct F as [F1 F2]. apply Forall_app in F2. destruct F2 as [F2 F3].
  assert (FC : Forall (fun d => ~ forbidden k d) [c]) by (constructor; [destruct k; cbn [forbidden]; lia|constructor]).
  split.
  - apply C11_no_trimmed_min_exact; [exact T|]. rewrite B. unfold len. rewrite !app_length. cbn [List.length] in *.
    split; [reflexivity|]. split; [repeat (apply Forall_app; split; auto)|]. auto.
  - intros MX. apply C11_no_trimmed_min_exact; [exact T|]. rewrite B. unfold len. rewrite !app_length. cbn [List.length] in *.
    split; [reflexivity|]. split; [repeat (apply Forall_app; split; auto)|]. split.
    + intros m E. specialize (L m E). lia.
    + intros m E. congruence.
Qed.
Print Assumptions C124_line_refuted.
Theorem C124_witnesses_refuted :
  line_parse_str Line None [97; 8232; 98] = Ok [97; 8232; 98] /\ ends_line 8232 /\
  line_parse_str Line None [155; 51; 49; 109] = Ok [155; 51; 49; 109] /\ control 155 /\
  line_parse_str Line None [97; 8238; 98] = Ok [97; 8238; 98] /\ reorders 8238.
Proof. unfold ends_line, control, reorders. repeat split; (reflexivity || lia). Qed.
Print Assumptions C124_witnesses_refuted.

(** C124. email: without non-ASCII characters the local part is printable; with them it can hold all of the above. *)
Theorem C124_email_partial : forall idna prof c s v, valid_str s -> e_non_ascii c = false -> email_parse_str idna prof c s = Ok v ->
  Forall (fun b => 32 <= b <= 126 \/ b = 9) (ev_local v).
Proof.
  intros idna prof c s v Hv Hna H. pose proof (C57_email_ascii_local_partial idna prof c s v Hv H Hna) as A.
  apply email_parse_spec in H; [|exact Hv]. destruct H as (lt & q & dt & tail & canon & _ & _ & HL & _).
  apply local_safe in HL. destruct HL as [S _]. rewrite Forall_forall in *. intros b B. specialize (A b B). specialize (S b B).
  unfold line_safe in S. cbn in A. lia.
Qed.
Print Assumptions C124_email_partial.
Theorem C124_email_refuted : forall c, In c [133; 155; 8232; 8233; 8238] -> exists v,
  let s := 97 :: utf8_char c ++ bs "b@example.com" in
  email_parse_str idna_ascii Debug (ecfg false Disallow Disallow Must true) s = Ok v /\ ev_local v = 97 :: utf8_char c ++ [98].
Proof.
  intros c H. cbn [In] in H. decompose [or] H; try contradiction; subst; eexists; cbv zeta; (split; [vm_compute; reflexivity|reflexivity]).
Qed.
Print Assumptions C124_email_refuted.

(** The hypotheses of C124 are met: a line of seven characters, with one of them replaced and one put in; a text with a tab; an address. *)
Example C124_example :
  line_parse_str Line (Some (false, mk_len None None (Some 7))) [97; 98; 9; 99; 100; 32; 101] = Ok [97; 98; 9; 99; 100; 32; 101] /\
  line_parse_str Line (Some (false, mk_len None None (Some 7))) ([97; 98; 9] ++ [8233] ++ [100; 32; 101]) = Ok [97; 98; 9; 8233; 100; 32; 101] /\
  line_parse_str Line (Some (false, mk_len (Some 2) None None)) ([97; 98; 9] ++ [133; 99] ++ [100; 32; 101]) = Ok [97; 98; 9; 133; 99; 100; 32; 101] /\
  line_parse_str Line None [97; 10; 98] = Err LInvalid /\ line_parse_str Line None [97; 27; 98] = Err LInvalid /\
  line_parse_str Text None [97; 9; 11; 13; 10; 98] = Ok [97; 9; 11; 13; 10; 98] /\ line_parse_str Text None [97; 12] = Err LInvalid /\
  (exists v, email_parse_str idna_ascii Debug (ecfg false Disallow Disallow Must false) (bs "a.b@example.com") = Ok v /\ ev_local v = bs "a.b") /\
  email_parse_str idna_ascii Debug (ecfg false Disallow Disallow Must false) (97 :: utf8_char 8232 ++ bs "b@example.com") = Err EInvalid.
Proof.
  split; [vm_compute; reflexivity|]. split; [vm_compute; reflexivity|]. split; [vm_compute; reflexivity|]. split; [vm_compute; reflexivity|].
  split; [vm_compute; reflexivity|]. split; [vm_compute; reflexivity|]. split; [vm_compute; reflexivity|].
  split; [|vm_compute; reflexivity]. eexists. split; [vm_compute; reflexivity|reflexivity].
Qed.
