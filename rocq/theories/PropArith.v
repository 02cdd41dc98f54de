(** C109: the arithmetic of the generated code stays inside its types, so that debug and release builds agree, on
    machines of 16, 32 and 64 bits alike; the one exception is the length of the second comment of an e-mail address. *)
From Verif Require Import Base StrFacts IntStr NetModel IpModel DomainModel HostModel EmailModel LengthModel Utf8 LineModel
  BaseModel CodecModel MacModel ArithModel NetSpec NetProofs PropWidth DomainSpec IdnaFrag LocalProofs PropEmail.
From Verif Require IntModel.
Local Open Scope N_scope.

(** No object of Rust is larger than [isize::MAX] bytes: the texts and byte slices a program can have. *)
Definition held (pw : IntModel.ptr_width) (s : list N) : Prop := (Z.of_nat (List.length s) < 2 ^ (IntModel.bits pw IntModel.Isize - 1))%Z.

Lemma imax_eq pw : imax pw = (2 ^ (IntModel.bits pw IntModel.Isize - 1) - 1)%Z.
Proof. reflexivity. Qed.
Lemma width_facts pw : (32767 <= imax pw /\ umax pw = 2 * imax pw + 1)%Z.
Proof. destruct pw; vm_compute; split; congruence. Qed.

Lemma mach_in {E} prof lo hi z : (lo <= z <= hi)%Z -> mach (E := E) prof lo hi z = Ok z.
Proof. intros H. unfold mach. replace (lo <=? z)%Z with true by (symmetry; apply Z.leb_le; lia).
  replace (z <=? hi)%Z with true by (symmetry; apply Z.leb_le; lia). reflexivity. Qed.

Section W.
Variables (pw : IntModel.ptr_width) (prof : profile).
Opaque umax imax.

Lemma uadd_ok {E} a b : (Z.of_nat a + Z.of_nat b <= umax pw)%Z -> uadd (E := E) pw prof a b = Ok (a + b)%nat.
Proof. intros H. unfold uadd. rewrite mach_in by lia. cbn [omap]. f_equal. lia. Qed.
Lemma usub_ok {E} a b : (b <= a)%nat -> (Z.of_nat a <= umax pw)%Z -> usub (E := E) pw prof a b = Ok (a - b)%nat.
Proof. intros H H1. unfold usub. rewrite mach_in by lia. cbn [omap]. f_equal. lia. Qed.
Lemma naddc_ok {E} a b : (Z.of_N a + Z.of_N b <= umax pw)%Z -> naddc (E := E) pw prof a b = Ok (a + b).
Proof. intros H. unfold naddc. rewrite mach_in by lia. cbn [omap]. f_equal. lia. Qed.
Lemma iadd_ok {E} a b : (- imax pw - 1 <= a + b <= imax pw)%Z -> iadd (E := E) pw prof a b = Ok (a + b)%Z.
Proof. intros H. unfold iadd. apply mach_in. exact H. Qed.
Lemma isub_ok {E} a b : (- imax pw - 1 <= a - b <= imax pw)%Z -> isub (E := E) pw prof a b = Ok (a - b)%Z.
Proof. intros H. unfold isub. apply mach_in. exact H. Qed.
Lemma bsub_ok {E} a b : b <= a -> a <= 255 -> bsub (E := E) prof a b = Ok (a - b).
Proof. intros H H1. unfold bsub. rewrite mach_in by lia. cbn [omap]. f_equal. lia. Qed.
Lemma as_isize_ok a : (Z.of_nat a <= imax pw)%Z -> as_isize pw a = Z.of_nat a.
Proof. intros H. unfold as_isize. pose proof (width_facts pw). rewrite Z.mod_small by lia. lia. Qed.
Lemma as_usize_ok a : (0 <= a <= imax pw)%Z -> as_usize pw a = Z.to_nat a.
Proof. intros H. unfold as_usize. pose proof (width_facts pw). rewrite Z.mod_small by lia. reflexivity. Qed.

Lemma position_lt c : forall l i, position c l = Some i -> (i < List.length l)%nat.
Proof. induction l as [|x l IH]; intros i H; cbn in H; [discriminate|].
  destruct (x =? c); [injection H as <-; cbn; lia|]. destruct (position c l) as [j|]; [|discriminate].
  injection H as <-. specialize (IH j eq_refl). cbn. lia. Qed.
Lemma rposition_lt c : forall l i, rposition c l = Some i -> (i < List.length l)%nat.
Proof. induction l as [|x l IH]; intros i H; cbn in H; [discriminate|].
  destruct (rposition c l) as [j|]; [injection H as <-; specialize (IH j eq_refl); cbn; lia|].
  destruct (x =? c); [injection H as <-; cbn; lia|discriminate]. Qed.
Lemma idx_lt {E} l i b : idx (E := E) l i = Ok b -> (i < List.length l)%nat.
Proof. unfold idx. destruct (nth_error l i) eqn:H; [|discriminate]. intros _. apply nth_error_Some. congruence. Qed.
Lemma slice_from_len {E} l a r : slice_from (E := E) l a = Ok r -> (a <= List.length l)%nat /\ List.length r = (List.length l - a)%nat.
Proof. unfold slice_from. destruct (Nat.leb_spec a (List.length l)); [|discriminate]. intros [= <-]. now rewrite skipn_length. Qed.
Lemma str_slice_len {E} l a b r : str_slice (E := E) l a b = Ok r -> (a <= b <= List.length l)%nat /\ List.length r = (b - a)%nat.
Proof. unfold str_slice. destruct (Nat.leb_spec a b); [|discriminate]. destruct (Nat.leb_spec b (List.length l)); [|discriminate].
  cbn [andb]. destruct (is_char_boundary l a && is_char_boundary l b); [|discriminate]. intros [= <-].
  split; [lia|]. rewrite firstn_length, skipn_length. lia. Qed.
Lemma str_slice_from_len {E} l a r : str_slice_from (E := E) l a = Ok r -> (a <= List.length l)%nat /\ List.length r = (List.length l - a)%nat.
Proof. intros H. apply str_slice_len in H. lia. Qed.
Lemma held_le s : held pw s -> (Z.of_nat (List.length s) <= imax pw)%Z.
Proof. unfold held. rewrite imax_eq. lia. Qed.

Ltac bnd := pose proof (width_facts pw); lia.
Ltac ua := first [rewrite uadd_ok by bnd | rewrite usub_ok by bnd]; cbn [obind omap].

Lemma base_loop_eq f padding ll lb : forall rem p, (Z.of_nat p + Z.of_nat rem <= imax pw)%Z ->
  base_loop_chk pw prof f padding ll lb p rem = base_loop f padding ll lb p rem.
Proof.
  induction rem as [|rem IH]; intros p H; [reflexivity|]. cbn [base_loop_chk base_loop].
  destruct (idx lb p) as [e|e|]; cbn [obind]; try reflexivity.
  destruct (in_alphabet f e); [ua; apply IH; lia|]. destruct (e =? 61); [|reflexivity].
  unfold handle_padding_chk, handle_padding. destruct (is_disallow padding); [reflexivity|]. destruct (pad_pos f p); [|reflexivity].
  destruct (negb (ll =? block f)%nat); [reflexivity|]. ua. reflexivity.
Qed.

Theorem base_eq f padding v : held pw v -> base_v_parse_u8_slice_chk pw prof f padding v = base_v_parse_u8_slice f padding v.
Proof.
  intros Hv. apply held_le in Hv. unfold base_v_parse_u8_slice_chk, base_v_parse_u8_slice. cbv zeta.
  destruct (Nat.eqb_spec (List.length v) 0); [reflexivity|].
  assert (Hl : (Nat.land (List.length v) (block_mask f) < block f)%nat).
  { pose proof (Nat.land_ones (List.length v) (match f with B32 => 3 | _ => 2 end)%nat) as HL.
    replace (Nat.ones (match f with B32 => 3 | _ => 2 end)) with (block_mask f) in HL by (destruct f; reflexivity).
    rewrite HL. replace (2 ^ match f with B32 => 3 | _ => 2 end)%nat with (block f) by (destruct f; reflexivity).
    apply Nat.mod_upper_bound. destruct f; discriminate. }
  set (ll := if (Nat.land (List.length v) (block_mask f) =? 0)%nat then block f else Nat.land (List.length v) (block_mask f)).
  assert (Hll : (ll <= block f)%nat) by (unfold ll; destruct (Nat.eqb_spec (Nat.land (List.length v) (block_mask f)) 0); lia).
  assert (Hb : (block f <= 8)%nat) by (destruct f; cbn; lia).
  destruct (is_must padding && negb (ll =? block f)%nat); [reflexivity|].
  destruct (Nat.ltb_spec (block f) (List.length v)).
  - ua. destruct (forallb (in_alphabet f) (firstn (List.length v - ll) v)); [|reflexivity]. cbn [obind].
    destruct (slice_from v (List.length v - ll)) as [lb|e|]; cbn [obind]; try reflexivity. apply base_loop_eq. bnd.
  - cbn [obind]. apply base_loop_eq. bnd.
Qed.

Theorem dec_eq f padding v : held pw v -> dec_v_parse_u8_slice_chk pw prof f padding v = dec_v_parse_u8_slice f padding v.
Proof.
  intros Hv. apply held_le in Hv. unfold dec_v_parse_u8_slice_chk, dec_v_parse_u8_slice. destruct v as [|x v]; [reflexivity|].
  destruct padding; try reflexivity. cbn [List.length] in *. ua. reflexivity.
Qed.

Lemma hex_digit_eq case e : hex_digit_chk prof case e = Ok (hex_digit case e).
Proof.
  unfold hex_digit_chk, hex_digit. cbv zeta.
  destruct ((48 <=? e) && (e <=? 57)) eqn:A; [apply andb_prop in A as [A1 A2]; apply N.leb_le in A1, A2; rewrite bsub_ok by lia; reflexivity|].
  assert (K : forall c, (97 = c \/ 65 = c) -> c <= e -> e <= 102 ->
    (let? k := bsub prof c 10 in let? d := bsub prof e k in Ok (E := hex_err) (Some d)) = Ok (Some (e - (c - 10)))).
  { intros c Hc H1 H2. rewrite bsub_ok by lia. cbn [obind]. rewrite bsub_ok by lia. reflexivity. }
  destruct case;
    repeat match goal with
    | |- context [(?a <=? e) && (e <=? ?b)] => let B := fresh in destruct ((a <=? e) && (e <=? b)) eqn:B;
        [apply andb_prop in B as [? ?]; rewrite ?N.leb_le in *; first [rewrite (K 97) by lia | rewrite (K 65) by lia]; reflexivity|]
    end; reflexivity.
Qed.

Lemma handle_decode_eq w case : forall iter acc, handle_decode_chk prof w case iter acc = handle_decode w case iter acc.
Proof.
  induction iter as [|e iter IH]; intros acc; [reflexivity|]. cbn [handle_decode_chk handle_decode]. cbv zeta.
  rewrite hex_digit_eq. cbn [obind]. destruct (hex_digit case e); [apply IH|reflexivity].
Qed.

Lemma count_eq sep e nc : (nc <= 9)%nat -> count_chk pw prof sep e nc = Ok (if negb (e =? sep)%N then nc + 1 else nc)%nat.
Proof. intros H. unfold count_chk. destruct (negb (e =? sep)); [ua|]; reflexivity. Qed.
Lemma slice_back_eq b i j nc : (nc <= i)%nat -> (nc <= j)%nat -> (i <= 40)%nat -> (j <= 40)%nat ->
  slice_back pw prof b i j nc = slice b (i - nc) (j - nc).
Proof. intros. unfold slice_back. ua. ua. reflexivity. Qed.
Lemma idx_back_eq b i nc : (nc <= i)%nat -> (i <= 40)%nat -> idx_back pw prof b i nc = idx b (i - nc).
Proof. intros. unfold idx_back. ua. reflexivity. Qed.

Ltac hexstep :=
  match goal with
  | |- ?x = ?x => reflexivity
  | |- context [slice_back pw prof ?b ?i ?j ?nc] => rewrite (slice_back_eq b i j nc) by lia
  | |- context [idx_back pw prof ?b ?i ?nc] => rewrite (idx_back_eq b i nc) by lia
  | |- context [usub pw prof ?a ?b] => rewrite (usub_ok a b) by bnd
  | |- context [count_chk pw prof ?s ?e ?nc] => rewrite (count_eq s e nc) by lia; cbn [obind];
      let n := fresh "n" in let H := fresh in
      set (n := (if negb (e =? s)%N then nc + 1 else nc)%nat);
      assert (H : (n <= nc + 1)%nat) by (unfold n; destruct (negb (e =? s)); lia); clearbody n
  | |- obind ?x _ = obind ?x _ => destruct x; cbn [obind]
  | |- obind (Ok _) _ = _ => cbn [obind]
  end.

Lemma mac_iter_eq sep bytes : mac_iter_chk pw prof sep bytes = mac_iter sep bytes.
Proof.
  destruct sep as [separator|separator|]; cbn [mac_iter_chk]; try reflexivity. unfold mac_iter. cbv zeta.
  destruct (negb ((12 <=? List.length bytes)%nat && (List.length bytes <=? 17)%nat)); [reflexivity|].
  destruct (slice bytes 0 2); cbn [obind]; try reflexivity.
  destruct (idx bytes 2) as [e| |]; cbn [obind]; try reflexivity.
  set (nc := (if negb (e =? separator)%N then 1 else 0)%nat).
  assert (Hn : (nc <= 1)%nat) by (unfold nc; destruct (negb (e =? separator)); lia). clearbody nc.
  repeat hexstep.
Qed.

Lemma uuid_iter_eq sep bytes : uuid_iter_chk pw prof sep bytes = uuid_iter sep bytes.
Proof.
  destruct sep as [separator|separator|]; cbn [uuid_iter_chk]; try reflexivity. unfold uuid_iter. cbv zeta.
  destruct (negb ((32 <=? List.length bytes)%nat && (List.length bytes <=? 36)%nat)); [reflexivity|].
  destruct (slice bytes 0 8); cbn [obind]; try reflexivity.
  destruct (idx bytes 8) as [e| |]; cbn [obind]; try reflexivity.
  set (nc := (if negb (e =? separator)%N then 1 else 0)%nat).
  assert (Hn : (nc <= 1)%nat) by (unfold nc; destruct (negb (e =? separator)); lia). clearbody nc.
  repeat hexstep.
Qed.

Theorem mac_eq case sep s : mac_v_parse_str_chk pw prof case sep s = mac_v_parse_str case sep s /\
  mac_v_validate_str_chk pw prof case sep s = mac_v_validate_str case sep s.
Proof.
  unfold mac_v_parse_str_chk, mac_v_parse_str, mac_v_validate_str_chk, mac_v_validate_str. rewrite mac_iter_eq.
  split; [|reflexivity]. destruct (mac_iter sep s); cbn [obind]; try reflexivity. apply handle_decode_eq.
Qed.
Theorem uuid_eq case sep s : uuid_v_parse_str_chk pw prof case sep s = uuid_v_parse_str case sep s /\
  uuid_v_validate_str_chk pw prof case sep s = uuid_v_validate_str case sep s.
Proof.
  unfold uuid_v_parse_str_chk, uuid_v_parse_str, uuid_v_validate_str_chk, uuid_v_validate_str. rewrite uuid_iter_eq.
  split; [|reflexivity]. destruct (uuid_iter sep s); cbn [obind]; try reflexivity. apply handle_decode_eq.
Qed.

Ltac go :=
  match goal with
  | |- ?x = ?x => reflexivity
  | |- _ => progress cbn [obind]
  | |- context [match rposition ?c ?s with _ => _ end] =>
      let i := fresh "i" in let E := fresh in destruct (rposition c s) as [i|] eqn:E; [apply rposition_lt in E|]
  | |- context [if (2 <? ?i)%nat then _ else _] => destruct (Nat.ltb_spec 2 i)
  | |- context [usub pw prof ?a ?b] => rewrite (usub_ok a b) by bnd
  | |- context [uadd pw prof ?a ?b] => rewrite (uadd_ok a b) by bnd
  | |- obind ?x _ = obind ?x _ => let E := fresh in destruct x eqn:E; cbn [obind]
  | |- obind (Ok _) _ = _ => cbn [obind]
  | |- context [match ipv6_from_str ?x with _ => _ end] => destruct (ipv6_from_str x)
  | |- context [match ipv4_from_str ?x with _ => _ end] => destruct (ipv4_from_str x)
  | |- context [match ?p with Allow => _ | Must => _ | Disallow => _ end] => destruct p
  | |- (if ?b then _ else _) = (if ?b then _ else _) => destruct b
  end.

Lemma ipv6_with_port_eq port local s : held pw s -> ipv6_with_port_chk pw prof port local s = ipv6_with_port port local s.
Proof. intros Hs. apply held_le in Hs. unfold ipv6_with_port_chk, ipv6_with_port. repeat go. Qed.
Lemma ipv6_bracket_eq port local s : held pw s -> s <> [] -> ipv6_bracket_chk pw prof port local s = ipv6_bracket port local s.
Proof.
  intros Hs Hn. pose proof (held_le _ Hs). assert (List.length s <> O) by now destruct s.
  unfold ipv6_bracket_chk, ipv6_bracket. rewrite ipv6_with_port_eq by exact Hs. cbv zeta. repeat go.
Qed.
Lemma ipv4_rest_eq port local s : held pw s -> ipv4_rest_chk pw prof port local s = ipv4_rest port local s.
Proof. intros Hs. apply held_le in Hs. unfold ipv4_rest_chk, ipv4_rest. repeat go. Qed.

Theorem ip_eq port local s : held pw s -> ip_v_parse_str_chk pw prof port local s = ip_v_parse_str port local s.
Proof.
  intros Hs. unfold ip_v_parse_str_chk, ip_v_parse_str. destruct s as [|x s]; [reflexivity|].
  rewrite ipv6_bracket_eq, ipv4_rest_eq by (exact Hs || discriminate). reflexivity.
Qed.
Theorem ipv4_eq port local s : held pw s -> ipv4_v_parse_str_chk pw prof port local s = ipv4_v_parse_str port local s.
Proof.
  intros Hs. unfold ipv4_v_parse_str_chk, ipv4_v_parse_str. destruct s as [|x s]; [reflexivity|].
  apply ipv4_rest_eq. exact Hs.
Qed.
Theorem ipv6_eq port local s : held pw s -> ipv6_v_parse_str_chk pw prof port local s = ipv6_v_parse_str port local s.
Proof.
  intros Hs. unfold ipv6_v_parse_str_chk, ipv6_v_parse_str. destruct s as [|x s]; [reflexivity|].
  rewrite ipv6_bracket_eq by (exact Hs || discriminate). reflexivity.
Qed.

Lemma h_ipv6_with_port_eq c s : held pw s -> h_ipv6_with_port_chk pw prof c s = h_ipv6_with_port c s.
Proof. intros Hs. apply held_le in Hs. unfold h_ipv6_with_port_chk, h_ipv6_with_port. repeat go. Qed.
Lemma h_ipv6_bracket_eq c s : held pw s -> s <> [] -> h_ipv6_bracket_chk pw prof c s = h_ipv6_bracket c s.
Proof.
  intros Hs Hn. pose proof (held_le _ Hs). assert (List.length s <> O) by now destruct s.
  unfold h_ipv6_bracket_chk, h_ipv6_bracket. rewrite h_ipv6_with_port_eq by exact Hs. cbv zeta. repeat go.
Qed.
Lemma h_split_eq c s : held pw s -> h_split_chk pw prof c s = h_split c s.
Proof. intros Hs. apply held_le in Hs. unfold h_split_chk, h_split. repeat go. Qed.
Lemma d_split_eq c s : held pw s -> d_split_chk pw prof c s = d_split c s.
Proof. intros Hs. apply held_le in Hs. unfold d_split_chk, d_split. repeat go. Qed.

Theorem domain_eq idna c s : held pw s -> domain_v_parse_str_chk pw prof idna c s = domain_v_parse_str idna c s.
Proof. intros Hs. unfold domain_v_parse_str_chk, domain_v_parse_str. now rewrite d_split_eq. Qed.
Theorem host_eq idna c s : held pw s -> host_v_parse_str_chk pw prof idna c s = host_v_parse_str idna c s.
Proof.
  intros Hs. unfold host_v_parse_str_chk, host_v_parse_str, h_rest_chk, h_rest. destruct s as [|x s]; [reflexivity|].
  rewrite h_ipv6_bracket_eq, h_split_eq by (exact Hs || discriminate). reflexivity.
Qed.
Theorem fq_eq {E} d : held pw d -> get_domain_non_fully_qualified_chk (E := E) pw prof d = get_domain_non_fully_qualified d.
Proof.
  intros Hs. apply held_le in Hs. unfold get_domain_non_fully_qualified_chk, get_domain_non_fully_qualified.
  destruct (is_fully_qualified d) eqn:F; [|reflexivity]. destruct d as [|x d]; [discriminate|]. cbn [List.length] in *. ua. reflexivity.
Qed.

(** The size in bytes of a list of characters. *)
Definition size (s : list N) : N := N.of_nat (List.length (utf8 s)).
Lemma size_cons c s : size (c :: s) = len_utf8 c + size s.
Proof. unfold size, utf8. cbn [flat_map]. rewrite app_length, Nat2N.inj_add, utf8_char_len. reflexivity. Qed.
Lemma unit_le byte c : unit_len byte c <= len_utf8 c /\ 1 <= len_utf8 c.
Proof. assert (1 <= len_utf8 c) by (unfold len_utf8; repeat match goal with |- context [if ?b then _ else _] => destruct b end; lia).
  unfold unit_len. destruct byte; lia. Qed.

Lemma scan_chars_eq k : forall s n, (Z.of_N n + Z.of_N (size s) <= umax pw)%Z -> scan_chars_chk pw prof k s n = scan_chars k s n.
Proof.
  induction s as [|c s IH]; intros n H; [reflexivity|]. cbn [scan_chars_chk scan_chars]. rewrite size_cons in H.
  pose proof (unit_le false c). destruct (ctl k c); [reflexivity|]. rewrite naddc_ok by lia. apply IH. lia.
Qed.
Lemma inner_eq k byte chk : forall s n t m, (Z.of_N n + Z.of_N (size s) <= umax pw)%Z -> t + m <= n ->
  inner_chk pw prof k byte chk s n t m = inner k byte chk s n t m.
Proof.
  induction s as [|c s IH]; intros n t m H H1; [reflexivity|]. cbn [inner_chk inner]. cbv zeta. rewrite size_cons in H.
  pose proof (unit_le byte c). destruct (ctl k c); [reflexivity|]. rewrite naddc_ok by lia. cbn [obind].
  destruct (over chk (n + unit_len byte c)); [reflexivity|]. destruct (is_whitespace c).
  - rewrite naddc_ok by lia. apply IH; lia.
  - rewrite naddc_ok by lia. cbn [obind]. rewrite naddc_ok by lia. apply IH; lia.
Qed.
Lemma outer_eq k byte chk1 chk2 fin empty : forall s n, (Z.of_N n + Z.of_N (size s) <= umax pw)%Z ->
  outer_chk pw prof k byte chk1 chk2 fin empty s n = outer k byte chk1 chk2 fin empty s n.
Proof.
  induction s as [|c s IH]; intros n H; [reflexivity|]. cbn [outer_chk outer]. cbv zeta. rewrite size_cons in H.
  pose proof (unit_le byte c). rewrite naddc_ok by lia. cbn [obind]. destruct (over chk1 (n + unit_len byte c)); [reflexivity|].
  destruct (negb (is_whitespace c)); [|apply IH; lia]. destruct (ctl k c); [reflexivity|].
  rewrite inner_eq by lia. reflexivity.
Qed.
Lemma size_take n : forall s, size (take n s) <= size s.
Proof. unfold take. generalize (N.to_nat n). clear n. intros n. induction n as [|n IH]; intros [|c s]; cbn [firstn]; try lia.
  - unfold size at 1. cbn. lia.
  - rewrite !size_cons. specialize (IH s). lia. Qed.

Theorem line_eq k a s : held pw (utf8 s) ->
  (forall l, a = Some (false, l) -> l_max l <> Some (Z.to_N (umax pw)) /\ (forall m, l_max l = Some m -> (Z.of_N m <= umax pw)%Z)) ->
  line_v_parse_str_chk pw prof k a s = line_v_parse_str k a s.
Proof.
  intros Hs Hm. apply held_le in Hs. pose proof (width_facts pw) as W.
  assert (Z0 : forall t, size t <= size s -> (Z.of_N 0 + Z.of_N (size t) <= umax pw)%Z) by (unfold size; intros; lia).
  pose proof size_take as ST.
  assert (K : forall byte mn tm mx, (byte = false -> forall m, mx = Some m -> (Z.of_N m + 1 <= umax pw)%Z) ->
    handle_str_chk pw prof k byte mn tm mx s = handle_str k byte mn tm mx s).
  { intros byte mn tm mx Hx. unfold handle_str_chk, handle_str.
    destruct mx as [mx|], mn as [mn|], tm as [tm|], byte; try reflexivity;
      rewrite ?(naddc_ok mx 1) by (apply Hx; reflexivity); cbn [obind];
      first [apply outer_eq; apply Z0; first [apply ST | lia] | rewrite scan_chars_eq by (apply Z0; first [apply ST | lia]); reflexivity]. }
  unfold line_v_parse_str_chk, line_v_parse_str. destruct a as [[byte l]|]; apply K.
  - intros -> m E. destruct (Hm l eq_refl) as [H1 H2]. specialize (H2 m E). rewrite E in H1.
    assert (Z.of_N m <> umax pw) by (intros E1; apply H1; f_equal; lia). lia.
  - discriminate.
Qed.

Lemma leading_eq c limit s : (List.length s <= 320)%nat -> e_leading_comment_chk pw prof c limit s = e_leading_comment c limit s.
Proof.
  intros Hs. unfold e_leading_comment_chk, e_leading_comment. destruct (idx s 0) as [b| |]; cbn [obind]; try reflexivity.
  destruct (b =? 40); [|reflexivity]. destruct (negb (e_comment c)); [reflexivity|]. destruct (1 <? List.length s)%nat; [|reflexivity].
  destruct (slice_from s 1) as [r| |] eqn:R; cbn [obind]; try reflexivity. apply slice_from_len in R.
  destruct (position 41 (firstn limit r)) as [i|] eqn:P; [|reflexivity]. apply position_lt in P. rewrite firstn_length in P.
  ua. destruct (str_slice s 1 (i + 1)) as [t| |]; cbn [obind]; try reflexivity. ua. reflexivity.
Qed.
Lemma leading_lt c limit s n o : e_leading_comment c limit s = Ok (n, o) -> (n <= List.length s)%nat.
Proof.
  unfold e_leading_comment. destruct (idx s 0) as [b| |]; cbn [obind]; try discriminate.
  destruct (b =? 40); [|intros [= <- <-]; lia]. destruct (negb (e_comment c)); [discriminate|]. destruct (1 <? List.length s)%nat; [|discriminate].
  destruct (slice_from s 1) as [r| |] eqn:R; cbn [obind]; try discriminate. apply slice_from_len in R.
  destruct (position 41 (firstn limit r)) as [i|] eqn:P; [|discriminate]. apply position_lt in P. rewrite firstn_length in P.
  destruct (str_slice s 1 (i + 1)) as [t| |]; cbn [obind]; try discriminate.
  destruct (i + 1 + 1 =? List.length s)%nat; [discriminate|]. intros [= <- <-]. lia.
Qed.

Lemma quoted_eq c : forall l p e n d, (p + List.length l <= 1000)%nat ->
  e_quoted_loop_chk pw prof c l p e n d = e_quoted_loop c l p e n d.
Proof.
  induction l as [|x l IH]; intros p e n d H; [reflexivity|]. cbn [e_quoted_loop_chk e_quoted_loop List.length] in *. cbv zeta.
  rewrite !uadd_ok by bnd. cbn [obind]. replace (p + 1)%nat with (S p) by lia. rewrite !IH by lia. reflexivity.
Qed.
Lemma quoted_lt c : forall l p e n d q m, e_quoted_loop c l p e n d = Ok (q, m) -> (p <= q < p + List.length l)%nat.
Proof.
  induction l as [|x l IH]; intros p e n d q m H; [discriminate|]. cbn [e_quoted_loop List.length] in *.
  repeat match type of H with
  | (if ?b then _ else _) = _ => destruct b
  | Err _ = _ => discriminate H
  | Ok _ = _ => injection H as <- <-; lia
  | e_quoted_loop _ _ _ _ _ _ = _ => apply IH in H; lia
  end.
Qed.
Lemma unquoted_eq c : forall l p d, (p + List.length l <= 1000)%nat ->
  e_unquoted_loop_chk pw prof c l p d = e_unquoted_loop c l p d.
Proof.
  induction l as [|x l IH]; intros p d H; [reflexivity|]. cbn [e_unquoted_loop_chk e_unquoted_loop List.length] in *. cbv zeta.
  rewrite !uadd_ok by bnd. cbn [obind]. replace (p + 1)%nat with (S p) by lia. rewrite !IH by lia. reflexivity.
Qed.
Lemma unquoted_lt c : forall l p d q, e_unquoted_loop c l p d = Ok q -> (p <= q < p + List.length l)%nat.
Proof.
  induction l as [|x l IH]; intros p d q H; [discriminate|]. cbn [e_unquoted_loop List.length] in *.
  repeat match type of H with
  | (if ?b then _ else _) = _ => destruct b
  | Err _ = _ => discriminate H
  | Ok _ = _ => injection H as <-; lia
  | e_unquoted_loop _ _ _ _ = _ => apply IH in H; lia
  end.
Qed.

Lemma local_eq c s n : (List.length s <= 320)%nat -> e_local_part_chk pw prof c s n = e_local_part c s n.
Proof.
  intros Hs. unfold e_local_part_chk, e_local_part. cbv zeta. destruct (idx s n) as [b| |] eqn:B; cbn [obind]; try reflexivity.
  apply idx_lt in B. destruct (b =? 34).
  - ua. destruct ((n + 1 =? 63)%nat || (n + 1 =? List.length s)%nat); [reflexivity|].
    destruct (idx s (n + 1)) as [e| |] eqn:B1; cbn [obind]; try reflexivity. apply idx_lt in B1.
    destruct (e_quoted_first c e) as [[[x y] z]| |]; cbn [obind]; try reflexivity. rewrite uadd_ok by bnd. cbn [obind].
    rewrite quoted_eq by (rewrite skipn_length; lia).
    destruct (e_quoted_loop c (skipn (n + 1 + 1) s) (n + 1 + 1) x y z) as [[q m]| |] eqn:Q; cbn [obind]; try reflexivity.
    apply quoted_lt in Q. rewrite skipn_length in Q.
    destruct (str_slice s (n + 1) q); cbn [obind]; try reflexivity. ua. reflexivity.
  - destruct (atext b || other_ok c b); [|reflexivity]. ua. rewrite unquoted_eq by (rewrite skipn_length; lia). reflexivity.
Qed.
Lemma local_lt c s n t a b m : (List.length s <= 320)%nat -> e_local_part c s n = Ok (t, a, b, m) -> (m <= 1000)%nat.
Proof.
  intros Hs. unfold e_local_part. cbv zeta. destruct (idx s n) as [x| |] eqn:B; cbn [obind]; try discriminate.
  apply idx_lt in B. destruct (x =? 34).
  - destruct ((n + 1 =? 63)%nat || (n + 1 =? List.length s)%nat); [discriminate|].
    destruct (idx s (n + 1)) as [e| |] eqn:B1; cbn [obind]; try discriminate. apply idx_lt in B1.
    destruct (e_quoted_first c e) as [[[u y] z]| |]; cbn [obind]; try discriminate.
    destruct (e_quoted_loop c (skipn (n + 1 + 1) s) (n + 1 + 1) u y z) as [[q k]| |] eqn:Q; cbn [obind]; try discriminate.
    apply quoted_lt in Q. rewrite skipn_length in Q.
    destruct (str_slice s (n + 1) q); cbn [obind]; try discriminate.
    destruct (q + 1 =? List.length s)%nat; [discriminate|]. intros [= _ _ _ <-]. lia.
  - destruct (atext x || other_ok c x); [|discriminate].
    destruct (e_unquoted_loop c (skipn (n + 1) s) (n + 1) false) as [q| |] eqn:Q; cbn [obind]; try discriminate.
    apply unquoted_lt in Q. rewrite skipn_length in Q.
    destruct (str_slice s n q); cbn [obind]; try discriminate. intros [= _ _ _ <-]. lia.
Qed.

Lemma comment2_eq c s n : (List.length s <= 320)%nat -> e_comment2_chk pw prof c s n = e_comment2 prof c s n.
Proof.
  intros Hs. unfold e_comment2_chk, e_comment2. cbv zeta. destruct (idx s n) as [b| |] eqn:B; cbn [obind]; try reflexivity.
  apply idx_lt in B. destruct (b =? 40); [|reflexivity]. destruct (negb (e_comment c)); [reflexivity|]. ua.
  destruct (n + 1 <? List.length s)%nat; [|reflexivity].
  destruct (slice_from s (n + 1)) as [r| |] eqn:R; cbn [obind]; try reflexivity. apply slice_from_len in R.
  assert (K : forall k, match position 41 (firstn k r) with
      | Some index => let? index0 := uadd pw prof index (n + 1) in
          let? comment := str_slice s (n + 1) index0 in
          let? lpl := uadd pw prof index0 1 in
          if (lpl =? List.length s)%nat then Err EInvalid else Ok (lpl, Some comment)
      | None => Err EInvalid end =
    match position 41 (firstn k r) with
      | Some index => let? comment := str_slice s (n + 1) (index + (n + 1)) in
          if (index + (n + 1) + 1 =? List.length s)%nat then Err EInvalid else Ok (index + (n + 1) + 1, Some comment)%nat
      | None => Err EInvalid end).
  { intros k. destruct (position 41 (firstn k r)) as [i|] eqn:P; [|reflexivity]. apply position_lt in P. rewrite firstn_length in P.
    ua. destruct (str_slice s (n + 1) (i + (n + 1))); cbn [obind]; try reflexivity. ua. reflexivity. }
  unfold e_take2. destruct (Nat.leb_spec (n + 1) 64).
  - rewrite usub_ok by bnd. cbn [obind]. apply K.
  - unfold usub, mach. pose proof (width_facts pw).
    replace (0 <=? Z.of_nat 64 - Z.of_nat (n + 1))%Z with false by (symmetry; apply Z.leb_gt; lia). cbn [andb].
    destruct prof eqn:EP; [reflexivity|]. cbn [omap obind]. rewrite <- EP in *. rewrite K.
    set (w := Z.to_nat _). assert (Hw : (List.length s <= w)%nat).
    { unfold w. replace (Z.of_nat 64 - Z.of_nat (n + 1) - 0)%Z with ((64 - Z.of_nat (n + 1) + (umax pw + 1)) + (-1) * (umax pw + 1))%Z by lia.
      replace (umax pw - 0 + 1)%Z with (umax pw + 1)%Z by lia. rewrite Z.mod_add by lia. rewrite Z.mod_small by lia. lia. }
    clearbody w. rewrite (firstn_all2 (n := w) r) by lia. rewrite (firstn_all2 (n := List.length s) r) by lia. reflexivity.
Qed.
Lemma comment2_lt c s n m o : (List.length s <= 320)%nat -> (n <= 1000)%nat -> e_comment2 prof c s n = Ok (m, o) -> (m <= 2000)%nat.
Proof.
  intros Hs Hn. unfold e_comment2. cbv zeta. destruct (idx s n) as [b| |] eqn:B; cbn [obind]; try discriminate.
  apply idx_lt in B. destruct (b =? 40); [|intros [= <- _]; lia]. destruct (negb (e_comment c)); [discriminate|].
  destruct (n + 1 <? List.length s)%nat; [|discriminate].
  destruct (slice_from s (n + 1)) as [r| |] eqn:R; cbn [obind]; try discriminate. apply slice_from_len in R.
  destruct (e_take2 prof s (n + 1)) as [k| |]; cbn [obind]; try discriminate.
  destruct (position 41 (firstn k r)) as [i|] eqn:P; [|discriminate]. apply position_lt in P. rewrite firstn_length in P.
  destruct (str_slice s (n + 1) (i + (n + 1))); cbn [obind]; try discriminate.
  destruct (i + (n + 1) + 1 =? List.length s)%nat; [discriminate|]. intros [= <- _]. lia.
Qed.

Lemma comment4_eq c s n : (List.length s <= 320)%nat -> e_comment4_chk pw prof c s n = e_comment4 c s n.
Proof.
  intros Hs. unfold e_comment4_chk, e_comment4. cbv zeta. destruct (Nat.ltb_spec n (List.length s)); [|reflexivity].
  destruct (negb (e_comment c)); [reflexivity|]. destruct (idx s n) as [b| |]; cbn [obind]; try reflexivity.
  destruct (b =? 40); [|reflexivity]. ua. destruct (n + 1 <? List.length s)%nat; [|reflexivity].
  destruct (slice_from s (n + 1)) as [r| |] eqn:R; cbn [obind]; try reflexivity. apply slice_from_len in R.
  destruct (position 41 r) as [i|] eqn:P; [|reflexivity]. apply position_lt in P. ua. reflexivity.
Qed.

(** What [e_handle_ip] adds to the offset, added to [o]. *)
Definition shifted (o : Z) (r : host * bool * nat * Z) : host * bool * nat * Z := let '(h, b, n, a) := r in (h, b, n, o + a)%Z.

Lemma handle_ip_eq c s n o : (List.length s <= 320)%nat -> (n < List.length s)%nat -> (-2 <= o <= 0)%Z ->
  e_handle_ip_chk pw prof c s n o = omap (shifted o) (e_handle_ip c s n).
Proof.
  intros Hs Hn Ho. unfold e_handle_ip_chk, e_handle_ip. cbv zeta. destruct (e_ip c); try reflexivity.
  all: destruct (is_disallow (e_two c)); [reflexivity|]; ua; destruct (n + 1 <? List.length s)%nat; [|reflexivity].
  all: destruct (slice_from s (n + 1)) as [r| |] eqn:R; cbn [obind]; try reflexivity; apply slice_from_len in R.
  all: destruct (eqbs (firstn 5 r) (bs "IPv6:")).
  1, 3: ua; destruct (n + 1 + 5 <? List.length s)%nat; [|reflexivity].
  1, 2: destruct (slice_from s (n + 1 + 5)) as [r1| |] eqn:R1; cbn [obind]; try reflexivity; apply slice_from_len in R1.
  1, 2: destruct (position 93 r1) as [i|] eqn:P; [|reflexivity]; apply position_lt in P; ua;
    destruct (str_slice s (n + 1 + 5) (i + (n + 1 + 5))) as [t| |] eqn:T; cbn [obind]; try reflexivity; apply str_slice_len in T;
    destruct (ipv6_from_str t) as [ip|] eqn:I; [|reflexivity]; ua;
    apply ipv6_from_str_spec in I; apply v6_text_addr in I; apply v6_width in I;
    rewrite !as_isize_ok by bnd; rewrite isub_ok by bnd; cbn [obind]; rewrite iadd_ok by bnd; reflexivity.
  all: destruct (position 93 r) as [i|] eqn:P; [|reflexivity]; apply position_lt in P; ua;
    destruct (str_slice s (n + 1) (i + (n + 1))) as [t| |] eqn:T; cbn [obind]; try reflexivity; apply str_slice_len in T;
    destruct (ipv4_from_str t) as [ip|] eqn:I; [|reflexivity]; ua; cbn [omap shifted]; do 2 f_equal; lia.
Qed.
Lemma handle_ip_lt c s n h b m a : (List.length s <= 320)%nat -> e_handle_ip c s n = Ok (h, b, m, a) -> (a <= 39)%Z.
Proof.
  intros Hs. unfold e_handle_ip. cbv zeta. destruct (e_ip c); try discriminate.
  all: destruct (is_disallow (e_two c)); [discriminate|]; destruct (n + 1 <? List.length s)%nat; [|discriminate].
  all: destruct (slice_from s (n + 1)) as [r| |] eqn:R; cbn [obind]; try discriminate; apply slice_from_len in R.
  all: destruct (eqbs (firstn 5 r) (bs "IPv6:")).
  1, 3: destruct (n + 1 + 5 <? List.length s)%nat; [|discriminate].
  1, 2: destruct (slice_from s (n + 1 + 5)) as [r1| |] eqn:R1; cbn [obind]; try discriminate; apply slice_from_len in R1.
  1, 2: destruct (position 93 r1) as [i|] eqn:P; [|discriminate]; apply position_lt in P;
    destruct (str_slice s (n + 1 + 5) (i + (n + 1 + 5))) as [t| |] eqn:T; cbn [obind]; try discriminate; apply str_slice_len in T;
    destruct (ipv6_from_str t) as [ip|] eqn:I; [|discriminate];
    apply ipv6_from_str_spec in I; apply v6_text_addr in I; apply v6_width in I; intros [= _ _ _ <-]; lia.
  all: destruct (position 93 r) as [i|] eqn:P; [|discriminate]; apply position_lt in P;
    destruct (str_slice s (n + 1) (i + (n + 1))) as [t| |] eqn:T; cbn [obind]; try discriminate; apply str_slice_len in T;
    destruct (ipv4_from_str t) as [ip|] eqn:I; [|discriminate]; intros [= _ _ _ <-]; lia.
Qed.

Section I.
Variable idna : list N -> option (list N).
Hypothesis Hidna : forall x d, idna x = Some d -> held pw d.

Lemma handle_domain_eq c s n o : (List.length s <= 320)%nat -> (n < List.length s)%nat -> (-2 <= o <= 0)%Z ->
  e_handle_domain_chk pw prof idna c s n o = omap (shifted o) (e_handle_domain idna c s n).
Proof.
  intros Hs Hn Ho. unfold e_handle_domain_chk, e_handle_domain. cbv zeta.
  assert (K : (let? rest := slice_from s n in let? t := (match position 40 rest with
         | Some i => let? i := uadd pw prof i n in str_slice s n i | None => str_slice_from s n end) in
      if ends_with 46 t then Err EInvalid else match idna t with
        | Some d => let? m := uadd pw prof n (List.length t) in let? _ := e_check_two c (e_flag c (is_local_domain d)) d in
            let? added := isub pw prof (as_isize pw (List.length d)) (as_isize pw (List.length t)) in
            let? o1 := iadd pw prof o added in Ok (HDomain d, e_flag c (is_local_domain d), m, o1)
        | None => Err EInvalid end) =
    omap (shifted o) (let? rest := slice_from s n in let? t := (match position 40 rest with
         | Some i => str_slice s n (i + n) | None => str_slice_from s n end) in
      if ends_with 46 t then Err EInvalid else match idna t with
        | Some d => let? _ := e_check_two c (e_flag c (is_local_domain d)) d in
            Ok (HDomain d, e_flag c (is_local_domain d), n + List.length t, (Z.of_nat (List.length d) - Z.of_nat (List.length t))%Z)%nat
        | None => Err EInvalid end)).
  { destruct (slice_from s n) as [r| |] eqn:R; cbn [obind omap]; try reflexivity. apply slice_from_len in R.
    assert (P : (match position 40 r with Some i => let? i := uadd (E := email_err) pw prof i n in str_slice s n i | None => str_slice_from s n end) =
      (match position 40 r with Some i => str_slice s n (i + n) | None => str_slice_from s n end)).
    { destruct (position 40 r) as [i|] eqn:P; [|reflexivity]. apply position_lt in P. ua. reflexivity. }
    rewrite P. clear P.
    destruct (match position 40 r with Some i => str_slice s n (i + n) | None => str_slice_from s n end) as [t| |] eqn:T;
      cbn [obind omap]; try reflexivity.
    assert (Ht : (List.length t <= List.length s)%nat).
    { destruct (position 40 r); [apply str_slice_len in T | apply str_slice_from_len in T]; lia. }
    destruct (ends_with 46 t); [reflexivity|]. destruct (idna t) as [d|] eqn:D; [|reflexivity].
    apply Hidna, held_le in D. ua. destruct (e_check_two c (e_flag c (is_local_domain d)) d); cbn [obind omap]; try reflexivity.
    rewrite !as_isize_ok by bnd. rewrite isub_ok by bnd. cbn [obind]. rewrite iadd_ok by bnd. reflexivity. }
  destruct (e_ip c); [reflexivity | exact K | exact K].
Qed.
Lemma handle_domain_lt c s n h b m a : e_handle_domain idna c s n = Ok (h, b, m, a) -> (a <= imax pw)%Z.
Proof.
  unfold e_handle_domain. cbv zeta.
  destruct (e_ip c); try discriminate.
  all: destruct (slice_from s n) as [r| |] eqn:R; cbn [obind]; try discriminate.
  all: destruct (match position 40 r with Some i => str_slice s n (i + n) | None => str_slice_from s n end) as [t| |] eqn:T;
      cbn [obind]; try discriminate.
  all: destruct (ends_with 46 t); [discriminate|]; destruct (idna t) as [d|] eqn:D; [|discriminate].
  all: apply Hidna, held_le in D; destruct (e_check_two c (e_flag c (is_local_domain d)) d); cbn [obind]; try discriminate;
    intros [= _ _ _ <-]; lia.
Qed.

Lemma domain_part_eq c s q : e_domain_part_chk pw prof idna c s q = e_domain_part idna c s q.
Proof.
  unfold e_domain_part_chk, e_domain_part. cbv zeta. destruct (Nat.ltb_spec 255 (List.length s)) as [|Hs]; [reflexivity|].
  rewrite leading_eq by lia. destruct (e_leading_comment c 253 s) as [[n c3]| |]; cbn [obind]; try reflexivity.
  destruct (idx s n) as [b| |] eqn:B; cbn [obind]; try reflexivity. apply idx_lt in B.
  set (o := (if q then -2 else 0)%Z). assert (Ho : (-2 <= o <= 0)%Z) by (unfold o; destruct q; lia). clearbody o.
  rewrite handle_ip_eq, handle_domain_eq by lia.
  assert (X : exists r, (if b =? 40 then Err EInvalid else if b =? 91 then e_handle_ip c s n else e_handle_domain idna c s n) = r /\
    (if b =? 40 then Err EInvalid else if b =? 91 then omap (shifted o) (e_handle_ip c s n)
      else omap (shifted o) (e_handle_domain idna c s n)) = omap (shifted o) r /\
    (forall h l m a, r = Ok (h, l, m, a) -> (a <= imax pw)%Z)).
  { eexists; split; [reflexivity|]. destruct (b =? 40); [split; [reflexivity|discriminate]|]. destruct (b =? 91); (split; [reflexivity|]); intros h l m a E.
    - apply handle_ip_lt in E; bnd.
    - apply handle_domain_lt in E; exact E. }
  destruct X as (r & -> & -> & X). destruct r as [[[[h l] m] a]| |]; cbn [obind omap shifted]; try reflexivity.
  specialize (X h l m a eq_refl). destruct (e_check_local c l); cbn [obind]; try reflexivity.
  rewrite comment4_eq by lia.
  destruct (Z.ltb_spec 0 (o + a)); cbn [andb obind]; [|reflexivity].
  rewrite as_usize_ok by lia. ua.
  replace (255 <? List.length s + Z.to_nat (o + a))%nat with (255 <? Z.of_nat (List.length s) + (o + a))%Z; [reflexivity|].
  destruct (Z.ltb_spec 255 (Z.of_nat (List.length s) + (o + a))), (Nat.ltb_spec 255 (List.length s + Z.to_nat (o + a))); lia || reflexivity.
Qed.

Theorem email_eq c s : email_v_parse_str_chk pw prof idna c s = email_v_parse_str idna prof c s.
Proof.
  unfold email_v_parse_str_chk, email_v_parse_str. cbv zeta.
  destruct (List.length s =? 0)%nat; [reflexivity|]. cbn [orb]. destruct (Nat.ltb_spec 320 (List.length s)) as [|Hs]; [reflexivity|].
  rewrite leading_eq by lia. destruct (e_leading_comment c 62 s) as [[n c1]| |] eqn:L1; cbn [obind]; try reflexivity.
  rewrite local_eq by lia. destruct (e_local_part c s n) as [[[[t nq] qq] m]| |] eqn:L2; cbn [obind]; try reflexivity.
  apply local_lt in L2; [|lia].
  rewrite comment2_eq by lia. destruct (e_comment2 prof c s m) as [[k c2]| |] eqn:L3; cbn [obind]; try reflexivity.
  apply comment2_lt in L3; [|lia|lia].
  destruct (idx s k) as [b| |]; cbn [obind]; try reflexivity. rewrite !uadd_ok by bnd. cbn [obind].
  destruct (negb (b =? 64)); cbn [obind orb]; [reflexivity|]. destruct (k + 1 =? List.length s)%nat; [reflexivity|].
  destruct (str_slice_from s (k + 1)); cbn [obind]; try reflexivity. now rewrite domain_part_eq.
Qed.
End I.
End W.

Lemma umax_eq pw : umax pw = (2 ^ IntModel.bits pw IntModel.Isize - 1)%Z.
Proof. reflexivity. Qed.

(** The validators of encoded bytes and of numbers in base 16: on every machine and in both builds the code with machine
    arithmetic does what the code with unbounded numbers does. *)
Theorem C109_bytes : forall pw prof f padding case sep v, held pw v ->
  base_v_parse_u8_slice_chk pw prof f padding v = base_v_parse_u8_slice f padding v /\
  dec_v_parse_u8_slice_chk pw prof f padding v = dec_v_parse_u8_slice f padding v /\
  mac_v_parse_str_chk pw prof case sep v = mac_v_parse_str case sep v /\
  mac_v_validate_str_chk pw prof case sep v = mac_v_validate_str case sep v /\
  uuid_v_parse_str_chk pw prof case sep v = uuid_v_parse_str case sep v /\
  uuid_v_validate_str_chk pw prof case sep v = uuid_v_validate_str case sep v.
Proof.
  intros pw prof f padding case sep v Hv. split; [apply base_eq, Hv|]. split; [apply dec_eq, Hv|].
  destruct (mac_eq pw prof case sep v) as [-> ->]. destruct (uuid_eq pw prof case sep v) as [-> ->]. auto.
Qed.

(** The validators of addresses and names. *)
Theorem C109_hosts : forall pw prof idna port local dc hc s, held pw s ->
  ip_v_parse_str_chk pw prof port local s = ip_v_parse_str port local s /\
  ipv4_v_parse_str_chk pw prof port local s = ipv4_v_parse_str port local s /\
  ipv6_v_parse_str_chk pw prof port local s = ipv6_v_parse_str port local s /\
  domain_v_parse_str_chk pw prof idna dc s = domain_v_parse_str idna dc s /\
  host_v_parse_str_chk pw prof idna hc s = host_v_parse_str idna hc s /\
  get_domain_non_fully_qualified_chk (E := domain_err) pw prof s = get_domain_non_fully_qualified s.
Proof.
  intros pw prof idna port local dc hc s Hs.
  split; [apply ip_eq, Hs|]. split; [apply ipv4_eq, Hs|]. split; [apply ipv6_eq, Hs|]. split; [apply domain_eq, Hs|].
  split; [apply host_eq, Hs | apply fq_eq, Hs].
Qed.

(** The line and text validators, the maximum being a [usize] and, when characters are counted, not the greatest. *)
Theorem C109_lines : forall pw prof k a s, held pw (utf8 s) ->
  (forall l m, a = Some (false, l) -> l_max l = Some m -> (Z.of_N m + 1 < 2 ^ IntModel.bits pw IntModel.Isize)%Z) ->
  line_v_parse_str_chk pw prof k a s = line_v_parse_str k a s.
Proof.
  intros pw prof k a s Hs Hm. apply line_eq; [exact Hs|]. rewrite umax_eq. intros l ->. split.
  - intros E. specialize (Hm l _ eq_refl E). revert Hm. destruct pw; cbn; lia.
  - intros m E. specialize (Hm l m eq_refl E). lia.
Qed.

(** With the greatest [usize] as the maximum, [max + 1] is 0 in a release build and no character would be looked at; a
    debug build would panic.  (The Rust compiler refuses the sum of the two constants: C84.) *)
Theorem C109_max_refuted : forall pw k, exists a s,
  line_v_parse_str_chk pw Debug k a s = Panic /\ line_v_parse_str_chk pw Release k a s = Ok tt /\
  line_v_parse_str k a s = Err LInvalid.
Proof.
  intros pw k.
  exists (Some (false, {| l_min := None; l_tmin := None; l_max := Some (Z.to_N (umax pw)) |})), [0].
  assert (X : forall prof, line_v_parse_str_chk pw prof k (Some (false, {| l_min := None; l_tmin := None; l_max := Some (Z.to_N (umax pw)) |})) [0] =
    (let? n := naddc pw prof (Z.to_N (umax pw)) 1 in
     let? counter := scan_chars_chk pw prof k (take n [0]) 0 in
     if counter <=? Z.to_N (umax pw) then Ok tt else Err LTooLong)) by reflexivity.
  split; [|split].
  - rewrite X. destruct pw; reflexivity.
  - rewrite X. destruct pw; reflexivity.
  - unfold line_v_parse_str, handle_str. cbn [l_max l_min l_tmin]. unfold take.
    assert (T : forall n, firstn (N.to_nat (n + 1)) [0] = [0]).
    { intros n. replace (N.to_nat (n + 1)) with (S (N.to_nat n)) by lia. cbn. now rewrite firstn_nil. }
    rewrite T. destruct k; reflexivity.
Qed.

(** The email validator, if the idna crate returns a [String]: the code does what the model of EmailModel.v does in the same
    build; the only sum or difference outside its type is the one that model has. *)
Theorem C109_email : forall pw prof idna c s, (forall x d, idna x = Some d -> held pw d) ->
  email_v_parse_str_chk pw prof idna c s = email_v_parse_str idna prof c s.
Proof. intros pw prof idna c s H. apply email_eq, H. Qed.

(** So the width of the machine makes no difference, and a debug build does what a release build does unless it
    panics. *)
Theorem C109_email_builds : forall pw pw' idna c s, (forall x d, idna x = Some d -> held pw d /\ held pw' d) ->
  (forall prof, email_v_parse_str_chk pw prof idna c s = email_v_parse_str_chk pw' prof idna c s) /\
  (email_v_parse_str_chk pw Debug idna c s = email_v_parse_str_chk pw' Release idna c s \/
   email_v_parse_str_chk pw Debug idna c s = Panic).
Proof.
  intros pw pw' idna c s H. assert (H1 := fun x d E => proj1 (H x d E)). assert (H2 := fun x d E => proj2 (H x d E)).
  split; [intros prof; now rewrite !email_eq by assumption|]. rewrite !email_eq by assumption. clear H H1 H2.
  unfold email_v_parse_str. cbv zeta. destruct ((List.length s =? 0)%nat || (320 <? List.length s)%nat); [auto|].
  destruct (e_leading_comment c 62 s) as [[n c1]| |]; cbn [obind]; auto.
  destruct (e_local_part c s n) as [[[[t nq] qq] m]| |]; cbn [obind]; auto.
  assert (K : e_comment2 Debug c s m = e_comment2 Release c s m \/ e_comment2 Debug c s m = Panic).
  { unfold e_comment2. cbv zeta. destruct (idx s m) as [b| |]; cbn [obind]; auto. destruct (b =? 40); auto.
    destruct (negb (e_comment c)); auto. destruct (m + 1 <? List.length s)%nat; auto.
    destruct (slice_from s (m + 1)); cbn [obind]; auto. unfold e_take2. destruct (m + 1 <=? 64)%nat; cbn [obind]; auto. }
  destruct K as [-> | ->]; auto.
Qed.

(** The exception, on every machine: 64 letters and a comment. *)
Theorem C109_builds_refuted : forall pw, exists idna c s r, idna_laws idna /\ (forall x d, idna x = Some d -> held pw d) /\ valid_str s /\
  email_v_parse_str_chk pw Debug idna c s = Panic /\ email_v_parse_str_chk pw Release idna c s = Ok r.
Proof.
  intros pw.
  exists (fun x => if eqbs x (bs "example.com") then Some x else None), (ecfg true Allow Allow Allow true), (List.repeat 97 64 ++ bs "(c)@example.com").
  assert (H : forall x d, (if eqbs x (bs "example.com") then Some x else None) = Some d -> d = bs "example.com").
  { intros x d E. destruct (eqbs x (bs "example.com")) eqn:X; [|discriminate]. injection E as <-. now apply eqbs_eq in X. }
  assert (H1 : forall x d, (if eqbs x (bs "example.com") then Some x else None) = Some d -> held pw d).
  { intros x d E. apply H in E as ->. destruct pw; reflexivity. }
  eexists. split.
  - intros x d E. apply H in E as ->. split; [repeat (constructor; [vm_compute; intuition congruence|]); constructor|].
    assert (L : forall u, bs "example.com" <> u ++ [46]).
    { intros u E. apply (f_equal (fun l => List.last l 0)) in E. rewrite last_last in E. vm_compute in E. discriminate. }
    intros t [T | [<- _]]; [now apply L in T|]. split; [discriminate|]. split; [exact L | reflexivity].
  - split; [exact H1|]. split; [ascii_str|]. rewrite !email_eq by exact H1. split; vm_compute; reflexivity.
Qed.

Example C109_example :
  held IntModel.W16 (bs "[::1]:8080") /\ 
  ip_v_parse_str_chk IntModel.W16 Debug Allow Allow (bs "[::1]:8080") = Ok (V6 [0; 0; 0; 0; 0; 0; 0; 1], Some 8080, false) /\ 
  base_v_parse_u8_slice_chk IntModel.W16 Debug B64 Must (bs "bWFnaWNsZW4=") = Ok tt /\ 
  mac_v_parse_str_chk IntModel.W64 Debug AnyCase (SepAllow 58) (bs "0a:1B2c:3d4E5f") = Ok 11111822610015 /\ 
  line_v_parse_str_chk IntModel.W32 Debug Line (Some (false, {| l_min := Some 1; l_tmin := Some 2; l_max := Some 9 |})) (bs " ab ") = Ok tt /\ 
  usub (E := ip_err) IntModel.W16 Debug 64 65 = Panic /\ usub (E := ip_err) IntModel.W16 Release 64 65 = Ok (Z.to_nat 65535).
Proof.
  split; [reflexivity|]. do 5 (split; [vm_compute; reflexivity|]). unfold usub.
  replace (mach Release 0 (umax IntModel.W16) (Z.of_nat 64 - Z.of_nat 65)) with (Ok (E := ip_err) 65535%Z) by (vm_compute; reflexivity).
  reflexivity.
Qed.

Print Assumptions C109_bytes.
Print Assumptions C109_hosts.
Print Assumptions C109_lines.
Print Assumptions C109_max_refuted.
Print Assumptions C109_email.
Print Assumptions C109_email_builds.
Print Assumptions C109_builds_refuted.
