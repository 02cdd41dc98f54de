(** Property C134: an accepted text written into the query of a web address comes out as it went in. *)
From Coq Require Import SpecFloat.
From Verif Require Import Base Utf8 IntStr IntStrProofs IntModel MacModel MacSpec BaseModel BaseSpec CodecModel CodecSpec
  RangeModel IntSpec NumberModel FloatModel BooleanModel BooleanProofs NetModel NetSpec NetProofs IpModel IpSpec IpProofs
  DomainModel DomainSpec DomainProofs HostModel HostSpec EmailModel EmailSpec EmailMain.
From Verif Require Import BaseProofs CodecProofs PropInt PropMac PropBoolean PropBase PropIp PropDomain PropHost PropEmail IdnaFrag StrFacts PropSafe
  PropTame PropJoin.
Local Open Scope N_scope.

(** How a server takes the parameters out of a web address (WHATWG URL standard, the query of an address and
    application/x-www-form-urlencoded parsing): what is between the first question mark and the first number sign behind it, cut at the
    ampersands, each piece cut at its first equals sign, plus signs read as spaces and escapes of two hexadecimal digits as the octet. *)
Fixpoint until (c : N) (s : list N) : list N :=
  match s with [] => [] | x :: r => if x =? c then [] else x :: until c r end.
Fixpoint after (c : N) (s : list N) : list N :=
  match s with [] => [] | x :: r => if x =? c then r else after c r end.
Fixpoint pieces (c : N) (s : list N) : list (list N) :=
  match s with
  | [] => [[]]
  | x :: r => if x =? c then [] :: pieces c r
              else match pieces c r with p :: ps => (x :: p) :: ps | [] => [[x]] end
  end.
Definition hex_value (c : N) : option N :=
  if (48 <=? c) && (c <=? 57) then Some (c - 48)
  else if (65 <=? c) && (c <=? 70) then Some (c - 55)
  else if (97 <=? c) && (c <=? 102) then Some (c - 87)
  else None.
Fixpoint form_decode (s : list N) : list N :=
  match s with
  | [] => []
  | c :: r =>
      if c =? 43 then 32 :: form_decode r
      else if c =? 37 then
        match r with
        | a :: b :: r' => match hex_value a, hex_value b with
                          | Some x, Some y => (x * 16 + y) :: form_decode r'
                          | _, _ => c :: form_decode r
                          end
        | _ => c :: form_decode r
        end
      else c :: form_decode r
  end.
Definition pair_of (p : list N) : list N * list N := (form_decode (until 61 p), form_decode (after 61 p)).
Definition query_pairs (url : list N) : list (list N * list N) :=
  List.map pair_of (filter (fun p => match p with [] => false | _ :: _ => true end) (pieces 38 (after 63 (until 35 url)))).

(** Written behind any address and any name, with or without something behind it, the text is the value of that name, and nothing else
    in the query is touched. *)
Definition arrives (s : list N) : Prop := forall u k r, ~ In 63 u -> ~ In 35 u -> Forall (fun c => ~ In c (bs "#%&+=")) k ->
  query_pairs (u ++ [63] ++ k ++ [61] ++ s) = [(k, s)] /\
  query_pairs (u ++ [63] ++ k ++ [61] ++ s ++ [38] ++ r) = (k, s) :: query_pairs ([63] ++ r) /\
  query_pairs (u ++ [63] ++ k ++ [61] ++ s ++ [35] ++ r) = [(k, s)].

Lemma until_app c a r : ~ In c a -> until c (a ++ c :: r) = a.
Proof.
  induction a as [|x a IH]; cbn [until app]; intros H; [now rewrite N.eqb_refl|].
  destruct (N.eqb_spec x c) as [->|]; [exfalso; apply H; now left|]. f_equal. apply IH. intros K. apply H. now right.
Qed.
Lemma until_over c a b : ~ In c a -> until c (a ++ b) = a ++ until c b.
Proof.
  induction a as [|x a IH]; cbn [until app]; intros H; [reflexivity|].
  destruct (N.eqb_spec x c) as [->|]; [exfalso; apply H; now left|]. f_equal. apply IH. intros K. apply H. now right.
Qed.
Lemma after_app c a r : ~ In c a -> after c (a ++ c :: r) = r.
Proof.
  induction a as [|x a IH]; cbn [after app]; intros H; [now rewrite N.eqb_refl|].
  destruct (N.eqb_spec x c) as [->|]; [exfalso; apply H; now left|]. apply IH. intros K. apply H. now right.
Qed.
Lemma pieces_none c a : ~ In c a -> pieces c a = [a].
Proof.
  induction a as [|x a IH]; cbn [pieces]; intros H; [reflexivity|].
  destruct (N.eqb_spec x c) as [->|]; [exfalso; apply H; now left|]. rewrite IH; [reflexivity|]. intros K. apply H. now right.
Qed.
Lemma pieces_app c a r : ~ In c a -> pieces c (a ++ c :: r) = a :: pieces c r.
Proof.
  induction a as [|x a IH]; cbn [pieces app]; intros H; [now rewrite N.eqb_refl|].
  destruct (N.eqb_spec x c) as [->|]; [exfalso; apply H; now left|]. rewrite IH; [reflexivity|]. intros K. apply H. now right.
Qed.
Lemma decode_none s : ~ In 43 s -> ~ In 37 s -> form_decode s = s.
Proof.
  induction s as [|c s IH]; intros A B; [reflexivity|]. cbn [form_decode].
  destruct (N.eqb_spec c 43) as [->|]; [exfalso; apply A; now left|].
  destruct (N.eqb_spec c 37) as [->|]; [exfalso; apply B; now left|].
  f_equal. apply IH; intros K; [apply A|apply B]; now right.
Qed.
Lemma decode_plus s : ~ In 37 s -> form_decode s = s -> ~ In 43 s.
Proof.
  induction s as [|c s IH]; intros B E; [auto|]. cbn [form_decode] in E.
  destruct (N.eqb_spec c 43) as [->|]; [discriminate|].
  destruct (N.eqb_spec c 37) as [->|]; [exfalso; apply B; now left|].
  injection E as E. intros [->|K]; [congruence|]. revert K. apply IH; [|exact E]. intros K. apply B. now right.
Qed.

(** What the queries are when nothing in the text ends them, whatever is decoded. *)
Lemma query_raw s u k r : ~ In 35 s -> ~ In 38 s -> ~ In 63 u -> ~ In 35 u -> Forall (fun c => ~ In c (bs "#%&+=")) k ->
  query_pairs (u ++ [63] ++ k ++ [61] ++ s) = [(k, form_decode s)] /\
  query_pairs (u ++ [63] ++ k ++ [61] ++ s ++ [38] ++ r) = (k, form_decode s) :: query_pairs ([63] ++ r) /\
  query_pairs (u ++ [63] ++ k ++ [61] ++ s ++ [35] ++ r) = [(k, form_decode s)].
Proof.
  intros S1 S2 U1 U2 K. cbn [app].
  assert (forall c, In c (bs "#%&+=") -> ~ In c k) as K'.
  { intros c C I. rewrite Forall_forall in K. exact (K c I C). }
  assert (~ In 35 k /\ ~ In 37 k /\ ~ In 38 k /\ ~ In 43 k /\ ~ In 61 k) as (K1 & K2 & K3 & K4 & K5).
  { repeat split; apply K'; vm_compute; tauto. }
  assert (forall t, t = u ++ 63 :: k ++ 61 :: s -> ~ In 35 t) as T.
  { intros t -> I. apply in_app_iff in I. destruct I as [I|[I|I]]; [auto|discriminate|]. apply in_app_iff in I.
    destruct I as [I|[I|I]]; [auto|discriminate|auto]. }
  specialize (T _ eq_refl).
  assert (~ In 38 (k ++ 61 :: s)) as P.
  { intros I. apply in_app_iff in I. destruct I as [I|[I|I]]; [auto|discriminate|auto]. }
  assert (pair_of (k ++ 61 :: s) = (k, form_decode s)) as Q.
  { unfold pair_of. rewrite until_app, after_app by assumption. f_equal. now apply decode_none. }
  assert (forall ps, filter (fun p => match p with [] => false | _ :: _ => true end) ((k ++ 61 :: s) :: ps) =
    (k ++ 61 :: s) :: filter (fun p => match p with [] => false | _ :: _ => true end) ps) as F by (intros ps; destruct k; reflexivity).
  assert (forall v, u ++ 63 :: k ++ 61 :: s ++ v = (u ++ 63 :: k ++ 61 :: s) ++ v) as A.
  { intros v. rewrite <- app_assoc. cbn [app]. rewrite <- app_assoc. reflexivity. }
  unfold query_pairs. split; [|split].
  - rewrite <- (app_nil_r (u ++ 63 :: k ++ 61 :: s)), until_over by assumption. cbn [until]. rewrite app_nil_r, after_app by assumption.
    rewrite pieces_none by assumption. rewrite F. cbn [List.map filter]. now rewrite Q.
  - rewrite A, until_over by assumption. cbn [until]. change (38 =? 35) with false. change (63 =? 35) with false. cbv iota. cbn [after].
    change (63 =? 63) with true. cbv iota.
    rewrite <- app_assoc. cbn [app]. rewrite after_app by assumption. rewrite <- app_assoc. cbn [app].
    change (k ++ 61 :: s ++ 38 :: until 35 r) with (k ++ (61 :: s) ++ 38 :: until 35 r). rewrite app_assoc, pieces_app by assumption.
    rewrite F. cbn [List.map]. now rewrite Q.
  - rewrite A, until_app by assumption. rewrite after_app by assumption.
    rewrite pieces_none by assumption. rewrite F. cbn [List.map filter]. now rewrite Q.
Qed.
Lemma arrives_plain s : ~ In 35 s -> ~ In 37 s -> ~ In 38 s -> ~ In 43 s -> arrives s.
Proof.
  intros A B C D u k r U1 U2 K. rewrite <- (decode_none s D B) at 2 4 6. now apply query_raw.
Qed.
Lemma more_not s : Forall tame_or_more s -> ~ In 35 s /\ ~ In 37 s /\ ~ In 38 s.
Proof.
  intros H. rewrite Forall_forall in H. repeat split; intros K; apply H in K; destruct K as [K|K]; try apply tame_range in K; lia.
Qed.
Lemma arrives_more s : Forall tame_or_more s -> (arrives s <-> ~ In 43 s).
Proof.
  intros H. destruct (more_not s H) as (A & B & C). split; [|now apply arrives_plain].
  intros W. assert (Forall (fun c => ~ In c (bs "#%&+=")) []) as K by constructor.
  destruct (W [] [] [] (fun x => x) (fun x => x) K) as [W1 _].
  destruct (query_raw s [] [] [] A C (fun x => x) (fun x => x) K) as [W2 _]. rewrite W2 in W1. injection W1 as W1. now apply decode_plus.
Qed.
Lemma arrives_tame s : Forall tame s -> (arrives s <-> ~ In 43 s).
Proof. intros H. apply arrives_more, tame_more, H. Qed.

Lemma not_in_all (P : N -> Prop) c s : ~ P c -> Forall P s -> ~ In c s.
Proof. intros N H I. rewrite Forall_forall in H. exact (N (H c I)). Qed.
Lemma plus_alphabet f : f <> B64 -> ~ In 43 (alphabet f).
Proof. intros N. destruct f; try congruence; vm_compute; intros K; repeat (destruct K as [K|K]; [discriminate K|]); exact K. Qed.

(** C134: integers, numbers, boolean words, base texts and decoded ones, and identifiers: the plus sign is all that is in the way. Words and
    base32 and base64_url texts have none. *)
Theorem C134_texts : forall s,
  (forall sg pw t r v, int_parse_str sg pw t r s = Ok v -> (arrives s <-> ~ In 43 s)) /\
  (forall t r nan f, num_parse_str (float_of_text t) r nan s = Ok f -> (arrives s <-> ~ In 43 s)) /\
  (forall p v, base_parse_str B64 p s = Ok v -> (arrives s <-> ~ In 43 s)) /\
  (forall p v, dec_parse_str B64 p s = Ok v -> (arrives s <-> ~ In 43 s)) /\
  (forall b, bool_parse_str s = Ok b -> arrives s) /\
  (forall f p v, f <> B64 -> base_parse_str f p s = Ok v -> arrives s) /\
  (forall f p v, f <> B64 -> dec_parse_str f p s = Ok v -> arrives s) /\
  (forall case sep x, tame_sep sep -> mac_parse_str case sep s = Ok x -> (arrives s <-> ~ In 43 s)) /\
  (forall case sep x, tame_sep sep -> uuid_parse_str case sep s = Ok x -> (arrives s <-> ~ In 43 s)).
Proof.
  intros s. destruct (C115_tame s) as (T1 & T2 & T3 & T4 & T5 & T6 & T7).
  split; [intros; apply arrives_tame; eapply T1; eassumption|].
  split; [intros; apply arrives_tame; eapply T2; eassumption|].
  split; [intros; apply arrives_tame; eapply T4; eassumption|].
  split; [intros; apply arrives_tame; eapply T5; eassumption|].
  split.
  { intros b H. apply arrives_tame; [eapply T3; eassumption|]. apply C16_boolean_words in H as (w & W & S).
    assert (Forall (fun p => Forall (fun c => 48 <= c <= 49 \/ 97 <= c <= 122) (fst p)) bool_words) as K.
    { repeat (constructor; [cbn [fst]; apply Forall_forall; intros x X; vm_compute in X; lia|]). constructor. }
    pose proof (proj1 (Forall_forall _ _) K _ W) as Q. cbn [fst] in Q. clear - S Q.
    induction S as [|x y q q' C _ IH]; [auto|]. inversion Q; subst. intros [->|I]; [lia|]. revert I. now apply IH. }
  split.
  { intros f p v N H. apply arrives_tame; [eapply T4; eassumption|].
    assert (base_shape f p s) as B by (apply C19_base_language; eexists; exact H). destruct B as (b & k & -> & _ & A & _).
    intros I. apply in_app_iff in I. destruct I as [I|I]; [|apply repeat_spec in I; discriminate].
    rewrite Forall_forall in A. exact (plus_alphabet f N (A _ I)). }
  split.
  { intros f p v N H. apply arrives_tame; [eapply T5; eassumption|].
    assert (forall d, ~ In 43 (encode f d)) as X.
    { intros d I. assert (Forall (fun c => In c (alphabet f)) (encode f d)) as A by (apply Forall_alphabet, alphabet_encode).
      rewrite Forall_forall in A. exact (plus_alphabet f N (A _ I)). }
    apply C22_decoded_exact in H as (_ & [(_ & _ & -> & _)|(_ & _ & ds & _ & -> & _)]); [apply X|].
    intros I. apply in_concat in I as (y & Y & I). apply in_map_iff in Y as (d & <- & _). unfold encode_pad in I.
    apply in_app_iff in I. destruct I as [I|I]; [exact (X _ I)|apply repeat_spec in I; discriminate]. }
  split; intros; apply arrives_tame; [eapply T6|eapply T7]; eassumption.
Qed.
Print Assumptions C134_texts.

Lemma plus_v4 s a : v4_text s a -> ~ In 43 s.
Proof. intros H. eapply not_in_all; [|exact (v4_chars _ _ H)]. unfold v4_char. lia. Qed.
Lemma plus_v6 s a : v6_text s a -> ~ In 43 s.
Proof. intros H. eapply not_in_all; [|exact (v6_chars _ _ H)]. unfold v6_char. lia. Qed.
Lemma plus_dec n : ~ In 43 (dec_of_N n).
Proof.
  pose proof (dec_of_N_denotes n) as H. induction H as [c H|ds v c _ IH H]; unfold is_digit in H.
  - intros [K|[]]. lia.
  - intros K. apply in_app_iff in K. destruct K as [K|[K|[]]]; [auto|lia].
Qed.
Lemma plus_v4_printed a p : v4_addr a -> ~ In 43 (ipv4_authority (a, p)).
Proof.
  intros A. pose proof (plus_v4 _ _ (ipv4_display_text a A)) as D. unfold ipv4_authority. cbn [fst snd]. destruct p as [p|]; [|exact D].
  intros I. apply in_app_iff in I. destruct I as [I|I]; [auto|]. cbn [app In] in I. destruct I as [I|I]; [discriminate|exact (plus_dec _ I)].
Qed.
Lemma plus_v6_printed a p : v6_addr a -> ~ In 43 (ipv6_authority (a, p)).
Proof.
  intros A. pose proof (plus_v6 _ _ (ipv6_display_text a A)) as D. unfold ipv6_authority. cbn [fst snd]. destruct p as [p|].
  - cbn [app]. intros [I|I]; [discriminate|]. apply in_app_iff in I. destruct I as [I|I]; [auto|]. cbn [app In] in I.
    destruct I as [I|[I|I]]; [discriminate|discriminate|exact (plus_dec _ I)].
  - intros I. first [exact (D I) | (cbn [app In] in I; destruct I as [I|I]; [discriminate|]; apply in_app_iff in I; destruct I as [I|[I|[]]]; [auto|discriminate])].
Qed.

(** C134: addresses, where the port may have a plus sign, and what they print, where it has none. *)
Theorem C134_ip : forall port local s, valid_str s ->
  (forall v, ip_parse_str port local s = Ok v -> (arrives s <-> ~ In 43 s) /\ arrives (ip_authority v)) /\
  (forall v, ipv4_parse_str port local s = Ok v -> (arrives s <-> ~ In 43 s) /\ arrives (ipv4_authority v)) /\
  (forall v, ipv6_parse_str port local s = Ok v -> (arrives s <-> ~ In 43 s) /\ arrives (ipv6_authority v)).
Proof.
  intros port local s V. destruct (C115_ip port local s V) as (T & T4 & T6). split; [|split]; intros [x p] H.
  - destruct (T _ H) as [A B]. split; [exact (arrives_tame _ A)|]. apply (arrives_tame _ B).
    destruct x as [a|a]; apply C31_ip_accepts_exactly in H as [F _]; try assumption.
    + destruct (v4_form_addr _ _ _ F). now apply plus_v4_printed.
    + destruct (v6_form_addr _ _ _ F). now apply plus_v6_printed.
  - destruct (T4 _ H) as [A B]. split; [exact (arrives_tame _ A)|]. apply (arrives_tame _ B).
    apply C31_ipv4_accepts_exactly in H as [F _]; [|assumption]. destruct (v4_form_addr _ _ _ F). now apply plus_v4_printed.
  - destruct (T6 _ H) as [A B]. split; [exact (arrives_tame _ A)|]. apply (arrives_tame _ B).
    apply C31_ipv6_accepts_exactly in H as [F _]; [|assumption]. destruct (v6_form_addr _ _ _ F). now apply plus_v6_printed.
Qed.
Print Assumptions C134_ip.

(** C134: domains and hosts. What a host prints has no plus sign either. *)
Theorem C134_names : forall idna s, idna_ldh idna -> idna_laws idna -> valid_str s ->
  (forall c v, domain_parse_str idna c s = Ok v -> (arrives s <-> ~ In 43 s) /\
     forall t, @domain_authority domain_err v = Ok t -> (arrives t <-> ~ In 43 t)) /\
  (forall c v, host_parse_str idna c s = Ok v -> (arrives s <-> ~ In 43 s) /\ arrives (host_authority v)).
Proof.
  intros idna s L1 L2 V. destruct (C115_names idna s L1 L2 V) as [TD TH]. split; intros c v H.
  - destruct (TD _ _ H) as [A B]. split; [exact (arrives_more _ A)|]. intros t T. exact (arrives_tame _ (B t T)).
  - destruct (TH _ _ H) as [A B]. split; [exact (arrives_more _ A)|]. apply (arrives_tame _ B).
    apply C39_host_accepts_exactly in H; [|exact V]. unfold host_authority.
    destruct H as [(a & E & F & _)|[(a & E & F & _)|(name & d & E & _ & _ & _ & P & _ & _ & _ & I & _)]]; rewrite E.
    + destruct (v6_form_addr _ _ _ F). now apply plus_v6_printed.
    + destruct (v4_form_addr _ _ _ F). now apply plus_v4_printed.
    + assert (~ In 43 d) as D by (eapply not_in_all; [|exact (proj1 (L2 _ _ I))]; unfold idna_char; lia).
      destruct (hv_port v); [|exact D]. intros K. apply in_app_iff in K. destruct K as [K|K]; [auto|]. cbn [app In] in K.
      destruct K as [K|K]; [discriminate|exact (plus_dec _ K)].
Qed.
Print Assumptions C134_names.

Lemma plus_host idna c dt h canon : idna_ldh idna -> host_text idna c dt h canon -> ~ In 43 dt.
Proof.
  intros L H. destruct h as [d|a|a]; cbn [host_text] in H.
  - eapply not_in_all; [|eapply (L dt); apply H]. cbn. lia.
  - destruct H as (_ & _ & t & -> & T & _). apply plus_v4 in T. intros I. cbn [app In] in I. destruct I as [I|I]; [discriminate|].
    apply in_app_iff in I. destruct I as [I|[I|[]]]; [auto|discriminate].
  - destruct H as (_ & _ & t & -> & T & _). apply plus_v6 in T. intros I. apply in_app_iff in I. destruct I as [I|I].
    + vm_compute in I. repeat (destruct I as [I|I]; [discriminate I|]). exact I.
    + apply in_app_iff in I. destruct I as [I|[I|[]]]; [auto|discriminate].
Qed.
Lemma plus_host_printed idna c dt h canon : idna_laws idna -> host_text idna c dt h canon -> ~ In 43 (e_host_text h).
Proof.
  intros L H. destruct h as [d|a|a]; cbn [host_text e_host_text] in *.
  - eapply not_in_all; [|eapply (L dt); apply H]. unfold idna_char. lia.
  - destruct H as (_ & _ & t & -> & T & _). pose proof (plus_v4 _ _ (ipv4_display_text a (v4_text_addr _ _ T))) as X.
    intros I. cbn [app In] in I. destruct I as [I|I]; [discriminate|]. apply in_app_iff in I. destruct I as [I|[I|[]]]; [auto|discriminate].
  - destruct H as (_ & _ & t & -> & T & _). pose proof (plus_v6 _ _ (ipv6_display_text a (v6_text_addr _ _ T))) as X.
    intros I. apply in_app_iff in I. destruct I as [I|I].
    + vm_compute in I. repeat (destruct I as [I|I]; [discriminate I|]). exact I.
    + apply in_app_iff in I. destruct I as [I|[I|[]]]; [auto|discriminate].
Qed.

(** None of the characters that mean something in a query. *)
Definition plain (t : list N) : Prop := Forall (fun x => ~ In x (bs "#%&+")) t.
Lemma plain_app a b : plain a -> plain b -> plain (a ++ b).
Proof. intros A B. apply Forall_app. now split. Qed.
Lemma plain_cons x a : ~ In x (bs "#%&+") -> plain a -> plain (x :: a).
Proof. intros A B. now constructor. Qed.
Lemma plain_more s : Forall tame_or_more s -> ~ In 43 s -> plain s.
Proof.
  intros H P. destruct (more_not s H) as (A & B & C). apply Forall_forall. intros x I X.
  vm_compute in X. repeat (destruct X as [<- |X]; [contradiction|]). destruct X.
Qed.
Lemma arrives_if_plain s : plain s -> arrives s.
Proof.
  intros H. unfold plain in H. rewrite Forall_forall in H. apply arrives_plain; intros I; apply H in I; apply I; vm_compute; tauto.
Qed.
Ltac np := intros K; vm_compute in K; repeat (destruct K as [K|K]; [discriminate K|]); exact K.
Lemma plain_ctext k : (forall t, k = Some t -> plain t) -> plain (ctext k).
Proof.
  destruct k as [t|]; intros H; [|constructor]. cbn [ctext app]. apply plain_cons; [np|]. apply plain_app; [now apply H|].
  apply plain_cons; [np|constructor].
Qed.
(** C134: e-mail addresses. Only the local part, the comments and what is behind the last comment can be in the way; in what is printed,
    only the local part and the comments.
    Missing: local parts and comments that have one of the four characters. *)
Theorem C134_email_partial : forall idna prof c s v, idna_ldh idna -> idna_laws idna -> valid_str s ->
  email_parse_str idna prof c s = Ok v -> plain (ev_local v) ->
  (forall t, In (Some t) [ev_c1 v; ev_c2 v; ev_c3 v; ev_c4 v] -> plain t) ->
  (ev_c4 v = None -> arrives s) /\ arrives (to_email_string c v).
Proof.
  intros idna prof c s v I1 I2 V H L W. apply email_parse_spec in H; [|exact V].
  destruct H as (lt & q & dt & tail & canon & Es & _ & HL & K1 & K2 & K3 & T & _ & Ht & _).
  assert (forall k, In k [ev_c1 v; ev_c2 v; ev_c3 v; ev_c4 v] -> plain (ctext k)) as C.
  { intros k K. apply plain_ctext. intros t ->. exact (W t K). }
  assert (plain (ctext (ev_c1 v)) /\ plain (ctext (ev_c2 v)) /\ plain (ctext (ev_c3 v)) /\ plain (ctext (ev_c4 v))) as (C1 & C2 & C3 & C4).
  { repeat split; apply C; cbn [In]; tauto. }
  assert (forall f : bool, plain ((if f then [34] else []) ++ ev_local v ++ (if f then [34] else []))) as LQ.
  { intros []; cbn [app]; [|rewrite app_nil_r; exact L]. apply plain_cons; [np|]. apply plain_app; [exact L|]. apply plain_cons; [np|constructor]. }
  assert (plain lt) as LT by (destruct HL as [(_ & -> & _)|(_ & -> & _)]; [exact L|exact (LQ true)]).
  assert (plain dt) as D by exact (plain_more _ (host_more _ _ _ _ _ I1 Ht) (plus_host _ _ _ _ _ I1 Ht)).
  assert (plain (e_host_text (ev_domain v))) as P
    by exact (plain_more _ (tame_more _ (host_printed_tm _ _ _ _ _ I2 Ht)) (plus_host_printed _ _ _ _ _ I2 Ht)).
  split; [intros E|]; apply arrives_if_plain.
  - rewrite E in T. cbn [tail_ok] in T. subst tail. rewrite Es. cbn [app].
    repeat first [assumption | apply plain_app | apply plain_cons; [np|] | constructor].
  - unfold to_email_string. destruct (e_comment c); cbn [negb].
    + change (e_comment_text (ev_c1 v)) with (ctext (ev_c1 v)). change (e_comment_text (ev_c2 v)) with (ctext (ev_c2 v)).
      change (e_comment_text (ev_c3 v)) with (ctext (ev_c3 v)). change (e_comment_text (ev_c4 v)) with (ctext (ev_c4 v)).
      cbv zeta. apply plain_app; [exact C1|]. specialize (LQ (ev_need_quoted v)). rewrite app_assoc, app_assoc.
      apply plain_app; [rewrite <- app_assoc; exact LQ|]. cbn [app].
      repeat first [assumption | apply plain_app | apply plain_cons; [np|] | constructor].
    + apply plain_app; [exact L|]. apply plain_cons; [np|exact P].
Qed.
Print Assumptions C134_email_partial.

(** Finding. An integer, a base64 text and an address with a port are accepted with a plus sign, and what the server reads is refused. *)
Theorem C134_plus_refuted :
  (exists s t, int_parse_str true W64 I32 Unlimited s = Ok 5%Z /\ query_pairs (bs "/?k=" ++ s) = [(bs "k", t)] /\ t <> s /\
     forall sg pw ty r, ~ is_ok (int_parse_str sg pw ty r t)) /\
  (exists s t, query_pairs (bs "/?k=" ++ s) = [(bs "k", t)] /\ t <> s /\
     forall p, is_ok (base_parse_str B64 p s) /\ is_ok (dec_parse_str B64 p s) /\
       ~ is_ok (base_parse_str B64 p t) /\ ~ is_ok (dec_parse_str B64 p t)) /\
  (exists s t, query_pairs (bs "/?k=" ++ s) = [(bs "k", t)] /\ t <> s /\
     forall port, port <> Disallow -> is_ok (ip_parse_str port Allow s) /\ ~ is_ok (ip_parse_str port Allow t)).
Proof.
  split; [|split].
  - exists (bs "+5"), (bs " 5"). split; [vm_compute; reflexivity|]. split; [vm_compute; reflexivity|]. split; [discriminate|].
    intros sg pw ty r [v H]. destruct (C115_tame (bs " 5")) as (T & _). apply T in H. change (bs " 5") with [32; 53] in H. apply Forall_inv, tame_range in H. lia.
  - exists (bs "+1+2"), (bs " 1 2"). split; [vm_compute; reflexivity|]. split; [discriminate|].
    intros p. split; [destruct p; eexists; vm_compute; reflexivity|]. split; [destruct p; eexists; vm_compute; reflexivity|].
    split; intros [v H]; destruct p; vm_compute in H; discriminate.
  - exists (bs "1.2.3.4:+80"), (bs "1.2.3.4: 80"). split; [vm_compute; reflexivity|]. split; [discriminate|].
    intros port P. split; [destruct port; try congruence; eexists; vm_compute; reflexivity|].
    intros [v H]; destruct port; vm_compute in H; discriminate.
Qed.
Print Assumptions C134_plus_refuted.

(** Finding. An e-mail address may bring a parameter of its own. *)
Theorem C134_email_refuted : exists s v, valid_str s /\
  query_pairs (bs "/?to=" ++ s) = [(bs "to", bs "a"); (bs "admin", bs "1@example.com")] /\
  forall prof com ip two na, ip <> Must -> two <> Disallow ->
  let c := ecfg com ip Disallow two na in email_parse_str idna_ascii prof c s = Ok v /\ to_email_string c v = s.
Proof.
  exists (bs "a&admin=1@example.com"),
    {| ev_local := bs "a&admin=1"; ev_need_quoted := false; ev_domain := HDomain (bs "example.com"); ev_c1 := None; ev_c2 := None;
       ev_c3 := None; ev_c4 := None; ev_is_local := None |}.
  split; [ascii_str|]. split; [vm_compute; reflexivity|].
  intros prof com ip two na I T. cbn zeta. split; destruct prof, com, ip, two, na; try congruence; vm_compute; reflexivity.
Qed.
Print Assumptions C134_email_refuted.

(** Finding. So may what is behind the last comment of an address, of which the value and what it prints have nothing. *)
Theorem C134_email_tail_refuted : exists s v, valid_str s /\
  query_pairs (bs "/?to=" ++ s) = [(bs "to", bs "a@example.com(b)"); (bs "admin", bs "1")] /\
  forall prof, let c := ecfg true Disallow Disallow Must false in
  email_parse_str idna_ascii prof c s = Ok v /\ to_email_string c v = bs "a@example.com(b)".
Proof.
  exists (bs "a@example.com(b)&admin=1"),
    {| ev_local := bs "a"; ev_need_quoted := false; ev_domain := HDomain (bs "example.com"); ev_c1 := None; ev_c2 := None;
       ev_c3 := None; ev_c4 := Some (bs "b"); ev_is_local := None |}.
  split; [ascii_str|]. split; [vm_compute; reflexivity|].
  intros prof. cbn zeta. split; [destruct prof; vm_compute; reflexivity|vm_compute; reflexivity].
Qed.
Print Assumptions C134_email_tail_refuted.

(** Finding. Or be read as another address, which is accepted too. *)
Theorem C134_email_other_refuted : exists s t v w, valid_str s /\ s <> t /\ v <> w /\ query_pairs (bs "/?to=" ++ s) = [(bs "to", t)] /\
  forall prof, let c := ecfg false Disallow Disallow Must false in
  email_parse_str idna_ascii prof c s = Ok v /\ email_parse_str idna_ascii prof c t = Ok w /\ ev_local v <> ev_local w.
Proof.
  pose (m := fun l => {| ev_local := l; ev_need_quoted := false; ev_domain := HDomain (bs "example.com"); ev_c1 := None; ev_c2 := None;
       ev_c3 := None; ev_c4 := None; ev_is_local := None |}).
  exists (bs "a%62@example.com"), (bs "ab@example.com"), (m (bs "a%62")), (m (bs "ab")).
  split; [ascii_str|]. split; [discriminate|]. split; [discriminate|]. split; [vm_compute; reflexivity|].
  intros prof. cbn zeta. split; [destruct prof; vm_compute; reflexivity|]. split; [destruct prof; vm_compute; reflexivity|]. discriminate.
Qed.
Print Assumptions C134_email_other_refuted.

(** Non-triviality: queries, the hypotheses of the theorems, and accepted texts that do and do not arrive. *)
Example C134_example : let c := {| d_ipv4 := Disallow; d_local := Disallow; d_port := Allow; d_two := Must |} in
  query_pairs (bs "https://a.org/b?x=1&&y=a+b%2Bc&z#k=2") = [(bs "x", bs "1"); (bs "y", bs "a b+c"); (bs "z", [])] /\
  query_pairs (bs "/?k=a%zz%4") = [(bs "k", bs "a%zz%4")] /\
  arrives (bs "GE======") /\ ~ arrives (bs "+5") /\ ~ arrives (bs "a&b") /\
  base_parse_str B32 Allow (bs "GE======") = Ok (bs "GE======") /\ is_ok (dec_parse_str B64Url Allow (bs "-_-_")) /\
  tame_sep (SepMust 58) /\ tame_sep (SepMust 43) /\ is_ok (mac_parse_str AnyCase (SepMust 43) (bs "08+00+27+b4+6A+2b")) /\
  idna_ldh idna_ascii /\ idna_laws idna_ascii /\ valid_str (bs "a-b.example.com:+80") /\
  is_ok (domain_parse_str idna_ascii c (bs "a-b.example.com:+80")) /\
  is_ok (email_parse_str idna_ascii Debug (ecfg false Disallow Disallow Must false) (bs "a=b@example.com")) /\
  is_ok (email_parse_str idna_ascii Debug (ecfg true Disallow Disallow Must false) (bs "(x y)a=b@(=)example.com")) /\
  plain (bs "a=b") /\ plain (bs "x y") /\ plain (bs "=").
Proof.
  cbn zeta. split; [vm_compute; reflexivity|]. split; [vm_compute; reflexivity|].
  split; [apply arrives_tame; [apply tame_text; reflexivity|]; vm_compute; intros K; repeat (destruct K as [K|K]; [discriminate K|]); exact K|].
  split; [rewrite arrives_tame by (apply tame_text; reflexivity); intros K; apply K; now left|].
  split.
  { intros K. destruct (K [] [] [] (fun x => x) (fun x => x) (Forall_nil _)) as [K' _]. vm_compute in K'. discriminate. }
  split; [vm_compute; reflexivity|]. split; [eexists; vm_compute; reflexivity|].
  split; [apply tame_range; lia|]. split; [apply tame_range; lia|]. split; [eexists; vm_compute; reflexivity|].
  split; [exact idna_ascii_ldh|]. split; [exact idna_ascii_laws|]. split; [ascii_str|].
  split; [eexists; vm_compute; reflexivity|]. split; [eexists; vm_compute; reflexivity|]. split; [eexists; vm_compute; reflexivity|].
  split; [|split]; repeat (apply plain_cons; [np|]); constructor.
Qed.
