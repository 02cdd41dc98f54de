(** Property C88, continued: sizes, collections, lines, numbers and protocols. *)
From Verif Require Import Base RangeModel LengthModel AttrSpec LengthProofs PropAttr SizeModel SizeProofs PropSize Utf8 LineModel LineSpec LineProofs PropLine
  MessageModel.
From Verif Require NumberModel NumberSpec NumberProofs PropNumber HttpModel HttpSpec PropHttp.
Local Open Scope N_scope.

(** C88. bit and byte: the range messages say which bound was crossed, from texts and from numbers. *)
Theorem C88_size : forall from_str cap lib byte r,
  lib <> size_message lib byte STooSmall -> lib <> size_message lib byte STooLarge ->
  (forall s e, size_parse_str from_str r s = Err e ->
     (size_message lib byte e = (if byte then bs "byte is too small" else bs "bit is too small") ->
        exists v, from_str s = Some v /\ size_below r v) /\
     (size_message lib byte e = (if byte then bs "byte is too large" else bs "bit is too large") ->
        exists v, from_str s = Some v /\ size_above r v)) /\
  (forall u e, size_parse_u128 cap r u = Err e ->
     (size_message lib byte e = (if byte then bs "byte is too small" else bs "bit is too small") -> size_below r u) /\
     (size_message lib byte e = (if byte then bs "byte is too large" else bs "bit is too large") -> size_above r u \/ cap < u)).
Proof.
  intros from_str cap lib byte r A B. destruct (C07_size_exact from_str cap r) as (S & U & C & _).
  assert (M1 : forall e, size_message lib byte e = (if byte then bs "byte is too small" else bs "bit is too small") -> e = STooSmall).
  { intros e M. destruct e; [exfalso; apply A; exact M| |reflexivity]. exfalso. destruct byte; vm_compute in M; discriminate. }
  assert (M2 : forall e, size_message lib byte e = (if byte then bs "byte is too large" else bs "bit is too large") -> e = STooLarge).
  { intros e M. destruct e; [exfalso; apply B; exact M|reflexivity|]. exfalso. destruct byte; vm_compute in M; discriminate. }
  split.
  - intros s e H. specialize (S s). destruct (from_str s) as [v|].
    + destruct S as (_ & X & Y & _). split; intros M; exists v; (split; [reflexivity|]).
      * apply M1 in M. subst e. apply X. exact H.
      * apply M2 in M. subst e. apply Y. exact H.
    + rewrite S in H. injection H as <-. split; intros M; [apply M1 in M | apply M2 in M]; discriminate.
  - intros u e H. destruct (N.le_gt_cases u cap) as [L|L].
    + destruct (U u L) as (_ & X & Y & _). split; intros M.
      * apply M1 in M. subst e. apply X. exact H.
      * left. apply M2 in M. subst e. apply Y. exact H.
    + rewrite (C u L) in H. injection H as <-. split; intros M; [apply M1 in M; discriminate | right; exact L].
Qed.
Print Assumptions C88_size.

(** C88. length, for the attributes whose code compiles (C09). *)
Theorem C88_length_partial : forall A (len : A -> N) ps mn mx (v : A) e,
  coll_attribute ps = Ok (mn, mx) -> (forall m, mn = Some m -> mx <> Some m) -> parse_collection len mn mx v = Err e ->
  (length_message e = bs "collection is too small" /\ exists m, mn = Some m /\ len v < m) \/
  (length_message e = bs "collection is too large" /\ exists m, mx = Some m /\ m < len v).
Proof.
  intros A len ps mn mx v e P D H. destruct (C08_length_exact A len ps mn mx v P D) as (W & X & Y & _). destruct e.
  - left. split; [reflexivity|]. apply X. exact H.
  - right. split; [reflexivity|]. apply Y. exact H.
  - exfalso. destruct (C09_length_scope_partial mn mx) as [S U]. exact (U (proj2 S D) (len v) ltac:(unfold parse_collection in H; destruct (length_v_parse_v mn mx (len v)); cbn [obind] in H; congruence)).
Qed.
Print Assumptions C88_length_partial.

(** C88. line and text. *)
Theorem C88_line_partial : forall k a s e, accepted_attr a -> line_parse_str k a s = Err e ->
  let name := match k with Line => bs "line" | Text => bs "text" end in
  (line_message k e = bs "invalid " ++ name /\ Exists (forbidden k) s) \/
  (line_message k e = name ++ bs " is too long" /\ ~ at_most (a_max a) (len (a_byte a) s)) \/
  (line_message k e = name ++ bs " is too short" /\
     ((a_byte a = true \/ a_tmin a = None \/ at_most (a_max a) (len (a_byte a) s)) ->
      ~ at_least (a_min a) (len (a_byte a) s) \/
      exists t x m y, a_tmin a = Some t /\ trims s x m y /\ len (a_byte a) m < t)).
Proof.
  intros k a s e A H name. pose proof (C14_errors_partial k a s A) as C. rewrite H in C.
  destruct e; [left | right; left | right; right]; (split; [destruct k; reflexivity | exact C]).
Qed.
Print Assumptions C88_line_partial.

(** The words between backquotes. *)
Fixpoint between (inside : bool) (word m : list N) : list (list N) :=
  match m with
  | [] => []
  | c :: m => if c =? 96 then (if inside then [rev word] else []) ++ between (negb inside) [] m else between inside (c :: word) m
  end.
Definition quoted (m : list N) : list (list N) := between false [] m.

(** C88. http_url and http_ftp_url: the message about the protocol is given exactly when the text has none of the schemes that the
    message offers. *)
Theorem C88_protocols : forall url parse host lib local s,
  (HttpModel.http_parse_str url parse host local s = Err HttpModel.HProtocolError <->
     forall w, In w (quoted (http_message lib false HttpModel.HProtocolError)) -> ~ HttpSpec.has_scheme w s) /\
  (HttpModel.http_ftp_parse_str url parse host local s = Err HttpModel.HProtocolError <->
     forall w, In w (quoted (http_message lib true HttpModel.HProtocolError)) -> ~ HttpSpec.has_scheme w s).
Proof.
  intros url parse host lib local s. destruct (PropHttp.C54_protocol_error url parse host local s) as [A B]. rewrite A, B.
  assert (Q : quoted (http_message lib false HttpModel.HProtocolError) = [bs "http"; bs "https"]) by (vm_compute; reflexivity).
  assert (Q' : quoted (http_message lib true HttpModel.HProtocolError) = [bs "http"; bs "https"; bs "ftp"]) by (vm_compute; reflexivity).
  rewrite Q, Q'. clear A B Q Q'. cbn [In]. split; (split; [intros H w W; decompose [or] W; subst; tauto | intros H]).
  - split; apply H; tauto.
  - repeat split; apply H; tauto.
Qed.
Print Assumptions C88_protocols.

(** C88. number, given a text that is a number. *)
Theorem C88_number_range : forall from_str lib t r nan s f x e,
  NumberSpec.good_range t r -> ~ NumberSpec.x_degenerate r -> NumberSpec.is_float_of t f -> from_str s = Some f -> NumberSpec.xval f = Some x ->
  NumberModel.num_parse_str from_str r nan s = Err e ->
  (number_message lib e = bs "number is too small" /\
     exists m y max i, r = Inside (Some m) max i /\ NumberSpec.xval m = Some y /\ NumberSpec.xlt x y) \/
  (number_message lib e = bs "number is too large" /\
     exists m y min i, r = Inside min (Some m) i /\ NumberSpec.xval m = Some y /\ if i then NumberSpec.xlt y x else NumberSpec.xle y x) \/
  (number_message lib e = bs "number is forbidden" /\
     exists min max i, r = Outside min max i /\ NumberSpec.x_in_bounds min max i x) \/
  (number_message lib e = bs "must be NaN" /\ nan = Must).
Proof.
  intros from_str lib t r nan s f x e G D F R X H. rewrite (proj1 (PropNumber.C05_number_strings from_str t r nan s)), R in H.
  destruct (PropNumber.C05_number_errors t r nan f x e G D F X H) as [(-> & W)|[(-> & W)|[(-> & W)|(-> & W & _)]]].
  - left. split; [reflexivity|]. destruct W as (mn & mx & i & m & y & -> & -> & Y & Z). exists m, y, mx, i. auto.
  - right. left. split; [reflexivity|]. destruct W as (mn & mx & i & m & y & -> & -> & Y & Z). exists m, y, mn, i. auto.
  - right. right. left. split; [reflexivity|]. exact W.
  - right. right. right. split; [reflexivity|exact W].
Qed.
Print Assumptions C88_number_range.

Example C88_example_c :
  size_parse_u128 1000 (mk_range (Some 8) None false) 7 = Err STooSmall /\
  bs "unit is incorrect" <> size_message (bs "unit is incorrect") true STooSmall /\
  HttpModel.http_parse_str _ PropHttp.toy_parse PropHttp.toy_host Allow (bs "ftp://a") = Err HttpModel.HProtocolError /\
  quoted (http_message [] true HttpModel.HProtocolError) = [bs "http"; bs "https"; bs "ftp"] /\
  line_parse_str Text None [7] = Err LInvalid /\ line_message Text LInvalid = bs "invalid text".
Proof. repeat split; try (vm_compute; reflexivity). intros H. vm_compute in H. discriminate. Qed.
