(** Validators backed by a library, and text extractors: C78 and C79. *)
From Verif Require Import Base RangeModel IntModel NumberModel BooleanModel Serde DeModel JsonModel ValueSerde MetaModel MetaSpec
  PropMeta LibModel.
Local Open Scope N_scope.

(** Which texts the regular expression of the attribute matches. *)
Definition re_matches {re} (regex_new : list N -> option re) (is_match : re -> list N -> bool) (user : list N -> bool)
    (e : regex_expr) (s : list N) : Prop :=
  match e with
  | RePattern p => exists r, regex_new p = Some r /\ is_match r s = true
  | ReExpr => user s = true
  end.

(** C78, regex. For every attribute that the macro accepts, every text: the generated code never panics on the [unwrap] of the
    matcher, and accepts exactly the texts that the written expression matches, unchanged, by all three entry points. *)
Theorem C78_regex : forall re (regex_new : list N -> option re) is_match user f m e o,
  regex_attribute (fun p => match regex_new p with Some _ => true | None => false end) f m = Ok (e, o) ->
  forall s,
  re_parse_str re regex_new is_match user e s <> Panic /\ re_validate_str re regex_new is_match user e s <> Panic /\
  re_parse_string re regex_new is_match user e s = re_parse_str re regex_new is_match user e s /\
  (forall v, re_parse_str re regex_new is_match user e s = Ok v <-> v = s /\ re_matches regex_new is_match user e s) /\
  (re_validate_str re regex_new is_match user e s = Ok tt <-> re_matches regex_new is_match user e s).
Proof.
  intros re regex_new is_match user f m e o H s. apply C66_regex in H. destruct H as (ms & _ & _ & (a & _ & _ & W) & _).
  unfold re_parse_string, re_parse_str, re_validate_str, re_v_parse_str, re_is_match, re_matches. destruct e as [p|].
  - destruct W as (q & C & _). destruct (regex_new p) as [r|] eqn:Er; [|discriminate]. cbn.
    destruct (is_match r s) eqn:Em; cbn; (split; [discriminate|]; split; [discriminate|]; split; [reflexivity|]).
    + split.
      * intros v. split; [intros X; injection X as <-; eauto|intros [-> _]; reflexivity].
      * split; [intros _; eauto|reflexivity].
    + split.
      * intros v. split; [discriminate|]. intros (_ & r' & X & Y). congruence.
      * split; [discriminate|]. intros (r' & X & Y). congruence.
  - cbn. destruct (user s) eqn:Em; cbn; (split; [discriminate|]; split; [discriminate|]; split; [reflexivity|]).
    + split; [|tauto]. intros v. split; [intros X; injection X as <-; auto|intros [-> _]; reflexivity].
    + split; [|split; discriminate]. intros v. split; [discriminate|]. intros [_ X]. discriminate.
Qed.
Print Assumptions C78_regex.

(** C78, regex: a literal that is no regular expression never gets past the macro, however it is written. *)
Theorem C78_bad_pattern : forall compiles f m p o, compiles p = false -> regex_attribute compiles f m <> Ok (RePattern p, o).
Proof.
  intros compiles f m p o Hc H. apply C66_regex in H. destruct H as (ms & _ & _ & (a & _ & _ & q & C & _) & _). congruence.
Qed.
Print Assumptions C78_bad_pattern.

(** C78, regex: the functions through which a value is deserialized (those of C63 and C64, written over a function [matches]) are the
    same three entry points. For every attribute that the macro accepts. *)
Theorem C78_regex_deserialized : forall re (regex_new : list N -> option re) is_match user f m e o,
  regex_attribute (fun p => match regex_new p with Some _ => true | None => false end) f m = Ok (e, o) ->
  exists matches : list N -> bool,
    (forall s, matches s = true <-> re_matches regex_new is_match user e s) /\
    (forall s, regex_parse_str matches s = re_parse_str re regex_new is_match user e s) /\
    (forall s, regex_parse_string matches s = re_parse_string re regex_new is_match user e s) /\
    (forall s, regex_validate_str matches s = re_validate_str re regex_new is_match user e s).
Proof.
  intros re regex_new is_match user f m e o H. apply C66_regex in H. destruct H as (ms & _ & _ & (a & _ & _ & W) & _).
  unfold re_parse_string, re_parse_str, re_validate_str, re_v_parse_str, re_is_match, re_matches,
    regex_parse_str, regex_parse_string, regex_validate_str, regex_v_parse_str. destruct e as [p|].
  - destruct W as (q & C & _). destruct (regex_new p) as [r|] eqn:Er; [|discriminate]. exists (is_match r).
    split; [|cbn; repeat split; intros s; destruct (is_match r s); reflexivity].
    intros s. split; [eauto|]. intros (r' & X & Y). congruence.
  - exists user. split; [tauto|]. cbn. repeat split; intros s; destruct (user s); reflexivity.
Qed.
Print Assumptions C78_regex_deserialized.

(** C78, url, semver and semver_req: the verdict, the value and the error are the library's, by all three entry points. *)
Theorem C78_library : forall A E (lib_parse : list N -> A + E) s,
  (forall a, lib_parse_str A E lib_parse s = Ok a <-> lib_parse s = inl a) /\
  (forall e, lib_parse_str A E lib_parse s = Err e <-> lib_parse s = inr e) /\
  lib_parse_str A E lib_parse s <> Panic /\ lib_parse_string A E lib_parse s = lib_parse_str A E lib_parse s /\
  (lib_validate_str A E lib_parse s = Ok tt <-> exists a, lib_parse s = inl a) /\
  (forall e, lib_validate_str A E lib_parse s = Err e <-> lib_parse s = inr e).
Proof.
  intros A E lib_parse s. unfold lib_parse_str, lib_parse_string, lib_validate_str, lib_v_parse_str.
  destruct (lib_parse s) as [a|e]; cbn; (split; [|split; [|split; [discriminate|split; [reflexivity|split]]]]).
  - intros b. split; intros X; injection X as <-; reflexivity.
  - intros e. split; discriminate.
  - split; [intros _; eauto|reflexivity].
  - intros e. split; discriminate.
  - intros b. split; discriminate.
  - intros b. split; intros X; injection X as <-; reflexivity.
  - split; [discriminate|intros [a X]; discriminate].
  - intros b. split; intros X; injection X as <-; reflexivity.
Qed.
Print Assumptions C78_library.

(** [regex("a")] with a library in which a pattern is a text to be equal to, and the empty pattern is invalid. *)
Example C78_example :
  let regex_new p := match p with [] => None | _ => Some p end in
  let attr p := MList [bs "regex"] [IMeta (MList [bs "regex"] [ILit (LitStr p)] false)] false in
  let f := {| f_serde := true; f_rocket := true; f_full := true |} in
  (exists o, regex_attribute (fun p => match regex_new p with Some _ => true | None => false end) f (attr (bs "a")) =
    Ok (RePattern (bs "a"), o)) /\
  re_parse_str _ regex_new eqbs (fun _ => false) (RePattern (bs "a")) (bs "a") = Ok (bs "a") /\
  re_parse_str _ regex_new eqbs (fun _ => false) (RePattern (bs "a")) (bs "b") = Err RegexError /\
  re_parse_str _ regex_new eqbs (fun _ => false) (RePattern (bs "")) (bs "b") = Panic /\
  (exists e, regex_attribute (fun p => match regex_new p with Some _ => true | None => false end) f (attr (bs "")) = Err e).
Proof. cbv zeta. split; [eexists; vm_compute; reflexivity|]. do 3 (split; [reflexivity|]). eexists. vm_compute. reflexivity. Qed.

(** What the deserialisers of query strings, forms and path segments do (serde_urlencoded's value and axum's path deserialiser):
    human readable, and whatever is asked for, the text is presented, borrowed or owned. (Asked for an integer they parse it
    themselves; a human-readable validator never asks.) *)
Definition text_format (i : input) (s : list N) : Prop :=
  human i = true /\ forall h, h <> HU128 -> present i h = Some (DStr s) \/ present i h = Some (DString s).

(** C79. A validator with a visitor reads a query, form or path text exactly as [parse_str] reads it, and as rocket's form and
    path conversions do. *)
Theorem C79_text : forall E A (m : methods E A) k i s,
  ~ In k [Bit; Json; Length; Semver; SemverReq; Url] -> parse_string m s = parse_str m s -> text_format i s ->
  own_de k m i = omap_err DCustom (parse_str m s) /\ own_de k m i = from_form m s /\
  own_de k m i = omap_err DCustom (from_param m s).
Proof.
  intros E A m k i s Hk Hm [Hh Hp].
  assert (X : own_de k m i = omap_err DCustom (parse_str m s)).
  { unfold own_de, de. rewrite Hh.
    destruct k; cbn [own_hint]; try (exfalso; apply Hk; cbn; tauto);
    match goal with |- context [present i ?h] => destruct (Hp h ltac:(discriminate)) as [-> | ->] end;
    cbn [visit own_visitor default_visit]; rewrite ?Hm; reflexivity. }
  split; [exact X|]. split; exact X.
Qed.
Print Assumptions C79_text.

(** C79. A [validators::Result] field never makes a query, form or path fail: it holds what [parse_str] returns; this includes
    bit, byte, url, semver and semver_req. *)
Theorem C79_result : forall E A (m : methods E A) k i s,
  ~ In k [Json; Length] -> parse_string m s = parse_str m s -> text_format i s ->
  (forall a, parse_str m s = Ok a -> wrap_de k m i = Ok (ROk a)) /\
  (forall e, parse_str m s = Err e -> wrap_de k m i = Ok (RErr e)) /\
  (wrap_de k m i = Panic <-> parse_str m s = Panic) /\ (forall e, wrap_de k m i <> Err e).
Proof.
  intros E A m k i s Hk Hm [Hh Hp].
  assert (X : wrap_de k m i = omap_err DCustom (new_ok (parse_str m s))).
  { unfold wrap_de, de. rewrite Hh.
    destruct k; cbn [wrap_hint]; try (exfalso; apply Hk; cbn; tauto);
    match goal with |- context [present i ?h] => destruct (Hp h ltac:(discriminate)) as [-> | ->] end;
    cbn [visit wrap_visitor default_visit string_visitor omap_err obind]; rewrite ?Hm; reflexivity. }
  rewrite X. destruct (parse_str m s) as [a|e|]; cbn.
  - split; [intros b Y; injection Y as <-; reflexivity|]. split; [discriminate|]. split; [split; discriminate|discriminate].
  - split; [discriminate|]. split; [intros b Y; injection Y as <-; reflexivity|]. split; [split; discriminate|discriminate].
  - split; [discriminate|]. split; [discriminate|]. split; [split; reflexivity|discriminate].
Qed.
Print Assumptions C79_result.

(** [serde_json::Value]'s own [deserialize] on such an input (external crate serde_json): it asks for anything; a text becomes a
    JSON string. *)
Definition text_value {E} (i : input) : outcome (de_err E) json :=
  match present i HAny with Some (DStr s) | Some (DString s) => Ok (JStr s) | _ => Err DType end.

(** C79 is false of json: a json validator of numbers accepts the text 1 by [parse_str] but refuses it in a query or path, where
    the text is taken for a JSON string. *)
Theorem C79_json_refuted : exists (from_str : list N -> option Z) (from_value : json -> option Z) s a,
  from_str s = from_value (JInt a) /\ json_parse_str Z from_str s = Ok a /\
  forall i, text_format i s -> json_own_de Z from_value (text_value i) = Err (DCustom SerdeJsonError).
Proof.
  exists (fun s => if eqbs s (bs "1") then Some 1%Z else None), (fun j => match j with JInt z => Some z | _ => None end), (bs "1"), 1%Z.
  split; [reflexivity|]. split; [reflexivity|]. intros i [_ H]. unfold text_value.
  destruct (H HAny ltac:(discriminate)) as [-> | ->]; reflexivity.
Qed.
Print Assumptions C79_json_refuted.

(** What a json validator makes of a query or path text: its type's reading of a JSON string. *)
Theorem C79_json_partial : forall A (from_value : json -> option A) i s, text_format i s ->
  json_own_de A from_value (text_value i) = match from_value (JStr s) with Some a => Ok a | None => Err (DCustom SerdeJsonError) end.
Proof.
  intros A from_value i s [_ H]. unfold text_value.
  destruct (H HAny ltac:(discriminate)) as [-> | ->]; unfold json_own_de; cbn [obind]; destruct (from_value (JStr s)); reflexivity.
Qed.
Print Assumptions C79_json_partial.

(** C79 is false of url, semver and semver_req: the text is accepted by [parse_str], but reading it from a query, form or path
    never returns. *)
Theorem C79_library_refuted : forall k : lib_kind, exists lib_parse s,
  lib_parse_str N N lib_parse s = Ok 0 /\
  forall n r, de_run (tail_call (lib_kind_of k)) (lib_parse_str N N lib_parse s) n <> Returned r.
Proof.
  intros k. exists (fun _ => inl 0), (bs "1.0.0"). split; [reflexivity|]. intros n r.
  assert (T : tail_call (lib_kind_of k) = ImplSelf) by (destruct k; reflexivity). rewrite T.
  assert (S : de_run ImplSelf (lib_parse_str N N (fun _ => inl 0) (bs "1.0.0")) n = Calling ImplSelf).
  { induction n as [|n IH]; [reflexivity|]. cbn [de_run]. rewrite IH. reflexivity. }
  rewrite S. discriminate.
Qed.
Print Assumptions C79_library_refuted.

Example C79_example :
  let i := {| human := true; present := fun h => match h with HString => Some (DString (bs "8080")) | HU128 => None | _ => Some (DStr (bs "8080")) end |} in
  let m := int_methods false W64 I16 (Inside (Some 1) (Some 65535) true)%Z in
  text_format i (bs "8080") /\ ~ In UnsignedInteger [Bit; Json; Length; Semver; SemverReq; Url] /\
  parse_string m (bs "8080") = parse_str m (bs "8080") /\ own_de UnsignedInteger m i = Ok 8080%Z /\
  wrap_de UnsignedInteger m i = Ok (ROk 8080%Z).
Proof.
  cbv zeta. split; [split; [reflexivity|]; intros [] H; cbn; try tauto; congruence|]. split; [cbn; intuition discriminate|].
  split; [reflexivity|]. split; vm_compute; reflexivity.
Qed.
