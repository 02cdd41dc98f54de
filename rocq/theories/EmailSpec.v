(** What the email validator accepts and returns, as a grammar. *)
From Verif Require Import Base NetModel NetSpec IpSpec DomainSpec HostModel EmailModel.
Local Open Scope N_scope.

(** Characters of an atom (RFC 5322, section 3.2.3). *)
Definition is_atext (e : N) : Prop :=
  65 <= e <= 90 \/ 97 <= e <= 122 \/ 48 <= e <= 57 \/ In e (bs "!#$%&'*+-/=?^_`{|}~").
(** Characters that must be escaped in quotes, the quote being one of them. *)
Definition is_special (e : N) : Prop := In e (bs "(),:;<>@[]") \/ e = 34.
(** Backslash, space and tab. *)
Definition blank (e : N) : Prop := e = 92 \/ e = 32 \/ e = 9.

(** A character of an unquoted local part: an atom character, a dot, or a byte of a non-ASCII character if those are
    allowed. *)
Definition local_char (na : bool) (e : N) : Prop := is_atext e \/ e = 46 \/ (na = true /\ 128 <= e).

(** Whether the character after [u] is escaped: an odd number of backslashes in the run of backslashes, spaces and tabs
    before it. *)
Definition escaped (u : list N) : Prop := exists w t, u = w ++ t /\ (w = [] \/ exists w' x, w = w' ++ [x] /\ ~ blank x) /\
  Forall blank t /\ Nat.Odd (count_occ N.eq_dec t 92).

(** Two dots in a row. *)
Definition double_dot (l : list N) : Prop := exists u v, l = u ++ [46; 46] ++ v.

(** An unquoted local part that starts at byte [o] of the text. *)
Definition unquoted (na : bool) (o : nat) (l : list N) : Prop :=
  l <> [] /\ (forall r, l <> 46 :: r) /\ Forall (local_char na) l /\ ~ double_dot l /\
  (forall i e, nth_error l i = Some e -> (0 < i)%nat -> e < 128 -> (o + i <> 64)%nat).

(** The contents of a quoted local part whose opening quote is at byte [o] of the text. *)
Definition quoted (na : bool) (o : nat) (l : list N) : Prop :=
  l <> [] /\ (forall u e v, l = u ++ e :: v -> local_char na e \/ blank e \/ (is_special e /\ escaped u)) /\
  ~ escaped l /\
  (forall i e, nth_error l i = Some e -> e < 128 \/ i = O -> (o + 1 + i <> 63)%nat).

(** Contents for which the quotes are needed. *)
Definition needs_quotes (l : list N) : Prop :=
  (exists r, l = 46 :: r) \/ (exists e, In e l /\ blank e) \/ double_dot l.

(** The local part [l] with its text [lt] that starts at byte [o]. *)
Definition local_text (na : bool) (o : nat) (lt l : list N) (nq q : bool) : Prop :=
  (q = false /\ lt = l /\ unquoted na o l /\ nq = false) \/
  (q = true /\ lt = [34] ++ l ++ [34] /\ quoted na o l /\ (nq = true <-> needs_quotes l)).

(** A comment, written in parentheses. *)
Definition ctext (k : option (list N)) : list N := match k with Some t => [40] ++ t ++ [41] | None => [] end.
Definition comment_ok (c : email_cfg) (limit : nat) (k : option (list N)) : Prop :=
  forall t, k = Some t -> e_comment c = true /\ ~ In 41 t /\ (List.length t < limit)%nat.

(** The second comment ends within the first 64 bytes, or starts after them in a release build. *)
Definition second_ok (prof : profile) (before : nat) (k : option (list N)) : Prop :=
  forall t, k = Some t -> (before + List.length (ctext k) <= 64)%nat \/ (prof = Release /\ (64 <= before)%nat).

(** The end of the text: nothing, or a comment and anything. *)
Definition tail_ok (c : email_cfg) (k : option (list N)) (tail : list N) : Prop :=
  match k with
  | None => tail = []
  | Some t => e_comment c = true /\ ~ In 41 t /\ exists junk, tail = ctext k ++ junk
  end.

(** The domain part [dt] denotes the host [h]; [canon] is the length of the host as it would be printed. *)
Definition host_text (idna : list N -> option (list N)) (c : email_cfg) (dt : list N) (h : host) (canon : nat) : Prop :=
  match h with
  | HIPv4 a => e_ip c <> Disallow /\ e_two c <> Disallow /\ exists t, dt = [91] ++ t ++ [93] /\ v4_text t a /\
      canon = List.length dt
  | HIPv6 a => e_ip c <> Disallow /\ e_two c <> Disallow /\ exists t, dt = bs "[IPv6:" ++ t ++ [93] /\ v6_text t a /\
      canon = (List.length (ipv6_display a) + 7)%nat
  | HDomain d => e_ip c <> Must /\ dt <> [] /\ ~ In 40 dt /\ (forall r, dt <> 91 :: r) /\ (forall u, dt <> u ++ [46]) /\
      idna dt = Some d /\ two_ok (e_two c) (localhost d) d /\ canon = List.length d
  end.

(** A literal address that is local, or the name localhost. *)
Definition literal_local (h : host) : Prop :=
  match h with HDomain d => localhost d | HIPv4 a => v4_local a | HIPv6 a => v6_local a end.

Definition email_field (c : email_cfg) : bool :=
  match e_local c, e_two c with Allow, (Must | Disallow) => true | _, _ => false end.

(** All texts accepted, with their values. The domain part with its comments has at most 255 bytes, also when the host
    is put in canonical form, where the two quotes of a local part that needs them are deducted. *)
Definition email_accepts (idna : list N -> option (list N)) (prof : profile) (c : email_cfg) (s : list N) (v : email_val)
  : Prop :=
  exists lt q dt tail canon,
    s = ctext (ev_c1 v) ++ lt ++ ctext (ev_c2 v) ++ [64] ++ ctext (ev_c3 v) ++ dt ++ tail /\
    (List.length s <= 320)%nat /\
    local_text (e_non_ascii c) (List.length (ctext (ev_c1 v))) lt (ev_local v) (ev_need_quoted v) q /\
    comment_ok c 62 (ev_c1 v) /\ comment_ok c 320 (ev_c2 v) /\ comment_ok c 253 (ev_c3 v) /\ tail_ok c (ev_c4 v) tail /\
    second_ok prof (List.length (ctext (ev_c1 v) ++ lt)) (ev_c2 v) /\
    host_text idna c dt (ev_domain v) canon /\
    (let n := List.length (ctext (ev_c3 v) ++ dt ++ tail) in
     (n <= 255 /\
      (List.length dt + (if q && ev_need_quoted v then 2 else 0) < canon ->
       n + canon <= 255 + List.length dt + (if q && ev_need_quoted v then 2 else 0)))%nat) /\
    local_ok (e_local c) (literal_local (ev_domain v)) /\
    field (email_field c) (literal_local (ev_domain v)) (ev_is_local v).
