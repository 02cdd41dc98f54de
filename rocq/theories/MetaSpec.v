(** What a user of the derive macro writes between the parentheses of [#\[validator(..)\]], and what it means. Stated
    on the syntax of MetaModel.v; none of its parsers is used. *)
From Verif Require Import Base RangeModel LengthModel MacModel MetaModel.
Local Open Scope N_scope.

(** The parameters written in [name], [name()] , [name(a, b)] or [name(a, b,)]. *)
Definition arguments (m : meta) (ms : list meta) : Prop :=
  match m with
  | MPath _ => ms = []
  | MNameValue _ _ => False
  | MList _ items tr => items = List.map IMeta ms /\ (tr = true -> ms <> [])
  end.

(** The parameter is called [n]. *)
Definition named (n : ident) (m : meta) : Prop := meta_path m = [n].

(** Every parameter has one of the [names], and none is given twice. *)
Definition well_named (names : list ident) (ms : list meta) : Prop :=
  exists used, Forall2 named used ms /\ NoDup used /\ incl used names.

(** The value of parameter [n]: what is written, or the default [d] if nothing is. *)
Definition value {A} (ms : list meta) (n : ident) (written : meta -> A -> Prop) (d v : A) : Prop :=
  (exists m, In m ms /\ named n m /\ written m v) \/ ((forall m, In m ms -> ~ named n m) /\ v = d).

(** [.. = word] or [..(word)]. *)
Definition word_written (m : meta) (w : ident) : Prop :=
  exists p, m = MNameValue p (EPath [w]) \/ m = MList p [IMeta (MPath [w])] false.

(** [.. = Must], [..(Must)] and so on. *)
Definition tri_written (m : meta) (v : tri) : Prop :=
  word_written m (match v with Must => bs "Must" | Allow => bs "Allow" | Disallow => bs "Disallow" end).
Definition allow_written (m : meta) (v : bool) : Prop :=
  word_written m (if v then bs "Allow" else bs "Disallow").
Definition case_written (m : meta) (v : case_option) : Prop :=
  word_written m (match v with AnyCase => bs "Any" | UpperCase => bs "Upper" | LowerCase => bs "Lower" end).

(** [separator(Disallow)], [separator(Must = b'-')], [separator(Must(b'-'))] and so on. *)
Definition byte_written (m : meta) (w : ident) (c : N) : Prop :=
  m = MNameValue [w] (ELit (LitByte c)) \/ m = MList [w] [ILit (LitByte c)] false.
Definition sep_written (m : meta) (v : sep_option) : Prop :=
  exists p a, m = MList p [IMeta a] false /\
    match v with
    | SepDisallow => a = MPath [bs "Disallow"]
    | SepMust c => byte_written a (bs "Must") c
    | SepAllow c => byte_written a (bs "Allow") c
    end.

(** [.. = true], [..(true)]; also when a macro produced the literal. *)
Definition bool_written (m : meta) (b : bool) : Prop :=
  exists p, m = MNameValue p (ELit (LitBool b)) \/ m = MNameValue p (EGroup (LitBool b)) \/
            m = MList p [ILit (LitBool b)] false.

(** [.. = 5], [..(5)], [.. = -5], [..(-5)] (in the last form the sign belongs to the literal), also with a decimal
    point. *)
Definition digits_of (l : lit) (d : list N) : Prop := l = LitInt d \/ l = LitFloat d.
Definition num_written {T} (from_str : list N -> option T) (m : meta) (v : T) : Prop :=
  exists p l d, digits_of l d /\
    ((from_str d = Some v /\
      (m = MNameValue p (ELit l) \/ m = MNameValue p (EGroup l) \/ m = MList p [ILit l] false)) \/
     (from_str (45 :: d) = Some v /\ m = MNameValue p (ENeg l))).

(** A bound of a range literal: absent, or a literal number. *)
Definition bound_written {T} (from_str : list N -> option T) (b : option (option lit)) (v : option T) : Prop :=
  match b with
  | None => v = None
  | Some None => False
  | Some (Some l) => exists d x, digits_of l d /\ from_str d = Some x /\ v = Some x
  end.

(** [Inside(min = 1, max = 5, inclusive = false)]: the bounds do not cross; or, with the feature [full],
    [Inside(1..5)], [Inside = 1..5]. *)
Definition range_written {T} (from_str : list N -> option T) (ltb leb : T -> T -> bool) (full : bool)
  (m : meta) (r : range T) : Prop :=
  (exists p rg, full = true /\ (m = MNameValue p (ERange rg) \/ m = MList p [IRange rg] false) /\
     bound_written from_str (re_start rg) (r_min r) /\ bound_written from_str (re_end rg) (r_max r) /\
     (r_incl r = true <-> re_end rg = None \/ re_half_open rg = false)) \/
  (exists p items tr ms, m = MList p items tr /\ arguments m ms /\
     well_named [bs "min"; bs "max"; bs "inclusive"] ms /\
     value ms (bs "min") (fun m v => exists x, num_written from_str m x /\ v = Some x) None (r_min r) /\
     value ms (bs "max") (fun m v => exists x, num_written from_str m x /\ v = Some x) None (r_max r) /\
     value ms (bs "inclusive") bool_written true (r_incl r) /\
     (forall a b, r_min r = Some a -> r_max r = Some b ->
        if r_incl r then ltb b a = false else leb b a = false)).

(** [range(Inside(..))], [range(Outside(..))], [range(Unlimited)]. Whatever follows [Unlimited] is ignored. *)
Definition range_option_written {T} (from_str : list N -> option T) (ltb leb : T -> T -> bool) (full : bool)
  (m : meta) (v : range_option T) : Prop :=
  exists p a, m = MList p [IMeta a] false /\
    match v with
    | Inside mn mx i =>
        named (bs "Inside") a /\ range_written from_str ltb leb full a (mk_range mn mx i)
    | Outside mn mx i =>
        named (bs "Outside") a /\ range_written from_str ltb leb full a (mk_range mn mx i)
    | Unlimited => named (bs "Unlimited") a
    end.

(** [serde], [serde = false], [serde(Serialize)] and so on; nothing can be switched on without the cargo feature. *)
Definition flags_written (enabled : bool) (first second : ident) (m : meta) (v : bool * bool) : Prop :=
  match m with
  | MPath _ => enabled = true /\ v = (true, true)
  | MNameValue _ e => exists b, e = ELit (LitBool b) /\ v = (b, b) /\ (b = true -> enabled = true)
  | MList _ items tr =>
      enabled = true /\ tr = false /\
      exists is, is <> [] /\ items = List.map (fun i => IMeta (MPath [i])) is /\ NoDup is /\
                 incl is [first; second] /\ (fst v = true <-> In first is) /\ (snd v = true <-> In second is)
  end.
Definition serde_written (f : features) := flags_written (f_serde f) (bs "Serialize") (bs "Deserialize").
Definition rocket_written (f : features) := flags_written (f_rocket f) (bs "FromFormField") (bs "FromParam").

(** [serde(..)] and [rocket(..)] of an attribute; everything is generated unless switched off. *)
Definition opts_written (f : features) (ms : list meta) (o : opts) : Prop :=
  value ms (bs "serde") (serde_written f) (true, true) (o_serde o) /\
  value ms (bs "rocket") (rocket_written f) (true, true) (o_rocket o).

(** [char_length(min = 1, trimmed_min = 1, max = 5)]. *)
Definition usize_written (m : meta) (v : option N) : Prop :=
  exists x, num_written usize_from_str m x /\ v = Some x.
Definition length_written (m : meta) (l : len_attr) : Prop :=
  exists p items tr ms, m = MList p items tr /\ arguments m ms /\
    well_named [bs "min"; bs "trimmed_min"; bs "max"] ms /\
    value ms (bs "min") usize_written None (l_min l) /\
    value ms (bs "trimmed_min") usize_written None (l_tmin l) /\
    value ms (bs "max") usize_written None (l_max l) /\
    (forall a b, l_tmin l = Some a -> l_min l = Some b -> a <= b) /\
    (forall a b, l_min l = Some a -> l_max l = Some b -> a <= b) /\
    (forall a b, l_tmin l = Some a -> l_max l = Some b -> a <= b).

(** [countries(TW, US)]: distinct known countries. *)
Definition countries_written {cid} (id_from_str : list N -> option cid) (m : meta) (cs : list cid) : Prop :=
  exists p is, is <> [] /\ m = MList p (List.map (fun i => IMeta (MPath [i])) is) false /\
    Forall2 (fun i c => id_from_str i = Some c) is cs /\ NoDup cs.

(** [regex = "pattern"], [regex("pattern")] with a valid pattern, or any expression that is not a literal. *)
Definition regex_written (compiles : list N -> bool) (m : meta) (r : regex_expr) : Prop :=
  exists p, match r with
            | RePattern s => compiles s = true /\
                (m = MNameValue p (ELit (LitStr s)) \/ m = MList p [ILit (LitStr s)] false)
            | ReExpr => (exists e, m = MNameValue p e /\ forall l, e <> ELit l) \/
                        (exists i, m = MList p [i] false /\ forall l, i <> ILit l)
            end.
