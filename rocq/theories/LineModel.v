(** The line and text validators.  A string is the list of its [char]s (scalar values).
    /repo/validators-derive/src/validator_handlers/text/mod.rs is the same program as
    /repo/validators-derive/src/validator_handlers/line/mod.rs with another set of forbidden
    characters, line by line, so one model serves both; line numbers are those of line/mod.rs.
    Simplified: lengths and counters are unbounded; C109 shows this changes nothing (a Rust string is shorter than
    [isize::MAX] bytes; a max of [usize::MAX] is refused by the Rust compiler in the
    [take(max + 1)] shapes). *)
From Verif Require Import Base LengthModel Utf8.
Local Open Scope N_scope.

(** Models [LineError] and [TextError], /repo/validators/src/errors/line.rs:4-11 and
    /repo/validators/src/errors/text.rs:4-11. *)
Inductive line_err := LInvalid | LTooLong | LTooShort.

(** The two validators.
    (/repo/validators-derive/src/validator_handlers/line, text.) *)
Inductive line_kind := Line | Text.

(** The pattern of the first [match] arm, for a byte or a [char]:
    /repo/validators-derive/src/validator_handlers/line/mod.rs:108,119,181,192,235,251,297,308,364,375,416,432,478,489,527,538,575,591,626,637,668,679,709
    and the same lines of text/mod.rs. *)
Definition ctl (k : line_kind) (c : N) : bool :=
  match k with
  | Line => (c <=? 8) || ((10 <=? c) && (c <=? 31)) || (c =? 127)
  | Text => (c <=? 8) || (c =? 12) || ((14 <=? c) && (c <=? 31)) || (c =? 127)
  end.

(** Models [for e in s.bytes() { match e { ctl => return Err(Invalid), _ => () } } Ok(())],
    /repo/validators-derive/src/validator_handlers/line/mod.rs:233-242, 414-423, 573-582, 707-716. *)
Fixpoint scan_bytes (k : line_kind) (bytes : list N) : outcome line_err unit :=
  match bytes with
  | [] => Ok tt
  | e :: bytes => if ctl k e then Err LInvalid else scan_bytes k bytes
  end.

(** Models the counting loop [while let Some(c) = chars.next() { match c { ctl => .., _ => counter += 1 } }],
    /repo/validators-derive/src/validator_handlers/line/mod.rs:249-256, 430-437, 589-596. *)
Fixpoint scan_chars (k : line_kind) (chars : list N) (counter : N) : outcome line_err N :=
  match chars with
  | [] => Ok counter
  | c :: chars => if ctl k c then Err LInvalid else scan_chars k chars (counter + 1)
  end.

(** What the loops of a shape with [trimmed_min] add per [char]: [len_utf8] for bytes, 1 for chars.
    (/repo/validators-derive/src/validator_handlers/line/mod.rs:60-720.) *)
Definition unit_len (byte : bool) (c : N) : N := if byte then len_utf8 c else 1.

(** Models [if counter > #max { return Err(TooLong) }] where it is present ([Some max]).
    (/repo/validators-derive/src/validator_handlers/line/mod.rs:60-720.) *)
Definition over (chk : option N) (counter : N) : bool :=
  match chk with Some max => max <? counter | None => false end.

(** Models the inner loop, after the first [char] that is not white space:
    /repo/validators-derive/src/validator_handlers/line/mod.rs:117-138 (with check against max), 190-204, 306-322, 373-387, 487-503, 536-550,
    635-648, 677-690 (without).  The last two keep no [counter]; here it is kept and ignored. *)
Fixpoint inner (k : line_kind) (byte : bool) (chk : option N) (chars : list N)
    (counter trimmed temp : N) : outcome line_err (N * N) :=
  match chars with
  | [] => Ok (counter, trimmed)
  | c :: chars =>
      if ctl k c then Err LInvalid
      else
        let len := unit_len byte c in
        let counter := counter + len in
        if over chk counter then Err LTooLong
        else if is_whitespace c then inner k byte chk chars counter trimmed (temp + len)
        else inner k byte chk chars counter (trimmed + (temp + len)) 0
  end.

(** Models the outer loop: /repo/validators-derive/src/validator_handlers/line/mod.rs:97-151, 176-218, 286-336, 359-401, 471-513, 522-560,
    623-657, 665-699.  [chk1]: the check of the outer loop, [chk2]: of the inner one;
    [fin counter trimmed]: what follows the inner loop; [empty counter]: [handle_trimmed_empty]. *)
Fixpoint outer (k : line_kind) (byte : bool) (chk1 chk2 : option N)
    (fin : N -> N -> outcome line_err unit) (empty : N -> outcome line_err unit)
    (chars : list N) (counter : N) : outcome line_err unit :=
  match chars with
  | [] => empty counter
  | c :: chars =>
      let len := unit_len byte c in
      let counter := counter + len in
      if over chk1 counter then Err LTooLong
      else if negb (is_whitespace c) then
        if ctl k c then Err LInvalid
        else let? ct := inner k byte chk2 chars counter len 0 in fin (fst ct) (snd ct)
      else outer k byte chk1 chk2 fin empty chars counter
  end.

(** [s.chars().take(#max + 1)].
    (/repo/validators-derive/src/validator_handlers/line/mod.rs:173, 246, 356.) *)
Definition take (n : N) (chars : list N) : list N := firstn (N.to_nat n) chars.

(** Models [handle_str], /repo/validators-derive/src/validator_handlers/line/mod.rs:73-722, shape by shape. *)
Definition handle_str (k : line_kind) (byte : bool) (min tmin max : option N) (s : list N)
  : outcome line_err unit :=
  match max with
  | Some max =>
      match min with
      | Some min =>
          match tmin with
          | Some tmin =>
              if byte then (* 79-154 *)
                outer k byte (Some max) (Some max)
                  (fun counter trimmed =>
                     if (tmin <=? trimmed) && (min <=? counter)
                     then if counter <=? max then Ok tt else Err LTooLong
                     else Err LTooShort)
                  (fun counter =>
                     if tmin =? 0 then if counter <? min then Err LTooShort else Ok tt
                     else Err LTooShort)
                  s 0
              else (* 155-221 *)
                outer k byte None None
                  (fun counter trimmed =>
                     if (tmin <=? trimmed) && (min <=? counter)
                     then if counter <=? max then Ok tt else Err LTooLong
                     else Err LTooShort)
                  (fun counter =>
                     if tmin =? 0
                     then if counter <? min then Err LTooShort
                          else if max <? counter then Err LTooLong else Ok tt
                     else Err LTooShort)
                  (take (max + 1) s) 0
          | None =>
              if byte then (* 225-243 *)
                if max <? N.of_nat (List.length (utf8 s)) then Err LTooLong
                else if N.of_nat (List.length (utf8 s)) <? min then Err LTooShort
                else scan_bytes k (utf8 s)
              else (* 244-265 *)
                let? counter := scan_chars k (take (max + 1) s) 0 in
                if counter <? min then Err LTooShort
                else if max <? counter then Err LTooLong else Ok tt
          end
      | None =>
          match tmin with
          | Some tmin =>
              if byte then (* 271-339 *)
                outer k byte (Some max) None
                  (fun counter trimmed =>
                     if tmin <=? trimmed
                     then if counter <=? max then Ok tt else Err LTooLong
                     else Err LTooShort)
                  (fun counter => if tmin =? 0 then Ok tt else Err LTooShort)
                  s 0
              else (* 340-404 *)
                outer k byte None None
                  (fun counter trimmed =>
                     if tmin <=? trimmed
                     then if counter <=? max then Ok tt else Err LTooLong
                     else Err LTooShort)
                  (fun counter =>
                     if tmin =? 0 then if counter <=? max then Ok tt else Err LTooLong
                     else Err LTooShort)
                  (take (max + 1) s) 0
          | None =>
              if byte then (* 408-424 *)
                if max <? N.of_nat (List.length (utf8 s)) then Err LTooLong
                else scan_bytes k (utf8 s)
              else (* 425-444 *)
                let? counter := scan_chars k (take (max + 1) s) 0 in
                if counter <=? max then Ok tt else Err LTooLong
          end
      end
  | None =>
      match min with
      | Some min =>
          match tmin with
          | Some tmin => (* 451-563, bytes and chars *)
              outer k byte None None
                (fun counter trimmed =>
                   if (tmin <=? trimmed) && (min <=? counter) then Ok tt else Err LTooShort)
                (fun counter =>
                   if tmin =? 0 then if min <=? counter then Ok tt else Err LTooShort
                   else Err LTooShort)
                s 0
          | None =>
              if byte then (* 567-583 *)
                if N.of_nat (List.length (utf8 s)) <? min then Err LTooShort
                else scan_bytes k (utf8 s)
              else (* 584-603 *)
                let? counter := scan_chars k s 0 in
                if min <=? counter then Ok tt else Err LTooShort
          end
      | None =>
          match tmin with
          | Some tmin => (* 608-702, bytes and chars *)
              outer k byte None None
                (fun counter trimmed => if tmin <=? trimmed then Ok tt else Err LTooShort)
                (fun counter => if tmin =? 0 then Ok tt else Err LTooShort)
                s 0
          | None => (* 705-718 *) scan_bytes k (utf8 s)
          end
      end
  end.

(** A validator: the length attribute, [None] when there is none; the [bool] is true for
    bytes.  Models /repo/validators-derive/src/validator_handlers/line/mod.rs:32-44. *)
Definition line_attr := option (bool * len_attr).

(** Models [v_parse_str], /repo/validators-derive/src/validator_handlers/line/mod.rs:724-730. *)
Definition line_v_parse_str (k : line_kind) (a : line_attr) (s : list N) : outcome line_err unit :=
  match a with
  | Some (byte, l) => handle_str k byte (l_min l) (l_tmin l) (l_max l) s
  | None => handle_str k false None None None s
  end.

(** Models [parse_string], [parse_str] and [validate_str], /repo/validators-derive/src/validator_handlers/line/mod.rs:732-761. *)
Definition line_parse_string (k : line_kind) (a : line_attr) (s : list N) : outcome line_err (list N) :=
  let? _ := line_v_parse_str k a s in Ok s.
Definition line_parse_str (k : line_kind) (a : line_attr) (s : list N) : outcome line_err (list N) :=
  let? _ := line_v_parse_str k a s in Ok s.
Definition line_validate_str (k : line_kind) (a : line_attr) (s : list N) : outcome line_err unit :=
  let? _ := line_v_parse_str k a s in Ok tt.
