(** Model of [CollectionLength] of the decoded base types. *)
From Verif Require Import Base RangeModel BaseModel CodecModel LengthModel.
Local Open Scope N_scope.

(** Models [len] of the generated [impl CollectionLength] (the length of the decoded vector),
    /repo/validators-derive/src/validator_handlers/base64_decoded/mod.rs:222-227; the same lines of base32_decoded/mod.rs and
    base64_url_decoded/mod.rs. *)
Definition dec_len (d : list N) : N := N.of_nat (List.length d).

(** Models the default [is_empty], /repo/validators/src/traits/collection_length.rs:17-20. *)
Definition dec_is_empty (d : list N) : bool := dec_len d =? 0.

(** Models a struct deriving the length validator around a struct deriving a decoded base validator: the text is parsed, the
    result given to [parse_collection] (/repo/validators-derive/src/validator_handlers/base64_decoded/mod.rs:182-189,
    /repo/validators-derive/src/validator_handlers/length/mod.rs:143-149). Which of the two refused is dropped. *)
Definition limited_parse (f : flavour) (padding : tri) (min max : option N) (v : list N) : outcome unit (list N) :=
  let? d := omap_err (fun _ => tt) (dec_parse_str f padding v) in
  omap_err (fun _ => tt) (parse_collection dec_len min max d).
