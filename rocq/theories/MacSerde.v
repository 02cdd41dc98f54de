(** serde impls of mac_address and uuid. *)
From Verif Require Import Base MacModel Serde.

(** Models [Serialize] of /repo/validators-derive/src/validator_handlers/mac_address/mod.rs:337-345 and uuid/mod.rs:357-365: [serialize_str] of the
    printed text. *)
Definition mac_ser (case : case_option) (sep : sep_option) (x : N) : ser_call :=
  SStr (to_mac_address_string case sep x).
Definition uuid_ser (case : case_option) (sep : sep_option) (x : N) : ser_call :=
  SStr (to_uuid_string case sep x).

(** Models [MyVisitor] of /repo/validators-derive/src/validator_handlers/mac_address/mod.rs:390-407 and uuid/mod.rs:410-427: only [visit_str]. *)
Definition mac_visitor (case : case_option) (sep : sep_option) : visitor hex_err N := fun c =>
  match c with DStr s => Some (mac_parse_str case sep s) | _ => None end.
Definition uuid_visitor (case : case_option) (sep : sep_option) : visitor hex_err N := fun c =>
  match c with DStr s => Some (uuid_parse_str case sep s) | _ => None end.
