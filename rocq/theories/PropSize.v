(** Property C07: bit and byte validators. *)
From Verif Require Import Base RangeModel SizeModel SizeProofs.
Local Open Scope N_scope.

(** C07: every entry point accepts exactly the sizes in bounds, names the violated bound,
    and reports TooLarge for a u128 that the size type cannot hold; for every behaviour of
    the size parser and every capacity of the size type. *)
Theorem C07_size_exact : forall from_str cap r,
  (forall s, match from_str s with
             | Some v => size_verdict (size_parse_str from_str r s) r v
             | None => size_parse_str from_str r s = Err SParse
             end) /\
  (forall u, u <= cap -> size_verdict (size_parse_u128 cap r u) r u) /\
  (forall u, cap < u -> size_parse_u128 cap r u = Err STooLarge) /\
  (forall u, size_verdict (size_parse_u64 r u) r u).
Proof. exact size_exact_lemma. Qed.
Print Assumptions C07_size_exact.

(** C07: the entry points agree with each other. *)
Theorem C07_size_entry_points : forall from_str cap r,
  (forall s, size_validate_str from_str r s = omap (fun _ => tt) (size_parse_str from_str r s)) /\
  (forall s, size_parse_string from_str r s = size_parse_str from_str r s) /\
  (forall u, size_validate_u128 cap r u = omap (fun _ => tt) (size_parse_u128 cap r u)) /\
  (forall u, size_validate_u64 r u = omap (fun _ => tt) (size_parse_u64 r u)) /\
  (forall u, u <= cap -> size_parse_u128 cap r u = size_parse_u64 r u).
Proof. exact size_validate_lemma. Qed.
Print Assumptions C07_size_entry_points.

Example C07_example :
  size_parse_u64 (mk_range (Some 8) (Some 9) false) 8 = Ok 8 /\
  size_parse_u64 (mk_range (Some 8) (Some 9) false) 9 = Err STooLarge /\
  size_parse_u64 (mk_range (Some 8) (Some 9) true) 7 = Err STooSmall /\
  size_parse_u128 (2 ^ 64 - 1) (mk_range (Some 8) None true) (2 ^ 64) = Err STooLarge /\
  size_in (mk_range (Some 8) (Some 9) false) 8.
Proof. repeat split; intros m Hm; simpl in *; injection Hm as <-; lia. Qed.
