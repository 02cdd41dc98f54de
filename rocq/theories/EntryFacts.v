(** A parser that is a check followed by building a value answers as the check alone, when building never fails. *)
From Verif Require Import Base.

Lemma validate_lift {E A B} (v : outcome E A) (k : A -> outcome E B) :
  (is_ok (let? _ := v in Ok tt : outcome E unit) <-> is_ok (let? r := v in k r)) ->
  (let? _ := v in Ok tt) = omap (fun _ => tt) (let? r := v in k r).
Proof.
  destruct v as [a|e|]; cbn; intros H; try reflexivity.
  destruct (proj1 H (ex_intro _ tt eq_refl)) as [b ->]. reflexivity.
Qed.
