(** What the panics of the derive macro (C113) are stated with. *)
From Coq Require Import SpecFloat.
From Verif Require Import Base RangeModel MetaModel MacroModel CrashModel.

(** The struct as MacroModel.v sees it: names of named fields, types of the others. *)
Definition name_of (x : syn_field) : ident := match sf_ident x with Some i => i | None => [] end.
Definition plain_fields (fs : fields) : syn_fields :=
  match fs with
  | FieldsNamed l => FNamed (List.map name_of l)
  | FieldsUnnamed l => FUnnamed (List.map sf_ty l)
  | FieldsUnit => FUnit
  end.
Definition plain (d : data) : syn_data :=
  match d with DStruct fs => DataStruct (plain_fields fs) | DEnum => DataEnum | DUnion => DataUnion end.

(** What Rust's grammar says of a struct: the fields between braces have names. (The fields between parentheses have none, which
    is not needed.) *)
Definition has_names (fs : fields) : Prop :=
  match fs with FieldsNamed l => Forall (fun x => sf_ident x <> None) l | _ => True end.
Definition grammatical (d : data) : Prop := match d with DStruct fs => has_names fs | _ => True end.

(** The floats that Rust can write as a literal. *)
Definition finite (x : spec_float) : Prop :=
  match x with S754_zero _ | S754_finite _ _ _ => True | S754_infinity _ | S754_nan => False end.

(** A range with a bound that is not finite. *)
Definition infinite_bound (r : range_option spec_float) : Prop :=
  match r with
  | Inside mn mx _ | Outside mn mx _ => exists x, ~ finite x /\ (mn = Some x \/ mx = Some x)
  | Unlimited => False
  end.
