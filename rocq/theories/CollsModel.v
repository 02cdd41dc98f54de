(** Model of the collections that a length validator may hold, and of how a format's elements become one. *)
From Verif Require Import Base Serde LengthModel DeModel.
Local Open Scope N_scope.

(** The types that implement [CollectionLength], /repo/validators/src/traits/collection_length.rs:23-71 (the decoded base types are in
    CollModel.v). *)
Inductive coll := CVec | CBinaryHeap | CBTreeSet | CBTreeMap | CHashSet | CHashMap | CJsonMap.

(** What the collection is made of: a set and a map keep one entry for each key. A set is a map to [unit].
    (external: std's collections and serde_json's [Map]; used at /repo/validators/src/traits/collection_length.rs:1-11.) *)
Definition keyed (c : coll) : bool :=
  match c with CVec | CBinaryHeap => false | CBTreeSet | CBTreeMap | CHashSet | CHashMap | CJsonMap => true end.
Definition mapped (c : coll) : bool :=
  match c with CBTreeMap | CHashMap | CJsonMap => true | CVec | CBinaryHeap | CBTreeSet | CHashSet => false end.

Section Coll.
Context {K V : Type} (eqb : K -> K -> bool).

(** [push] of a vector or heap, [insert] of a set (an element that is there already stays) and of a map (the value is replaced). The entries are
    kept in the order in which they came; sorted trees, heaps and hash tables have an order of their own, which no length depends on.
    (external: std; called by serde's [Deserialize] of the field, /repo/validators-derive/src/validator_handlers/length/mod.rs:182.) *)
Fixpoint coll_replace (k : K) (v : V) (m : list (K * V)) : list (K * V) :=
  match m with [] => [] | (k', v') :: m => (k', if eqb k' k then v else v') :: coll_replace k v m end.
Definition coll_has (k : K) (m : list (K * V)) : bool := existsb (fun e => eqb (fst e) k) m.
Definition coll_insert (c : coll) (m : list (K * V)) (e : K * V) : list (K * V) :=
  if keyed c && coll_has (fst e) m then (if mapped c then coll_replace (fst e) (snd e) m else m) else m ++ [e].

(** Models [Deserialize] of the collection: the elements are put in one by one.
    (external: serde; /repo/validators-derive/src/validator_handlers/length/mod.rs:182, /repo/validators/src/result/serde_traits.rs:743.) *)
Definition coll_of (c : coll) (l : list (K * V)) : list (K * V) := fold_left (coll_insert c) l [].

(** Models [len], the same for all of them: the length of the collection, by the method of its own
    (/repo/validators/src/traits/collection_length.rs:23-71). *)
Definition coll_len (m : list (K * V)) : N := N.of_nat (List.length m).

(** Models the default [is_empty], /repo/validators/src/traits/collection_length.rs:17-20. *)
Definition coll_is_empty (m : list (K * V)) : bool := coll_len m =? 0.

(** Models [Deserialize] of a length validator around the collection, given the elements that the format presents
    (/repo/validators-derive/src/validator_handlers/length/mod.rs:176-189). *)
Definition coll_de (c : coll) (mn mx : option N) (l : list (K * V)) : outcome (de_err length_err) (list (K * V)) :=
  length_own_de (parse_collection coll_len mn mx) (Ok (coll_of c l)).
End Coll.
