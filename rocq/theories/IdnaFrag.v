(** A fragment of UTS #46 [to_ascii] (external crate idna), used only as a witness: ASCII letters are lower-cased,
    U+3002 (ideographic full stop) is mapped to a full stop, every other non-ASCII text is refused; STD3 rules, hyphen
    and length checks as in UTS #46, section 4. Not part of /repo. Where it gives a result, UTS #46 gives the same. *)
From Verif Require Import Base DomainModel DomainSpec DomainProofs.
Local Open Scope N_scope.

(** UTS #46, step 1 (Map), restricted.
    (external; stands for the function called at /repo/validators-derive/src/validator_handlers/domain/mod.rs:595,686.) *)
Fixpoint map_dots (x : list N) : option (list N) :=
  match x with
  | [] => Some []
  | c :: r =>
      if c <? 128 then option_map (cons (lower c)) (map_dots r)
      else match r with
           | a :: b :: r' => if (c =? 227) && (a =? 128) && (b =? 130) then option_map (cons 46) (map_dots r') else None
           | _ => None
           end
  end.

(** UTS #46, step 3 (Break).
    (external; stands for the function called at /repo/validators-derive/src/validator_handlers/domain/mod.rs:595,686.) *)
Fixpoint labels (d : list N) : list (list N) :=
  match d with
  | [] => [[]]
  | c :: r => if c =? 46 then [] :: labels r
              else match labels r with l :: ls => (c :: l) :: ls | [] => [[c]] end
  end.

(** STD3: letters, digits, hyphen.
    (external; stands for the function called at /repo/validators-derive/src/validator_handlers/domain/mod.rs:595,686.) *)
Definition ldh (c : N) : bool := ((48 <=? c) && (c <=? 57)) || ((97 <=? c) && (c <=? 122)) || (c =? 45).

(** UTS #46, validity criteria (section 4.1, 2 and 3) and the length check of section 4.2.
    (external; stands for the function called at /repo/validators-derive/src/validator_handlers/domain/mod.rs:595,686.) *)
Definition ok_label (l : list N) : bool :=
  match l with [] => false | _ => true end && (List.length l <=? 63)%nat && forallb ldh l
  && negb (nth 0 l 0 =? 45) && negb (ends_with 45 l) && negb ((nth 2 l 0 =? 45) && (nth 3 l 0 =? 45)).

(** UTS #46, section 4.2: the checks on the whole name.
    (external; stands for the function called at /repo/validators-derive/src/validator_handlers/domain/mod.rs:595,686.) *)
Definition ok_name (t : list N) : bool := forallb ok_label (labels t) && (List.length t <=? 253)%nat.

(** UTS #46, [ToASCII] on the fragment.
    (external; stands for the function called at /repo/validators-derive/src/validator_handlers/domain/mod.rs:595,686.) *)
Definition idna_frag (x : list N) : option (list N) :=
  match map_dots x with
  | Some d => if ok_name (strip_last 46 d) then Some d else None
  | None => None
  end.

Lemma labels_ne d : labels d <> [].
Proof. destruct d as [|c d]; cbn; [discriminate|]. destruct (c =? 46); [discriminate|]. destruct (labels d); discriminate. Qed.

Lemma labels_dot u : labels (u ++ [46]) = labels u ++ [[]].
Proof.
  induction u as [|c u IH]; [reflexivity|]. cbn [app labels]. rewrite IH. destruct (c =? 46); [reflexivity|].
  pose proof (labels_ne u). destruct (labels u); [contradiction|reflexivity].
Qed.

Lemma labels_chars d : forallb ok_label (labels d) = true -> Forall (fun c => c = 46 \/ ldh c = true) d.
Proof.
  intros H. assert (H' : forallb (forallb ldh) (labels d) = true).
  { rewrite forallb_forall in *. intros l Hl. specialize (H l Hl). unfold ok_label in H.
    rewrite !andb_true_iff in H. tauto. }
  clear H. induction d as [|c d IH]; [constructor|]. cbn [labels] in H'. destruct (N.eqb_spec c 46) as [->|Hc].
  - constructor; [left; reflexivity|]. apply IH. exact H'.
  - destruct (labels d) as [|l ls] eqn:E; [destruct (labels_ne d E)|]. cbn [forallb] in *.
    rewrite !andb_true_iff in H'. destruct H' as [[H1 H2] H3]. constructor; [right; exact H1|].
    apply IH. rewrite H2, H3. reflexivity.
Qed.

Lemma ldh_lower c : c = 46 \/ ldh c = true -> c < 128 /\ lower c = c /\ c <> 58.
Proof. unfold ldh, lower. intros [->|H]; [repeat split; lia|]. destruct ((65 <=? c) && (c <=? 90)) eqn:E; repeat split; lia. Qed.

Lemma map_id t : Forall (fun c => c = 46 \/ ldh c = true) t -> map_dots t = Some t.
Proof.
  induction 1 as [|c t Hc H IH]; [reflexivity|]. destruct (ldh_lower c Hc) as (H1 & H2 & _). cbn [map_dots].
  destruct (N.ltb_spec c 128); [|lia]. rewrite IH, H2. reflexivity.
Qed.

(** The laws hold of the fragment. *)
Lemma idna_frag_laws : idna_laws idna_frag.
Proof.
  intros x d. unfold idna_frag. destruct (map_dots x) as [e|]; [|discriminate].
  destruct (ok_name (strip_last 46 e)) eqn:Ok; [|discriminate]. intros H. injection H as ->.
  set (t := strip_last 46 d) in *. pose proof Ok as Ok'. unfold ok_name in Ok. apply andb_true_iff in Ok as [Hl _].
  pose proof (labels_chars _ Hl) as Hc.
  assert (Hd : Forall (fun c => c = 46 \/ ldh c = true) d).
  { destruct (strip_cases d) as [E|E]; fold t in E; rewrite E; [exact Hc|]. apply Forall_app. split; [exact Hc|].
    constructor; [left; reflexivity|constructor]. }
  split; [eapply Forall_impl; [|exact Hd]; intros c X; unfold idna_char, ldh in *; cbn beta in X; lia|].
  intros u Hu. apply undotted_strip in Hu. fold t in Hu. subst u.
  assert (Hdot : forall u, t <> u ++ [46]).
  { intros u E. rewrite E, labels_dot, forallb_app in Hl. apply andb_true_iff in Hl as [_ Hl]. discriminate Hl. }
  split; [intros E; rewrite E in Hl; discriminate Hl|]. split; [exact Hdot|].
  rewrite (map_id _ Hc). assert (S : strip_last 46 t = t).
  { destruct (strip_cases t) as [E|E]; [congruence|destruct (Hdot _ E)]. }
  rewrite S, Ok'. reflexivity.
Qed.

(** The same without the ideographic full stop, a witness that the second law can hold too.
    (external; stands for the function called at /repo/validators-derive/src/validator_handlers/domain/mod.rs:595,686.) *)
Definition idna_ascii (x : list N) : option (list N) :=
  if forallb (fun c => c <? 128) x then idna_frag x else None.

Lemma map_ascii x d : forallb (fun c => c <? 128) x = true -> map_dots x = Some d -> d = List.map lower x.
Proof.
  revert d. induction x as [|c x IH]; intros d H E; [injection E as <-; reflexivity|].
  cbn [forallb] in H. apply andb_true_iff in H as [H1 H2]. cbn [map_dots] in E. rewrite H1 in E.
  destruct (map_dots x) as [e|]; [|discriminate E]. injection E as <-. cbn. f_equal. exact (IH e H2 eq_refl).
Qed.

Lemma idna_ascii_frag x d : idna_ascii x = Some d -> idna_frag x = Some d /\ forallb (fun c => c <? 128) x = true.
Proof. unfold idna_ascii. destruct (forallb (fun c => c <? 128) x); [auto|discriminate]. Qed.

Lemma idna_ascii_laws : idna_laws idna_ascii.
Proof.
  intros x d H. apply idna_ascii_frag in H as [H _]. destruct (idna_frag_laws x d H) as (L1 & L3).
  split; [exact L1|]. intros t Ht. destruct (L3 t Ht) as (L4 & L5 & L6).
  split; [exact L4|]. split; [exact L5|]. unfold idna_ascii.
  assert (X : forallb (fun c => c <? 128) t = true).
  { apply forallb_forall. intros c Hc. apply idna_char_ascii in L1. rewrite Forall_forall in L1. apply N.ltb_lt, L1.
    destruct Ht as [->|[-> _]]; [apply in_or_app; left; exact Hc|exact Hc]. }
  rewrite X. exact L6.
Qed.

Lemma lower_fix x : Forall (fun c => 46 <= c <= 57) (List.map lower x) -> List.map lower x = x.
Proof.
  induction x as [|c x IH]; intros H; [reflexivity|]. cbn [List.map] in *. f_equal.
  - apply Forall_inv in H. unfold lower in *. destruct ((65 <=? c) && (c <=? 90)) eqn:E; [lia|reflexivity].
  - apply IH. exact (Forall_inv_tail H).
Qed.

Lemma v4_dotted_chars d a : v4_dotted d a -> Forall (fun c => 46 <= c <= 57) d.
Proof.
  intros (t & Ht & H). apply IpProofs.v4_chars in H. destruct Ht as [-> | ->]; [exact H|].
  apply Forall_app. split; [exact H|]. constructor; [lia|constructor].
Qed.

Lemma idna_ascii_no_new : idna_no_new_ipv4 idna_ascii.
Proof.
  intros x d a H Hd. apply idna_ascii_frag in H as [H Ha]. exists a. unfold idna_frag in H.
  destruct (map_dots x) as [e|] eqn:E; [|discriminate H]. destruct (ok_name (strip_last 46 e)); [|discriminate H].
  injection H as ->. apply (map_ascii _ _ Ha) in E. pose proof (v4_dotted_chars _ _ Hd) as Hc.
  rewrite E in Hc. apply lower_fix in Hc. rewrite <- Hc, <- E. exact Hd.
Qed.
