(** C114: what local(Disallow) lets through can be reached from everywhere, and what can be reached is let through. *)
From Verif Require Import Base IntStr NetModel NetSpec NetProofs IpModel IpSpec LocalProofs IpProofs Utf8 StrFacts
  DomainModel DomainSpec DomainProofs IdnaFrag HostModel HostSpec HostProofs EmailModel EmailSpec EmailProofs.
From Verif Require Import PropIp PropDomain PropHost PropEmail IanaSpec IanaProofs.
From Verif Require StdSpec StdProofs PropLocal HttpModel HttpSpec PropHttp.
Local Open Scope N_scope.

(** The addresses that local(Disallow) lets through although they are not globally reachable. *)
Definition v4_gap (a : list N) : Prop :=
  v4_in [([0; 0; 0; 0], 8); ([100; 64; 0; 0], 10); ([192; 0; 0; 0], 24); ([198; 18; 0; 0], 15); ([240; 0; 0; 0], 4)] a /\
  ~ In a [[0; 0; 0; 0]; [192; 0; 0; 9]; [192; 0; 0; 10]; [255; 255; 255; 255]].
Definition v6_gap (a : list N) : Prop :=
  (v6_in [([100; 65435; 1; 0; 0; 0; 0; 0], 48); ([256; 0; 0; 0; 0; 0; 0; 0], 64); ([256; 0; 0; 1; 0; 0; 0; 0], 64);
          ([8193; 0; 0; 0; 0; 0; 0; 0], 23); ([16383; 0; 0; 0; 0; 0; 0; 0], 20); ([24320; 0; 0; 0; 0; 0; 0; 0], 16)] a /\
   ~ v6_in v6_specific a) \/
  exists b, v4_addr b /\ ~ v4_local b /\ number 65536 a = 65535 * 2 ^ 32 + number 256 b.

Lemma differs a b : v4_addr a -> v4_addr b -> (a <> b <-> number 256 a <> number 256 b).
Proof. intros A B. split; intros H E; apply H; [exact (PropLocal.number_inj a b A B E)|rewrite E; reflexivity]. Qed.

Theorem C114_ipv4_exact : forall a, v4_addr a ->
  (v4_local a -> ~ v4_reachable a) /\ (~ v4_reachable a /\ ~ v4_local a <-> v4_gap a).
Proof.
  intros a A. assert (B := v4_number_bound a A).
  assert (D : forall b, v4_addr b -> (a = b <-> number 256 a = number 256 b)).
  { intros b Hb. split; [intros ->; reflexivity|exact (PropLocal.number_inj a b A Hb)]. }
  assert (V : forall x y z w, x < 256 -> y < 256 -> z < 256 -> w < 256 -> v4_addr [x; y; z; w]) by (intros; split; [reflexivity|repeat constructor; assumption]).
  unfold v4_reachable, v4_gap. rewrite v4_local_num, !v4_in_num. cbn [In].
  assert (E : forall b, v4_addr b -> (b = a <-> number 256 a = number 256 b)) by (intros b Hb; rewrite <- (D b Hb); split; congruence).
  rewrite !E by (apply V; lia). clear D E V A. generalize dependent (number 256 a). intros n B. intervals.
  change (number 256 [0; 0; 0; 0]) with 0. change (number 256 [192; 0; 0; 9]) with 3221225481. change (number 256 [192; 0; 0; 10]) with 3221225482.
  change (number 256 [255; 255; 255; 255]) with 4294967295. split; [lia|]. split; lia.
Qed.
Print Assumptions C114_ipv4_exact.

Lemma embeds_num a : (exists b, v6_embeds a b /\ v4_local b) <->
  let n := number 65536 a in
  any n (List.map (interval 32 256) v4_blocks) \/
  (65535 * 2 ^ 32 <= n /\ any (n - 65535 * 2 ^ 32) (List.map (interval 32 256) v4_blocks)).
Proof.
  cbv zeta. assert (S : forall n, any n (List.map (interval 32 256) v4_blocks) -> n < 2 ^ 32) by (intros n; intervals; lia). split.
  - intros (b & [_ [E|E]] & L); apply v4_local_num in L.
    + left. rewrite E. exact L.
    + right. split; [lia|]. replace (number 65536 a - 65535 * 2 ^ 32) with (number 256 b) by lia. exact L.
  - intros [L|[G L]].
    + destruct (v4_of_number _ (S _ L)) as (b & Hb & E). exists b. split; [split; [exact Hb|left; symmetry; exact E]|]. apply v4_local_num. rewrite E. exact L.
    + destruct (v4_of_number _ (S _ L)) as (b & Hb & E). exists b. split; [split; [exact Hb|right; lia]|]. apply v4_local_num. rewrite E. exact L.
Qed.

Lemma multicast_num a : v6_addr a -> (v6_multicast a <-> 338953138925153547590470800371487866880 <= number 65536 a).
Proof.
  intros A. assert (B := v6_number_bound a A). unfold v6_multicast. rewrite block_interval.
  match goal with |- within _ ?x <-> _ => let y := eval vm_compute in x in change x with y end. unfold within. cbn [fst snd]. lia.
Qed.

Lemma mapped_gap a : v6_addr a ->
  ((exists b, v4_addr b /\ ~ v4_local b /\ number 65536 a = 65535 * 2 ^ 32 + number 256 b) <->
   let n := number 65536 a in
   65535 * 2 ^ 32 <= n < 65536 * 2 ^ 32 /\ ~ any (n - 65535 * 2 ^ 32) (List.map (interval 32 256) v4_blocks)).
Proof.
  intros A. cbv zeta. split.
  - intros (b & Hb & L & E). assert (B := v4_number_bound b Hb). split; [lia|]. rewrite v4_local_num in L.
    replace (number 65536 a - 65535 * 2 ^ 32) with (number 256 b) by lia. exact L.
  - intros [G L]. destruct (v4_of_number (number 65536 a - 65535 * 2 ^ 32)) as (b & Hb & E); [lia|]. exists b. split; [exact Hb|].
    split; [|lia]. rewrite v4_local_num, E. exact L.
Qed.

Theorem C114_ipv6_exact : forall a, v6_addr a ->
  (v6_local a -> ~ v6_reachable a \/ v6_withdrawn a \/ v6_multicast a) /\
  (~ v6_reachable a /\ ~ v6_local a <-> v6_gap a).
Proof.
  intros a A. assert (B := v6_number_bound a A). assert (M := multicast_num a A).
  unfold v6_reachable, v6_gap, v6_local, v6_withdrawn. rewrite (mapped_gap a A), embeds_num, M, !v6_in_num, table_intervals, any_iff. cbv zeta.
  assert (S : forall n, any n (List.map (interval 32 256) v4_blocks) -> n < 2 ^ 32) by (intros n; intervals; lia).
  generalize (v6_scope a). intros sc. clear M A. generalize dependent (number 65536 a). intros n B.
  assert (S1 := S n). assert (S2 := S (n - 65535 * 2 ^ 32)). clear S.
  generalize dependent (any n (List.map (interval 32 256) v4_blocks)). intros P S1.
  generalize dependent (any (n - 65535 * 2 ^ 32) (List.map (interval 32 256) v4_blocks)). intros Q S2.
  intervals. change (2 ^ 32) with 4294967296 in *. change (2 ^ 128) with 340282366920938463463374607431768211456 in B. split; [|split].
  - intros [[X Y]|[X|[p|[G q]]]]; [right; right; exact X|clear S1 S2; lia|specialize (S1 p); clear S2 p; lia|specialize (S2 q); clear S1 q; lia].
  - intros [X Y]. destruct (N.le_gt_cases 281470681743360 n) as [G|G]; [destruct (N.lt_ge_cases n 281474976710656) as [H|H]|].
    + right. split; [clear - G H; lia|]. intros q. apply Y. right. right. right. split; [clear - G; lia|exact q].
    + left. match type of Y with ~ (_ \/ ?b \/ _) => assert (Z : ~ b) by tauto end. clear Y S1 S2. lia.
    + left. match type of Y with ~ (_ \/ ?b \/ _) => assert (Z : ~ b) by tauto end. clear Y S1 S2. lia.
  - intros [[X Y]|[G X]].
    + split; [clear S1 S2; lia|]. intros [[M _]|[K|[p|[G q]]]]; [clear S1 S2; lia|clear S1 S2; lia|specialize (S1 p); clear S2 p; lia|specialize (S2 q); clear S1 q; lia].
    + split; [clear S1 S2 X; lia|]. intros [[M _]|[K|[p|[_ q]]]]; [clear S1 S2 X; lia|clear S1 S2 X; lia|specialize (S1 p); clear S2 p X; lia|exact (X q)].
Qed.
Print Assumptions C114_ipv6_exact.

(** What the address validators let through: reachable, or one of the gaps. *)
Theorem C114_ip_lets_through_partial : forall port s x p, valid_str s -> ip_parse_str port Disallow s = Ok (x, p) ->
  match x with
  | V4 a => ~ v4_reachable a <-> v4_gap a
  | V6 a => ~ v6_reachable a <-> v6_gap a
  end.
Proof.
  intros port s x p V H. apply ip_parse_spec in H; [|exact V]. destruct x as [a|a]; destruct H as (Fm & _ & L); cbn [local_ok] in L.
  - assert (A : v4_addr a).
    { destruct p as [p|]; cbn [v4_form] in Fm; [destruct Fm as (t & q & _ & T & _)|rename Fm into T]; exact (v4_text_addr _ _ T). }
    pose proof (proj2 (C114_ipv4_exact a A)). tauto.
  - assert (A : v6_addr a).
    { destruct p as [p|]; cbn [v6_form] in Fm; [destruct Fm as (t & q & _ & T & _)|destruct Fm as [T|(t & _ & T)]]; exact (v6_text_addr _ _ T). }
    pose proof (proj2 (C114_ipv6_exact a A)). tauto.
Qed.
Print Assumptions C114_ip_lets_through_partial.

(** What can be reached is let through. *)
Definition routable (x : ip_addr) : Prop :=
  match x with
  | V4 a => v4_reachable a
  | V6 a => v6_reachable a /\ ~ v6_withdrawn a /\ (v6_multicast a -> v6_scope a = 14)
  end.
Lemma routable_not_local x : match x with V4 a => v4_addr a | V6 a => v6_addr a end -> routable x ->
  match x with V4 a => ~ v4_local a | V6 a => ~ v6_local a end.
Proof.
  destruct x as [a|a]; intros A R; cbn [routable] in R.
  - intros L. exact (proj1 (C114_ipv4_exact a A) L R).
  - destruct R as (R & W & M). intros L. destruct (proj1 (C114_ipv6_exact a A) L) as [X|[X|X]]; [exact (X R)|exact (W X)|].
    destruct L as [[_ S]|[(b & len & I & K)|(b & E & L)]]; [exact (S (M X))| |].
    + apply multicast_num in X; [|exact A]. assert (B := v6_number_bound a A).
      assert (Y : any (number 65536 a) (List.map (interval 128 65536) v6_blocks)) by (apply any_iff, table_intervals; exists b, len; auto).
      revert X Y B. generalize (number 65536 a). intros n. intervals. lia.
    + apply multicast_num in X; [|exact A]. destruct E as [Hb E]. assert (B := v4_number_bound b Hb). revert X E B. generalize (number 65536 a). intros n. lia.
Qed.

Theorem C114_ip_accepts_reachable : forall port s x p, valid_str s ->
  match x with V4 a => v4_form s a p | V6 a => v6_form s a p end -> routable x -> port_ok port p ->
  ip_parse_str port Disallow s = Ok (x, p).
Proof.
  intros port s x p V Fm R P. apply ip_parse_spec; [exact V|].
  assert (A : match x with V4 a => v4_addr a | V6 a => v6_addr a end).
  { destruct x as [a|a]; destruct p as [p|]; cbn [v4_form v6_form] in Fm.
    - destruct Fm as (t & q & _ & T & _). exact (v4_text_addr _ _ T).
    - exact (v4_text_addr _ _ Fm).
    - destruct Fm as (t & q & _ & T & _). exact (v6_text_addr _ _ T).
    - destruct Fm as [T|(t & _ & T)]; exact (v6_text_addr _ _ T). }
  apply routable_not_local in R; [|exact A]. destruct x as [a|a]; (split; [exact Fm|split; [exact P|exact R]]).
Qed.
Print Assumptions C114_ip_accepts_reachable.

(** The same in a host. *)
Theorem C114_host_accepts_reachable : forall idna c s x p, valid_str s ->
  match x with V4 a => v4_form s a p | V6 a => v6_form s a p end -> routable x -> port_ok (h_port c) p ->
  h_local c = Disallow -> h_two c <> Disallow ->
  exists v, host_parse_str idna c s = Ok v /\ hv_host v = match x with V4 a => HIPv4 a | V6 a => HIPv6 a end /\ hv_port v = p.
Proof.
  intros idna c s x p V Fm R P L T.
  assert (H := proj1 (ip_parse_spec (h_port c) Disallow s x p V) (C114_ip_accepts_reachable (h_port c) s x p V Fm R P)).
  exists {| hv_host := match x with V4 a => HIPv4 a | V6 a => HIPv6 a end; hv_port := p; hv_is_local := None |}.
  split; [|split; reflexivity]. apply C39_host_accepts_exactly; [exact V|].
  assert (Fd : host_field c = false) by (unfold host_field; rewrite L; reflexivity).
  destruct x as [a|a]; destruct H as (_ & _ & H); [right; left|left]; exists a; cbn [hv_host hv_port hv_is_local]; rewrite L, Fd;
    (split; [reflexivity|]); (split; [exact Fm|]); (split; [exact P|]); (split; [exact T|]); (split; [exact H|reflexivity]).
Qed.
Print Assumptions C114_host_accepts_reachable.

(** The claim is false: a shared address (where cloud providers put their metadata services). *)
Theorem C114_local_refuted : exists a t, a = [100; 100; 100; 200] /\ t = bs "100.100.100.200" /\ v4_text t a /\ ~ v4_reachable a /\
  ip_parse_str Disallow Disallow t = Ok (V4 a, None) /\ ipv4_parse_str Disallow Disallow t = Ok (a, None) /\
  (forall idna, exists v, host_parse_str idna (hcfg Disallow Disallow Must) t = Ok v /\ hv_host v = HIPv4 a) /\
  (forall idna, exists v, domain_parse_str idna (cfg Allow Disallow Disallow Must) t = Ok v /\ dv_domain v = t) /\
  (forall idna prof, exists v, email_parse_str idna prof (ecfg false Allow Disallow Must false) (bs "a@[" ++ t ++ bs "]") = Ok v /\ ev_domain v = HIPv4 a) /\
  (forall url parse (host : url -> option HttpModel.url_host) s u, HttpSpec.host_typed host -> parse s = Some u ->
     host u = Some (HttpModel.HIpv4 a) -> HttpSpec.has_scheme (bs "http") s ->
     HttpModel.http_parse_str url parse host Disallow s = Ok (u, false)).
Proof.
  exists [100; 100; 100; 200], (bs "100.100.100.200"). split; [reflexivity|]. split; [reflexivity|].
  assert (A : v4_addr [100; 100; 100; 200]) by (split; [reflexivity|repeat constructor]).
  assert (U : ~ v4_reachable [100; 100; 100; 200] /\ ~ v4_local [100; 100; 100; 200]).
  { apply C114_ipv4_exact; [exact A|]. split; [|cbn [In]; intuition discriminate].
    exists [100; 64; 0; 0], 10. split; [cbn; tauto|reflexivity]. }
  split; [apply ipv4_from_str_spec; vm_compute; reflexivity|]. split; [exact (proj1 U)|].
  split; [vm_compute; reflexivity|]. split; [vm_compute; reflexivity|].
  split; [intros; eexists; split; [vm_compute; reflexivity|reflexivity]|].
  split; [intros; eexists; split; [vm_compute; reflexivity|reflexivity]|].
  split; [intros idna prof; destruct prof; eexists; (split; [vm_compute; reflexivity|reflexivity])|].
  intros url parse host s u Ht P H S. apply PropHttp.C54_http_accepts_exactly; [exact Ht|]. split; [exact S|]. split; [exact P|].
  right. exists (HttpModel.HIpv4 [100; 100; 100; 200]). split; [exact H|exact (proj2 U)].
Qed.
Print Assumptions C114_local_refuted.

(** Every IPv4 address, local ones too, is let through in the forms in which translators and 6to4 routers take it. *)
Theorem C114_translated : forall b r, v4_addr b -> List.length r = 5%nat -> Forall (fun x => x < 65536) r ->
  v6_addr (nat64 b) /\ ~ v6_local (nat64 b) /\ v6_addr (six_to_four b r) /\ ~ v6_local (six_to_four b r).
Proof.
  assert (K : forall a lo hi, v6_addr a -> lo <= number 65536 a < hi -> 4294967296 * 65536 <= lo ->
    ~ any lo (List.map (interval 128 65536) v6_blocks) -> hi <= 338953138925153547590470800371487866880 ->
    (forall n, lo <= n < hi -> ~ any n (List.map (interval 128 65536) v6_blocks)) -> ~ v6_local a).
  { intros a lo hi A B L _ H N0 [[X _]|[(b & len & I & X)|(b & [Hb E] & _)]].
    - apply multicast_num in X; [|exact A]. lia.
    - apply (N0 (number 65536 a) B). apply any_iff, table_intervals. exists b, len. auto.
    - assert (C := v4_number_bound b Hb). lia. }
  intros b r [L F] Lr Fr. do 4 (destruct b as [|? b]; [discriminate|]). destruct b; [|discriminate].
  repeat (apply Forall_cons_iff in F as [? F]). do 5 (destruct r as [|? r]; [discriminate|]). destruct r; [|discriminate].
  repeat (apply Forall_cons_iff in Fr as [? Fr]). cbn [nat64 six_to_four app].
  assert (A1 : v6_addr [100; 65435; 0; 0; 0; 0; n * 256 + n0; n1 * 256 + n2]) by (split; [reflexivity|repeat constructor; lia]).
  assert (A2 : v6_addr [8194; n * 256 + n0; n1 * 256 + n2; n3; n4; n5; n6; n7]) by (split; [reflexivity|repeat constructor; lia]).
  split; [exact A1|]. split; [|split; [exact A2|]].
  - apply (K _ (101 * 2 ^ 112 - 2 ^ 112) (101 * 2 ^ 112) A1); try (intros ? ?; intervals; lia); try (intervals; lia); try lia.
    unfold number. cbn [fold_left]. lia.
  - apply (K _ (8194 * 2 ^ 112) (8195 * 2 ^ 112) A2); try (intros ? ?; intervals; lia); try (intervals; lia); try lia.
    unfold number. cbn [fold_left]. lia.
Qed.
Print Assumptions C114_translated.

Theorem C114_translated_refuted : exists b, v4_local b /\ b = [127; 0; 0; 1] /\
  ip_parse_str Disallow Disallow (bs "64:ff9b::127.0.0.1") = Ok (V6 (nat64 b), None) /\
  ip_parse_str Disallow Disallow (bs "2002:7f00:1::1") = Ok (V6 (six_to_four b [0; 0; 0; 0; 1]), None) /\
  ip_parse_str Disallow Disallow (bs "::ffff:127.0.0.1") = Err IpLocalDisallow.
Proof.
  exists [127; 0; 0; 1]. split; [apply C32_ipv4_local_blocks; [split; [reflexivity|repeat constructor]|reflexivity]|].
  split; [reflexivity|]. split; [vm_compute; reflexivity|]. split; vm_compute; reflexivity.
Qed.
Print Assumptions C114_translated_refuted.

Example C114_example :
  routable (V4 [8; 8; 8; 8]) /\ routable (V6 [9734; 18176; 18176; 0; 0; 0; 0; 4369]) /\ ~ routable (V4 [10; 0; 0; 1]) /\
  v4_gap [198; 18; 0; 1] /\ v6_gap [256; 0; 0; 0; 0; 0; 0; 1] /\
  v4_form (bs "8.8.8.8:53") [8; 8; 8; 8] (Some 53) /\
  ip_parse_str Allow Disallow (bs "8.8.8.8:53") = Ok (V4 [8; 8; 8; 8], Some 53).
Proof.
  split; [|split; [|split; [|split; [|split; [|split]]]]].
  - cbn [routable]. left. rewrite v4_in_num. intervals. change (number 256 [8; 8; 8; 8]) with 134744072. lia.
  - cbn [routable]. set (a := [9734; 18176; 18176; 0; 0; 0; 0; 4369]). assert (A : v6_addr a) by (split; [reflexivity|repeat constructor]).
    assert (E : number 65536 a = 50543257694033307102031451402929180945) by reflexivity.
    unfold v6_reachable, v6_withdrawn. rewrite !v6_in_num, (multicast_num a A), E. intervals. split; [left; lia|split; [lia|lia]].
  - cbn [routable]. assert (A : v4_addr [10; 0; 0; 1]) by (split; [reflexivity|repeat constructor]). apply (proj1 (C114_ipv4_exact _ A)). apply C32_ipv4_local_blocks; [split; [reflexivity|repeat constructor]|reflexivity].
  - split; [|cbn [In]; intuition discriminate]. exists [198; 18; 0; 0], 15. split; [cbn; tauto|reflexivity].
  - left. rewrite !v6_in_num. assert (E : number 65536 [256; 0; 0; 0; 0; 0; 0; 1] = 256 * 2 ^ 112 + 1) by reflexivity. rewrite E. intervals. lia.
  - exists (bs "8.8.8.8"), (bs "53"). split; [reflexivity|]. split; [apply ipv4_from_str_spec; vm_compute; reflexivity|].
    apply StdProofs.std_port_text. split; [discriminate|]. split; [|split; [reflexivity|lia]]. unfold StdSpec.DIGIT. repeat (constructor; [cbn; lia|]). constructor.
  - vm_compute. reflexivity.
Qed.
