(** The printed form of a host: C81. *)
From Verif Require Import Base IntStr NetModel NetSpec NetProofs IpModel IpSpec LocalProofs IpProofs Utf8 StrFacts Serde
  DomainModel DomainSpec DomainProofs IdnaFrag HostModel HostSpec HostProofs EmailModel EmailSpec
  PropIp PropDomain PropHost PropEmail DisplayModel.
Local Open Scope N_scope.

(** The hosts that a host or email validator returns. *)
Definition returned (idna : list N -> option (list N)) (h : host) : Prop :=
  (exists c s v, valid_str s /\ host_parse_str idna c s = Ok v /\ hv_host v = h) \/
  (exists prof c s v, valid_str s /\ email_parse_str idna prof c s = Ok v /\ ev_domain v = h).

Definition good (idna : list N -> option (list N)) (h : host) : Prop :=
  match h with
  | HDomain d => idna d = Some d /\ Forall idna_char d /\ d <> [] /\ plain_host h
  | HIPv4 a => v4_addr a
  | HIPv6 a => v6_addr a
  end.

Lemma good_name idna x d : idna_laws idna -> idna x = Some d -> plain_host (HDomain d) -> good idna (HDomain d).
Proof.
  intros L H P. destruct (L _ _ H) as (L1 & L2). destruct P as [P1 P2]. destruct (L2 d (undotted_self d P2)) as (L3 & _ & L4).
  split; [exact L4|]. split; [exact L1|]. split; [exact L3|]. split; assumption.
Qed.

Lemma returned_good idna h : idna_laws idna -> returned idna h -> plain_host h -> good idna h.
Proof.
  intros L [(c & s & v & Hs & H & <-)|(prof & c & s & v & Hs & H & <-)] P.
  - apply C39_host_accepts_exactly in H; [|exact Hs]. destruct H as [H|[H|H]].
    + destruct H as (a & -> & F & _). exact (proj1 (v6_form_addr _ _ _ F)).
    + destruct H as (a & -> & F & _). exact (proj1 (v4_form_addr _ _ _ F)).
    + destruct H as (n & d & E & _ & _ & _ & _ & _ & _ & _ & I & _). rewrite E in *. exact (good_name idna n d L I P).
  - apply C44_email_accepts_exactly in H; [|exact Hs]. destruct H as (lt & q & dt & tail & canon & _ & _ & _ & _ & _ & _ & _ & _ & HT & _).
    destruct (ev_domain v) as [d|a|a]; cbn [host_text] in HT.
    + destruct HT as (_ & _ & _ & _ & _ & I & _). exact (good_name idna dt d L I P).
    + destruct HT as (_ & _ & t & _ & T & _). exact (v4_text_addr _ _ T).
    + destruct HT as (_ & _ & t & _ & T & _). exact (v6_text_addr _ _ T).
Qed.

Lemma display_ascii idna h : good idna h -> valid_str (host_display h).
Proof.
  intros G. apply ascii_valid. destruct h as [d|a|a]; cbn [host_display good] in *.
  - destruct G as (_ & F & _). apply idna_char_ascii, F.
  - exact (proj2 (ipv4_authority_form a None G ltac:(discriminate))).
  - pose proof (proj2 (ipv6_authority_form a None G ltac:(discriminate))) as F. unfold ipv6_authority in F. cbn [fst snd] in F.
    apply Forall_app in F as [_ F]. apply Forall_app in F as [F _]. exact F.
Qed.

Lemma display_accepts idna c h i : good idna h -> h_port c <> Must ->
  match h with
  | HDomain d => two_ok (h_two c) (localhost d) d /\ local_ok (h_local c) (localhost d) /\ field (host_field c) (localhost d) i
  | HIPv4 a => h_two c <> Disallow /\ local_ok (h_local c) (v4_local a) /\ field (host_field c) (v4_local a) i
  | HIPv6 a => h_two c <> Disallow /\ local_ok (h_local c) (v6_local a) /\ field (host_field c) (v6_local a) i
  end ->
  host_parse_str idna c (host_display h) = Ok {| hv_host := h; hv_port := None; hv_is_local := i |}.
Proof.
  intros G Hp K. apply C39_host_accepts_exactly; [exact (display_ascii idna h G)|].
  assert (PO : port_ok (h_port c) None) by (destruct (h_port c); [congruence|exact I|reflexivity]).
  destruct h as [d|a|a]; cbn [host_display good] in *.
  - right. right. destruct G as (Gi & Gc & Gn & G4 & Gd). destruct K as (K1 & K2 & K3). exists d, d. cbn [hv_host hv_port hv_is_local].
    assert (N58 : ~ In 58 d) by (apply (idna_char_not_in _ _ Gc); unfold idna_char; lia).
    assert (N91 : ~ In 91 d) by (apply (idna_char_not_in _ _ Gc); unfold idna_char; lia).
    split; [reflexivity|]. split; [exact Gn|]. split; [intros r ->; apply N91; left; reflexivity|].
    split; [intros a; exact (name_not_v6 d None a N58 ltac:(discriminate))|]. split; [split; [reflexivity|exact N58]|]. auto 15.
  - right. left. destruct K as (K1 & K2 & K3). exists a. cbn [hv_host hv_port hv_is_local].
    split; [reflexivity|]. split; [exact (ipv4_display_text a G)|]. auto 10.
  - left. destruct K as (K1 & K2 & K3). exists a. cbn [hv_host hv_port hv_is_local].
    split; [reflexivity|]. split; [left; exact (ipv6_display_text a G)|]. auto 10.
Qed.

(** C81. The printed form of a returned host is read back as that host, without a port; by the validator that returned it too,
    once its port is not required. *)
Theorem C81_display_parses_partial : forall idna, idna_laws idna ->
  (forall h, returned idna h -> plain_host h ->
     host_parse_str idna (hcfg Allow Allow Allow) (host_display h) = Ok {| hv_host := h; hv_port := None; hv_is_local := None |}) /\
  (forall l p t s v, valid_str s -> host_parse_str idna (hcfg l p t) s = Ok v -> plain_host (hv_host v) ->
     forall p', p' <> Must ->
     host_parse_str idna (hcfg l p' t) (host_display (hv_host v)) =
       Ok {| hv_host := hv_host v; hv_port := None; hv_is_local := hv_is_local v |}).
Proof.
  intros idna L. split.
  - intros h R P. apply display_accepts; [exact (returned_good idna h L R P)|discriminate|].
    destruct h; cbn; repeat split; discriminate.
  - intros l p t s v Hs H P p' Hp'. apply display_accepts; [|exact Hp'|].
    + apply (returned_good idna _ L); [|exact P]. left. exists (hcfg l p t), s, v. auto.
    + apply C39_host_accepts_exactly in H; [|exact Hs]. cbn [h_two h_local hcfg].
      destruct H as [H|[H|H]].
      * destruct H as (a & -> & _ & _ & K). exact K.
      * destruct H as (a & -> & _ & _ & K). exact K.
      * destruct H as (n & d & -> & _ & _ & _ & _ & _ & _ & _ & _ & K). exact K.
Qed.
Print Assumptions C81_display_parses_partial.

(** C81. The printed form identifies the host. *)
Theorem C81_display_identifies_partial : forall idna h k, idna_laws idna -> returned idna h -> returned idna k ->
  plain_host h -> plain_host k -> host_display h = host_display k -> h = k.
Proof.
  intros idna h k L Rh Rk Ph Pk E. destruct (C81_display_parses_partial idna L) as [D _].
  pose proof (D h Rh Ph) as Dh. pose proof (D k Rk Pk) as Dk. rewrite E, Dk in Dh. congruence.
Qed.
Print Assumptions C81_display_identifies_partial.

(** C81 is false of email domains: a bare dotted quad is kept as a name, and prints as the bracketed address does. *)
Theorem C81_email_display_refuted : exists s v t w, valid_str s /\ valid_str t /\
  email_parse_str idna_ascii Debug (ecfg false Allow Allow Allow false) s = Ok v /\
  email_parse_str idna_ascii Debug (ecfg false Allow Allow Allow false) t = Ok w /\
  ev_domain v <> ev_domain w /\ host_display (ev_domain v) = host_display (ev_domain w) /\
  (exists r, host_parse_str idna_ascii (hcfg Allow Allow Allow) (host_display (ev_domain v)) = Ok r /\ hv_host r <> ev_domain v).
Proof.
  exists (bs "me@127.0.0.1"). eexists. exists (bs "me@[127.0.0.1]"). eexists.
  split; [ascii_str|]. split; [ascii_str|]. split; [vm_compute; reflexivity|]. split; [vm_compute; reflexivity|].
  split; [discriminate|]. split; [reflexivity|]. eexists. split; [vm_compute; reflexivity|]. discriminate.
Qed.
Print Assumptions C81_email_display_refuted.

(** C81 is false with a port: the printed form, a colon and the port can be another host (which is why [to_uri_authority_string]
    writes brackets, C41). *)
Theorem C81_display_port_refuted : exists s v p w, valid_str s /\
  host_parse_str idna_ascii (hcfg Allow Must Allow) s = Ok v /\ hv_port v = Some p /\
  host_parse_str idna_ascii (hcfg Allow Allow Allow) (host_display (hv_host v) ++ [58] ++ dec_of_N p) = Ok w /\
  hv_host w <> hv_host v /\ hv_port w = None.
Proof.
  exists (bs "[::1]:80"). eexists. eexists. eexists. split; [ascii_str|]. split; [vm_compute; reflexivity|]. split; [reflexivity|].
  split; [vm_compute; reflexivity|]. split; [discriminate|reflexivity].
Qed.
Print Assumptions C81_display_port_refuted.

(** C81. For names and IPv4 hosts, the printed form, a colon and the port denote the host and the port. *)
Theorem C81_display_port : forall idna l p t s v q, idna_laws idna -> valid_str s -> host_parse_str idna (hcfg l p t) s = Ok v ->
  plain_host (hv_host v) -> (forall a, hv_host v <> HIPv6 a) -> hv_port v = Some q ->
  host_parse_str idna (hcfg l p t) (host_display (hv_host v) ++ [58] ++ dec_of_N q) = Ok v.
Proof.
  intros idna l p t s v q L Hs H P H6 Hq. pose proof (proj1 (C41_host_roundtrip_partial idna _ s v L Hs H P)) as R.
  unfold host_authority in R. rewrite Hq in R. destruct (hv_host v) as [d|a|a] eqn:E; [exact R|exact R|]. exfalso. exact (H6 a eq_refl).
Qed.
Print Assumptions C81_display_port.

(** C81. Addresses turned into hosts print as texts that are read back, and are not confused. *)
Theorem C81_from_address : forall idna,
  (forall a, v4_addr a -> host_parse_str idna (hcfg Allow Allow Allow) (host_display (host_from_ipv4 a)) =
     Ok {| hv_host := host_from_ipv4 a; hv_port := None; hv_is_local := None |}) /\
  (forall a, v6_addr a -> host_parse_str idna (hcfg Allow Allow Allow) (host_display (host_from_ipv6 a)) =
     Ok {| hv_host := host_from_ipv6 a; hv_port := None; hv_is_local := None |}).
Proof.
  intros idna. split; intros a Ha; (apply display_accepts; [exact Ha|discriminate|]); cbn; repeat split; discriminate.
Qed.
Print Assumptions C81_from_address.

Example C81_example :
  idna_laws idna_ascii /\
  (exists v, host_parse_str idna_ascii (hcfg Allow Must Must) (bs "[2001:DB8::1]:443") = Ok v /\ plain_host (hv_host v) /\
     returned idna_ascii (hv_host v) /\ host_display (hv_host v) = bs "2001:db8::1" /\
     host_parse_str idna_ascii (hcfg Allow Allow Must) (bs "2001:db8::1") =
       Ok {| hv_host := hv_host v; hv_port := None; hv_is_local := Some true |}) /\
  v4_addr [10; 0; 0; 1] /\ host_display (host_from_ipv4 [10; 0; 0; 1]) = bs "10.0.0.1".
Proof.
  split; [exact idna_ascii_laws|]. split.
  - eexists. split; [vm_compute; reflexivity|]. split; [exact I|]. split; [|split; vm_compute; reflexivity].
    left. exists (hcfg Allow Must Must), (bs "[2001:DB8::1]:443"). eexists. split; [ascii_str|]. split; [vm_compute; reflexivity|reflexivity].
  - split; [|reflexivity]. split; [reflexivity|]. repeat (constructor; [reflexivity|]). constructor.
Qed.
