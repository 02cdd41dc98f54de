(** Properties C39-C41: hosts. *)
From Verif Require Import EntryFacts Base IntStr NetModel NetSpec NetProofs IpModel IpSpec LocalProofs IpProofs Utf8 StrFacts Serde
  DomainModel DomainSpec DomainProofs IdnaFrag HostModel HostSpec HostProofs PropDomain.
Local Open Scope N_scope.

(** C39. The validator accepts exactly [host_accepts], for every IDNA behaviour. *)
Theorem C39_host_accepts_exactly : forall idna c s v, valid_str s ->
  host_parse_str idna c s = Ok v <-> host_accepts idna c s v.
Proof. exact host_parse_spec. Qed.

(** The policies hold of the returned host, provided IDNA never makes an IPv4 address out of another name. *)
Theorem C39_host_policies_partial : forall idna c s v, idna_no_new_ipv4 idna -> valid_str s ->
  host_parse_str idna c s = Ok v ->
  port_ok (h_port c) (hv_port v) /\ local_ok (h_local c) (host_local (hv_host v)) /\
  host_two_ok (h_two c) (hv_host v) /\ field (host_field c) (host_local (hv_host v)) (hv_is_local v).
Proof. exact host_policies. Qed.

(** Whatever IDNA does, a returned address meets the policies. *)
Theorem C39_host_address_policies : forall idna c s v, valid_str s -> host_parse_str idna c s = Ok v ->
  (forall d, hv_host v <> HDomain d) ->
  port_ok (h_port c) (hv_port v) /\ local_ok (h_local c) (host_local (hv_host v)) /\
  host_two_ok (h_two c) (hv_host v) /\ field (host_field c) (host_local (hv_host v)) (hv_is_local v).
Proof.
  intros idna c s v Hv H Hd. apply host_parse_spec in H; [|exact Hv].
  destruct H as [(a & -> & _ & H)|[(a & -> & _ & H)|(n & d & E & _)]].
  - cbn. tauto.
  - cbn. tauto.
  - destruct (Hd _ E).
Qed.

Definition hcfg (l p t : tri) : host_cfg := {| h_local := l; h_port := p; h_two := t |}.

(** Ideographic full stops get a loopback address past [local(Disallow)], which itself is refused. *)
Theorem C39_host_disallowed_local_refuted : exists idna s v a, idna_laws idna /\ valid_str s /\
  host_parse_str idna (hcfg Disallow Disallow Allow) s = Ok v /\ hv_host v = HDomain (bs "127.0.0.1") /\
  v4_text (bs "127.0.0.1") a /\ v4_local a /\
  host_parse_str idna (hcfg Disallow Disallow Allow) (bs "127.0.0.1") = Err HoLocalDisallow.
Proof.
  exists idna_frag, wide_loopback. eexists. exists [127; 0; 0; 1].
  split; [exact idna_frag_laws|]. split; [exact wide_valid|]. split; [vm_compute; reflexivity|]. split; [reflexivity|].
  split; [apply ipv4_from_str_spec; vm_compute; reflexivity|].
  split; [|vm_compute; reflexivity].
  apply is_local_ipv4_spec; [split; [reflexivity|repeat constructor]|reflexivity].
Qed.

Theorem C39_host_field_refuted : exists idna s v a, idna_laws idna /\ valid_str s /\
  host_parse_str idna (hcfg Allow Disallow Must) s = Ok v /\ hv_host v = HDomain (bs "127.0.0.1") /\
  v4_text (bs "127.0.0.1") a /\ v4_local a /\ hv_is_local v = Some false.
Proof.
  exists idna_frag, wide_loopback. eexists. exists [127; 0; 0; 1].
  split; [exact idna_frag_laws|]. split; [exact wide_valid|]. split; [vm_compute; reflexivity|]. split; [reflexivity|].
  split; [apply ipv4_from_str_spec; vm_compute; reflexivity|].
  split; [|reflexivity].
  apply is_local_ipv4_spec; [split; [reflexivity|repeat constructor]|reflexivity].
Qed.

Theorem C39_host_entry_points : forall idna c s, valid_str s ->
  host_parse_string idna c s = host_parse_str idna c s /\
  host_validate_str idna c s = omap (fun _ => tt) (host_parse_str idna c s).
Proof. intros idna c s Hv. split; [reflexivity|]. apply validate_lift. exact (host_validate_parse idna c s Hv). Qed.

Example C39_example :
  idna_no_new_ipv4 idna_ascii /\
  host_parse_str idna_ascii (hcfg Disallow Must Must) (bs "Magiclen.org:80") =
    Ok {| hv_host := HDomain (bs "magiclen.org"); hv_port := Some 80; hv_is_local := None |} /\
  host_parse_str idna_ascii (hcfg Allow Allow Must) (bs "[::1]:443") =
    Ok {| hv_host := HIPv6 [0; 0; 0; 0; 0; 0; 0; 1]; hv_port := Some 443; hv_is_local := Some true |} /\
  host_parse_str idna_ascii (hcfg Must Allow Must) (bs "10.0.0.1") =
    Ok {| hv_host := HIPv4 [10; 0; 0; 1]; hv_port := None; hv_is_local := None |} /\
  host_parse_str idna_ascii (hcfg Allow Allow Must) (bs "LOCALHOST") =
    Ok {| hv_host := HDomain (bs "localhost"); hv_port := None; hv_is_local := Some true |} /\
  host_parse_str idna_ascii (hcfg Allow Allow Disallow) (bs "::1") = Err HoTwoLabelsDisallow /\
  host_parse_str idna_ascii (hcfg Allow Allow Must) (bs "org") = Err HoTwoLabelsMust /\
  host_parse_str idna_ascii (hcfg Disallow Allow Must) (bs "fe80::1") = Err HoLocalDisallow.
Proof. split; [exact idna_ascii_no_new|]. vm_compute. repeat split; reflexivity. Qed.

(** C40. No entry point panics on any string, whatever IDNA does. *)
Theorem C40_host_no_panic : forall idna c s, valid_str s ->
  host_parse_str idna c s <> Panic /\ host_parse_string idna c s <> Panic /\ host_validate_str idna c s <> Panic.
Proof. intros idna c s Hv. destruct (host_no_panic idna c s Hv) as [A B]. auto. Qed.

Example C40_example :
  valid_str [91; 195; 169; 93; 58] /\
  host_parse_str idna_ascii (hcfg Allow Allow Must) [91; 195; 169; 93; 58] = Err HoInvalid /\
  host_parse_str idna_ascii (hcfg Allow Must Must) (bs "[") = Err HoInvalid /\
  host_parse_str idna_ascii (hcfg Allow Must Must) (bs "[]:") = Err HoInvalid.
Proof.
  split; [exists [91; 233; 93; 58]; split; [repeat constructor|reflexivity]|]. vm_compute. repeat split; reflexivity.
Qed.

(** C41. The authority string reads back as the same value, unless the host is a name that IDNA turned into an IPv4
    address or gave a final dot. *)
Theorem C41_host_roundtrip_partial : forall idna c s v, idna_laws idna -> valid_str s -> host_parse_str idna c s = Ok v ->
  plain_host (hv_host v) ->
  host_parse_str idna c (host_authority v) = Ok v /\
  visit (host_visitor idna c) (json_call (json_of (host_ser v))) = Ok v.
Proof.
  intros idna c s v Hl Hv H Hp. destruct (host_roundtrip idna c s v Hl Hv H Hp) as [_ R]. split; [exact R|].
  unfold host_ser. cbn [json_of json_call]. unfold visit, host_visitor. rewrite R. reflexivity.
Qed.

(** A name that becomes an address changes kind. *)
Theorem C41_host_kind_refuted : exists idna s v w, idna_laws idna /\ valid_str s /\
  host_parse_str idna (hcfg Allow Allow Allow) s = Ok v /\ hv_host v = HDomain (bs "127.0.0.1") /\
  host_parse_str idna (hcfg Allow Allow Allow) (host_authority v) = Ok w /\ hv_host w = HIPv4 [127; 0; 0; 1].
Proof.
  exists idna_frag, wide_loopback. eexists. eexists. split; [exact idna_frag_laws|]. split; [exact wide_valid|].
  split; [vm_compute; reflexivity|]. split; [reflexivity|]. split; [vm_compute; reflexivity|reflexivity].
Qed.

(** A name that ends in an ideographic full stop prints as a text that is refused. *)
Theorem C41_host_final_dot_refuted : exists idna s v, idna_laws idna /\ valid_str s /\
  host_parse_str idna (hcfg Allow Allow Allow) s = Ok v /\ host_authority v = bs "org." /\
  host_parse_str idna (hcfg Allow Allow Allow) (host_authority v) = Err HoInvalid.
Proof.
  exists idna_frag, (bs "org" ++ [227; 128; 130]). eexists. split; [exact idna_frag_laws|].
  split; [exists (bs "org" ++ [12290]); split; [repeat constructor|reflexivity]|].
  split; [vm_compute; reflexivity|]. split; [reflexivity|]. vm_compute. reflexivity.
Qed.

Example C41_example :
  idna_laws idna_ascii /\
  host_parse_str idna_ascii (hcfg Allow Allow Must) (bs "2001:DB8:0:0::1") =
    Ok {| hv_host := HIPv6 [8193; 3512; 0; 0; 0; 0; 0; 1]; hv_port := None; hv_is_local := Some true |} /\
  host_authority {| hv_host := HIPv6 [8193; 3512; 0; 0; 0; 0; 0; 1]; hv_port := None; hv_is_local := Some true |} =
    bs "[2001:db8::1]" /\
  host_parse_str idna_ascii (hcfg Allow Allow Must) (bs "Magiclen.org:+080") =
    Ok {| hv_host := HDomain (bs "magiclen.org"); hv_port := Some 80; hv_is_local := Some false |} /\
  host_authority {| hv_host := HDomain (bs "magiclen.org"); hv_port := Some 80; hv_is_local := Some false |} =
    bs "magiclen.org:80".
Proof. split; [exact idna_ascii_laws|]. vm_compute. repeat split; reflexivity. Qed.

Print Assumptions C39_host_accepts_exactly.
Print Assumptions C39_host_policies_partial.
Print Assumptions C39_host_disallowed_local_refuted.
Print Assumptions C40_host_no_panic.
Print Assumptions C41_host_roundtrip_partial.
Print Assumptions C41_host_final_dot_refuted.
