(** The repository's own tests of the network validators, run on the model: each [Example] evaluates every
    [test(text, expected)] of a test file on every configuration that the file lists.  These are tests of the
    model, not proofs; they show that the model answers as the code does on what its authors wrote down. *)
From Verif Require Import Base DomainModel HostModel EmailModel IpModel IdnaFrag PropDomain PropHost PropEmail.
Local Open Scope N_scope.

(** Models [TriAllow::allow], /repo/validators/src/test/tri_allow.rs:10-16. *)
Definition al (t : tri) : bool := match t with Disallow => false | _ => true end.
(** Models [TriAllow::must], /repo/validators/src/test/tri_allow.rs:28-34. *)
Definition mu (t : tri) : bool := match t with Must => true | _ => false end.

(** UTS #46 on the names of the tests: the fragment, and the three names that are not ASCII.
    (external; called at /repo/validators-derive/src/validator_handlers/domain/mod.rs:595,686.) *)
Definition idna_tests (x : list N) : option (list N) :=
  if eqbs x [232; 135; 186; 231; 129; 163; 46; 116; 119] then Some (bs "xn--kpry57d.tw")
  else if eqbs x [232; 135; 186; 231; 129; 163; 46; 116; 119; 46] then Some (bs "xn--kpry57d.tw.")
  else if eqbs x [228; 184; 173; 230; 150; 135; 46; 99; 111; 109] then Some (bs "xn--fiq228c.com")
  else idna_ascii x.

(** Models [match $validator::validate_str(s) { Ok(_) => .., Err(_) => .. }].
    (/repo/validators/tests/domain.rs:156-164.) *)
Definition accepted {E A} (o : outcome E A) : option bool :=
  match o with Ok _ => Some true | Err _ => Some false | Panic => None end.

(** One test: the text, and whether it is accepted as a function of the configuration.
    (/repo/validators/tests/domain.rs:155-169.) *)
Definition check {C} (run : C -> list N -> option bool) (configs : list C) (tests : list (list N * (C -> bool))) : bool :=
  forallb (fun c => forallb (fun t => match run c (fst t) with Some b => Bool.eqb b (snd t c) | None => false end) tests) configs.

(** The configurations of /repo/validators/tests/domain.rs:331-439: ipv4, local, port, at_least_two_labels. *)
Definition domain_configs : list (tri * tri * tri * tri) :=
  [(Allow, Allow, Allow, Allow); (Allow, Allow, Must, Allow); (Allow, Allow, Disallow, Allow);
   (Allow, Must, Allow, Allow); (Allow, Must, Must, Allow); (Allow, Must, Disallow, Allow);
   (Allow, Must, Allow, Must); (Allow, Must, Must, Must); (Allow, Must, Disallow, Must);
   (Allow, Must, Allow, Disallow); (Allow, Must, Must, Disallow); (Allow, Must, Disallow, Disallow);
   (Allow, Disallow, Allow, Allow); (Allow, Disallow, Must, Allow); (Allow, Disallow, Disallow, Allow);
   (Allow, Disallow, Allow, Must); (Allow, Disallow, Must, Must); (Allow, Disallow, Disallow, Must);
   (Allow, Disallow, Allow, Disallow); (Allow, Disallow, Must, Disallow);
   (Allow, Disallow, Disallow, Disallow); (Must, Must, Allow, Allow); (Must, Must, Must, Allow);
   (Must, Must, Disallow, Allow); (Must, Must, Allow, Must); (Must, Must, Must, Must);
   (Must, Must, Disallow, Must); (Must, Must, Allow, Disallow); (Must, Must, Must, Disallow);
   (Must, Must, Disallow, Disallow); (Must, Disallow, Allow, Allow); (Must, Disallow, Must, Allow);
   (Must, Disallow, Disallow, Allow); (Must, Disallow, Allow, Must); (Must, Disallow, Must, Must);
   (Must, Disallow, Disallow, Must); (Must, Disallow, Allow, Disallow);
   (Must, Disallow, Must, Disallow); (Must, Disallow, Disallow, Disallow);
   (Disallow, Must, Allow, Allow); (Disallow, Must, Must, Allow); (Disallow, Must, Disallow, Allow);
   (Disallow, Must, Allow, Must); (Disallow, Must, Must, Must); (Disallow, Must, Disallow, Must);
   (Disallow, Must, Allow, Disallow); (Disallow, Must, Must, Disallow);
   (Disallow, Must, Disallow, Disallow); (Disallow, Disallow, Allow, Allow);
   (Disallow, Disallow, Must, Allow); (Disallow, Disallow, Disallow, Allow);
   (Disallow, Disallow, Allow, Must); (Disallow, Disallow, Must, Must);
   (Disallow, Disallow, Disallow, Must); (Disallow, Disallow, Allow, Disallow);
   (Disallow, Disallow, Must, Disallow); (Disallow, Disallow, Disallow, Disallow);
   (Allow, Allow, Allow, Must); (Allow, Allow, Must, Must); (Allow, Allow, Disallow, Must);
   (Must, Allow, Allow, Must); (Must, Allow, Must, Must); (Must, Allow, Disallow, Must);
   (Disallow, Allow, Allow, Must); (Disallow, Allow, Must, Must); (Disallow, Allow, Disallow, Must);
   (Allow, Allow, Allow, Disallow); (Allow, Allow, Must, Disallow); (Allow, Allow, Disallow, Disallow);
   (Must, Allow, Allow, Disallow); (Must, Allow, Must, Disallow); (Must, Allow, Disallow, Disallow);
   (Disallow, Allow, Allow, Disallow); (Disallow, Allow, Must, Disallow);
   (Disallow, Allow, Disallow, Disallow)].

(** The tests of /repo/validators/tests/domain.rs:12-142. *)
Definition domain_tests : list (list N * (tri * tri * tri * tri -> bool)) :=
  [(bs "", fun c => false);
   (bs "127.0.0.1", fun c => let '(ipv4, local, port, two) := c in (al ipv4) && (al local) && negb (mu port) && (al two));
   (bs "127.0.0.1.", fun c => let '(ipv4, local, port, two) := c in (al ipv4) && (al local) && negb (mu port) && (al two));
   (bs "127.0.0.1:8080", fun c => let '(ipv4, local, port, two) := c in (al ipv4) && (al local) && (al port) && (al two));
   (bs "127.0.0.1.:8080", fun c => let '(ipv4, local, port, two) := c in (al ipv4) && (al local) && (al port) && (al two));
   (bs "168.17.212.1", fun c => let '(ipv4, local, port, two) := c in (al ipv4) && negb (mu local) && negb (mu port) && (al two));
   (bs "168.17.212.1.", fun c => let '(ipv4, local, port, two) := c in (al ipv4) && negb (mu local) && negb (mu port) && (al two));
   (bs "168.17.212.1:8080", fun c => let '(ipv4, local, port, two) := c in (al ipv4) && negb (mu local) && (al port) && (al two));
   (bs "168.17.212.1.:8080", fun c => let '(ipv4, local, port, two) := c in (al ipv4) && negb (mu local) && (al port) && (al two));
   (bs "localhost", fun c => let '(ipv4, local, port, two) := c in negb (mu ipv4) && (al local) && negb (mu port));
   (bs "localhost.", fun c => let '(ipv4, local, port, two) := c in negb (mu ipv4) && (al local) && negb (mu port));
   (bs "localhost:8080", fun c => let '(ipv4, local, port, two) := c in negb (mu ipv4) && (al local) && (al port));
   (bs "localhost.:8080", fun c => let '(ipv4, local, port, two) := c in negb (mu ipv4) && (al local) && (al port));
   (bs "myhost", fun c => let '(ipv4, local, port, two) := c in negb (mu ipv4) && negb (mu local) && negb (mu port) && negb (mu two));
   (bs "myhost.", fun c => let '(ipv4, local, port, two) := c in negb (mu ipv4) && negb (mu local) && negb (mu port) && negb (mu two));
   (bs "myhost:8080", fun c => let '(ipv4, local, port, two) := c in negb (mu ipv4) && negb (mu local) && (al port) && negb (mu two));
   (bs "myhost.:8080", fun c => let '(ipv4, local, port, two) := c in negb (mu ipv4) && negb (mu local) && (al port) && negb (mu two));
   ([232; 135; 186; 231; 129; 163; 46; 116; 119], fun c => let '(ipv4, local, port, two) := c in negb (mu ipv4) && negb (mu local) && negb (mu port) && (al two));
   ([232; 135; 186; 231; 129; 163; 46; 116; 119; 46], fun c => let '(ipv4, local, port, two) := c in negb (mu ipv4) && negb (mu local) && negb (mu port) && (al two));
   ([232; 135; 186; 231; 129; 163; 46; 116; 119; 58; 56; 48; 56; 48], fun c => let '(ipv4, local, port, two) := c in negb (mu ipv4) && negb (mu local) && (al port) && (al two));
   ([232; 135; 186; 231; 129; 163; 46; 116; 119; 46; 58; 56; 48; 56; 48], fun c => let '(ipv4, local, port, two) := c in negb (mu ipv4) && negb (mu local) && (al port) && (al two))].

(** 21 texts, 75 configurations. *)
Example domain_conforms : check (fun c s => let '(ipv4, local, port, two) := c in accepted (domain_validate_str idna_tests (cfg ipv4 local port two) s)) domain_configs domain_tests = true.
Proof. vm_compute. reflexivity. Qed.

(** The configurations of /repo/validators/tests/host.rs:209-250: local, port, at_least_two_labels. *)
Definition host_configs : list (tri * tri * tri) :=
  [(Allow, Allow, Allow); (Allow, Must, Allow); (Allow, Disallow, Allow); (Must, Allow, Allow);
   (Must, Must, Allow); (Must, Disallow, Allow); (Must, Allow, Must); (Must, Must, Must);
   (Must, Disallow, Must); (Must, Allow, Disallow); (Must, Must, Disallow); (Must, Disallow, Disallow);
   (Disallow, Allow, Allow); (Disallow, Must, Allow); (Disallow, Disallow, Allow);
   (Disallow, Allow, Must); (Disallow, Must, Must); (Disallow, Disallow, Must);
   (Disallow, Allow, Disallow); (Disallow, Must, Disallow); (Disallow, Disallow, Disallow);
   (Allow, Allow, Must); (Allow, Must, Must); (Allow, Disallow, Must); (Allow, Allow, Disallow);
   (Allow, Must, Disallow);
   (Allow, Disallow, Disallow)].

(** The tests of /repo/validators/tests/host.rs:12-85. *)
Definition host_tests : list (list N * (tri * tri * tri -> bool)) :=
  [(bs "", fun c => false);
   (bs "127.0.0.1", fun c => let '(local, port, two) := c in (al local) && negb (mu port) && (al two));
   (bs "127.0.0.1.", fun c => false);
   (bs "127.0.0.1:8080", fun c => let '(local, port, two) := c in (al local) && (al port) && (al two));
   (bs "127.0.0.1.:8080", fun c => false);
   (bs "168.17.212.1", fun c => let '(local, port, two) := c in negb (mu local) && negb (mu port) && (al two));
   (bs "168.17.212.1.", fun c => false);
   (bs "168.17.212.1:8080", fun c => let '(local, port, two) := c in negb (mu local) && (al port) && (al two));
   (bs "168.17.212.1.:8080", fun c => false);
   (bs "localhost", fun c => let '(local, port, two) := c in (al local) && negb (mu port));
   (bs "localhost.", fun c => false);
   (bs "localhost:8080", fun c => let '(local, port, two) := c in (al local) && (al port));
   (bs "localhost.:8080", fun c => false);
   (bs "myhost", fun c => let '(local, port, two) := c in negb (mu local) && negb (mu port) && negb (mu two));
   (bs "myhost.", fun c => false);
   (bs "myhost:8080", fun c => let '(local, port, two) := c in negb (mu local) && (al port) && negb (mu two));
   (bs "myhost.:8080", fun c => false);
   ([232; 135; 186; 231; 129; 163; 46; 116; 119], fun c => let '(local, port, two) := c in negb (mu local) && negb (mu port) && (al two));
   ([232; 135; 186; 231; 129; 163; 46; 116; 119; 46], fun c => false);
   ([232; 135; 186; 231; 129; 163; 46; 116; 119; 58; 56; 48; 56; 48], fun c => let '(local, port, two) := c in negb (mu local) && (al port) && (al two));
   ([232; 135; 186; 231; 129; 163; 46; 116; 119; 46; 58; 56; 48; 56; 48], fun c => false);
   (bs "0000:0000:0000:0000:0000:0000:370:7348", fun c => let '(local, port, two) := c in negb (mu local) && negb (mu port) && (al two));
   (bs "[0000:0000:0000:0000:0000:0000:370:7348]", fun c => let '(local, port, two) := c in negb (mu local) && negb (mu port) && (al two));
   (bs "[0000:0000:0000:0000:0000:0000:370:7348]:8080", fun c => let '(local, port, two) := c in negb (mu local) && (al port) && (al two))].

(** 24 texts, 27 configurations. *)
Example host_conforms : check (fun c s => let '(local, port, two) := c in accepted (host_validate_str idna_tests (hcfg local port two) s)) host_configs host_tests = true.
Proof. vm_compute. reflexivity. Qed.

(** The configurations of /repo/validators/tests/email.rs:372-467: comment, ip, local, at_least_two_labels, non_ascii. *)
Definition email_configs : list (bool * tri * tri * tri * bool) :=
  [(false, Allow, Allow, Allow, true); (false, Must, Allow, Allow, true);
   (false, Disallow, Allow, Allow, true); (true, Allow, Allow, Allow, true);
   (true, Must, Allow, Allow, true); (true, Disallow, Allow, Allow, true);
   (false, Allow, Allow, Allow, false); (false, Must, Allow, Allow, false);
   (false, Disallow, Allow, Allow, false); (true, Allow, Allow, Allow, false);
   (true, Must, Allow, Allow, false); (true, Disallow, Allow, Allow, false);
   (false, Allow, Must, Allow, true); (false, Must, Must, Allow, true);
   (false, Disallow, Must, Allow, true); (true, Allow, Must, Allow, true);
   (true, Must, Must, Allow, true); (true, Disallow, Must, Allow, true);
   (false, Allow, Must, Allow, false); (false, Must, Must, Allow, false);
   (false, Disallow, Must, Allow, false); (true, Allow, Must, Allow, false);
   (true, Must, Must, Allow, false); (true, Disallow, Must, Allow, false);
   (false, Allow, Disallow, Allow, true); (false, Must, Disallow, Allow, true);
   (false, Disallow, Disallow, Allow, true); (true, Allow, Disallow, Allow, true);
   (true, Must, Disallow, Allow, true); (true, Disallow, Disallow, Allow, true);
   (false, Allow, Disallow, Allow, false); (false, Must, Disallow, Allow, false);
   (false, Disallow, Disallow, Allow, false); (true, Allow, Disallow, Allow, false);
   (true, Must, Disallow, Allow, false); (true, Disallow, Disallow, Allow, false);
   (false, Allow, Must, Disallow, true); (false, Must, Must, Disallow, true);
   (false, Disallow, Must, Disallow, true); (true, Allow, Must, Disallow, true);
   (true, Must, Must, Disallow, true); (true, Disallow, Must, Disallow, true);
   (false, Allow, Must, Disallow, false); (false, Must, Must, Disallow, false);
   (false, Disallow, Must, Disallow, false); (true, Allow, Must, Disallow, false);
   (true, Must, Must, Disallow, false); (true, Disallow, Must, Disallow, false);
   (false, Allow, Disallow, Disallow, true); (false, Must, Disallow, Disallow, true);
   (false, Disallow, Disallow, Disallow, true); (true, Allow, Disallow, Disallow, true);
   (true, Must, Disallow, Disallow, true); (true, Disallow, Disallow, Disallow, true);
   (false, Allow, Disallow, Disallow, false); (false, Must, Disallow, Disallow, false);
   (false, Disallow, Disallow, Disallow, false); (true, Allow, Disallow, Disallow, false);
   (true, Must, Disallow, Disallow, false); (true, Disallow, Disallow, Disallow, false);
   (false, Allow, Must, Must, true); (false, Must, Must, Must, true);
   (false, Disallow, Must, Must, true); (true, Allow, Must, Must, true); (true, Must, Must, Must, true);
   (true, Disallow, Must, Must, true); (false, Allow, Must, Must, false);
   (false, Must, Must, Must, false); (false, Disallow, Must, Must, false);
   (true, Allow, Must, Must, false); (true, Must, Must, Must, false);
   (true, Disallow, Must, Must, false); (false, Allow, Disallow, Must, true);
   (false, Must, Disallow, Must, true); (false, Disallow, Disallow, Must, true);
   (true, Allow, Disallow, Must, true); (true, Must, Disallow, Must, true);
   (true, Disallow, Disallow, Must, true); (false, Allow, Disallow, Must, false);
   (false, Must, Disallow, Must, false); (false, Disallow, Disallow, Must, false);
   (true, Allow, Disallow, Must, false); (true, Must, Disallow, Must, false);
   (true, Disallow, Disallow, Must, false); (false, Allow, Allow, Must, true);
   (false, Must, Allow, Must, true); (false, Disallow, Allow, Must, true);
   (true, Allow, Allow, Must, true); (true, Must, Allow, Must, true);
   (true, Disallow, Allow, Must, true); (false, Allow, Allow, Must, false);
   (false, Must, Allow, Must, false); (false, Disallow, Allow, Must, false);
   (true, Allow, Allow, Must, false); (true, Must, Allow, Must, false);
   (true, Disallow, Allow, Must, false); (false, Allow, Allow, Disallow, true);
   (false, Must, Allow, Disallow, true); (false, Disallow, Allow, Disallow, true);
   (true, Allow, Allow, Disallow, true); (true, Must, Allow, Disallow, true);
   (true, Disallow, Allow, Disallow, true); (false, Allow, Allow, Disallow, false);
   (false, Must, Allow, Disallow, false); (false, Disallow, Allow, Disallow, false);
   (true, Allow, Allow, Disallow, false); (true, Must, Allow, Disallow, false);
   (true, Disallow, Allow, Disallow, false)].

(** The tests of /repo/validators/tests/email.rs:12-147. *)
Definition email_tests : list (list N * (bool * tri * tri * tri * bool -> bool)) :=
  [(bs "", fun c => false);
   (bs "Abc.example.com", fun c => false);
   (bs "A@b@c@example.com", fun c => false);
   (bs "a""b(c)d,e:f;g<h>i[j\k]l@example.com", fun c => false);
   (bs "just""not""right@example.com", fun c => false);
   (bs "this is""not\allowed@example.com", fun c => false);
   (bs "this\ still\""not\\allowed@example.com", fun c => false);
   (bs "1234567890123456789012345678901234567890123456789012345678901234+x@example.com", fun c => false);
   (bs "i_like_underscore@but_its_not_allow_in _this_part.example.com", fun c => false);
   (bs """joh""n""""@example.com", fun c => false);
   (bs "simple@example.com", fun c => let '(comment, ip, local, two, non_ascii) := c in negb (mu ip) && negb (mu local) && (al two));
   (bs "very.common@example.com", fun c => let '(comment, ip, local, two, non_ascii) := c in negb (mu ip) && negb (mu local) && (al two));
   (bs "disposable.style.email.with+symbol@example.com", fun c => let '(comment, ip, local, two, non_ascii) := c in negb (mu ip) && negb (mu local) && (al two));
   (bs "other.email-with-hyphen@example.com", fun c => let '(comment, ip, local, two, non_ascii) := c in negb (mu ip) && negb (mu local) && (al two));
   (bs "fully-qualified-domain@example.com", fun c => let '(comment, ip, local, two, non_ascii) := c in negb (mu ip) && negb (mu local) && (al two));
   (bs "user.name+tag+sorting@example.com", fun c => let '(comment, ip, local, two, non_ascii) := c in negb (mu ip) && negb (mu local) && (al two));
   (bs "x@example.com", fun c => let '(comment, ip, local, two, non_ascii) := c in negb (mu ip) && negb (mu local) && (al two));
   (bs "example-indeed@strange-example.com", fun c => let '(comment, ip, local, two, non_ascii) := c in negb (mu ip) && negb (mu local) && (al two));
   (bs "admin@mailserver1", fun c => let '(comment, ip, local, two, non_ascii) := c in negb (mu ip) && negb (mu local) && negb (mu two));
   (bs "example@s.example", fun c => let '(comment, ip, local, two, non_ascii) := c in negb (mu ip) && negb (mu local) && (al two));
   (bs """ ""@example.org", fun c => let '(comment, ip, local, two, non_ascii) := c in negb (mu ip) && negb (mu local) && (al two));
   (bs """john..doe""@example.org", fun c => let '(comment, ip, local, two, non_ascii) := c in negb (mu ip) && negb (mu local) && (al two));
   (bs "mailhost!username@example.org", fun c => let '(comment, ip, local, two, non_ascii) := c in negb (mu ip) && negb (mu local) && (al two));
   (bs "user%example.com@example.org", fun c => let '(comment, ip, local, two, non_ascii) := c in negb (mu ip) && negb (mu local) && (al two));
   (bs """joh\""n\""""@example.com", fun c => let '(comment, ip, local, two, non_ascii) := c in negb (mu ip) && negb (mu local) && (al two));
   (bs "simple@localhost", fun c => let '(comment, ip, local, two, non_ascii) := c in negb (mu ip) && (al local));
   (bs "simple@[168.17.212.1]", fun c => let '(comment, ip, local, two, non_ascii) := c in (al ip) && negb (mu local) && (al two));
   (bs "simple@[127.0.0.1]", fun c => let '(comment, ip, local, two, non_ascii) := c in (al ip) && (al local) && (al two));
   (bs "simple@[IPv6:0000:0000:0000:0000:0000:0000:370:7348]", fun c => let '(comment, ip, local, two, non_ascii) := c in (al ip) && negb (mu local) && (al two));
   ([115; 105; 109; 112; 108; 101; 64; 228; 184; 173; 230; 150; 135; 46; 99; 111; 109], fun c => let '(comment, ip, local, two, non_ascii) := c in negb (mu ip) && negb (mu local) && (al two));
   ([228; 184; 173; 230; 150; 135; 64; 101; 120; 97; 109; 112; 108; 101; 46; 99; 111; 109], fun c => let '(comment, ip, local, two, non_ascii) := c in non_ascii && negb (mu ip) && negb (mu local) && (al two));
   (bs "(a)simple(b)@(c)example.com(d)", fun c => let '(comment, ip, local, two, non_ascii) := c in comment && negb (mu ip) && negb (mu local) && (al two))].

(** 32 texts, 108 configurations. *)
Example email_conforms : check (fun c s => let '(comment, ip, local, two, non_ascii) := c in accepted (email_validate_str idna_tests Debug (ecfg comment ip local two non_ascii) s)) email_configs email_tests = true.
Proof. vm_compute. reflexivity. Qed.

(** The configurations of /repo/validators/tests/ip.rs:102-113: port, local. *)
Definition ip_configs : list (tri * tri) :=
  [(Allow, Allow); (Must, Allow); (Disallow, Allow); (Allow, Must); (Must, Must); (Disallow, Must);
   (Allow, Disallow); (Must, Disallow);
   (Disallow, Disallow)].

(** The tests of /repo/validators/tests/ip.rs:12-25. *)
Definition ip_tests : list (list N * (tri * tri -> bool)) :=
  [(bs "", fun c => false);
   (bs "127.0.0.1", fun c => let '(port, local) := c in (al local) && negb (mu port));
   (bs "127.0.0.1:8080", fun c => let '(port, local) := c in (al local) && (al port));
   (bs "168.17.212.1", fun c => let '(port, local) := c in negb (mu local) && negb (mu port));
   (bs "168.17.212.1:8080", fun c => let '(port, local) := c in negb (mu local) && (al port));
   (bs "0000:0000:0000:0000:0000:0000:370:7348", fun c => let '(port, local) := c in negb (mu local) && negb (mu port));
   (bs "[0000:0000:0000:0000:0000:0000:370:7348]", fun c => let '(port, local) := c in negb (mu local) && negb (mu port));
   (bs "[0000:0000:0000:0000:0000:0000:370:7348]:8080", fun c => let '(port, local) := c in negb (mu local) && (al port))].

(** 8 texts, 9 configurations. *)
Example ip_conforms : check (fun c s => let '(port, local) := c in accepted (ip_validate_str port local s)) ip_configs ip_tests = true.
Proof. vm_compute. reflexivity. Qed.

(** The configurations of /repo/validators/tests/ipv4.rs:93-104: port, local. *)
Definition ipv4_configs : list (tri * tri) :=
  [(Allow, Allow); (Must, Allow); (Disallow, Allow); (Allow, Must); (Must, Must); (Disallow, Must);
   (Allow, Disallow); (Must, Disallow);
   (Disallow, Disallow)].

(** The tests of /repo/validators/tests/ipv4.rs:12-19. *)
Definition ipv4_tests : list (list N * (tri * tri -> bool)) :=
  [(bs "", fun c => false);
   (bs "0000:0000:0000:0000:0000:0000:370:7348", fun c => false);
   (bs "[0000:0000:0000:0000:0000:0000:370:7348]", fun c => false);
   (bs "[0000:0000:0000:0000:0000:0000:370:7348]:8080", fun c => false);
   (bs "127.0.0.1", fun c => let '(port, local) := c in (al local) && negb (mu port));
   (bs "127.0.0.1:8080", fun c => let '(port, local) := c in (al local) && (al port));
   (bs "168.17.212.1", fun c => let '(port, local) := c in negb (mu local) && negb (mu port));
   (bs "168.17.212.1:8080", fun c => let '(port, local) := c in negb (mu local) && (al port))].

(** 8 texts, 9 configurations. *)
Example ipv4_conforms : check (fun c s => let '(port, local) := c in accepted (ipv4_validate_str port local s)) ipv4_configs ipv4_tests = true.
Proof. vm_compute. reflexivity. Qed.

(** The configurations of /repo/validators/tests/ipv6.rs:102-113: port, local. *)
Definition ipv6_configs : list (tri * tri) :=
  [(Allow, Allow); (Must, Allow); (Disallow, Allow); (Allow, Must); (Must, Must); (Disallow, Must);
   (Allow, Disallow); (Must, Disallow);
   (Disallow, Disallow)].

(** The tests of /repo/validators/tests/ipv6.rs:12-25. *)
Definition ipv6_tests : list (list N * (tri * tri -> bool)) :=
  [(bs "", fun c => false);
   (bs "127.0.0.1", fun c => false);
   (bs "127.0.0.1:8080", fun c => false);
   (bs "168.17.212.1", fun c => false);
   (bs "168.17.212.1:8080", fun c => false);
   (bs "0000:0000:0000:0000:0000:0000:370:7348", fun c => let '(port, local) := c in negb (mu local) && negb (mu port));
   (bs "[0000:0000:0000:0000:0000:0000:370:7348]", fun c => let '(port, local) := c in negb (mu local) && negb (mu port));
   (bs "[0000:0000:0000:0000:0000:0000:370:7348]:8080", fun c => let '(port, local) := c in negb (mu local) && (al port))].

(** 8 texts, 9 configurations. *)
Example ipv6_conforms : check (fun c s => let '(port, local) := c in accepted (ipv6_validate_str port local s)) ipv6_configs ipv6_tests = true.
Proof. vm_compute. reflexivity. Qed.
