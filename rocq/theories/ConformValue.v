(** The repository's own tests of the other validators, run on the model (see ConformNet.v): tests of the model,
    not proofs.  Left out: tests of what external crates accept (regex, semver, url, phonenumber, serde_json,
    byte_unit beyond the texts 0 and 1). *)
From Coq Require Import SpecFloat.
From Verif Require Import Base BaseModel CodecModel MacModel BooleanModel RangeModel IntModel NumberModel
  FloatModel LengthModel LineModel SizeModel Utf8 ConformNet.
Local Open Scope N_scope.

(** The configurations and tests of /repo/validators/tests/base32.rs:36-55, base64.rs, base64_url.rs. *)
Definition base_tests (f : flavour) : list (list N * (tri -> bool)) :=
  match f with
  | B32 => [(bs "", fun _ => false); (bs "GEZDGNBVGY3TQOI=", al); (bs "GEZDGNBVGY3TQOI", fun p => negb (mu p));
            (bs "GEZDGNBV=GY3TQOI", fun _ => false)]
  | B64 => [(bs "", fun _ => false); (bs "MTIzNDU2Nzg5MA==", al); (bs "MTIzNDU2Nzg5MA", fun p => negb (mu p));
            (bs "MTIzND=U2Nzg5MA", fun _ => false)]
  | B64Url => [(bs "", fun _ => false); (bs "MTIzNDU2Nz-5MA==", al); (bs "MTIzNDU2Nz-5MA", fun p => negb (mu p));
               (bs "MTIzND=U2Nz-5MA", fun _ => false); (bs "MTIzND=U2Nzg5MA", fun _ => false)]
  end.

Example base_conforms : forallb (fun f => check (fun p s => accepted (base_validate_str f p s)) [Allow; Must; Disallow] (base_tests f)
  && check (fun p s => accepted (dec_parse_str f p s)) [Allow; Must; Disallow] (base_tests f)) [B32; B64; B64Url] = true.
Proof. vm_compute. reflexivity. Qed.

(** The last assertion of /repo/validators/tests/base64_decoded.rs:82-84. *)
Example base64_decoded_value : dec_parse_str B64 Allow (bs "MTIzNDU2Nzg5MA==") = Ok (bs "1234567890").
Proof. vm_compute. reflexivity. Qed.

(** Models [CaseOption::any], [upper], [lower], /repo/validators/src/test/case_option.rs:8-34. *)
Definition case_any (c : case_option) : bool := match c with AnyCase => true | _ => false end.
Definition case_upper (c : case_option) : bool := match c with LowerCase => false | _ => true end.
Definition case_lower (c : case_option) : bool := match c with UpperCase => false | _ => true end.
(** Models [SeparatorOption::allow] and [must], /repo/validators/src/test/separator_option.rs:10-33:
    [allow() == Some(x)] and [must().is_some()]. *)
Definition sep_allow (s : sep_option) (x : N) : bool :=
  match s with SepMust c | SepAllow c => c =? x | SepDisallow => false end.
Definition sep_must (s : sep_option) : bool := match s with SepMust _ => true | _ => false end.

(** /repo/validators/tests/mac_address.rs:53-62 and 68-129. *)
Example mac_conforms : check (fun c s => accepted (mac_validate_str (fst c) (snd c) s))
  (list_prod [AnyCase; UpperCase; LowerCase] [SepAllow 58; SepMust 58; SepAllow 45; SepMust 45; SepDisallow])
  [(bs "", fun _ => false);
   (bs "08:00:27:b2:46:c3", fun c => case_lower (fst c) && sep_allow (snd c) 58);
   (bs "08:00:27:B2:46:C3", fun c => case_upper (fst c) && sep_allow (snd c) 58);
   (bs "08:00:27:b2:46:C3", fun c => case_any (fst c) && sep_allow (snd c) 58);
   (bs "08-00-27-b2-46-c3", fun c => case_lower (fst c) && sep_allow (snd c) 45);
   (bs "08-00-27-B2-46-C3", fun c => case_upper (fst c) && sep_allow (snd c) 45);
   (bs "08-00-27-b2-46-C3", fun c => case_any (fst c) && sep_allow (snd c) 45);
   (bs "080027b246c3", fun c => case_lower (fst c) && negb (sep_must (snd c)));
   (bs "080027B246C3", fun c => case_upper (fst c) && negb (sep_must (snd c)));
   (bs "080027b246C3", fun c => case_any (fst c) && negb (sep_must (snd c)))] = true.
Proof. vm_compute. reflexivity. Qed.

(** /repo/validators/tests/uuid.rs. *)
Example uuid_conforms : check (fun c s => accepted (uuid_validate_str (fst c) (snd c) s))
  (list_prod [AnyCase; UpperCase; LowerCase] [SepAllow 45; SepMust 45; SepDisallow])
  [(bs "", fun _ => false);
   (bs "a866664a-f9d3-4dde-89cb-182015fa4f41", fun c => case_lower (fst c) && sep_allow (snd c) 45);
   (bs "A866664A-F9D3-4DDE-89CB-182015FA4F41", fun c => case_upper (fst c) && sep_allow (snd c) 45);
   (bs "A866664A-f9D3-4dde-89CB-182015FA4F41", fun c => case_any (fst c) && sep_allow (snd c) 45);
   (bs "a866664a f9d3 4dde 89cb 182015fa4f41", fun _ => false);
   (bs "a866664af9d34dde89cb182015fa4f41", fun c => case_lower (fst c) && negb (sep_must (snd c)));
   (bs "A866664AF9D34DDE89CB182015FA4F41", fun c => case_upper (fst c) && negb (sep_must (snd c)));
   (bs "A866664AF9D34dde89CB182015FA4F41", fun c => case_any (fst c) && negb (sep_must (snd c)))] = true.
Proof. vm_compute. reflexivity. Qed.

(** /repo/validators/tests/boolean.rs:10-48. *)
Example boolean_conforms :
  map bool_validate_str [bs ""; bs "xzy"; bs "onion"] = repeat (Err BooleanError) 3 /\
  map bool_parse_str [bs "t"; bs "true"; bs "y"; bs "yes"; bs "on"; bs "1"] = repeat (Ok true) 6 /\
  map bool_parse_str [bs "f"; bs "false"; bs "n"; bs "no"; bs "off"; bs "0"] = repeat (Ok false) 6 /\
  map bool_parse_char (bs "ty1") = repeat (Ok true) 3 /\ map bool_parse_char (bs "fn0") = repeat (Ok false) 3 /\
  bool_parse_int true W64 I128 1 = Ok true /\ bool_parse_int false W64 I128 1 = Ok true /\
  bool_parse_int true W64 I128 0 = Ok false /\ bool_parse_int false W64 I128 0 = Ok false.
Proof. vm_compute. repeat split. Qed.

(** Models the tests' own [check_range].
    (/repo/validators/tests/signed_integer.rs:5-57, number.rs:5-57.) *)
Definition test_range {T} (lt le : T -> T -> bool) (v : T) (r : range_option T) : bool :=
  match r with
  | Inside mi ma incl =>
      match mi with Some m => negb (lt v m) | None => true end &&
      match ma with Some m => if incl then negb (lt m v) else negb (le m v) | None => true end
  | Outside (Some m) (Some x) incl => if incl then negb (le m v && le v x) else negb (le m v && lt v x)
  | Outside (Some m) None _ => lt v m
  | Outside None (Some x) incl => if incl then lt x v else le x v
  | Outside None None _ => true
  | Unlimited => true
  end.

(** The ranges of /repo/validators/tests/signed_integer.rs:173-252, unsigned_integer.rs, number.rs:152-300. *)
Definition test_ranges {T} (m1 z0 p1 : T) : list (range_option T) :=
  [Unlimited; Inside (Some z0) None true; Inside None (Some z0) true; Inside (Some z0) (Some z0) true;
   Outside (Some z0) (Some z0) true; Outside (Some z0) (Some p1) false; Inside (Some m1) (Some p1) true;
   Outside (Some m1) (Some p1) true].

Example signed_conforms : forallb (fun pw => check (fun c s => accepted (int_validate_str true pw (fst c) (snd c) s))
  (list_prod [I8; Isize; I128] (test_ranges (-1) 0 1)%Z)
  [(bs "", fun _ => false); (bs "0", fun c => test_range Z.ltb Z.leb 0%Z (snd c));
   (bs "1", fun c => test_range Z.ltb Z.leb 1%Z (snd c)); (bs "-1", fun c => test_range Z.ltb Z.leb (-1)%Z (snd c))])
  [W16; W32; W64] = true.
Proof. vm_compute. reflexivity. Qed.

Example unsigned_conforms : forallb (fun pw => check (fun c s => accepted (int_validate_str false pw (fst c) (snd c) s))
  (list_prod [I8; Isize; I128] (firstn 6 (test_ranges 0 0 1)%Z))
  [(bs "", fun _ => false); (bs "0", fun c => test_range Z.ltb Z.leb 0%Z (snd c));
   (bs "1", fun c => test_range Z.ltb Z.leb 1%Z (snd c))])
  [W16; W32; W64] = true.
Proof. vm_compute. reflexivity. Qed.

(** The float that a decimal text of the tests denotes.
    (/repo/validators/tests/number.rs:68-71.) *)
Definition fl (t : fty) (s : list N) : spec_float := match float_of_text t s with Some f => f | None => S754_nan end.

(** /repo/validators/tests/number.rs:67-72, with every range under every [nan] policy and both float types
    (the file has the f64 half commented out). *)
Example number_conforms : forallb (fun t => check (fun c s => accepted (num_validate_str (float_of_text t) (fst c) (snd c) s))
  (list_prod (test_ranges (fl t (bs "-1")) (fl t (bs "0")) (fl t (bs "1"))) [Allow; Disallow]
   ++ list_prod (firstn 5 (test_ranges (fl t (bs "-1")) (fl t (bs "0")) (fl t (bs "1")))) [Must])
  [(bs "", fun _ => false);
   (bs "0", fun c => negb (mu (snd c)) && test_range SFltb SFleb (S754_zero false) (fst c));
   (bs "1", fun c => negb (mu (snd c)) && test_range SFltb SFleb (fl t (bs "1")) (fst c));
   (bs "-1", fun c => negb (mu (snd c)) && test_range SFltb SFleb (fl t (bs "-1")) (fst c));
   (bs "NaN", fun c => al (snd c))]) [F32; F64] = true.
Proof. vm_compute. reflexivity. Qed.

(** Models the tests' own [check_char_length] and [check_byte_length].
    (/repo/validators/tests/line.rs:5-67, text.rs:5-67.)  The second component is the trimmed text. *)
Definition test_length (byte : bool) (s trimmed : list N) (a : len_attr) : bool :=
  let len x := if byte then N.of_nat (List.length (utf8 x)) else N.of_nat (List.length x) in
  match l_min a with Some m => m <=? len s | None => true end &&
  match l_max a with Some m => len s <=? m | None => true end &&
  match l_tmin a with Some m => m <=? len trimmed | None => true end.

(** /repo/validators/tests/line.rs:68-197 and text.rs; U+3000 is the ideographic space. *)
Definition length_configs : list len_attr :=
  [mk_len (Some 1) None None; mk_len None (Some 1) None; mk_len None None (Some 3); mk_len (Some 1) None (Some 3);
   mk_len None (Some 1) (Some 3); mk_len (Some 2) (Some 1) (Some 3)].
Example line_conforms : forallb (fun byte =>
  check (fun a s => accepted (line_validate_str Line (Some (byte, a)) s)) length_configs
    [(bs "123" ++ [10] ++ bs "456", fun _ => false); ([], test_length byte [] []);
     (bs "   ", test_length byte (bs "   ") []); ([12288; 12288; 12288], test_length byte [12288; 12288; 12288] []);
     (bs "123", test_length byte (bs "123") (bs "123"))] &&
  check (fun a s => accepted (line_validate_str Text (Some (byte, a)) s)) length_configs
    [([], test_length byte [] []);
     (bs "   ", test_length byte (bs "   ") []); ([12288; 12288; 12288], test_length byte [12288; 12288; 12288] []);
     (bs "123", test_length byte (bs "123") (bs "123"));
     (bs "123" ++ [10] ++ bs "456", test_length byte (bs "123" ++ [10] ++ bs "456") (bs "123" ++ [10] ++ bs "456"))])
  [true; false] = true.
Proof. vm_compute. reflexivity. Qed.

(** /repo/validators/tests/bit.rs and byte.rs: byte_unit reads 0 and 1 as sizes and refuses the empty text. *)
Definition size_of_test (s : list N) : option N :=
  if eqbs s (bs "0") then Some 0 else if eqbs s (bs "1") then Some 1 else None.
Example size_conforms : check (fun r s => accepted (size_validate_str size_of_test r s))
  [mk_range (Some 0) None true; mk_range None (Some 0) true; mk_range (Some 0) (Some 0) true;
   mk_range (Some 0) (Some 1) false; size_default]
  [(bs "", fun _ => false);
   (bs "0", fun r => test_range N.ltb N.leb 0 (Inside (r_min r) (r_max r) (r_incl r)));
   (bs "1", fun r => test_range N.ltb N.leb 1 (Inside (r_min r) (r_max r) (r_incl r)))] = true.
Proof. vm_compute. reflexivity. Qed.

(** /repo/validators/tests/length.rs:7-20. *)
Example length_conforms :
  parse_collection (fun v => N.of_nat (List.length v)) (Some 1) None [8] = Ok [8] /\
  accepted (parse_collection (fun v : list N => N.of_nat (List.length v)) (Some 1) None []) = Some false /\
  accepted (parse_collection (fun v : list N => N.of_nat (List.length v)) (Some 1) (Some 100) []) = Some false.
Proof. vm_compute. repeat split. Qed.
