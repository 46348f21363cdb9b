(* Property theorems: what goes wrong and what is reported (C84). *)
From Verif Require Import DecimalText RealCrypto SealWitness SpecReport ReportFacts ReportOpen ReportSeal ReportExample.
Local Open Scope Z_scope.

(* Verify *)
Theorem C84_verify : forall C pp mp x w r, fst (Verify C pp mp x w) = r <->
  verify_outcome (fun k m s => ed_verify C k m s = true) w pp mp (sigPathOf mp x) r.
Proof. exact Verify_outcome. Qed.
Print Assumptions C84_verify.

(* with RFC 8032's signatures *)
Theorem C84_verify_real : forall pp mp x w r, fst (Verify real pp mp x w) = r <->
  verify_outcome (Ed25519_accepts SHA512) w pp mp (sigPathOf mp x) r.
Proof. exact (fun pp mp x w r => Verify_outcome_rfc real pp mp x w r real_signatures). Qed.
Print Assumptions C84_verify_real.

(* one of the messages in the program's text is never reported *)
Theorem C84_never : forall C pp mp x w,
  fst (Verify C pp mp x w) <> Err (EMsg (str "signify: not an Ed25519 public key")).
Proof. exact Verify_not_this. Qed.
Print Assumptions C84_never.

Example C84_verify_instance : forall C,
  verdict C (stored (str "ABC")) [] = Err (EMsg (str "signify: invalid public key length 3")) /\
  verdict C (str "hello") [] = Err (CorruptInput 4) /\
  verdict C (stored (pub_bytes (str "RW") num1)) (stored (sig_bytes (str "Ed") num1)) = Err (EMsg (str "signify: unknown key algo RW")) /\
  verdict C (stored (pub_bytes (str "Ed") num1)) (stored (sig_bytes (str "RW") num1)) = Err (EMsg (str "signify: not an Ed25519 signature (RW)")) /\
  verdict C (stored (pub_bytes (str "Ed") num1)) (stored (sig_bytes (str "Ed") num2)) = Err (EMsg (str "signify: key number mismatch")) /\
  verdict C (stored (pub_bytes (str "Ed") num1)) (stored (str "Ed")) = Panic /\
  fst (Verify C (str "p") (str "m2") [] (three (stored (pub_bytes (str "Ed") num1)) [])) = Err (ENotExist (str "m2")).
Proof. exact example_verify. Qed.

(* Sign *)
Theorem C84_sign : forall C kp mp x w r, fst (Sign C kp mp x w) = r <->
  sign_outcome (sha512 C) (fun pass salt rounds => pbkdf C pass salt rounds 64) w kp mp (sigPathOf mp x) r.
Proof. exact Sign_outcome. Qed.
Print Assumptions C84_sign.

Example C84_sign_instance : forall C,
  signing C (stored (sec_bytes (str "XX") 3 num2)) [Ok (str "pw")] = Err (EMsg (str "signify: unsupported KDF algorithm XX")) /\
  signing C (stored (sec_bytes (str "BK") 3 num2)) [Ok []] = Err (EMsg (str "bcrypt_pbkdf: empty password")) /\
  signing C (stored (sec_bytes (str "BK") 3 num2)) [] = Err ETty /\
  signing C (stored (str "EdBK")) [] = Err EOF /\
  signing C (stored (str "EdBK0")) [] = Err ErrUnexpectedEOF /\
  signing toy (stored (sec_bytes (str "BK") 3 num2)) [Ok (str "pw")] = Err (EMsg (str "signify: invalid private key checksum")) /\
  signing toy (stored (sec_bytes (str "XX") 0 num2)) [] = Ok tt.
Proof. exact example_sign. Qed.

(* Seal, when no system call fails *)
Theorem C84_seal : forall C pk mp ep w r, no_faults w -> enc_path mp ep <> mp ->
  (forall m, contents w mp m -> Z.of_nat (length m) < 2 ^ 63) ->
  fst (Seal C pk mp ep w) = r <-> seal_outcome w pk mp r.
Proof. exact Seal_outcome. Qed.
Print Assumptions C84_seal.

Example C84_seal_instance :
  sealing (stored (str "ABC")) (str "hello") [] = Err (EMsg (str "signify: invalid public key length 3")) /\
  sealing (stored (pub_bytes (str "Ed") num1)) [] [] = Ok tt /\
  sealing (stored (str "Ed" ++ num1 ++ x02 :: repeat x00 31)) (str "hello") (repeat x05 32) = Err (EMsg (str "signify: invalid public key")) /\
  sealing (pub_file toy_pub) (str "hello") (repeat x05 31) = Err ERand /\
  sealing (pub_file toy_pub) (str "hello") (repeat x05 32) = Ok tt.
Proof. exact example_seal. Qed.

(* Open, when no system call fails *)
Theorem C84_open : forall C sk ep mp w r, no_faults w -> ep <> mp ->
  fst (Open C sk ep mp w) = r <->
  open_outcome C (box_secret C) (fun pass salt rounds => pbkdf C pass salt rounds 64) w sk ep mp r.
Proof. exact Open_outcome. Qed.
Print Assumptions C84_open.

Example C84_open_instance :
  opening (str "no line end") = Err EOF /\
  opening (comment_text ++ str "!!!!") = Err (CorruptInput 0) /\
  opening comment_text = Err (EMsg (str "signify/crypto: couldn't read the full header (read 0)")) /\
  opening (comment_text ++ str "AAAA") = Err (EMsg (str "signify/crypto: couldn't read the full header (read 3)")) /\
  opening (sealed_file (flip_last (firstn 72 toy_body))) = Err (EMsg (str "signify/crypto: failed to authenticate the message header")) /\
  opening (sealed_file (firstn 72 toy_body)) = Err (EChunk 0) /\
  opening (sealed_file toy_body) = Ok tt.
Proof. exact example_open. Qed.

(* the command that signs *)
Theorem C84_command : forall C arg0 u ss args rest w n w', command_line ss args rest -> stops rest -> signs ss ->
  main C arg0 u args w = (n, w') ->
  let kp := or_default (string_value x73 ss) (defaultKeyBase u) (str ".sec") in
  let mp := string_value x6d ss in let sp := sigPathOf mp (string_value x78 ss) in
  kp <> [] -> mp <> [] -> forall o, sign_outcome (sha512 C) (fun pass salt rounds => pbkdf C pass salt rounds 64) w kp mp sp o ->
  match o with
  | Ok _ => n = 0
  | Err e => n = 1 /\ forall t, error_text e t ->
      exists pre, w_log w' = w_log w ++ pre ++ [EvErr (str "Signing " ++ mp ++ str " failed: " ++ t ++ [x0a])]
  | Panic => n = 2
  end.
Proof. exact main_sign_reports. Qed.
Print Assumptions C84_command.

Example C84_command_instance :
  command_line sign_flags sign_args [] /\ stops [] /\ signs sign_flags /\
  sign_outcome (sha512 toy) (fun pass salt r => pbkdf toy pass salt r 64) (two (stored (sec_bytes (str "XX") 3 num2)) [Ok (str "pw")])
    (str "k.sec") (str "m") (str "m.sig") (Err (EMsg (str "signify: unsupported KDF algorithm XX"))) /\
  fst (main toy (str "psignify") None sign_args (two (stored (sec_bytes (str "XX") 3 num2)) [Ok (str "pw")])) = 1 /\
  w_log (snd (main toy (str "psignify") None sign_args (two (stored (sec_bytes (str "XX") 3 num2)) [Ok (str "pw")]))) =
    [EvOut (str "Password: "); EvOut [x0a]; EvErr (str "Signing m failed: signify: unsupported KDF algorithm XX" ++ [x0a])].
Proof. exact example_command. Qed.

(* the numbers in the messages *)
Theorem C84_decimal : forall n t, 0 <= n -> decimal n = t <-> decimal_of n t.
Proof. exact decimal_iff. Qed.
Print Assumptions C84_decimal.

Example C84_decimal_instance : decimal_of 40 (str "40") /\ decimal_of 0 (str "0") /\ ~ decimal_of 4 (str "04").
Proof. exact example_decimal. Qed.
