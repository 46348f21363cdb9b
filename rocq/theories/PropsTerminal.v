(* Property theorems: what psignify finds wrong by itself, and what of foreign files reaches
   the terminal (C95). *)
From Verif Require Import MemWitness CallExample PrintExample CmdCallEnds TerminalFacts.
From Verif Require Import SpecTerminal.
Local Open Scope Z_scope.

(* every error an operation returns was answered by a call about one of its files (or about
   random bytes, descriptors and the terminal), or is one of the operation's own *)
Theorem C95_verify : forall C O A k m s h e, errors_in (fun p => In p [k; m; sigPathOf m s]) O A ->
  fst (Verify_os C O k m s h) = Err e -> A e \/ verify_error e.
Proof. exact verify_finds. Qed.
Print Assumptions C95_verify.

Theorem C95_sign : forall C O A k m s h e, errors_in (fun p => In p [k; m; sigPathOf m s]) O A ->
  fst (Sign_os C O k m s h) = Err e -> A e \/ sign_error e.
Proof. exact sign_finds. Qed.
Print Assumptions C95_sign.

(* making a key pair with the default options finds nothing wrong by itself *)
Theorem C95_generate : forall C O A k pass h e, rand_rules O ->
  errors_in (fun p => In p [k ++ str ".sec"; k ++ str ".pub"]) O A ->
  fst (GenerateKey_os C O k pass None h) = Err e -> A e.
Proof. exact generate_finds. Qed.
Print Assumptions C95_generate.

Theorem C95_seal : forall C O A k m c h e, file_rules O -> rand_rules O ->
  errors_in (fun p => In p [k; m; enc_path m c]) O A ->
  fst (Seal_os C O k m c h) = Err e -> A e \/ seal_error e.
Proof. exact seal_finds. Qed.
Print Assumptions C95_seal.

Theorem C95_open : forall C O A fuel k c m h e, errors_in (fun p => In p [k; c; m]) O A ->
  fst (Open_os C O fuel k c m h) = Err e -> A e \/ open_error e.
Proof. exact open_finds. Qed.
Print Assumptions C95_open.

Example C95_instance :
  fst (Verify_os toy (small_os key_files 5 [] never) (str "k.pub") (str "m") (str "m") []) = Err (CorruptInput 4) /\
  fst (Sign_os toy (small_os odd_files 5 [] never) (str "o.sec") (str "m") [] []) = Err (EMsg (kdf_message x1b x63)) /\
  fst (Sign_os toy (small_os key_files 5 [] never) (str "k.pub") (str "m") [] []) = Err (EMsg (kdf_message x13 x13)) /\
  fst (Seal_os toy (small_os key_files 5 [] never) (str "k.sec") (str "m") [] []) = Err (EMsg (str "signify: invalid public key length 104")) /\
  fst (Open_os toy (small_os key_files 5 (map (fun x => [x]) (str "abc" ++ [x0a] ++ str "AAAA")) never) (fun _ => 1000%nat) (str "k.sec") (str "c") (str "m") []) =
    Err (EMsg (str "signify/crypto: couldn't read the full header (read 3)")).
Proof. exact example_found. Qed.

(* the program: on standard output nothing of any file is shown, ... *)
Theorem C95_stdout : forall C O fuel arg0 u args n e h, LengthLaws C -> BoxTidy C -> rand_rules O -> file_rules O ->
  tame arg0 -> Forall tame args -> main_os C O fuel arg0 u args = (n, e, h) -> tame (on_stdout h).
Proof. exact stdout_tame. Qed.
Print Assumptions C95_stdout.

(* ... and on standard error only printable text, but for two bytes of a secret key file that -S or -D refuses *)
Theorem C95_stderr : forall C O fuel arg0 u args n e h, rand_rules O -> file_rules O ->
  tame arg0 -> Forall tame args -> tame_user u -> tame_errors O -> main_os C O fuel arg0 u args = (n, e, h) ->
  tame e \/ exists ss rest p a b, command_line ss args rest /\ stops rest /\ (mode ss x53 \/ mode ss x44) /\
    tame p /\ [a; b] <> str "BK" /\ e = line (p ++ kdf_message a b).
Proof. exact stderr_tame. Qed.
Print Assumptions C95_stderr.

Example C95_tame : forall fs size ps, tame_errors (small_os fs size ps never).
Proof. intros. apply small_tame. discriminate. Qed.

(* that exception occurs: a secret key file can make -S send an escape sequence to the terminal *)
Theorem C95_escape_refuted : exists n e h, LengthLaws toy /\ BoxTidy toy /\
  rand_rules (small_os odd_files 5 [str "hello"] never) /\ file_rules (small_os odd_files 5 [str "hello"] never) /\
  tame_errors (small_os odd_files 5 [str "hello"] never) /\
  main_os toy (small_os odd_files 5 [str "hello"] never) (fun _ => 1000%nat) (str "psignify") None
    [str "-S"; str "-s"; str "o.sec"; str "-m"; str "m"] = (n, e, h) /\
  tame (str "psignify") /\ Forall tame [str "-S"; str "-s"; str "o.sec"; str "-m"; str "m"] /\
  n = 1 /\ e = line (str "Signing m failed: signify: unsupported KDF algorithm " ++ [x1b; x63]) /\ ~ tame e.
Proof. exact odd_escape. Qed.
Print Assumptions C95_escape_refuted.
