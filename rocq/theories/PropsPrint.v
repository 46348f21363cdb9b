(* Property theorems: everything psignify prints, and its exit status (C85). *)
From Verif Require Import SpecPrint PrintFacts PrintExample.
Local Open Scope Z_scope.

(* a command line that can be read: the status and the texts are those of a session *)
Theorem C85_transcript : forall C arg0 u ss args rest w, LengthLaws C -> command_line ss args rest -> stops rest ->
  (mode ss x47 \/ mode ss x45 \/ mode ss x44 -> no_faults w) ->
  (mode ss x45 -> enc_path (string_value x6d ss) (string_value x63 ss) <> string_value x6d ss /\
     forall m, contents w (string_value x6d ss) m -> Z.of_nat (length m) < 2 ^ 63) ->
  (mode ss x44 -> string_value x63 ss <> string_value x6d ss) ->
  exists n w' t, main C arg0 u args w = (n, w') /\ session C (box_secret C) arg0 u ss w n t /\ prints w w' t.
Proof. exact main_prints. Qed.
Print Assumptions C85_transcript.

(* and no session ends with another status *)
Theorem C85_status : forall C arg0 u ss args rest w n t, LengthLaws C -> command_line ss args rest -> stops rest ->
  (mode ss x47 \/ mode ss x45 \/ mode ss x44 -> no_faults w) ->
  (mode ss x45 -> enc_path (string_value x6d ss) (string_value x63 ss) <> string_value x6d ss /\
     forall m, contents w (string_value x6d ss) m -> Z.of_nat (length m) < 2 ^ 63) ->
  (mode ss x44 -> string_value x63 ss <> string_value x6d ss) ->
  session C (box_secret C) arg0 u ss w n t -> fst (main C arg0 u args w) = n.
Proof. exact session_status. Qed.
Print Assumptions C85_status.

Example C85_transcript_instance :
  command_line gen_flags gen_args [] /\ stops [] /\ mode gen_flags x47 /\ no_faults (typed2 "a" "b") /\
  transcript gen_args (typed2 "a" "b") =
    (1, [EvOut (str "Password: "); EvOut [x0a]; EvOut (str "Confirm password: "); EvOut [x0a]; EvErr (line (str "passphrases don't match"))]) /\
  transcript gen_args (start [] [Ok (str "a")] []) =
    (1, [EvOut (str "Password: "); EvOut [x0a]; EvOut (str "Confirm password: "); EvErr (line (str "error"))]) /\
  transcript gen_args (start [] [Ok (str "a"); Ok (str "a")] (repeat x05 56)) =
    (0, [EvOut (str "Password: "); EvOut [x0a]; EvOut (str "Confirm password: "); EvOut [x0a]]) /\
  transcript [str "-G"; str "-n"; str "-p"; str "k"] (start [] [] (repeat x05 56)) = (0, []) /\
  transcript [str "-G"; str "-n"; str "-p"; str "k"] (start [] [] (repeat x05 55)) =
    (1, [EvErr (line (str "Failed to generate keypair: error"))]) /\
  transcript [str "-G"] (start [] [] []) = (1, [EvErr (line (str "Please provide the base name for the keypair."))]).
Proof. exact example_generate. Qed.

Example C85_transcript_others :
  transcript sign_args (two key_file [Ok (str "pw")]) =
    (1, [EvOut (str "Password: "); EvOut [x0a]; EvErr (line (str "Signing m failed: signify: invalid private key checksum"))]) /\
  transcript sign_args (two (stored (sec_bytes (str "XX") 0 num2)) []) = (0, []) /\
  transcript [str "-S"; str "-m"; str "m"] (two key_file []) = (1, [EvErr (line (str "Signing requires a message and private key."))]) /\
  transcript [str "-V"; str "-p"; str "p"; str "-m"; str "m"] (three (stored (str "ABC")) []) = (1, [EvErr (line (str "m: invalid signature"))]) /\
  transcript [str "-V"; str "-p"; str "p"; str "-m"; str "m"] (three (stored (pub_bytes (str "Ed") num1)) (stored (str "Ed"))) = (2, []) /\
  transcript [str "-E"; str "-p"; str "p"; str "-m"; str "m"] (start [(str "p", pub_file toy_pub); (str "m", str "hello")] [] (repeat x05 32)) =
    (0, [EvOut (line (str "m: OK"))]) /\
  transcript [str "-D"; str "-s"; str "k.sec"; str "-c"; str "e"; str "-m"; str "out"]
    (start [(str "k.sec", key_file); (str "e", str "c" ++ [x0a])] [Ok (str "pw")] []) =
    (1, [EvOut (str "Password: "); EvOut [x0a]; EvErr (line (str "signify: invalid private key checksum"))]) /\
  transcript [str "-D"; str "-s"; str "k.sec"; str "-c"; str "e"; str "-m"; str "out"]
    (start [(str "k.sec", key_file); (str "e", str "c")] [Ok (str "pw")] []) = (1, [EvErr (line (str "EOF"))]) /\
  transcript [] (start [] [] []) = (1, [EvErr (usage (str "psignify"))]).
Proof. exact example_others. Qed.

(* a command line that cannot be read *)
Theorem C85_complaint : forall C arg0 u ss args rest w, command_line ss args rest -> malformed rest ->
  exists w' t, main C arg0 u args w = (0, w') /\ complaint rest t /\ prints w w' (t ++ [EvOut (usage arg0)]).
Proof. exact main_complains. Qed.
Print Assumptions C85_complaint.

Example C85_complaint_instance :
  command_line [] [str "-q"] [str "-q"] /\ malformed [str "-q"] /\
  transcript [str "-q"] (start [] [] []) = (0, [EvErr (line (str "flag provided but not defined: -q")); EvOut (usage (str "psignify"))]) /\
  transcript [str "-h"] (start [] [] []) = (0, [EvOut (usage (str "psignify"))]) /\
  transcript [str "-G"; str "-n=yes"] (start [] [] []) =
    (0, [EvErr (line (str "invalid boolean value ""yes"" for -n: parse error")); EvOut (usage (str "psignify"))]) /\
  transcript [str "-p"] (start [] [] []) = (0, [EvErr (line (str "flag needs an argument: -p")); EvOut (usage (str "psignify"))]) /\
  transcript [str "-=x"] (start [] [] []) = (0, [EvErr (line (str "bad flag syntax: -=x")); EvOut (usage (str "psignify"))]).
Proof. exact example_complaints. Qed.
(* the value of a flag that is not a boolean, shown with its end of line, quote and control character escaped *)
Example C85_quoted_instance : let v := str "a""" ++ [x0a; x01; x5c] in
  quoted v (str "a\""\n\x01\\") /\
  transcript [str "-n=" ++ v] (start [] [] []) =
    (0, [EvErr (line (str "invalid boolean value ""a\""\n\x01\\"" for -n: parse error")); EvOut (usage (str "psignify"))]).
Proof. exact example_quoted. Qed.

(* the library's operations by themselves: which of them print *)
Theorem C85_operations : forall C,
  (forall pp mp x w, prints w (snd (Verify C pp mp x w)) []) /\
  (forall pk mp ep w, prints w (snd (Seal C pk mp ep w)) []) /\
  (forall k pass opts w, prints w (snd (GenerateKey C k pass opts w)) []) /\
  (forall kp mp x w, exists t, sign_asks w kp t /\ prints w (snd (Sign C kp mp x w)) t) /\
  (forall sk ep mp w, no_faults w -> exists t, open_asks (sha512 C) w sk ep mp t /\ prints w (snd (Open C sk ep mp w)) t).
Proof. exact operations_print. Qed.
Print Assumptions C85_operations.

(* what GenerateKey returns *)
Theorem C85_generate : forall C k pass opts w r, LengthLaws C -> no_faults w ->
  fst (GenerateKey C k pass opts w) = r <-> generate_outcome w pass (match opts with Some n => n | None => 42 end) r.
Proof. exact GenerateKey_outcome. Qed.
Print Assumptions C85_generate.

Example C85_generate_instance : forall w, (56 <= length (w_rng w))%nat ->
  generate_outcome w (str "pw") 4294967296 (Err (EMsg (str "bcrypt_pbkdf: number of rounds is too small"))).
Proof. exact example_rounds. Qed.
