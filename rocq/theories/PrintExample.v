(* Concrete transcripts for PropsPrint.v. *)
From Verif Require Export PrintFacts ReportExample.
Local Open Scope Z_scope.

(* the status and everything printed *)
Definition transcript (args : list bytes) (w : world) : Z * list event :=
  let '(n, w') := main toy (str "psignify") None args w in (n, texts (w_log w')).
Lemma start_log files tty rng : w_log (start files tty rng) = [].
Proof. reflexivity. Qed.

Definition gen_flags : list setting := [SetB x47 true; SetS x70 (str "k")].
Definition gen_args : list bytes := [str "-G"; str "-p"; str "k"].
Definition typed2 (a b : string) : world := start [] [Ok (str a); Ok (str b)] (repeat x05 56).

Lemma example_generate :
  command_line gen_flags gen_args [] /\ stops [] /\ mode gen_flags x47 /\ no_faults (typed2 "a" "b") /\
  transcript gen_args (typed2 "a" "b") =
    (1, [EvOut (str "Password: "); EvOut [x0a]; EvOut (str "Confirm password: "); EvOut [x0a]; EvErr (line (str "passphrases don't match"))]) /\
  transcript gen_args (start [] [Ok (str "a")] []) =
    (1, [EvOut (str "Password: "); EvOut [x0a]; EvOut (str "Confirm password: "); EvErr (line (str "error"))]) /\
  transcript gen_args (start [] [Ok (str "a"); Ok (str "a")] (repeat x05 56)) =
    (0, [EvOut (str "Password: "); EvOut [x0a]; EvOut (str "Confirm password: "); EvOut [x0a]]) /\
  transcript [str "-G"; str "-n"; str "-p"; str "k"] (start [] [] (repeat x05 56)) = (0, []) /\
  transcript [str "-G"; str "-n"; str "-p"; str "k"] (start [] [] (repeat x05 55)) =
    (1, [EvErr (line (str "Failed to generate keypair: error"))]) /\
  transcript [str "-G"] (start [] [] []) = (1, [EvErr (line (str "Please provide the base name for the keypair."))]).
Proof.
  split; [exists ([[str "-G"]; [str "-p"; str "k"]]); split; [repeat constructor; flag|reflexivity]|].
  split; [constructor|]. split; [apply mode_G; reflexivity|]. split; [reflexivity|].
  do 5 (split; [vm_compute; reflexivity|]). vm_compute. reflexivity.
Qed.

Definition key_file : bytes := stored (sec_bytes (str "BK") 3 num2).
Lemma example_others :
  transcript sign_args (two key_file [Ok (str "pw")]) =
    (1, [EvOut (str "Password: "); EvOut [x0a]; EvErr (line (str "Signing m failed: signify: invalid private key checksum"))]) /\
  transcript sign_args (two (stored (sec_bytes (str "XX") 0 num2)) []) = (0, []) /\
  transcript [str "-S"; str "-m"; str "m"] (two key_file []) = (1, [EvErr (line (str "Signing requires a message and private key."))]) /\
  transcript [str "-V"; str "-p"; str "p"; str "-m"; str "m"] (three (stored (str "ABC")) []) = (1, [EvErr (line (str "m: invalid signature"))]) /\
  transcript [str "-V"; str "-p"; str "p"; str "-m"; str "m"] (three (stored (pub_bytes (str "Ed") num1)) (stored (str "Ed"))) = (2, []) /\
  transcript [str "-E"; str "-p"; str "p"; str "-m"; str "m"] (start [(str "p", pub_file toy_pub); (str "m", str "hello")] [] (repeat x05 32)) =
    (0, [EvOut (line (str "m: OK"))]) /\
  transcript [str "-D"; str "-s"; str "k.sec"; str "-c"; str "e"; str "-m"; str "out"]
    (start [(str "k.sec", key_file); (str "e", str "c" ++ [x0a])] [Ok (str "pw")] []) =
    (1, [EvOut (str "Password: "); EvOut [x0a]; EvErr (line (str "signify: invalid private key checksum"))]) /\
  transcript [str "-D"; str "-s"; str "k.sec"; str "-c"; str "e"; str "-m"; str "out"]
    (start [(str "k.sec", key_file); (str "e", str "c")] [Ok (str "pw")] []) = (1, [EvErr (line (str "EOF"))]) /\
  transcript [] (start [] [] []) = (1, [EvErr (usage (str "psignify"))]).
Proof. do 8 (split; [vm_compute; reflexivity|]). vm_compute. reflexivity. Qed.

Lemma example_complaints :
  command_line [] [str "-q"] [str "-q"] /\ malformed [str "-q"] /\
  transcript [str "-q"] (start [] [] []) = (0, [EvErr (line (str "flag provided but not defined: -q")); EvOut (usage (str "psignify"))]) /\
  transcript [str "-h"] (start [] [] []) = (0, [EvOut (usage (str "psignify"))]) /\
  transcript [str "-G"; str "-n=yes"] (start [] [] []) =
    (0, [EvErr (line (str "invalid boolean value ""yes"" for -n: parse error")); EvOut (usage (str "psignify"))]) /\
  transcript [str "-p"] (start [] [] []) = (0, [EvErr (line (str "flag needs an argument: -p")); EvOut (usage (str "psignify"))]) /\
  transcript [str "-=x"] (start [] [] []) = (0, [EvErr (line (str "bad flag syntax: -=x")); EvOut (usage (str "psignify"))]).
Proof.
  split; [exists []; split; [constructor|reflexivity]|].
  split. { apply (mal_unknown (str "-") (str "q") (str "q") None []); try discriminate; [left; reflexivity|intro r; split; discriminate| |].
    - apply names_bare. cbn. intros [].
    - intros c E. injection E as <-. split; unfold string_flag, bool_flag; cbn; intuition discriminate. }
  do 4 (split; [vm_compute; reflexivity|]). vm_compute. reflexivity.
Qed.

Lemma example_rounds : forall w, (56 <= length (w_rng w))%nat ->
  generate_outcome w (str "pw") 4294967296 (Err (EMsg (str "bcrypt_pbkdf: number of rounds is too small"))).
Proof. intros w L. apply GRounds; [exact L|discriminate|reflexivity]. Qed.
Lemma example_quoted : let v := str "a""" ++ [x0a; x01; x5c] in
  quoted v (str "a\""\n\x01\\") /\
  transcript [str "-n=" ++ v] (start [] [] []) =
    (0, [EvErr (line (str "invalid boolean value ""a\""\n\x01\\"" for -n: parse error")); EvOut (usage (str "psignify"))]).
Proof.
  split; [|vm_compute; reflexivity]. apply (quote_text (str "a""" ++ [x0a; x01; x5c])).
  intros b H. cbn in H. repeat destruct H as [<- | H]; try contradiction; vm_compute; discriminate.
Qed.
