(* Property theorems for whole runs of the command (C72-C74). *)
From Verif Require Import SpecCmd CmdFacts SignWitness SealWitness RealCrypto.
Local Open Scope Z_scope.

(* C72.  A run ends with status 0, 1 or 2; with 2, a crash of the program, exactly when it is asked to verify
   and finds a signature file whose payload has less than ten bytes beside a readable key and message. *)
Theorem C72_status : forall C arg0 u args w n w', ~ In Panic (w_tty w) -> main C arg0 u args w = (n, w') ->
  (n = 0 \/ n = 1 \/ n = 2) /\
  (n = 2 <-> exists ss rest, command_line ss args rest /\ stops rest /\ verifies ss /\
     too_short w (or_default (string_value x70 ss) (defaultKeyBase u) (str ".pub")) (string_value x6d ss)
       (sigPathOf (string_value x6d ss) (string_value x78 ss))).
Proof. exact main_status_exact. Qed.
Print Assumptions C72_status.

Definition w_short : world :=
  start [(str "k.pub", pub_file (Pub (str "Ed") (repeat x01 8) (repeat x02 32))); (str "m", str "hello");
         (str "m.sig", str "untrusted comment: x" ++ [x0a] ++ str "RWQAAAAAAAAA" ++ [x0a])] [] [].
Example C72_crash : fst (main toy [] None [str "-V"; str "-p"; str "k.pub"; str "-m"; str "m"] w_short) = 2 /\
  too_short w_short (str "k.pub") (str "m") (str "m.sig").
Proof.
  split; [vm_compute; reflexivity|]. split; [constructor|].
  exists (pub_file (Pub (str "Ed") (repeat x01 8) (repeat x02 32))), (str "hello"),
    (str "untrusted comment: x" ++ [x0a] ++ str "RWQAAAAAAAAA" ++ [x0a]), (Pub (str "Ed") (repeat x01 8) (repeat x02 32)).
  do 2 eexists. do 3 (split; [exists 420; reflexivity|]). split; [vm_compute; reflexivity|].
  split; [vm_compute; reflexivity|]. cbn. lia.
Qed.

Theorem C72_sign : forall C k mp s w, ~ In Panic (w_tty w) -> fst (Sign C k mp s w) <> Panic.
Proof. exact Sign_no_panic. Qed.
Print Assumptions C72_sign.

Theorem C72_seal : forall C pk mp ep w, fst (Seal C pk mp ep w) <> Panic.
Proof. exact Seal_no_panic. Qed.
Print Assumptions C72_seal.

Theorem C72_open : forall C sk ep mp w, ~ In Panic (w_tty w) -> fst (Open C sk ep mp w) <> Panic.
Proof. exact Open_no_panic. Qed.
Print Assumptions C72_open.

Example C72_instance : ~ In Panic (w_tty w_run1) /\ w_tty w_run1 <> [].
Proof. split; [|discriminate]. intros [X|[]]. discriminate X. Qed.

(* C73 *)
Theorem C73_answer : forall C arg0 u ss args rest w n w', command_line ss args rest -> stops rest -> verifies ss ->
  main C arg0 u args w = (n, w') ->
  let pp := or_default (string_value x70 ss) (defaultKeyBase u) (str ".pub") in
  let mp := string_value x6d ss in let sp := sigPathOf mp (string_value x78 ss) in
  w_fs w' = w_fs w /\ w_rng w' = w_rng w /\ w_tty w' = w_tty w /\
  (n = 0 /\ accepted C w pp mp sp /\ w_log w' = w_log w ++ [EvOut (mp ++ str ": OK" ++ [x0a])] \/
   n = 1 /\ ~ accepted C w pp mp sp /\ ~ too_short w pp mp sp /\ w_log w' = w_log w ++ [EvErr (mp ++ str ": invalid signature" ++ [x0a])] \/
   n = 2 /\ too_short w pp mp sp /\ w_log w' = w_log w).
Proof. exact main_verify_exact. Qed.
Print Assumptions C73_answer.

(* "-V -mmsg -p k.pub" is no command line, "-V -m=msg -p k.pub x -G" is one that asks for a verification *)
Example C73_instance : command_line [SetB x56 true; SetS x6d (str "msg"); SetS x70 (str "k.pub")]
    [str "-V"; str "-m=msg"; str "-p"; str "k.pub"; str "x"; str "-G"] [str "x"; str "-G"] /\
  stops [str "x"; str "-G"] /\ verifies [SetB x56 true; SetS x6d (str "msg"); SetS x70 (str "k.pub")].
Proof. exact verify_line_example. Qed.

(* C74 *)
Theorem C74_sign : forall C arg0 u np k pass t mp m n w, LengthLaws C -> EdCorrect C -> k <> [] ->
  generate_typed np pass (w_tty w) t -> (pass <> [] -> exists t', t = Ok pass :: t') ->
  no_faults w -> (56 <= length (w_rng w))%nat ->
  contents w mp m -> mp <> [] -> mp <> k ++ str ".sec" -> mp <> k ++ str ".pub" -> mp ++ str ".sig" <> k ++ str ".pub" ->
  last_component (k ++ str ".pub") n -> lf_free n -> Z.of_nat (length n) <= 65000 ->
  exists w1 w2 w3,
    main C arg0 u (generate_args np k) w = (0, w1) /\
    main C arg0 u [str "-S"; str "-s"; k ++ str ".sec"; str "-m"; mp] w1 = (0, w2) /\
    main C arg0 u [str "-V"; str "-p"; k ++ str ".pub"; str "-m"; mp] w2 = (0, w3) /\
    w_log w3 = w_log w2 ++ [EvOut (mp ++ str ": OK" ++ [x0a])].
Proof. exact session_sign. Qed.
Print Assumptions C74_sign.

Theorem C74_seal : forall C arg0 u np k pass t mp m ep out w,
  LengthLaws C -> BoxTidy C -> BoxCorrect C -> DHCorrect C -> ToBoxAgree C ->
  k <> [] -> generate_typed np pass (w_tty w) t -> (pass <> [] -> exists t', t = Ok pass :: t') -> not_mistaken C pass None (w_rng w) ->
  no_faults w -> (88 <= length (w_rng w))%nat ->
  contents w mp m -> m <> [] -> Z.of_nat (length m) < 2 ^ 63 -> mp <> k ++ str ".sec" -> mp <> k ++ str ".pub" ->
  ep <> [] -> ep <> mp -> ep <> k ++ str ".sec" -> out <> [] -> out <> ep ->
  exists w1 w2 w3,
    main C arg0 u (generate_args np k) w = (0, w1) /\
    main C arg0 u [str "-E"; str "-p"; k ++ str ".pub"; str "-m"; mp; str "-c"; ep] w1 = (0, w2) /\
    main C arg0 u [str "-D"; str "-s"; k ++ str ".sec"; str "-c"; ep; str "-m"; out] w2 = (0, w3) /\
    contents w3 out m.
Proof. exact session_seal. Qed.
Print Assumptions C74_seal.

(* with the primitives of C71 *)
Theorem C74_sign_real : forall arg0 u np k pass t mp m n w, k <> [] ->
  generate_typed np pass (w_tty w) t -> (pass <> [] -> exists t', t = Ok pass :: t') ->
  no_faults w -> (56 <= length (w_rng w))%nat ->
  contents w mp m -> mp <> [] -> mp <> k ++ str ".sec" -> mp <> k ++ str ".pub" -> mp ++ str ".sig" <> k ++ str ".pub" ->
  last_component (k ++ str ".pub") n -> lf_free n -> Z.of_nat (length n) <= 65000 ->
  exists w1 w2 w3,
    main real arg0 u (generate_args np k) w = (0, w1) /\
    main real arg0 u [str "-S"; str "-s"; k ++ str ".sec"; str "-m"; mp] w1 = (0, w2) /\
    main real arg0 u [str "-V"; str "-p"; k ++ str ".pub"; str "-m"; mp] w2 = (0, w3) /\
    w_log w3 = w_log w2 ++ [EvOut (mp ++ str ": OK" ++ [x0a])].
Proof. exact (fun arg0 u np k pass t mp m n w => session_sign real arg0 u np k pass t mp m n w real_lengths real_correct). Qed.
Print Assumptions C74_sign_real.

Theorem C74_seal_real : forall arg0 u np k pass t mp m ep out w,
  k <> [] -> generate_typed np pass (w_tty w) t -> (pass <> [] -> exists t', t = Ok pass :: t') -> not_mistaken real pass None (w_rng w) ->
  no_faults w -> (88 <= length (w_rng w))%nat ->
  contents w mp m -> m <> [] -> Z.of_nat (length m) < 2 ^ 63 -> mp <> k ++ str ".sec" -> mp <> k ++ str ".pub" ->
  ep <> [] -> ep <> mp -> ep <> k ++ str ".sec" -> out <> [] -> out <> ep ->
  exists w1 w2 w3,
    main real arg0 u (generate_args np k) w = (0, w1) /\
    main real arg0 u [str "-E"; str "-p"; k ++ str ".pub"; str "-m"; mp; str "-c"; ep] w1 = (0, w2) /\
    main real arg0 u [str "-D"; str "-s"; k ++ str ".sec"; str "-c"; ep; str "-m"; out] w2 = (0, w3) /\
    contents w3 out m.
Proof. exact (fun arg0 u np k pass t mp m ep out w => session_seal real arg0 u np k pass t mp m ep out w real_lengths real_tidy real_box real_dh real_agree). Qed.
Print Assumptions C74_seal_real.

Example C74_instance : generate_typed false (str "pw") [Ok (str "pw"); Ok (str "pw"); Ok (str "pw")] [Ok (str "pw")] /\
  exists w, w_tty w = [Ok (str "pw"); Ok (str "pw"); Ok (str "pw")] /\ no_faults w /\ (88 <= length (w_rng w))%nat /\
    contents w (str "m") (str "attack at dawn") /\ not_mistaken toy (str "pw") None (w_rng w) /\
    last_component (str "dir/k" ++ str ".pub") (str "k.pub").
Proof.
  split; [reflexivity|]. exists (start [(str "m", str "attack at dawn")] [Ok (str "pw"); Ok (str "pw"); Ok (str "pw")] (repeat x05 100)).
  split; [reflexivity|]. split; [reflexivity|]. split; [vm_compute; lia|]. split; [exists 420; reflexivity|].
  split; [intros _; vm_compute; discriminate|]. split; [vm_compute; intuition discriminate|].
  exists (str "dir/"). split; [reflexivity|]. right. exists (str "dir"). reflexivity.
Qed.
