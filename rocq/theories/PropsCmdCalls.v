(* Property theorems: psignify over an arbitrary operating system (C91). *)
From Verif Require Import SpecCmdCalls CallExample PrintExample MemWitness CmdCallFacts CmdCallEnds.
From Verif Require Import SpecCalls.
Local Open Scope Z_scope.

(* a command line that can be read: status, standard error and all calls *)
Theorem C91_session : forall C O fuel arg0 u ss args rest n e h, LengthLaws C -> BoxTidy C -> rand_rules O -> file_rules O ->
  command_line ss args rest -> stops rest -> main_os C O fuel arg0 u args = (n, e, h) -> run_of C O arg0 u ss n e h.
Proof. exact main_runs. Qed.
Print Assumptions C91_session.

(* -V exits with status 0 exactly when the three files read in this run hold a valid signature *)
Theorem C91_verified : forall C O fuel arg0 u ss args rest n e h, LengthLaws C -> BoxTidy C -> rand_rules O -> file_rules O ->
  command_line ss args rest -> stops rest -> main_os C O fuel arg0 u args = (n, e, h) -> mode ss x56 ->
  let k := or_default (string_value x70 ss) (defaultKeyBase u) (str ".pub") in
  let m := string_value x6d ss in
  let s := sigPathOf m (string_value x78 ss) in
  let accepted := exists pf mf sf, answered O [SReadFile k (inl pf); SReadFile m (inl mf); SReadFile s (inl sf)] /\
    signature_text (fun k m s => ed_verify C k m s = true) pf mf sf /\
    h = [SReadFile k (inl pf); SReadFile m (inl mf); SReadFile s (inl sf); SOut (line (m ++ str ": OK"))] in
  (n = 0 <-> accepted) /\ (n = 0 /\ e = [] \/ n = 1 /\ e = line (m ++ str ": invalid signature") \/ n = 2 /\ e = []).
Proof. exact main_verified. Qed.
Print Assumptions C91_verified.

(* a run that prints "...: OK" has succeeded, and was asked to verify, encrypt or decrypt that file *)
Theorem C91_ok : forall C O fuel arg0 u ss args rest n e h x, LengthLaws C -> BoxTidy C -> rand_rules O -> file_rules O ->
  command_line ss args rest -> stops rest -> main_os C O fuel arg0 u args = (n, e, h) ->
  In (SOut (line (x ++ str ": OK"))) h ->
  n = 0 /\ e = [] /\ (mode ss x56 /\ x = string_value x6d ss \/ mode ss x45 /\ x = string_value x6d ss \/ mode ss x44 /\ x = string_value x63 ss).
Proof. exact main_ok. Qed.
Print Assumptions C91_ok.

(* a command line that cannot be read *)
Theorem C91_complaint : forall C O fuel arg0 u ss args rest, command_line ss args rest -> malformed rest ->
  exists e, main_os C O fuel arg0 u args = (0, e, [SOut (usage arg0)]) /\ (complaint rest [EvErr e] \/ e = [] /\ complaint rest []).
Proof. exact main_complaint. Qed.
Print Assumptions C91_complaint.

Example C91_instance :
  LengthLaws toy /\ BoxTidy toy /\ command_line verify_flags verify_args [] /\ stops [] /\ mode verify_flags x56 /\
  small_main ((str "m.sig", m_sig) :: key_files) never verify_args =
    (0, [], [SReadFile (str "k.pub") (inl (pub_file toy_pub)); SReadFile (str "m") (inl (str "hello")); SReadFile (str "m.sig") (inl m_sig);
             SOut (line (str "m: OK"))]) /\
  small_main key_files never verify_args =
    (1, line (str "m: invalid signature"),
     [SReadFile (str "k.pub") (inl (pub_file toy_pub)); SReadFile (str "m") (inl (str "hello")); SReadFile (str "m.sig") (inr (ENotExist (str "m.sig")))]) /\
  fst (generated never) = (0, []) /\ firstn 6 (snd (generated never)) = typed_twice (str "right") (str "right") /\
  length (snd (generated never)) = 11%nat /\
  fst (generated (fail_at 0)) = (1, line (str "Failed to generate keypair: error")) /\ length (snd (generated (fail_at 0))) = 10%nat /\
  fst (small_main key_files never [str "-S"; str "-s"; str "l.sec"; str "-m"; str "m"]) = (0, []) /\
  fst (small_main key_files (fail_at 0) [str "-S"; str "-s"; str "l.sec"; str "-m"; str "m"]) = (1, line (str "Signing m failed: error")) /\
  small_main [] never [str "-q"] = (0, line (str "flag provided but not defined: -q"), [SOut (usage (str "psignify"))]).
Proof. exact example_runs. Qed.
Example C91_systems : forall fs size ps fails, rand_rules (small_os fs size ps fails) /\ file_rules (small_os fs size ps fails).
Proof. intros. split; [apply small_rand|apply small_rules]. Qed.
