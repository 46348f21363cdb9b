(* What the commands are to answer, in terms of the files they find. *)
From Verif Require Export SpecFlag SignFacts.
Local Open Scope Z_scope.

(* the command line asks for a verification *)
Definition verifies (ss : list setting) : Prop :=
  bool_value x47 ss = false /\ bool_value x53 ss = false /\ bool_value x56 ss = true.

(* pp, mp and sp can be read and hold a public key, a message and a signature of it by that key *)
Definition accepted (C : Crypto) (w : world) (pp mp sp : path) : Prop :=
  undisturbed 3 w /\
  exists pf m sf pk sg, contents w pp pf /\ contents w mp m /\ contents w sp sf /\
    readPublicKeyFile pf = Ok pk /\ readSignatureFile sf = Ok sg /\ acceptable C pk m sg.
(* pp, mp and sp can be read, pp holds a public key, and the payload of sp has less than ten bytes *)
Definition too_short (w : world) (pp mp sp : path) : Prop :=
  undisturbed 3 w /\
  exists pf m sf pk com d, contents w pp pf /\ contents w mp m /\ contents w sp sf /\
    readPublicKeyFile pf = Ok pk /\ readDataFileBytes sf = Ok (DataFile com d) /\ (length d < 10)%nat.

(* the command line that generates a key pair, without (-n) or with a passphrase; what has to be typed for the latter *)
Definition generate_args (np : bool) (k : bytes) : list bytes :=
  str "-G" :: (if np then [str "-n"] else []) ++ [str "-p"; k].
Definition generate_typed (np : bool) (pass : bytes) (tty rest : list (res bytes)) : Prop :=
  if np then pass = [] /\ tty = rest else tty = Ok pass :: Ok pass :: rest.
