(* When the command accepts, in terms of the texts of the three files. *)
From Verif Require Export SpecText SpecCmd.
Local Open Scope Z_scope.

(* the three files can be read: a key, a message and a signature of it *)
Definition finds_signature (verifies : bytes -> bytes -> bytes -> Prop) (w : world) (pp mp sp : path) : Prop :=
  undisturbed 3 w /\ exists pf m sf, contents w pp pf /\ contents w mp m /\ contents w sp sf /\ signature_text verifies pf m sf.
(* the three files can be read: 42 bytes, anything, and less than ten bytes *)
Definition finds_stub (w : world) (pp mp sp : path) : Prop :=
  undisturbed 3 w /\ exists pf m sf k d, contents w pp pf /\ contents w mp m /\ contents w sp sf /\
    holds pf k /\ length k = 42%nat /\ holds sf d /\ (length d < 10)%nat.
