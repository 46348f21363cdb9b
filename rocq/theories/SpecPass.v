(* What a passphrase changes in the files of a key pair. *)
From Verif Require Export SpecText SignFacts.
Local Open Scope Z_scope.

(* the file at p holds the bytes d *)
Definition file_holds (w : world) (p : path) (d : bytes) : Prop := exists f, contents w p f /\ holds f d.

(* the fields of a secret key file: r is what the passphrase was mixed with how often, x the mixed key;
   the rest does not tell whether there is a passphrase *)
Definition secret_parts (d r common x : bytes) : Prop :=
  d = str "EdBK" ++ r ++ common ++ x /\ length r = 4%nat /\ length common = 32%nat /\ length x = 64%nat.

(* the random bytes key generation takes are the same *)
Definition same_draw (w1 w2 : world) : Prop := firstn 56 (w_rng w1) = firstn 56 (w_rng w2).
(* what is typed when a key with the passphrase pass is used *)
Definition typed (pass : bytes) (w : world) : Prop := pass <> [] -> exists tl, w_tty w = Ok pass :: tl.
