(* Ed25519 signing with a private key (seed, X) whose second half X need not be the public key,
   and what two such signatures give away. *)
From Verif Require Export SpecFmt SpecEd25519 NumTheory.
Local Open Scope Z_scope.

(* the challenge H(R || X || M) as a number *)
Definition challenge (hash : bytes -> bytes) (R X m : bytes) : Z := le_val (hash (R ++ X ++ m)).

Definition Ed25519_sign_with (hash : bytes -> bytes) (seed X m : bytes) : bytes :=
  let s := rfc_scalar (firstn 32 (hash seed)) in
  let r := le_val (hash (skipn 32 (hash seed) ++ m)) in
  let R := point_bytes (zmul r pB) in
  R ++ le_bytes 32 ((r + challenge hash R X m * s) mod ell).

(* computed from two signatures of m that share R, made with X and with X': (S - S') / (h - h') *)
Definition recovered (hash : bytes -> bytes) (X X' m sg sg' : bytes) : Z :=
  let R := firstn 32 sg in
  let d := (challenge hash R X m - challenge hash R X' m) mod ell in
  ((le_val (skipn 32 sg) - le_val (skipn 32 sg')) * powm d (ell - 2) ell) mod ell.

(* a signature of m made with the number a alone, for any r *)
Definition forged (hash : bytes -> bytes) (pub : bytes) (a r : Z) (m : bytes) : bytes :=
  let R := point_bytes (zmul r pB) in
  R ++ le_bytes 32 ((r + challenge hash R pub m * a) mod ell).

(* the second half of a key file cut after j groups, as read: what is left of it, then zeros *)
Definition rest_of (j : nat) (A : bytes) : bytes := zero_extend 32 (firstn (3 * j - 72) A).

(* the name written into signatures made with the key at path k has no newline and fits on a line *)
Definition plain_pub_name (k : bytes) : Prop := exists n, pub_name k n /\ lf_free n /\ Z.of_nat (length n) <= 65000.
