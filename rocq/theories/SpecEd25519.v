(* Ed25519 signatures (RFC 8032, sections 5.1.6 and 5.1.7), over the group of
   SpecCurve and any hash function; independent of the code. *)
From Verif Require Export SpecX25519 SpecScalar.
Local Open Scope Z_scope.

(* 5.1.6: s and prefix from the hash of the seed; r = H(prefix || M);
   R = [r]B; k = H(R || A || M); S = (r + k s) mod L; signature R || S *)
Definition Ed25519_sign (hash : bytes -> bytes) (seed m : bytes) : bytes :=
  let s := rfc_scalar (firstn 32 (hash seed)) in
  let r := le_val (hash (skipn 32 (hash seed) ++ m)) in
  let R := point_bytes (zmul r pB) in
  let k := le_val (hash (R ++ Ed25519_public hash seed ++ m)) in
  R ++ le_bytes 32 ((r + k * s) mod ell).

(* 5.1.3: the point a 32-byte string stands for.  Two leniencies: y may be given
   unreduced, and the sign bit is ignored if x = 0. *)
Definition point_of (s : bytes) (P : point) : Prop :=
  length s = 32%nat /\ on P /\ snd P = enc_y s /\ (fst P <> F0 -> parity (fst P) = enc_sign s).

(* 5.1.7: S below L, and the group equation without the cofactor,
   [S]B = R + [k]A, for an R given by its canonical encoding; k reduced modulo L *)
Definition Ed25519_accepts (hash : bytes -> bytes) (pub m sig : bytes) : Prop :=
  length sig = 64%nat /\ le_val (skipn 32 sig) < ell /\
  exists A R, point_of pub A /\ on R /\ firstn 32 sig = point_bytes R /\
    zmul (le_val (skipn 32 sig)) pB = padd R (zmul (le_val (hash (firstn 32 sig ++ pub ++ m)) mod ell) A).
