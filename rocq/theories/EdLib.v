(* Sign and Verify of golang.org/x/crypto/ed25519 (ed25519.go, the version before
   the package became a wrapper of crypto/ed25519), composed from the routines of
   its internal/edwards25519, of which signify/internal/edwards25519 is a copy.  The
   library is not part of the repository: this file only shows what the modelled
   routines are for.  Arguments of the wrong length (a panic in the library) are not
   modelled; hash is SHA-512. *)
From Verif Require Export ScalarRed Keys.
Local Open Scope Z_scope.

(* expandedSecretKey: digest[0] &= 248, digest[31] &= 63, digest[31] |= 64 *)
Definition expanded (digest : bytes) : bytes :=
  let d := firstn 32 digest in
  z2b (Z.land (byte_at d 0) 248) :: firstn 30 (skipn 1 d) ++ [z2b (Z.lor (Z.land (byte_at d 31) 63) 64)].

(* NewKeyFromSeed *)
Definition lib_Public (hash : bytes -> bytes) (seed : bytes) : bytes :=
  e_to_bytes (GeScalarMultBase (expanded (hash seed))).

Definition lib_Sign (hash : bytes -> bytes) (privateKey m : bytes) : bytes :=
  let digest1 := hash (firstn 32 privateKey) in
  let messageDigestReduced := ScReduce (hash (skipn 32 digest1 ++ m)) in
  let encodedR := e_to_bytes (GeScalarMultBase messageDigestReduced) in
  let hramDigestReduced := ScReduce (hash (encodedR ++ skipn 32 privateKey ++ m)) in
  encodedR ++ ScMulAdd hramDigestReduced (expanded digest1) messageDigestReduced.

Definition lib_Verify (hash : bytes -> bytes) (publicKey m sig : bytes) : bool :=
  if negb (length sig =? 64)%nat || negb (Z.land (byte_at sig 63) 224 =? 0) then false
  else match e_from_bytes publicKey with
  | None => false
  | Some A =>
      let A := EGE (FeNeg (eX A)) (eY A) (eZ A) (FeNeg (eT A)) in
      let hReduced := ScReduce (hash (firstn 32 sig ++ publicKey ++ m)) in
      let s := skipn 32 sig in
      if negb (ScMinimal s) then false
      else bytes_eqb (firstn 32 sig) (p_to_bytes (GeDoubleScalarMultVartime hReduced A s))
  end.
