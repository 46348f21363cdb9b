(* The external cryptographic libraries as an abstract record of functions, and
   the laws the theorems assume of them.  Nothing here is an axiom: theorems
   quantify over [Crypto] and take the laws they need as explicit premises. *)
From Verif Require Export Go.

Record Crypto := {
  (* crypto/sha512.Sum512 *)
  sha512 : bytes -> bytes;
  (* github.com/dchest/bcrypt_pbkdf: the key stream, after the argument checks
     (password, salt, rounds, keyLen) *)
  pbkdf : bytes -> bytes -> Z -> nat -> bytes;
  (* golang.org/x/crypto/ed25519: public key of a 32-byte seed; Sign with the
     64-byte private key seed||public; Verify(public, message, signature) *)
  ed_public : bytes -> bytes;
  ed_sign : bytes -> bytes -> bytes;
  ed_verify : bytes -> bytes -> bytes -> bool;
  (* golang.org/x/crypto/curve25519: ScalarBaseMult *)
  x25519_base : bytes -> bytes;
  (* golang.org/x/crypto/nacl/box: Precompute(peersPublicKey, privateKey),
     SealAfterPrecomputation(message, nonce, shared),
     OpenAfterPrecomputation(box, nonce, shared) *)
  box_precompute : bytes -> bytes -> bytes;
  box_seal : bytes -> bytes -> bytes -> bytes;
  box_open : bytes -> bytes -> bytes -> option bytes;
  (* golang.org/x/crypto/nacl/auth.Sum(message, key) *)
  auth_sum : bytes -> bytes -> bytes
}.

(* box.Overhead *)
Definition boxOverhead : Z := 16.

(* bcrypt_pbkdf.Key: argument checks of the library, then the stream *)
Definition bcrypt_Key (C : Crypto) (password salt : bytes) (rounds : Z) (keyLen : nat) : res bytes :=
  if rounds <? 1 then Err (EMsg (str "bcrypt_pbkdf: number of rounds is too small"))
  else match password with
  | [] => Err (EMsg (str "bcrypt_pbkdf: empty password"))
  | _ =>
    if (Z.of_nat (length salt) =? 0) || (Z.of_nat (length salt) >? 1048576)
    then Err (EMsg (str "bcrypt_pbkdf: bad salt length"))
    else if Z.of_nat keyLen >? 1024 then Err (EMsg (str "bcrypt_pbkdf: keyLen is too large"))
    else Ok (pbkdf C password salt rounds keyLen)
  end.

(* auth.Verify(digest, message, key): constant-time comparison with auth.Sum;
   digests of the wrong length are rejected (they differ from the sum) *)
Definition auth_Verify (C : Crypto) (digest message key : bytes) : bool :=
  bytes_eqb digest (auth_sum C message key).

(* ed25519.GenerateKey / NewKeyFromSeed: private key = seed || public key *)
Definition ed_private (C : Crypto) (seed : bytes) : bytes := seed ++ ed_public C seed.

(* ---- laws ---- *)
(* output lengths *)
Record LengthLaws (C : Crypto) : Prop := {
  len_sha512 : forall m, length (sha512 C m) = 64%nat;
  len_pbkdf : forall p s r n, length (pbkdf C p s r n) = n;
  len_ed_public : forall s, length s = 32%nat -> length (ed_public C s) = 32%nat;
  len_ed_sign : forall k m, length k = 64%nat -> length (ed_sign C k m) = 64%nat;
  len_x25519 : forall k, length (x25519_base C k) = 32%nat;
  len_precompute : forall p k, length (box_precompute C p k) = 32%nat;
  len_box_seal : forall m n k, length (box_seal C m n k) = (length m + 16)%nat;
  len_auth : forall m k, length (auth_sum C m k) = 32%nat
}.

(* Ed25519 signatures verify *)
Definition EdCorrect (C : Crypto) : Prop :=
  forall seed m, length seed = 32%nat ->
    ed_verify C (ed_public C seed) m (ed_sign C (ed_private C seed) m) = true.

(* secretbox: opening inverts sealing, and only sealings open (XSalsa20-Poly1305
   with a recomputed tag is deterministic, so this is a functional property, not
   a cryptographic assumption) *)
Definition BoxCorrect (C : Crypto) : Prop :=
  forall m n k, box_open C (box_seal C m n k) n k = Some m.
Definition BoxTidy (C : Crypto) : Prop :=
  forall c m n k, box_open C c n k = Some m -> c = box_seal C m n k.

(* Diffie-Hellman: both sides compute the same shared key *)
Definition DHCorrect (C : Crypto) : Prop :=
  forall a b, length a = 32%nat -> length b = 32%nat ->
    box_precompute C (x25519_base C a) b = box_precompute C (x25519_base C b) a.
