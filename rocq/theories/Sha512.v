(* SHA-512 (FIPS 180-4) and HMAC-SHA-512 (RFC 2104), the primitives behind Go's
   crypto/sha512 and golang.org/x/crypto/nacl/auth.  The libraries are not part of the
   repository; these definitions transcribe the standards.  Definitions only. *)
From Verif Require Export CryptoTables.
Local Open Scope Z_scope.

Definition w64 (z : Z) : Z := Z.land z 18446744073709551615.   (* modulo 2^64 *)
Definition rotr64 (n x : Z) : Z := Z.lor (Z.shiftr x n) (w64 (Z.shiftl x (64 - n))).

(* 4.1.3 *)
Definition Ch (x y z : Z) : Z := Z.lxor (Z.land x y) (Z.land (Z.lxor x 18446744073709551615) z).
Definition Maj (x y z : Z) : Z := Z.lxor (Z.lxor (Z.land x y) (Z.land x z)) (Z.land y z).
Definition Sigma0 (x : Z) : Z := Z.lxor (Z.lxor (rotr64 28 x) (rotr64 34 x)) (rotr64 39 x).
Definition Sigma1 (x : Z) : Z := Z.lxor (Z.lxor (rotr64 14 x) (rotr64 18 x)) (rotr64 41 x).
Definition sigma0 (x : Z) : Z := Z.lxor (Z.lxor (rotr64 1 x) (rotr64 8 x)) (Z.shiftr x 7).
Definition sigma1 (x : Z) : Z := Z.lxor (Z.lxor (rotr64 19 x) (rotr64 61 x)) (Z.shiftr x 6).

(* l cut into pieces of n elements (the last one may be shorter); fuel >= length l *)
Fixpoint pieces {A} (fuel n : nat) (l : list A) : list (list A) :=
  match fuel, l with
  | O, _ | _, [] => []
  | S fuel, _ => firstn n l :: pieces fuel n (skipn n l)
  end.
Definition chunks {A} (n : nat) (l : list A) : list (list A) := pieces (length l) n l.

(* 5.1.2: 1 bit, zeros, 128-bit length *)
Definition sha512_pad (m : bytes) : bytes :=
  m ++ [x80] ++ repeat x00 (Z.to_nat ((111 - Z.of_nat (length m)) mod 128)) ++ be_encode 16 (8 * Z.of_nat (length m)).

(* 6.2.2 step 1: the message schedule; w is reversed, most recent word first *)
Fixpoint schedule (n : nat) (w : list Z) : list Z :=
  match n with
  | O => rev w
  | S n => schedule n (w64 (sigma1 (nth 1 w 0) + nth 6 w 0 + sigma0 (nth 14 w 0) + nth 15 w 0) :: w)
  end.

Definition state512 : Type := Z * Z * Z * Z * Z * Z * Z * Z.
(* step 3 *)
Definition sha512_round (s : state512) (kw : Z * Z) : state512 :=
  let '(a, b, c, d, e, f, g, h) := s in
  let T1 := h + Sigma1 e + Ch e f g + fst kw + snd kw in
  let T2 := Sigma0 a + Maj a b c in
  (w64 (T1 + T2), a, b, c, w64 (d + T1), e, f, g).
(* steps 2 to 4 *)
Definition sha512_block (s : state512) (block : bytes) : state512 :=
  let W := schedule 64 (rev (map be_decode (chunks 8 block))) in
  let '(a, b, c, d, e, f, g, h) := s in
  let '(a', b', c', d', e', f', g', h') := fold_left sha512_round (combine sha512_K W) s in
  (w64 (a + a'), w64 (b + b'), w64 (c + c'), w64 (d + d'), w64 (e + e'), w64 (f + f'), w64 (g + g'), w64 (h + h')).
Definition sha512_init : state512 :=
  (nth 0 sha512_IV 0, nth 1 sha512_IV 0, nth 2 sha512_IV 0, nth 3 sha512_IV 0,
   nth 4 sha512_IV 0, nth 5 sha512_IV 0, nth 6 sha512_IV 0, nth 7 sha512_IV 0).
Definition SHA512 (m : bytes) : bytes :=
  let '(a, b, c, d, e, f, g, h) := fold_left sha512_block (chunks 128 (sha512_pad m)) sha512_init in
  be_encode 8 a ++ be_encode 8 b ++ be_encode 8 c ++ be_encode 8 d ++
  be_encode 8 e ++ be_encode 8 f ++ be_encode 8 g ++ be_encode 8 h.

(* HMAC with blocks of 128 bytes *)
Definition HMAC512 (key m : bytes) : bytes :=
  let k := fit 128 (if (128 <? length key)%nat then SHA512 key else key) in
  SHA512 (map (bxor x5c) k ++ SHA512 (map (bxor x36) k ++ m)).
(* nacl/auth.Sum: the first 32 bytes *)
Definition nacl_auth (m key : bytes) : bytes := firstn 32 (HMAC512 key m).
