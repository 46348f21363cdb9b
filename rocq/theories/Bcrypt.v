(* bcrypt_pbkdf (OpenBSD), the primitive behind github.com/dchest/bcrypt_pbkdf (not part
   of the repository).  tools/gen_crypto.py has the same definitions in Python and
   decrypts signify/testdata/test.sec with them.  Definitions only. *)
From Verif Require Export Sha512 SpecX25519 Salsa.
Local Open Scope Z_scope.

(* Blowfish: 18 subkeys and four tables of 256 words *)
Record blowfish := BF { bfP : list Z; bfS0 : list Z; bfS1 : list Z; bfS2 : list Z; bfS3 : list Z }.
Definition blowfish_init : blowfish := BF blowfish_P blowfish_S0 blowfish_S1 blowfish_S2 blowfish_S3.
Definition word_at (l : list Z) (i : Z) : Z := nth (Z.to_nat i) l 0.
Definition bf_F (c : blowfish) (x : Z) : Z :=
  let a := word_at (bfS0 c) (Z.shiftr x 24) in
  let b := word_at (bfS1 c) (Z.land (Z.shiftr x 16) 255) in
  let d := word_at (bfS2 c) (Z.land (Z.shiftr x 8) 255) in
  let e := word_at (bfS3 c) (Z.land x 255) in
  w32 (Z.lxor (w32 (a + b)) d + e).
(* one round: xor the subkey into the left half, its image into the right half, swap *)
Definition bf_round (c : blowfish) (lr : Z * Z) (k : Z) : Z * Z :=
  let l := Z.lxor (fst lr) k in (Z.lxor (snd lr) (bf_F c l), l).
Definition bf_encipher (c : blowfish) (lr : Z * Z) : Z * Z :=
  let '(l, r) := fold_left (bf_round c) (firstn 16 (bfP c)) lr in
  (Z.lxor r (nth 17 (bfP c) 0), Z.lxor l (nth 16 (bfP c) 0)).

(* key expansion: key words are xored cyclically into the subkeys; then subkeys and
   tables are replaced, two words at a time, by successive encryptions, salt words being
   xored cyclically into the chaining value (if there are any) *)
Definition cyclic (l : list Z) (i : nat) : Z := match l with [] => 0 | _ => nth (i mod length l) l 0 end.
Fixpoint xor_key (key : list Z) (i : nat) (P : list Z) : list Z :=
  match P with [] => [] | p :: P => Z.lxor p (cyclic key i) :: xor_key key (i + 1) P end.
(* the words before the current position are already replaced: done is reversed *)
Fixpoint bf_fill (fuel : nat) (set : blowfish -> list Z -> blowfish) (salt : list Z)
    (c : blowfish) (j : nat) (lr : Z * Z) (done todo : list Z) : blowfish * nat * (Z * Z) :=
  match fuel, todo with
  | S fuel, _ :: _ :: todo =>
      let x := (Z.lxor (fst lr) (cyclic salt j), Z.lxor (snd lr) (cyclic salt (j + 1))) in
      let '(l, r) := bf_encipher c x in
      let done := r :: l :: done in
      bf_fill fuel set salt (set c (rev done ++ todo)) (j + 2) (l, r) done todo
  | _, _ => (c, j, lr)
  end.
Definition set_P c l := BF l (bfS0 c) (bfS1 c) (bfS2 c) (bfS3 c).
Definition set_S0 c l := BF (bfP c) l (bfS1 c) (bfS2 c) (bfS3 c).
Definition set_S1 c l := BF (bfP c) (bfS0 c) l (bfS2 c) (bfS3 c).
Definition set_S2 c l := BF (bfP c) (bfS0 c) (bfS1 c) l (bfS3 c).
Definition set_S3 c l := BF (bfP c) (bfS0 c) (bfS1 c) (bfS2 c) l.
Definition bf_expand (key salt : list Z) (c : blowfish) : blowfish :=
  let c := set_P c (xor_key key 0 (bfP c)) in
  let '(c, j, lr) := bf_fill 9 set_P salt c 0 (0, 0) [] (bfP c) in
  let '(c, j, lr) := bf_fill 128 set_S0 salt c j lr [] (bfS0 c) in
  let '(c, j, lr) := bf_fill 128 set_S1 salt c j lr [] (bfS1 c) in
  let '(c, j, lr) := bf_fill 128 set_S2 salt c j lr [] (bfS2 c) in
  let '(c, _, _) := bf_fill 128 set_S3 salt c j lr [] (bfS3 c) in c.

Definition be_words (l : bytes) : list Z := map be_decode (chunks 4 l).
(* bcrypt_hash: 32 bytes from two 64-byte hashes *)
Definition bcrypt_state (pass salt : list Z) : blowfish :=
  Nat.iter 64 (fun c => bf_expand pass [] (bf_expand salt [] c)) (bf_expand pass salt blowfish_init).
Definition bcrypt_pair (c : blowfish) (text : bytes) : bytes :=
  let w := be_words text in
  let '(l, r) := Nat.iter 64 (bf_encipher c) (nth 0 w 0, nth 1 w 0) in
  le_bytes 4 l ++ le_bytes 4 r.
Definition bcrypt_hash (sha2pass sha2salt : bytes) : bytes :=
  let c := bcrypt_state (be_words sha2pass) (be_words sha2salt) in
  bcrypt_pair c (str "Oxychrom") ++ bcrypt_pair c (str "aticBlow") ++
  bcrypt_pair c (str "fishSwat") ++ bcrypt_pair c (str "Dynamite").

(* one block of 32 bytes of the key stream: the exclusive or of all rounds *)
Definition pbkdf_block (hash : bytes -> bytes -> bytes) (sha2pass salt : bytes) (rounds : Z) (count : Z) : bytes :=
  let first := hash sha2pass (SHA512 (salt ++ be_encode 4 count)) in
  snd (Nat.iter (Z.to_nat (rounds - 1))
    (fun t => let tmp := hash sha2pass (SHA512 (fst t)) in (tmp, xor_bytes (snd t) tmp)) (first, first)).
(* the bytes of the blocks are interleaved *)
Definition bcrypt_pbkdf (password salt : bytes) (rounds : Z) (keyLen : nat) : bytes :=
  let n := ((keyLen + 31) / 32)%nat in
  let blocks := map (fun b => pbkdf_block bcrypt_hash (SHA512 password) salt rounds (Z.of_nat b)) (seq 1 n) in
  map (fun j => nth (j / n) (nth (j mod n) blocks []) x00) (seq 0 keyLen).
