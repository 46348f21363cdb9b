(* XSalsa20 and Poly1305 as combined by NaCl's secretbox and box, the primitives behind
   golang.org/x/crypto/nacl/box (not part of the repository).  Transcribed from
   Bernstein's "Extending the Salsa20 nonce" and RFC 8439, section 2.5.
   Definitions only. *)
From Verif Require Export Bytes SpecX25519.
Local Open Scope Z_scope.

Definition w32 (z : Z) : Z := Z.land z 4294967295.   (* modulo 2^32 *)
Definition rotl32 (n x : Z) : Z := Z.lor (w32 (Z.shiftl x n)) (Z.shiftr x (32 - n)).

(* quarterround *)
Definition qround (y : Z * Z * Z * Z) : Z * Z * Z * Z :=
  let '(y0, y1, y2, y3) := y in
  let z1 := Z.lxor y1 (rotl32 7 (w32 (y0 + y3))) in
  let z2 := Z.lxor y2 (rotl32 9 (w32 (z1 + y0))) in
  let z3 := Z.lxor y3 (rotl32 13 (w32 (z2 + z1))) in
  let z0 := Z.lxor y0 (rotl32 18 (w32 (z3 + z2))) in
  (z0, z1, z2, z3).
Definition words16 : Type :=
  (Z * Z * Z * Z) * (Z * Z * Z * Z) * (Z * Z * Z * Z) * (Z * Z * Z * Z).
Definition rowround (x : words16) : words16 :=
  let '((s0, s1, s2, s3), (s4, s5, s6, s7), (s8, s9, s10, s11), (s12, s13, s14, s15)) := x in
  let '(z0, z1, z2, z3) := qround (s0, s1, s2, s3) in
  let '(z5, z6, z7, z4) := qround (s5, s6, s7, s4) in
  let '(z10, z11, z8, z9) := qround (s10, s11, s8, s9) in
  let '(z15, z12, z13, z14) := qround (s15, s12, s13, s14) in
  ((z0, z1, z2, z3), (z4, z5, z6, z7), (z8, z9, z10, z11), (z12, z13, z14, z15)).
Definition columnround (x : words16) : words16 :=
  let '((s0, s1, s2, s3), (s4, s5, s6, s7), (s8, s9, s10, s11), (s12, s13, s14, s15)) := x in
  let '(y0, y4, y8, y12) := qround (s0, s4, s8, s12) in
  let '(y5, y9, y13, y1) := qround (s5, s9, s13, s1) in
  let '(y10, y14, y2, y6) := qround (s10, s14, s2, s6) in
  let '(y15, y3, y7, y11) := qround (s15, s3, s7, s11) in
  ((y0, y1, y2, y3), (y4, y5, y6, y7), (y8, y9, y10, y11), (y12, y13, y14, y15)).
Definition doubleround (x : words16) : words16 := rowround (columnround x).

Definition le32 (l : bytes) (i : nat) : Z := le_val (firstn 4 (skipn (4 * i) l)).
(* the matrix: "expand 32-byte k" on the diagonal, key, and 16 bytes of input *)
Definition salsa_input (key input : bytes) : words16 :=
  let k := le32 key in let n := le32 input in
  let c := le32 (str "expand 32-byte k") in
  ((c 0%nat, k 0%nat, k 1%nat, k 2%nat), (k 3%nat, c 1%nat, n 0%nat, n 1%nat),
   (n 2%nat, n 3%nat, c 2%nat, k 4%nat), (k 5%nat, k 6%nat, k 7%nat, c 3%nat)).
Definition words_list (x : words16) : list Z :=
  let '((s0, s1, s2, s3), (s4, s5, s6, s7), (s8, s9, s10, s11), (s12, s13, s14, s15)) := x in
  [s0; s1; s2; s3; s4; s5; s6; s7; s8; s9; s10; s11; s12; s13; s14; s15].
Definition salsa_rounds (x : words16) : words16 := Nat.iter 10 doubleround x.

(* 64 bytes of key stream for an input (nonce and counter) *)
Definition Salsa20 (key input : bytes) : bytes :=
  let x := salsa_input key input in
  flat_map (fun ab => le_bytes 4 (w32 (fst ab + snd ab))) (combine (words_list x) (words_list (salsa_rounds x))).
(* HSalsa20: the diagonal and the input words, without the final addition *)
Definition HSalsa20 (key input : bytes) : bytes :=
  let '((s0, _, _, _), (_, s5, s6, s7), (s8, s9, s10, _), (_, _, _, s15)) := salsa_rounds (salsa_input key input) in
  flat_map (le_bytes 4) [s0; s5; s10; s15; s6; s7; s8; s9].
(* the first n blocks of XSalsa20, and the first n bytes *)
Definition xsalsa_blocks (key nonce : bytes) (n : nat) : bytes :=
  let sub := HSalsa20 key (firstn 16 nonce) in
  flat_map (fun i => Salsa20 sub (fit 8 (skipn 16 nonce) ++ le_bytes 8 (Z.of_nat i))) (seq 0 n).
Definition xsalsa (key nonce : bytes) (n : nat) : bytes := firstn n (xsalsa_blocks key nonce (n / 64 + 1)).

(* Poly1305 (RFC 8439, 2.5) *)
Definition p1305 : Z := 1361129467683753853853498429727072845819.
Definition poly_clamp (r : Z) : Z := Z.land r 21267647620597763993911028882763415551.
Fixpoint poly_acc (fuel : nat) (r acc : Z) (m : bytes) : Z :=
  match fuel, m with
  | O, _ | _, [] => acc
  | S fuel, _ => poly_acc fuel r ((acc + le_val (firstn 16 m ++ [x01])) * r mod p1305) (skipn 16 m)
  end.
Definition Poly1305 (key m : bytes) : bytes :=
  let r := poly_clamp (le_val (firstn 16 key)) in
  let s := le_val (firstn 16 (skipn 16 key)) in
  le_bytes 16 (poly_acc (length m) r 0 m + s).

(* secretbox.Seal and Open: tag, then ciphertext; the first 32 bytes of the stream are
   the key of the tag *)
Definition secretbox_seal (m nonce key : bytes) : bytes :=
  let stream := xsalsa key nonce (32 + length m) in
  let c := xor_bytes m (skipn 32 stream) in
  Poly1305 (firstn 32 stream) c ++ c.
Definition secretbox_open (box nonce key : bytes) : option bytes :=
  if (length box <? 16)%nat then None
  else
    let c := skipn 16 box in
    let stream := xsalsa key nonce (32 + length c) in
    if bytes_eqb (firstn 16 box) (Poly1305 (firstn 32 stream) c)
    then Some (xor_bytes c (skipn 32 stream)) else None.
(* box.Precompute *)
Definition box_shared (public private : bytes) : bytes := HSalsa20 (X25519 private public) (repeat x00 16).
