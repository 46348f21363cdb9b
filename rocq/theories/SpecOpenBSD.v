(* OpenBSD's signify(1), which README.txt:4 names as the program implemented: its file
   format, signing and verification, written after usr.bin/signify/signify.c (parseb64file,
   readb64file, writeb64file, kdf, generate, sign, verify), b64_pton of libc and
   crypto_sign_ed25519_open.  None of this is part of the repository. *)
From Verif Require Export SpecB64 SpecFmt SpecEd25519 Crypto.
Local Open Scope Z_scope.

(* ---- b64_pton: white space is skipped, padding is required, unused bits must be zero ---- *)
Definition ob_space (c : byte) : bool := ((9 <=? b2z c) && (b2z c <=? 13)) || (b2z c =? 32).
Definition ob_strip (t : bytes) : bytes := filter (fun c => negb (ob_space c)) t.
Definition ob_value (c : byte) : option Z :=
  let z := b2z c in
  if (65 <=? z) && (z <=? 90) then Some (z - 65)
  else if (97 <=? z) && (z <=? 122) then Some (z - 71)
  else if (48 <=? z) && (z <=? 57) then Some (z + 4)
  else if z =? 43 then Some 62 else if z =? 47 then Some 63 else None.
Definition ob_pad (c : byte) : bool := b2z c =? 61.
Fixpoint ob_quads (t : bytes) : option bytes :=
  match t with
  | [] => Some []
  | a :: b :: c :: d :: r =>
      match ob_value a, ob_value b with
      | Some a, Some b =>
          if ob_pad c then
            match r with [] => if ob_pad d && (b mod 16 =? 0) then Some [z2b (a * 4 + b / 16)] else None | _ => None end
          else match ob_value c with
          | None => None
          | Some c =>
              if ob_pad d then
                match r with [] => if c mod 4 =? 0 then Some [z2b (a * 4 + b / 16); z2b (b mod 16 * 16 + c / 4)] else None | _ => None end
              else match ob_value d, ob_quads r with
              | Some d, Some x => Some (z2b (a * 4 + b / 16) :: z2b (b mod 16 * 16 + c / 4) :: z2b (c mod 4 * 64 + d) :: x)
              | _, _ => None
              end
          end
      | _, _ => None
      end
  | _ => None
  end.

(* ---- files ---- *)
Definition ob_header : bytes := str "untrusted comment: ".
(* a C string ends at the first NUL *)
Fixpoint c_string (t : bytes) : bytes :=
  match t with [] => [] | c :: r => if beqb c x00 then [] else c :: c_string r end.
(* the text up to the first newline and the text after it *)
Fixpoint split_line (t : bytes) : option (bytes * bytes) :=
  match t with
  | [] => None
  | c :: r => if beqb c x0a then Some ([], r)
              else match split_line r with Some (l, r) => Some (c :: l, r) | None => None end
  end.
(* readb64file and parseb64file: comment and the n bytes of the structure *)
Definition ob_read (n : nat) (file : bytes) : option (bytes * bytes) :=
  match split_line (c_string (firstn (Z.to_nat 2047) file)) with
  | None => None
  | Some (line, rest) =>
      if (length line <=? 19)%nat || negb (bytes_eqb (firstn 19 line) ob_header) then None
      else match split_line rest with
      | None => None
      | Some (text, _) =>
          match ob_quads (ob_strip text) with
          | Some buf => if (length buf =? n)%nat && bytes_eqb (firstn 2 buf) (str "Ed") then Some (skipn 19 line, buf) else None
          | None => None
          end
      end
  end.
(* writeb64file; the comment line must fit into 1024 bytes with its newline and NUL *)
Definition ob_write (comment buf : bytes) : option bytes :=
  if Z.of_nat (length (ob_header ++ comment ++ [x0a])) <? 1024
  then Some (ob_header ++ comment ++ [x0a] ++ spec_base64 buf ++ [x0a]) else None.

(* ---- key generation: seed, key number and salt are random, rounds = 0 for -n ---- *)
Definition ob_kdf (C : Crypto) (pass slt : bytes) (rounds : Z) : option bytes :=
  if rounds =? 0 then Some (repeat x00 64)
  else match pass with
  | [] => None
  | _ => if rounds <? 2 ^ 31 then Some (pbkdf C pass slt rounds 64) else None
  end.
Definition ob_generate (C : Crypto) (pass seed num slt : bytes) (rounds : Z) (comment : bytes) : option (bytes * bytes) :=
  let seckey := seed ++ ed_public C seed in
  match ob_kdf C pass slt rounds with
  | None => None
  | Some xorkey =>
      match ob_write (comment ++ str " secret key")
              (str "Ed" ++ str "BK" ++ be_encode 4 rounds ++ slt ++ firstn 8 (sha512 C seckey) ++ num ++ xor_bytes seckey xorkey),
            ob_write (comment ++ str " public key") (str "Ed" ++ num ++ ed_public C seed) with
      | Some s, Some p => Some (s, p)
      | _, _ => None
      end
  end.

(* ---- signing: key number and 64-byte key of a secret key file ---- *)
Definition ob_unlock (C : Crypto) (pass file : bytes) : option (bytes * bytes) :=
  match ob_read 104 file with
  | None => None
  | Some (comment, e) =>
      if (Z.of_nat (length comment) <? 1024) && bytes_eqb (slice 2 2 e) (str "BK") then
        match ob_kdf C pass (slice 8 16 e) (be_decode (slice 4 4 e)) with
        | None => None
        | Some xorkey =>
            let seckey := xor_bytes (slice 40 64 e) xorkey in
            if bytes_eqb (slice 24 8 e) (firstn 8 (sha512 C seckey)) then Some (slice 32 8 e, seckey) else None
        end
      else None
  end.
(* the comment names the public key or repeats the key's comment; here it is any text *)
Definition ob_sign (C : Crypto) (pass file comment m : bytes) : option bytes :=
  match ob_unlock C pass file with
  | None => None
  | Some (num, seckey) => ob_write comment (str "Ed" ++ num ++ ed_sign C seckey m)
  end.

(* ---- verification ---- *)
Definition ob_verifies (accepts : bytes -> bytes -> bytes -> Prop) (pubfile sigfile m : bytes) : Prop :=
  exists c p c' s, ob_read 42 pubfile = Some (c, p) /\ ob_read 74 sigfile = Some (c', s) /\
    Z.of_nat (length c') < 1024 /\ slice 2 8 p = slice 2 8 s /\ accepts (skipn 10 p) m (skipn 10 s).
(* crypto_sign_ed25519_open: S is reduced modulo the order, not required to be reduced *)
Definition ob_accepts (hash : bytes -> bytes) (pub m sig : bytes) : Prop :=
  length sig = 64%nat /\
  exists A R, point_of pub A /\ on R /\ firstn 32 sig = point_bytes R /\
    zmul (le_val (skipn 32 sig) mod ell) pB = padd R (zmul (le_val (hash (firstn 32 sig ++ pub ++ m)) mod ell) A).
