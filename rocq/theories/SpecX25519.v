(* X25519 (RFC 7748, section 5) and Ed25519 public keys (RFC 8032, section
   5.1.5), transcribed from the RFCs over the field F; independent of the code. *)
From Verif Require Export SpecCurve.

(* z as n little-endian bytes *)
Fixpoint le_bytes (n : nat) (z : Z) : bytes :=
  match n with O => [] | S n => z2b (z mod 256) :: le_bytes n (z / 256) end.
(* canonical encoding of a field element *)
Definition F_bytes (x : F) : bytes := le_bytes 32 (rep x).

(* decodeScalar25519: of 256 bits, bits 0-2 and 255 cleared, bit 254 set; the
   same pruning is used for the secret scalar of Ed25519 *)
Definition rfc_scalar (s : bytes) : Z := 8 * (le_val s mod 2 ^ 254 / 8) + 2 ^ 254.

(* decodeUCoordinate: the most significant bit is ignored *)
Definition rfc_u (s : bytes) : F := toF (le_val s mod 2 ^ 255).

(* the Montgomery ladder: one iteration, for bit t of k *)
Record lad := Lad { l_x2 : F; l_z2 : F; l_x3 : F; l_z3 : F; l_swap : Z }.
Definition cswap (s : Z) (a b : F) : F * F := if s =? 0 then (a, b) else (b, a).
Definition a24 : F := toF 121665.
Definition lad_step (x1 : F) (k t : Z) (l : lad) : lad :=
  let kt := Z.shiftr k t mod 2 in
  let swap := Z.lxor (l_swap l) kt in
  let '(x2, x3) := cswap swap (l_x2 l) (l_x3 l) in
  let '(z2, z3) := cswap swap (l_z2 l) (l_z3 l) in
  (let A := x2 + z2 in
   let AA := A * A in
   let B := x2 - z2 in
   let BB := B * B in
   let E := AA - BB in
   let C := x3 + z3 in
   let D := x3 - z3 in
   let DA := D * A in
   let CB := C * B in
   Lad (AA * BB) (E * (AA + a24 * E)) ((DA + CB) * (DA + CB)) (x1 * ((DA - CB) * (DA - CB))) kt)%F.
(* for t = n-1 down to 0 *)
Fixpoint lad_loop (x1 : F) (k : Z) (n : nat) (l : lad) : lad :=
  match n with O => l | S n => lad_loop x1 k n (lad_step x1 k (Z.of_nat n) l) end.
Definition ladder (k : Z) (u : F) : F :=
  let l := lad_loop u k 255 (Lad F1 F0 u F1 0) in
  let '(x2, _) := cswap (l_swap l) (l_x2 l) (l_x3 l) in
  let '(z2, _) := cswap (l_swap l) (l_z2 l) (l_z3 l) in
  (x2 * z2 ^ (p25519 - 2))%F.

Definition X25519 (k u : bytes) : bytes := F_bytes (ladder (rfc_scalar k) (rfc_u u)).
(* the base point has u = 9 *)
Definition u_base : bytes := x09 :: repeat x00 31.

(* the base point B of edwards25519 *)
Definition B_x : F := toF 15112221349535400772501151409588531511454012693041857206046113283949847762202.
Definition B_y : F := toF 46316835694926478169428394003475163141307993866256225615783033603165251855960.
Definition pB : point := (B_x, B_y).
(* encoding of a point: y, with the sign of x in the top bit *)
Definition point_bytes (P : point) : bytes := le_bytes 32 (rep (snd P) + 2 ^ 255 * parity (fst P)).
(* the public key of a seed, given the hash function *)
Definition Ed25519_public (hash : bytes -> bytes) (seed : bytes) : bytes :=
  point_bytes (pmul (Z.to_nat (rfc_scalar (firstn 32 (hash seed)))) pB).
