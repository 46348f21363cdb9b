(* GENERATED by tools/gen_scalar.py from signify/internal/edwards25519/edwards25519.go;
   committed as source.  Scalar arithmetic modulo the group order on int64 limbs of
   21 bits: ScMulAdd (1018-1449), ScReduce (1451-1773), ScMinimal (1778-1793). *)
From Verif Require Export ScalarMult.

(* The statement patterns of both functions, on the limbs s0..s23 (kept in a list):
   Carry k:  carry[k] = (sk + (1 << 20)) >> 21;  s(k+1) += carry[k];  sk -= carry[k] << 21
   Floor k:  carry[k] = sk >> 21;                s(k+1) += carry[k];  sk -= carry[k] << 21
   Fold k:   s(k-12) += sk * 666643;  s(k-11) += sk * 470296;  s(k-10) += sk * 654183;
             s(k-9) -= sk * 997805;   s(k-8) += sk * 136657;   s(k-7) -= sk * 683901;  sk = 0 *)
Inductive sop := Carry (k : nat) | Floor (k : nat) | Fold (k : nat).
Definition carry_with (c : Z) (k : nat) (s : list Z) : list Z :=
  let s := put s (k + 1) (at_ s (k + 1) + c)%i64 in
  put s k (at_ s k - (c << 21))%i64.
Definition exec (s : list Z) (o : sop) : list Z :=
  match o with
  | Carry k => carry_with ((at_ s k + (1 << 20)) >> 21)%i64 k s
  | Floor k => carry_with (at_ s k >> 21)%i64 k s
  | Fold k =>
      let x := at_ s k in
      let s := put s (k - 12) (at_ s (k - 12) + (x * 666643))%i64 in
      let s := put s (k - 11) (at_ s (k - 11) + (x * 470296))%i64 in
      let s := put s (k - 10) (at_ s (k - 10) + (x * 654183))%i64 in
      let s := put s (k - 9) (at_ s (k - 9) - (x * 997805))%i64 in
      let s := put s (k - 8) (at_ s (k - 8) + (x * 136657))%i64 in
      let s := put s (k - 7) (at_ s (k - 7) - (x * 683901))%i64 in
      put s k 0
  end.
Definition run_ops (p : list sop) (s : list Z) : list Z := fold_left exec p s.

(* the loads of ScMulAdd (1027-1062, the same for a, b and c) *)
Definition limbs12 (s : bytes) : list Z := [
    (2097151 && (load3 s 0))%i64;
    (2097151 && ((load4 s 2) >> 5))%i64;
    (2097151 && ((load3 s 5) >> 2))%i64;
    (2097151 && ((load4 s 7) >> 7))%i64;
    (2097151 && ((load4 s 10) >> 4))%i64;
    (2097151 && ((load3 s 13) >> 1))%i64;
    (2097151 && ((load4 s 15) >> 6))%i64;
    (2097151 && ((load3 s 18) >> 3))%i64;
    (2097151 && (load3 s 21))%i64;
    (2097151 && ((load4 s 23) >> 5))%i64;
    (2097151 && ((load3 s 26) >> 2))%i64;
    ((load4 s 28) >> 7)%i64].
(* the loads of ScReduce (1458-1481) *)
Definition limbs24 (s : bytes) : list Z := [
    (2097151 && (load3 s 0))%i64;
    (2097151 && ((load4 s 2) >> 5))%i64;
    (2097151 && ((load3 s 5) >> 2))%i64;
    (2097151 && ((load4 s 7) >> 7))%i64;
    (2097151 && ((load4 s 10) >> 4))%i64;
    (2097151 && ((load3 s 13) >> 1))%i64;
    (2097151 && ((load4 s 15) >> 6))%i64;
    (2097151 && ((load3 s 18) >> 3))%i64;
    (2097151 && (load3 s 21))%i64;
    (2097151 && ((load4 s 23) >> 5))%i64;
    (2097151 && ((load3 s 26) >> 2))%i64;
    (2097151 && ((load4 s 28) >> 7))%i64;
    (2097151 && ((load4 s 31) >> 4))%i64;
    (2097151 && ((load3 s 34) >> 1))%i64;
    (2097151 && ((load4 s 36) >> 6))%i64;
    (2097151 && ((load3 s 39) >> 3))%i64;
    (2097151 && (load3 s 42))%i64;
    (2097151 && ((load4 s 44) >> 5))%i64;
    (2097151 && ((load3 s 47) >> 2))%i64;
    (2097151 && ((load4 s 49) >> 7))%i64;
    (2097151 && ((load4 s 52) >> 4))%i64;
    (2097151 && ((load3 s 55) >> 1))%i64;
    (2097151 && ((load4 s 57) >> 6))%i64;
    ((load4 s 60) >> 3)%i64].
(* the products of ScMulAdd (1065-1088): sk := ck + a0*bk + a1*b(k-1) + ...  with the
   index of a ascending; s12 to s22 have no c term (0 here), s23 := int64(0) *)
Definition product (a b : list Z) (k : nat) (c : Z) : Z :=
  fold_left (fun s i => (s + at_ a i * at_ b (k - i))%i64)
            (filter (fun i => (i <=? k) && (k - i <=? 11))%nat (seq 0 12)) c.
Definition products (a b c : list Z) : list Z :=
  map (fun k => product a b k (if (k <? 12)%nat then at_ c k else 0)) (seq 0 23) ++ [0].
(* the stores (1417-1448 and 1741-1772) *)
Definition store_limbs (s : list Z) : bytes := [
    z2b ((at_ s 0) >> 0)%i64;
    z2b ((at_ s 0) >> 8)%i64;
    z2b (((at_ s 0) >> 16) || ((at_ s 1) << 5))%i64;
    z2b ((at_ s 1) >> 3)%i64;
    z2b ((at_ s 1) >> 11)%i64;
    z2b (((at_ s 1) >> 19) || ((at_ s 2) << 2))%i64;
    z2b ((at_ s 2) >> 6)%i64;
    z2b (((at_ s 2) >> 14) || ((at_ s 3) << 7))%i64;
    z2b ((at_ s 3) >> 1)%i64;
    z2b ((at_ s 3) >> 9)%i64;
    z2b (((at_ s 3) >> 17) || ((at_ s 4) << 4))%i64;
    z2b ((at_ s 4) >> 4)%i64;
    z2b ((at_ s 4) >> 12)%i64;
    z2b (((at_ s 4) >> 20) || ((at_ s 5) << 1))%i64;
    z2b ((at_ s 5) >> 7)%i64;
    z2b (((at_ s 5) >> 15) || ((at_ s 6) << 6))%i64;
    z2b ((at_ s 6) >> 2)%i64;
    z2b ((at_ s 6) >> 10)%i64;
    z2b (((at_ s 6) >> 18) || ((at_ s 7) << 3))%i64;
    z2b ((at_ s 7) >> 5)%i64;
    z2b ((at_ s 7) >> 13)%i64;
    z2b ((at_ s 8) >> 0)%i64;
    z2b ((at_ s 8) >> 8)%i64;
    z2b (((at_ s 8) >> 16) || ((at_ s 9) << 5))%i64;
    z2b ((at_ s 9) >> 3)%i64;
    z2b ((at_ s 9) >> 11)%i64;
    z2b (((at_ s 9) >> 19) || ((at_ s 10) << 2))%i64;
    z2b ((at_ s 10) >> 6)%i64;
    z2b (((at_ s 10) >> 14) || ((at_ s 11) << 7))%i64;
    z2b ((at_ s 11) >> 1)%i64;
    z2b ((at_ s 11) >> 9)%i64;
    z2b ((at_ s 11) >> 17)%i64].

(* 1090-1415 *)
Definition muladd_ops : list sop := [
    (* 1090-1159 *) Carry 0; Carry 2; Carry 4; Carry 6; Carry 8; Carry 10; Carry 12; Carry 14; Carry 16; Carry 18; Carry 20; Carry 22; Carry 1; Carry 3; Carry 5; Carry 7; Carry 9; Carry 11; Carry 13; Carry 15; Carry 17; Carry 19; Carry 21;
    (* 1161-1207 *) Fold 23; Fold 22; Fold 21; Fold 20; Fold 19; Fold 18;
    (* 1209-1242 *) Carry 6; Carry 8; Carry 10; Carry 12; Carry 14; Carry 16; Carry 7; Carry 9; Carry 11; Carry 13; Carry 15;
    (* 1244-1290 *) Fold 17; Fold 16; Fold 15; Fold 14; Fold 13; Fold 12;
    (* 1292-1328 *) Carry 0; Carry 2; Carry 4; Carry 6; Carry 8; Carry 10; Carry 1; Carry 3; Carry 5; Carry 7; Carry 9; Carry 11;
    (* 1330-1336 *) Fold 12;
    (* 1338-1373 *) Floor 0; Floor 1; Floor 2; Floor 3; Floor 4; Floor 5; Floor 6; Floor 7; Floor 8; Floor 9; Floor 10; Floor 11;
    (* 1375-1381 *) Fold 12;
    (* 1383-1415 *) Floor 0; Floor 1; Floor 2; Floor 3; Floor 4; Floor 5; Floor 6; Floor 7; Floor 8; Floor 9; Floor 10].
(* 1483-1739 *)
Definition reduce_ops : list sop := [
    (* 1483-1529 *) Fold 23; Fold 22; Fold 21; Fold 20; Fold 19; Fold 18;
    (* 1533-1566 *) Carry 6; Carry 8; Carry 10; Carry 12; Carry 14; Carry 16; Carry 7; Carry 9; Carry 11; Carry 13; Carry 15;
    (* 1568-1614 *) Fold 17; Fold 16; Fold 15; Fold 14; Fold 13; Fold 12;
    (* 1616-1652 *) Carry 0; Carry 2; Carry 4; Carry 6; Carry 8; Carry 10; Carry 1; Carry 3; Carry 5; Carry 7; Carry 9; Carry 11;
    (* 1654-1660 *) Fold 12;
    (* 1662-1697 *) Floor 0; Floor 1; Floor 2; Floor 3; Floor 4; Floor 5; Floor 6; Floor 7; Floor 8; Floor 9; Floor 10; Floor 11;
    (* 1699-1705 *) Fold 12;
    (* 1707-1739 *) Floor 0; Floor 1; Floor 2; Floor 3; Floor 4; Floor 5; Floor 6; Floor 7; Floor 8; Floor 9; Floor 10].

Definition ScMulAdd (a b c : bytes) : bytes :=
  store_limbs (run_ops muladd_ops (products (limbs12 a) (limbs12 b) (limbs12 c))).
Definition ScReduce (s : bytes) : bytes :=
  store_limbs (run_ops reduce_ops (limbs24 s)).

(* var order (1775-1776) *)
Definition order : list Z := [6346243789798364141; 1503914060200516822; 0; 1152921504606846976].
(* binary.LittleEndian.Uint64(l[o:]): b[0] | b[1]<<8 | ... | b[7]<<56, unsigned *)
Definition uint64_at (l : bytes) (o : nat) : Z :=
  Z.lor (load4 l o) (Z.shiftl (load4 l (o + 4)) 32).
(* ScMinimal (1778-1793): for i := 3; ; i-- ...; i + 1 is the structural argument *)
Fixpoint sc_minimal (n : nat) (scalar : bytes) : bool :=
  match n with
  | O => true
  | S i =>
      let v := uint64_at scalar (i * 8) in
      if at_ order i <? v then false
      else if v <? at_ order i then true
      else if (i =? 0)%nat then false
      else sc_minimal i scalar
  end.
Definition ScMinimal (scalar : bytes) : bool := sc_minimal 4 scalar.
