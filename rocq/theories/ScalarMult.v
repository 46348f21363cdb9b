(* Scalar multiplication of signify/internal/edwards25519/edwards25519.go:845-1014.
   Definitions only. *)
From Verif Require Export Group Table.

(* int8 *)
Definition i8 (z : Z) : Z := (z + 128) mod 256 - 128.

(* arrays of integers; every index below is in range *)
Definition at_ (r : list Z) (i : nat) : Z := nth i r 0.
Definition put (r : list Z) (i : nat) (v : Z) : list Z := firstn i r ++ v :: skipn (i + 1) r.

(* slide (845-873).  n is the array length, 256. *)
(* 846-848: r[i] = int8(1 & (a[i>>3] >> uint(i&7))) *)
Definition slide_bits (n : nat) (a : bytes) : list Z :=
  map (fun i => Z.land 1 (Z.shiftr (byte_at a (i / 8)) (Z.of_nat (i mod 8)))) (seq 0 n).
(* 859-865: for k := i + b; k < 256; k++ { if r[k] == 0 { r[k] = 1; break }; r[k] = 0 }
   (fuel: the remaining number of iterations) *)
Fixpoint slide_carry (fuel k : nat) (r : list Z) : list Z :=
  match fuel with
  | O => r
  | S fuel => if at_ r k =? 0 then put r k 1 else slide_carry fuel (k + 1) (put r k 0)
  end.
(* 852-870: for b := 1; b <= 6 && i+b < 256; b++  (fuel: 7 - b) *)
Fixpoint slide_inner (fuel n i b : nat) (r : list Z) : list Z :=
  match fuel with
  | O => r
  | S fuel =>
      if (i + b <? n)%nat then
        if at_ r (i + b) =? 0 then slide_inner fuel n i (b + 1) r
        else
          let s := i8 (Z.shiftl (at_ r (i + b)) (Z.of_nat b)) in
          if i8 (at_ r i + s) <=? 15 then
            let r := put r i (i8 (at_ r i + s)) in
            let r := put r (i + b) 0 in
            slide_inner fuel n i (b + 1) r
          else if -15 <=? i8 (at_ r i - s) then
            let r := put r i (i8 (at_ r i - s)) in
            let r := slide_carry (n - (i + b)) (i + b) r in
            slide_inner fuel n i (b + 1) r
          else r
      else r
  end.
(* 850-872 *)
Definition slide_step (n : nat) (r : list Z) (i : nat) : list Z :=
  if at_ r i =? 0 then r else slide_inner 6 n i 1 r.
Definition slide (a : bytes) : list Z := fold_left (slide_step 256) (seq 0 256) (slide_bits 256 a).

(* GeDoubleScalarMultVartime (875-928) *)
Definition ca_zero : CachedGE := CaGE FeZero FeZero FeZero FeZero.
(* 889-897: Ai[0] = A, Ai[i+1] = 2A + Ai[i] *)
Fixpoint odd_multiples (n : nat) (A2 : ExtendedGE) (c : CachedGE) : list CachedGE :=
  match n with
  | O => [c]
  | S n => c :: odd_multiples n A2 (e_to_cached (c_to_extended (geAdd A2 c)))
  end.
(* 901-905: the largest i at which a digit is non-zero; returns i + 1 *)
Fixpoint top_digit (i : nat) (ra rb : list Z) : nat :=
  match i with
  | O => O
  | S i' => if negb (at_ ra i' =? 0) || negb (at_ rb i' =? 0) then i else top_digit i' ra rb
  end.
(* 910-916, 918-924: / of int8 truncates towards zero *)
Definition add_a (Ai : list CachedGE) (d : Z) (t : CompletedGE) : CompletedGE :=
  if 0 <? d then geAdd (c_to_extended t) (nth (Z.to_nat (Z.quot d 2)) Ai ca_zero)
  else if d <? 0 then geSub (c_to_extended t) (nth (Z.to_nat (Z.quot (i8 (- d)) 2)) Ai ca_zero)
  else t.
Definition add_b (d : Z) (t : CompletedGE) : CompletedGE :=
  if 0 <? d then geMixedAdd (c_to_extended t) (nth (Z.to_nat (Z.quot d 2)) bi pc_zero)
  else if d <? 0 then geMixedSub (c_to_extended t) (nth (Z.to_nat (Z.quot (i8 (- d)) 2)) bi pc_zero)
  else t.
(* 907-927 *)
Fixpoint double_loop (i : nat) (Ai : list CachedGE) (ra rb : list Z) (r : ProjectiveGE) : ProjectiveGE :=
  match i with
  | O => r
  | S i =>
      let t := p_double r in
      let t := add_a Ai (at_ ra i) t in
      let t := add_b (at_ rb i) t in
      double_loop i Ai ra rb (c_to_projective t)
  end.
Definition GeDoubleScalarMultVartime (a : bytes) (A : ExtendedGE) (b : bytes) : ProjectiveGE :=
  let aSlide := slide a in
  let bSlide := slide b in
  let A2 := c_to_extended (e_double A) in
  let Ai := odd_multiples 7 A2 (e_to_cached A) in
  double_loop (top_digit 256 aSlide bSlide) Ai aSlide bSlide p_zero.

(* equal (930-936): x := uint32(b ^ c); x--; return int32(x >> 31) *)
Definition equal (b c : Z) : Z :=
  let x := Z.lxor b c mod 4294967296 in
  let x := (x - 1) mod 4294967296 in
  i32 (Z.shiftr x 31).
(* negative (938-941) *)
Definition negative (b : Z) : Z := (b >> 31 && 1)%i32.
(* PreComputedGroupElementCMove (943-947) *)
Definition pc_cmove (t u : PreComputedGE) (b : Z) : PreComputedGE :=
  PCGE (FeCMove (yPlusX t) (yPlusX u) b) (FeCMove (yMinusX t) (yMinusX u) b) (FeCMove (xy2d t) (xy2d u) b).
(* selectPoint (949-962) *)
Definition selectPoint (pos : nat) (b : Z) : PreComputedGE :=
  let bNegative := negative b in
  let bAbs := (b - (((0 - bNegative) && b) << 1))%i32 in
  let t := fold_left (fun t i => pc_cmove t (nth i (nth pos base []) pc_zero) (equal bAbs (i32 (Z.of_nat i + 1)))) (seq 0 8) pc_zero in
  let minusT := PCGE (yMinusX t) (yPlusX t) (FeNeg (xy2d t)) in
  pc_cmove t minusT bNegative.

(* GeScalarMultBase (964-1014) *)
(* 973-976 *)
Definition nibbles (a : bytes) : list Z :=
  flat_map (fun v => [i8 (Z.land (b2z v) 15); i8 (Z.land (Z.shiftr (b2z v) 4) 15)]) a.
(* 980-986: for i := 0; i < 63; i++ { e[i] += carry; carry = (e[i] + 8) >> 4;
   e[i] -= carry << 4 }; e[63] += carry   (n: the remaining iterations) *)
Fixpoint recode (n : nat) (carry : Z) (e : list Z) : list Z :=
  match n, e with
  | _, [] => []
  | O, x :: e => i8 (x + carry) :: e
  | S n, x :: e =>
      let x := i8 (x + carry) in
      let carry := Z.shiftr (i8 (x + 8)) 4 in
      i8 (x - i8 (Z.shiftl carry 4)) :: recode n carry e
  end.
(* 992-996 and 1009-1013: selectPoint(&t, i/2, e[i]); geMixedAdd(&r, h, &t); r.ToExtended(h) *)
Definition base_step (e : list Z) (h : ExtendedGE) (i : nat) : ExtendedGE :=
  c_to_extended (geMixedAdd h (selectPoint (i / 2) (at_ e i))).
Definition GeScalarMultBase (a : bytes) : ExtendedGE :=
  let e := recode 63 0 (nibbles a) in
  let h := e_zero in
  let h := fold_left (base_step e) (map (fun k => 2 * k + 1)%nat (seq 0 32)) h in
  let s := c_to_projective (e_double h) in
  let s := c_to_projective (p_double s) in
  let s := c_to_projective (p_double s) in
  let h := c_to_extended (p_double s) in
  fold_left (base_step e) (map (fun k => 2 * k)%nat (seq 0 32)) h.
