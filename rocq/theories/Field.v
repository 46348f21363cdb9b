(* GENERATED by tools/gen_field.py from signify/internal/edwards25519/edwards25519.go;
   committed as source.  Limb arithmetic with explicit 32/64-bit wrap-around. *)
From Verif Require Export MachInt.

(* type FieldElement [10]int32   (edwards25519.go:12-16) *)
Inductive fe : Type := Fe (x0 x1 x2 x3 x4 x5 x6 x7 x8 x9 : Z).

(* FeZero (20-22), FeOne (24-27) *)
Definition FeZero : fe := Fe 0 0 0 0 0 0 0 0 0 0.
Definition FeOne : fe := Fe 1 0 0 0 0 0 0 0 0 0.

(* FeAdd  (edwards25519.go:29-40) *)
Definition FeAdd (a b : fe) : fe :=
  let '(Fe a_0_ a_1_ a_2_ a_3_ a_4_ a_5_ a_6_ a_7_ a_8_ a_9_) := a in let '(Fe b_0_ b_1_ b_2_ b_3_ b_4_ b_5_ b_6_ b_7_ b_8_ b_9_) := b in
  Fe (a_0_ + b_0_)%i32
     (a_1_ + b_1_)%i32
     (a_2_ + b_2_)%i32
     (a_3_ + b_3_)%i32
     (a_4_ + b_4_)%i32
     (a_5_ + b_5_)%i32
     (a_6_ + b_6_)%i32
     (a_7_ + b_7_)%i32
     (a_8_ + b_8_)%i32
     (a_9_ + b_9_)%i32.

(* FeSub  (edwards25519.go:42-53) *)
Definition FeSub (a b : fe) : fe :=
  let '(Fe a_0_ a_1_ a_2_ a_3_ a_4_ a_5_ a_6_ a_7_ a_8_ a_9_) := a in let '(Fe b_0_ b_1_ b_2_ b_3_ b_4_ b_5_ b_6_ b_7_ b_8_ b_9_) := b in
  Fe (a_0_ - b_0_)%i32
     (a_1_ - b_1_)%i32
     (a_2_ - b_2_)%i32
     (a_3_ - b_3_)%i32
     (a_4_ - b_4_)%i32
     (a_5_ - b_5_)%i32
     (a_6_ - b_6_)%i32
     (a_7_ - b_7_)%i32
     (a_8_ - b_8_)%i32
     (a_9_ - b_9_)%i32.

(* FeNeg  (edwards25519.go:247-258; -x is 0 - x with wrap-around) *)
Definition FeNeg (f : fe) : fe :=
  let '(Fe f_0_ f_1_ f_2_ f_3_ f_4_ f_5_ f_6_ f_7_ f_8_ f_9_) := f in
  Fe (0 - f_0_)%i32
     (0 - f_1_)%i32
     (0 - f_2_)%i32
     (0 - f_3_)%i32
     (0 - f_4_)%i32
     (0 - f_5_)%i32
     (0 - f_6_)%i32
     (0 - f_7_)%i32
     (0 - f_8_)%i32
     (0 - f_9_)%i32.

(* FeCMove  (edwards25519.go:63-75): b = -b; f[i] ^= b & (f[i] ^ g[i]) *)
Definition FeCMove (f g : fe) (b : Z) : fe :=
  let '(Fe f_0_ f_1_ f_2_ f_3_ f_4_ f_5_ f_6_ f_7_ f_8_ f_9_) := f in let '(Fe g_0_ g_1_ g_2_ g_3_ g_4_ g_5_ g_6_ g_7_ g_8_ g_9_) := g in
  let b := i32 (- b) in
  Fe (Z.lxor f_0_ (Z.land b (Z.lxor f_0_ g_0_)))
     (Z.lxor f_1_ (Z.land b (Z.lxor f_1_ g_1_)))
     (Z.lxor f_2_ (Z.land b (Z.lxor f_2_ g_2_)))
     (Z.lxor f_3_ (Z.land b (Z.lxor f_3_ g_3_)))
     (Z.lxor f_4_ (Z.land b (Z.lxor f_4_ g_4_)))
     (Z.lxor f_5_ (Z.land b (Z.lxor f_5_ g_5_)))
     (Z.lxor f_6_ (Z.land b (Z.lxor f_6_ g_6_)))
     (Z.lxor f_7_ (Z.land b (Z.lxor f_7_ g_7_)))
     (Z.lxor f_8_ (Z.land b (Z.lxor f_8_ g_8_)))
     (Z.lxor f_9_ (Z.land b (Z.lxor f_9_ g_9_))).

(* load3 (77-83), load4 (85-92): little-endian loads at the front of a slice.
   Reading past the end panics in Go; all uses are inside 32-byte arrays. *)
Definition byte_at (l : bytes) (i : nat) : Z := b2z (nth i l x00).
Definition load3 (l : bytes) (o : nat) : Z :=
  Z.lor (Z.lor (byte_at l o) (Z.shiftl (byte_at l (o + 1)) 8))
        (Z.shiftl (byte_at l (o + 2)) 16).
Definition load4 (l : bytes) (o : nat) : Z :=
  Z.lor (load3 l o) (Z.shiftl (byte_at l (o + 3)) 24).

(* FeCombine  (edwards25519.go:260-347); int64 arithmetic, results converted to int32 *)
Definition FeCombine (h0 h1 h2 h3 h4 h5 h6 h7 h8 h9 : Z) : fe :=
  let c0 := ((h0 + (1 << 25)) >> 26)%i64 in
  let h1 := (h1 + c0)%i64 in
  let h0 := (h0 - (c0 << 26))%i64 in
  let c4 := ((h4 + (1 << 25)) >> 26)%i64 in
  let h5 := (h5 + c4)%i64 in
  let h4 := (h4 - (c4 << 26))%i64 in
  let c1 := ((h1 + (1 << 24)) >> 25)%i64 in
  let h2 := (h2 + c1)%i64 in
  let h1 := (h1 - (c1 << 25))%i64 in
  let c5 := ((h5 + (1 << 24)) >> 25)%i64 in
  let h6 := (h6 + c5)%i64 in
  let h5 := (h5 - (c5 << 25))%i64 in
  let c2 := ((h2 + (1 << 25)) >> 26)%i64 in
  let h3 := (h3 + c2)%i64 in
  let h2 := (h2 - (c2 << 26))%i64 in
  let c6 := ((h6 + (1 << 25)) >> 26)%i64 in
  let h7 := (h7 + c6)%i64 in
  let h6 := (h6 - (c6 << 26))%i64 in
  let c3 := ((h3 + (1 << 24)) >> 25)%i64 in
  let h4 := (h4 + c3)%i64 in
  let h3 := (h3 - (c3 << 25))%i64 in
  let c7 := ((h7 + (1 << 24)) >> 25)%i64 in
  let h8 := (h8 + c7)%i64 in
  let h7 := (h7 - (c7 << 25))%i64 in
  let c4 := ((h4 + (1 << 25)) >> 26)%i64 in
  let h5 := (h5 + c4)%i64 in
  let h4 := (h4 - (c4 << 26))%i64 in
  let c8 := ((h8 + (1 << 25)) >> 26)%i64 in
  let h9 := (h9 + c8)%i64 in
  let h8 := (h8 - (c8 << 26))%i64 in
  let c9 := ((h9 + (1 << 24)) >> 25)%i64 in
  let h0 := (h0 + (c9 * 19))%i64 in
  let h9 := (h9 - (c9 << 25))%i64 in
  let c0 := ((h0 + (1 << 25)) >> 26)%i64 in
  let h1 := (h1 + c0)%i64 in
  let h0 := (h0 - (c0 << 26))%i64 in
  Fe (i32 h0) (i32 h1) (i32 h2) (i32 h3) (i32 h4) (i32 h5) (i32 h6) (i32 h7) (i32 h8) (i32 h9).

(* FeFromBytes  (edwards25519.go:94-107) *)
Definition FeFromBytes (src : bytes) : fe :=
  let h0 := ((load4 src 0))%i64 in
  let h1 := ((load3 src 4) << 6)%i64 in
  let h2 := ((load3 src 7) << 5)%i64 in
  let h3 := ((load3 src 10) << 3)%i64 in
  let h4 := ((load3 src 13) << 2)%i64 in
  let h5 := ((load4 src 16))%i64 in
  let h6 := ((load3 src 20) << 7)%i64 in
  let h7 := ((load3 src 23) << 5)%i64 in
  let h8 := ((load3 src 26) << 4)%i64 in
  let h9 := (((load3 src 29) && 8388607) << 2)%i64 in
  FeCombine h0 h1 h2 h3 h4 h5 h6 h7 h8 h9.

(* FeToBytes  (edwards25519.go:132-219).  The Go function also overwrites its
   argument h with the carried limbs; the model returns them too. *)
Definition FeToBytes (h : fe) : bytes * fe :=
  let '(Fe h_0_ h_1_ h_2_ h_3_ h_4_ h_5_ h_6_ h_7_ h_8_ h_9_) := h in
  let q := ((19*h_9_ + (1 << 24)) >> 25)%i32 in
  let q := ((h_0_ + q) >> 26)%i32 in
  let q := ((h_1_ + q) >> 25)%i32 in
  let q := ((h_2_ + q) >> 26)%i32 in
  let q := ((h_3_ + q) >> 25)%i32 in
  let q := ((h_4_ + q) >> 26)%i32 in
  let q := ((h_5_ + q) >> 25)%i32 in
  let q := ((h_6_ + q) >> 26)%i32 in
  let q := ((h_7_ + q) >> 25)%i32 in
  let q := ((h_8_ + q) >> 26)%i32 in
  let q := ((h_9_ + q) >> 25)%i32 in
  let h_0_ := (h_0_ + (19 * q))%i32 in
  let carry_0_ := (h_0_ >> 26)%i32 in
  let h_1_ := (h_1_ + carry_0_)%i32 in
  let h_0_ := (h_0_ - (carry_0_ << 26))%i32 in
  let carry_1_ := (h_1_ >> 25)%i32 in
  let h_2_ := (h_2_ + carry_1_)%i32 in
  let h_1_ := (h_1_ - (carry_1_ << 25))%i32 in
  let carry_2_ := (h_2_ >> 26)%i32 in
  let h_3_ := (h_3_ + carry_2_)%i32 in
  let h_2_ := (h_2_ - (carry_2_ << 26))%i32 in
  let carry_3_ := (h_3_ >> 25)%i32 in
  let h_4_ := (h_4_ + carry_3_)%i32 in
  let h_3_ := (h_3_ - (carry_3_ << 25))%i32 in
  let carry_4_ := (h_4_ >> 26)%i32 in
  let h_5_ := (h_5_ + carry_4_)%i32 in
  let h_4_ := (h_4_ - (carry_4_ << 26))%i32 in
  let carry_5_ := (h_5_ >> 25)%i32 in
  let h_6_ := (h_6_ + carry_5_)%i32 in
  let h_5_ := (h_5_ - (carry_5_ << 25))%i32 in
  let carry_6_ := (h_6_ >> 26)%i32 in
  let h_7_ := (h_7_ + carry_6_)%i32 in
  let h_6_ := (h_6_ - (carry_6_ << 26))%i32 in
  let carry_7_ := (h_7_ >> 25)%i32 in
  let h_8_ := (h_8_ + carry_7_)%i32 in
  let h_7_ := (h_7_ - (carry_7_ << 25))%i32 in
  let carry_8_ := (h_8_ >> 26)%i32 in
  let h_9_ := (h_9_ + carry_8_)%i32 in
  let h_8_ := (h_8_ - (carry_8_ << 26))%i32 in
  let carry_9_ := (h_9_ >> 25)%i32 in
  let h_9_ := (h_9_ - (carry_9_ << 25))%i32 in
  ([z2b (h_0_ >> 0)%i32;
    z2b (h_0_ >> 8)%i32;
    z2b (h_0_ >> 16)%i32;
    z2b ((h_0_ >> 24) || (h_1_ << 2))%i32;
    z2b (h_1_ >> 6)%i32;
    z2b (h_1_ >> 14)%i32;
    z2b ((h_1_ >> 22) || (h_2_ << 3))%i32;
    z2b (h_2_ >> 5)%i32;
    z2b (h_2_ >> 13)%i32;
    z2b ((h_2_ >> 21) || (h_3_ << 5))%i32;
    z2b (h_3_ >> 3)%i32;
    z2b (h_3_ >> 11)%i32;
    z2b ((h_3_ >> 19) || (h_4_ << 6))%i32;
    z2b (h_4_ >> 2)%i32;
    z2b (h_4_ >> 10)%i32;
    z2b (h_4_ >> 18)%i32;
    z2b (h_5_ >> 0)%i32;
    z2b (h_5_ >> 8)%i32;
    z2b (h_5_ >> 16)%i32;
    z2b ((h_5_ >> 24) || (h_6_ << 1))%i32;
    z2b (h_6_ >> 7)%i32;
    z2b (h_6_ >> 15)%i32;
    z2b ((h_6_ >> 23) || (h_7_ << 3))%i32;
    z2b (h_7_ >> 5)%i32;
    z2b (h_7_ >> 13)%i32;
    z2b ((h_7_ >> 21) || (h_8_ << 4))%i32;
    z2b (h_8_ >> 4)%i32;
    z2b (h_8_ >> 12)%i32;
    z2b ((h_8_ >> 20) || (h_9_ << 6))%i32;
    z2b (h_9_ >> 2)%i32;
    z2b (h_9_ >> 10)%i32;
    z2b (h_9_ >> 18)%i32],
   Fe h_0_ h_1_ h_2_ h_3_ h_4_ h_5_ h_6_ h_7_ h_8_ h_9_).

(* FeMul  (edwards25519.go:376-427).  2*f[1], 19*g[1] etc. are int32 products. *)
Definition FeMul (f g : fe) : fe :=
  let '(Fe f_0_ f_1_ f_2_ f_3_ f_4_ f_5_ f_6_ f_7_ f_8_ f_9_) := f in let '(Fe g_0_ g_1_ g_2_ g_3_ g_4_ g_5_ g_6_ g_7_ g_8_ g_9_) := g in
  let f0 := (f_0_)%i64 in
  let f1 := (f_1_)%i64 in
  let f2 := (f_2_)%i64 in
  let f3 := (f_3_)%i64 in
  let f4 := (f_4_)%i64 in
  let f5 := (f_5_)%i64 in
  let f6 := (f_6_)%i64 in
  let f7 := (f_7_)%i64 in
  let f8 := (f_8_)%i64 in
  let f9 := (f_9_)%i64 in
  let f1_2 := ((2 * f_1_)%i32)%i64 in
  let f3_2 := ((2 * f_3_)%i32)%i64 in
  let f5_2 := ((2 * f_5_)%i32)%i64 in
  let f7_2 := ((2 * f_7_)%i32)%i64 in
  let f9_2 := ((2 * f_9_)%i32)%i64 in
  let g0 := (g_0_)%i64 in
  let g1 := (g_1_)%i64 in
  let g2 := (g_2_)%i64 in
  let g3 := (g_3_)%i64 in
  let g4 := (g_4_)%i64 in
  let g5 := (g_5_)%i64 in
  let g6 := (g_6_)%i64 in
  let g7 := (g_7_)%i64 in
  let g8 := (g_8_)%i64 in
  let g9 := (g_9_)%i64 in
  let g1_19 := ((19 * g_1_)%i32)%i64 in
  let g2_19 := ((19 * g_2_)%i32)%i64 in
  let g3_19 := ((19 * g_3_)%i32)%i64 in
  let g4_19 := ((19 * g_4_)%i32)%i64 in
  let g5_19 := ((19 * g_5_)%i32)%i64 in
  let g6_19 := ((19 * g_6_)%i32)%i64 in
  let g7_19 := ((19 * g_7_)%i32)%i64 in
  let g8_19 := ((19 * g_8_)%i32)%i64 in
  let g9_19 := ((19 * g_9_)%i32)%i64 in
  let h0 := (f0*g0 + f1_2*g9_19 + f2*g8_19 + f3_2*g7_19 + f4*g6_19 + f5_2*g5_19 + f6*g4_19 + f7_2*g3_19 + f8*g2_19 + f9_2*g1_19)%i64 in
  let h1 := (f0*g1 + f1*g0 + f2*g9_19 + f3*g8_19 + f4*g7_19 + f5*g6_19 + f6*g5_19 + f7*g4_19 + f8*g3_19 + f9*g2_19)%i64 in
  let h2 := (f0*g2 + f1_2*g1 + f2*g0 + f3_2*g9_19 + f4*g8_19 + f5_2*g7_19 + f6*g6_19 + f7_2*g5_19 + f8*g4_19 + f9_2*g3_19)%i64 in
  let h3 := (f0*g3 + f1*g2 + f2*g1 + f3*g0 + f4*g9_19 + f5*g8_19 + f6*g7_19 + f7*g6_19 + f8*g5_19 + f9*g4_19)%i64 in
  let h4 := (f0*g4 + f1_2*g3 + f2*g2 + f3_2*g1 + f4*g0 + f5_2*g9_19 + f6*g8_19 + f7_2*g7_19 + f8*g6_19 + f9_2*g5_19)%i64 in
  let h5 := (f0*g5 + f1*g4 + f2*g3 + f3*g2 + f4*g1 + f5*g0 + f6*g9_19 + f7*g8_19 + f8*g7_19 + f9*g6_19)%i64 in
  let h6 := (f0*g6 + f1_2*g5 + f2*g4 + f3_2*g3 + f4*g2 + f5_2*g1 + f6*g0 + f7_2*g9_19 + f8*g8_19 + f9_2*g7_19)%i64 in
  let h7 := (f0*g7 + f1*g6 + f2*g5 + f3*g4 + f4*g3 + f5*g2 + f6*g1 + f7*g0 + f8*g9_19 + f9*g8_19)%i64 in
  let h8 := (f0*g8 + f1_2*g7 + f2*g6 + f3_2*g5 + f4*g4 + f5_2*g3 + f6*g2 + f7_2*g1 + f8*g0 + f9_2*g9_19)%i64 in
  let h9 := (f0*g9 + f1*g8 + f2*g7 + f3*g6 + f4*g5 + f5*g4 + f6*g3 + f7*g2 + f8*g1 + f9*g0)%i64 in
  FeCombine h0 h1 h2 h3 h4 h5 h6 h7 h8 h9.

(* feSquare  (edwards25519.go:429-466): the ten 64-bit coefficients *)
Definition feSquare (f : fe) :=
  let '(Fe f_0_ f_1_ f_2_ f_3_ f_4_ f_5_ f_6_ f_7_ f_8_ f_9_) := f in
  let f0 := (f_0_)%i64 in
  let f1 := (f_1_)%i64 in
  let f2 := (f_2_)%i64 in
  let f3 := (f_3_)%i64 in
  let f4 := (f_4_)%i64 in
  let f5 := (f_5_)%i64 in
  let f6 := (f_6_)%i64 in
  let f7 := (f_7_)%i64 in
  let f8 := (f_8_)%i64 in
  let f9 := (f_9_)%i64 in
  let f0_2 := ((2 * f_0_)%i32)%i64 in
  let f1_2 := ((2 * f_1_)%i32)%i64 in
  let f2_2 := ((2 * f_2_)%i32)%i64 in
  let f3_2 := ((2 * f_3_)%i32)%i64 in
  let f4_2 := ((2 * f_4_)%i32)%i64 in
  let f5_2 := ((2 * f_5_)%i32)%i64 in
  let f6_2 := ((2 * f_6_)%i32)%i64 in
  let f7_2 := ((2 * f_7_)%i32)%i64 in
  let f5_38 := (38 * f5)%i64 in
  let f6_19 := (19 * f6)%i64 in
  let f7_38 := (38 * f7)%i64 in
  let f8_19 := (19 * f8)%i64 in
  let f9_38 := (38 * f9)%i64 in
  let h0 := (f0*f0 + f1_2*f9_38 + f2_2*f8_19 + f3_2*f7_38 + f4_2*f6_19 + f5*f5_38)%i64 in
  let h1 := (f0_2*f1 + f2*f9_38 + f3_2*f8_19 + f4*f7_38 + f5_2*f6_19)%i64 in
  let h2 := (f0_2*f2 + f1_2*f1 + f3_2*f9_38 + f4_2*f8_19 + f5_2*f7_38 + f6*f6_19)%i64 in
  let h3 := (f0_2*f3 + f1_2*f2 + f4*f9_38 + f5_2*f8_19 + f6*f7_38)%i64 in
  let h4 := (f0_2*f4 + f1_2*f3_2 + f2*f2 + f5_2*f9_38 + f6_2*f8_19 + f7*f7_38)%i64 in
  let h5 := (f0_2*f5 + f1_2*f4 + f2_2*f3 + f6*f9_38 + f7_2*f8_19)%i64 in
  let h6 := (f0_2*f6 + f1_2*f5_2 + f2_2*f4 + f3_2*f3 + f7_2*f9_38 + f8*f8_19)%i64 in
  let h7 := (f0_2*f7 + f1_2*f6 + f2_2*f5 + f3_2*f4 + f8*f9_38)%i64 in
  let h8 := (f0_2*f8 + f1_2*f7_2 + f2_2*f6 + f3_2*f5_2 + f4*f4 + f9*f9_38)%i64 in
  let h9 := (f0_2*f9 + f1_2*f8 + f2_2*f7 + f3_2*f6 + f4_2*f5)%i64 in
  (h0, h1, h2, h3, h4, h5, h6, h7, h8, h9).

(* FeSquare  (edwards25519.go:475-478) *)
Definition FeSquare (f : fe) : fe :=
  let '(h0, h1, h2, h3, h4, h5, h6, h7, h8, h9) := feSquare f in
  FeCombine h0 h1 h2 h3 h4 h5 h6 h7 h8 h9.

(* FeSquare2  (edwards25519.go:490-505) *)
Definition FeSquare2 (f : fe) : fe :=
  let '(h0, h1, h2, h3, h4, h5, h6, h7, h8, h9) := feSquare f in
  FeCombine (h0 + h0)%i64 (h1 + h1)%i64 (h2 + h2)%i64 (h3 + h3)%i64 (h4 + h4)%i64
            (h5 + h5)%i64 (h6 + h6)%i64 (h7 + h7)%i64 (h8 + h8)%i64 (h9 + h9)%i64.

(* FeIsNegative  (edwards25519.go:221-225); also returns the overwritten argument *)
Definition FeIsNegative (f : fe) : Z * fe :=
  let '(s, f') := FeToBytes f in (Z.land (byte_at s 0) 1, f').

(* FeIsNonZero  (edwards25519.go:227-238); uint8 arithmetic; also returns the
   overwritten argument *)
Definition FeIsNonZero (f : fe) : Z * fe :=
  let '(s, f') := FeToBytes f in
  let x := fold_left (fun x b => Z.lor x (b2z b)) s 0 in
  let x := Z.lor x (Z.shiftr x 4) in
  let x := Z.lor x (Z.shiftr x 2) in
  let x := Z.lor x (Z.shiftr x 1) in
  (Z.land x 1, f').

(* for i = 1; i <= n; i++ { FeSquare(&t, &t) } *)
Definition sqn (n : nat) (t : fe) : fe := Nat.iter n FeSquare t.

(* FeInvert  (edwards25519.go:507-560) *)
Definition FeInvert (z : fe) : fe :=
  let t0 := FeSquare z in
  let t1 := FeSquare t0 in
  let t1 := sqn 1 t1 in
  let t1 := FeMul z t1 in
  let t0 := FeMul t0 t1 in
  let t2 := FeSquare t0 in
  let t1 := FeMul t1 t2 in
  let t2 := FeSquare t1 in
  let t2 := sqn 4 t2 in
  let t1 := FeMul t2 t1 in
  let t2 := FeSquare t1 in
  let t2 := sqn 9 t2 in
  let t2 := FeMul t2 t1 in
  let t3 := FeSquare t2 in
  let t3 := sqn 19 t3 in
  let t2 := FeMul t3 t2 in
  let t2 := FeSquare t2 in
  let t2 := sqn 9 t2 in
  let t1 := FeMul t2 t1 in
  let t2 := FeSquare t1 in
  let t2 := sqn 49 t2 in
  let t2 := FeMul t2 t1 in
  let t3 := FeSquare t2 in
  let t3 := sqn 99 t3 in
  let t2 := FeMul t3 t2 in
  let t2 := FeSquare t2 in
  let t2 := sqn 49 t2 in
  let t1 := FeMul t2 t1 in
  let t1 := FeSquare t1 in
  let t1 := sqn 4 t1 in
  FeMul t1 t0.

(* fePow22523  (edwards25519.go:562-621) *)
Definition fePow22523 (z : fe) : fe :=
  let t0 := FeSquare z in
  let t0 := sqn 0 t0 in
  let t1 := FeSquare t0 in
  let t1 := sqn 1 t1 in
  let t1 := FeMul z t1 in
  let t0 := FeMul t0 t1 in
  let t0 := FeSquare t0 in
  let t0 := sqn 0 t0 in
  let t0 := FeMul t1 t0 in
  let t1 := FeSquare t0 in
  let t1 := sqn 4 t1 in
  let t0 := FeMul t1 t0 in
  let t1 := FeSquare t0 in
  let t1 := sqn 9 t1 in
  let t1 := FeMul t1 t0 in
  let t2 := FeSquare t1 in
  let t2 := sqn 19 t2 in
  let t1 := FeMul t2 t1 in
  let t1 := FeSquare t1 in
  let t1 := sqn 9 t1 in
  let t0 := FeMul t1 t0 in
  let t1 := FeSquare t0 in
  let t1 := sqn 49 t1 in
  let t1 := FeMul t1 t0 in
  let t2 := FeSquare t1 in
  let t2 := sqn 99 t2 in
  let t1 := FeMul t2 t1 in
  let t1 := FeSquare t1 in
  let t1 := sqn 49 t1 in
  let t0 := FeMul t1 t0 in
  let t0 := FeSquare t0 in
  let t0 := sqn 1 t0 in
  FeMul t0 z.

(* const.go: var d *)
Definition fe_d : fe := Fe (-10913610) (13857413) (-15372611) (6949391) (114729) (-8787816) (-6275908) (-3247719) (-18696448) (-12055116).

(* const.go: var d2 *)
Definition fe_d2 : fe := Fe (-21827239) (-5839606) (-30745221) (13898782) (229458) (15978800) (-12551817) (-6495438) (29715968) (9444199).

(* const.go: var SqrtM1 *)
Definition fe_SqrtM1 : fe := Fe (-32595792) (-7943725) (9377950) (3500415) (12389472) (-272473) (-25146209) (-2005654) (326686) (11406482).
