(* Specification of the field GF(2^255-19) and of its limb representation,
   independent of the code in Field.v except for the type [fe]. *)
From Verif Require Export Field.

Definition p25519 : Z := 2 ^ 255 - 19.

(* the integer a limb vector stands for (comment at edwards25519.go:12-15) *)
Definition fval (f : fe) : Z :=
  let '(Fe f0 f1 f2 f3 f4 f5 f6 f7 f8 f9) := f in
  f0 + 2^26 * f1 + 2^51 * f2 + 2^77 * f3 + 2^102 * f4 + 2^128 * f5 +
  2^153 * f6 + 2^179 * f7 + 2^204 * f8 + 2^230 * f9.

(* limbs with even index at most A in absolute value, with odd index at most B *)
Definition limbs (A B : Z) (f : fe) : Prop :=
  let '(Fe f0 f1 f2 f3 f4 f5 f6 f7 f8 f9) := f in
  Z.abs f0 <= A /\ Z.abs f1 <= B /\ Z.abs f2 <= A /\ Z.abs f3 <= B /\ Z.abs f4 <= A /\
  Z.abs f5 <= B /\ Z.abs f6 <= A /\ Z.abs f7 <= B /\ Z.abs f8 <= A /\ Z.abs f9 <= B.

(* the bounds named in the comments, rounded down: 1.01, 1.1, 1.65 times 2^25 / 2^24 *)
Definition tight101 : fe -> Prop := limbs 33890959 16945479.      (* 1.01*2^25, 1.01*2^24 *)
Definition tight110 : fe -> Prop := limbs 36909875 18454937.      (* 1.1*2^25, 1.1*2^24 *)
Definition loose110 : fe -> Prop := limbs 73819750 36909875.      (* 1.1*2^26, 1.1*2^25 *)
Definition loose165 : fe -> Prop := limbs 110729625 55364812.     (* 1.65*2^26, 1.65*2^25 *)

(* congruence modulo p *)
Definition eqp (a b : Z) : Prop := a mod p25519 = b mod p25519.

(* little-endian numbers *)
Fixpoint le_val (l : bytes) : Z :=
  match l with [] => 0 | b :: r => b2z b + 256 * le_val r end.

(* the canonical limbs: every limb non-negative and within 26 or 25 bits *)
Definition canon_limbs (f : fe) : Prop :=
  let '(Fe f0 f1 f2 f3 f4 f5 f6 f7 f8 f9) := f in
  (0 <= f0 < 2^26) /\ (0 <= f1 < 2^25) /\ (0 <= f2 < 2^26) /\ (0 <= f3 < 2^25) /\ (0 <= f4 < 2^26) /\
  (0 <= f5 < 2^25) /\ (0 <= f6 < 2^26) /\ (0 <= f7 < 2^25) /\ (0 <= f8 < 2^26) /\ (0 <= f9 < 2^25).
