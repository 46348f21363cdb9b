(* Specification of the curve edwards25519 (RFC 8032, section 5.1) over the
   field F, independent of the code. *)
From Verif Require Export PrimeField.

(* d = -121665/121666 *)
Definition curve_d : F := Fdiv (toF (-121665)) (toF 121666).
(* -x^2 + y^2 = 1 + d x^2 y^2 *)
Definition on_curve (x y : F) : Prop := (y * y - x * x = F1 + curve_d * (x * x) * (y * y))%F.

(* the y-coordinate in the low 255 bits, the sign of x in the top bit *)
Definition enc_y (s : bytes) : F := toF (le_val s mod 2 ^ 255).
Definition enc_sign (s : bytes) : Z := le_val s / 2 ^ 255.
(* a field element is "negative" if its representative below p is odd *)
Definition parity (x : F) : Z := rep x mod 2.
(* canonical little-endian encoding in 32 bytes *)
Definition F_encodes (b : bytes) (x : F) : Prop := length b = 32%nat /\ le_val b = rep x.

(* the field element a limb vector stands for *)
Definition FV (f : fe) : F := toF (fval f).

(* ---- points and the group operation (RFC 8032, section 5.1.4; affine) ---- *)
Definition point : Type := F * F.
Definition on (P : point) : Prop := on_curve (fst P) (snd P).
Definition pO : point := (F0, F1).
Definition pneg (P : point) : point := ((- fst P)%F, snd P).
Definition padd (P Q : point) : point :=
  let '(x1, y1) := P in let '(x2, y2) := Q in
  (((x1 * y2 + x2 * y1) / (F1 + curve_d * x1 * x2 * y1 * y2))%F,
   ((y1 * y2 + x1 * x2) / (F1 - curve_d * x1 * x2 * y1 * y2))%F).
(* [n]P *)
Definition pmul (n : nat) (P : point) : point := Nat.iter n (padd P) pO.
(* [n]P for any integer n *)
Definition zmul (n : Z) (P : point) : point := if n <? 0 then pneg (pmul (Z.to_nat (- n)) P) else pmul (Z.to_nat n) P.
