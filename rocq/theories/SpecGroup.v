(* What the point representations of edwards25519.go:603-650 stand for, with the
   limb bounds the routines need and maintain.  Independent of the routines. *)
From Verif Require Export Group SpecX25519.

(* limbs of at most 26 and 25 bits, as FromBytes leaves them in X *)
Definition limbs26 : fe -> Prop := limbs 67108863 33554431.

(* projective: (X:Y:Z) with x = X/Z, y = Y/Z *)
Definition proj_rep (p : ProjectiveGE) (P : point) : Prop :=
  limbs26 (pX p) /\ tight101 (pY p) /\ tight101 (pZ p) /\ FV (pZ p) <> F0 /\
  FV (pX p) = (fst P * FV (pZ p))%F /\ FV (pY p) = (snd P * FV (pZ p))%F.
(* extended: also XY = ZT *)
Definition ext_rep (p : ExtendedGE) (P : point) : Prop :=
  limbs26 (eX p) /\ tight101 (eY p) /\ tight101 (eZ p) /\ tight101 (eT p) /\ FV (eZ p) <> F0 /\
  FV (eX p) = (fst P * FV (eZ p))%F /\ FV (eY p) = (snd P * FV (eZ p))%F /\ FV (eT p) = (fst P * snd P * FV (eZ p))%F.
(* completed: ((X:Z),(Y:T)) with x = X/Z, y = Y/T *)
Definition comp_rep (p : CompletedGE) (P : point) : Prop :=
  loose165 (cX p) /\ loose165 (cY p) /\ loose165 (cZ p) /\ loose165 (cT p) /\ FV (cZ p) <> F0 /\ FV (cT p) <> F0 /\
  FV (cX p) = (fst P * FV (cZ p))%F /\ FV (cY p) = (snd P * FV (cT p))%F.
(* precomputed: (y+x, y-x, 2dxy) *)
Definition pre_rep (p : PreComputedGE) (P : point) : Prop :=
  loose165 (yPlusX p) /\ loose165 (yMinusX p) /\ loose165 (xy2d p) /\
  FV (yPlusX p) = (snd P + fst P)%F /\ FV (yMinusX p) = (snd P - fst P)%F /\
  FV (xy2d p) = (toF 2 * curve_d * fst P * snd P)%F.
(* cached: (Y+X, Y-X, Z, 2dT) *)
Definition cached_rep (p : CachedGE) (P : point) : Prop :=
  loose165 (c_yPlusX p) /\ loose165 (c_yMinusX p) /\ tight101 (c_Z p) /\ loose165 (c_T2d p) /\ FV (c_Z p) <> F0 /\
  FV (c_yPlusX p) = ((snd P + fst P) * FV (c_Z p))%F /\ FV (c_yMinusX p) = ((snd P - fst P) * FV (c_Z p))%F /\
  FV (c_T2d p) = (toF 2 * curve_d * fst P * snd P * FV (c_Z p))%F.

(* what a successful decoding of s gives *)
Definition decoded (s : bytes) (A : ExtendedGE) : Prop :=
  let x := FV (eX A) in let y := enc_y s in
  on_curve x y /\ FV (eY A) = y /\ FV (eZ A) = F1 /\ FV (eT A) = (x * y)%F /\
  (x <> F0 -> parity x = enc_sign s) /\
  limbs 67108863 33554431 (eX A) /\ tight101 (eY A) /\ limbs 1 0 (eZ A) /\ tight101 (eT A).
