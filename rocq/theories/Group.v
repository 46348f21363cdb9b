(* Point representations and formulas of
   signify/internal/edwards25519/edwards25519.go:623-843.  Definitions only. *)
From Verif Require Export Field.

(* edwards25519.go:632-650 *)
Record ProjectiveGE := PGE { pX : fe; pY : fe; pZ : fe }.
Record ExtendedGE := EGE { eX : fe; eY : fe; eZ : fe; eT : fe }.
Record CompletedGE := CGE { cX : fe; cY : fe; cZ : fe; cT : fe }.
Record PreComputedGE := PCGE { yPlusX : fe; yMinusX : fe; xy2d : fe }.
Record CachedGE := CaGE { c_yPlusX : fe; c_yMinusX : fe; c_Z : fe; c_T2d : fe }.

(* ProjectiveGroupElement.Zero (652-656), ExtendedGroupElement.Zero (682-687),
   PreComputedGroupElement.Zero (777-781) *)
Definition p_zero : ProjectiveGE := PGE FeZero FeOne FeOne.
Definition e_zero : ExtendedGE := EGE FeZero FeOne FeOne FeZero.
Definition pc_zero : PreComputedGE := PCGE FeOne FeOne FeZero.

(* ProjectiveGroupElement.Double (658-670) *)
Definition p_double (p : ProjectiveGE) : CompletedGE :=
  let rX := FeSquare (pX p) in
  let rZ := FeSquare (pY p) in
  let rT := FeSquare2 (pZ p) in
  let rY := FeAdd (pX p) (pY p) in
  let t0 := FeSquare rY in
  let rY := FeAdd rZ rX in
  let rZ := FeSub rZ rX in
  let rX := FeSub t0 rY in
  let rT := FeSub rT rZ in
  CGE rX rY rZ rT.

(* ExtendedGroupElement.ToProjective (702-706), .Double (689-693) *)
Definition e_to_projective (p : ExtendedGE) : ProjectiveGE := PGE (eX p) (eY p) (eZ p).
Definition e_double (p : ExtendedGE) : CompletedGE := p_double (e_to_projective p).

(* ExtendedGroupElement.ToCached (695-700) *)
Definition e_to_cached (p : ExtendedGE) : CachedGE :=
  CaGE (FeAdd (eY p) (eX p)) (FeSub (eY p) (eX p)) (eZ p) (FeMul (eT p) fe_d2).

(* s[31] ^= neg << 7  with neg a byte *)
Definition flip_sign (s : bytes) (neg : Z) : bytes :=
  set_nth 31 (bxor (nth 31 s x00) (z2b (Z.shiftl neg 7))) s.

(* ProjectiveGroupElement.ToBytes (672-680), ExtendedGroupElement.ToBytes (708-716) *)
Definition xyz_to_bytes (X Y Z' : fe) : bytes :=
  let recip := FeInvert Z' in
  let x := FeMul X recip in
  let y := FeMul Y recip in
  let '(s, _) := FeToBytes y in
  let '(neg, _) := FeIsNegative x in
  flip_sign s neg.
Definition p_to_bytes (p : ProjectiveGE) : bytes := xyz_to_bytes (pX p) (pY p) (pZ p).
Definition e_to_bytes (p : ExtendedGE) : bytes := xyz_to_bytes (eX p) (eY p) (eZ p).

(* ExtendedGroupElement.FromBytes (718-762); None = false.  FeIsNonZero,
   FeIsNegative and FeToBytes overwrite their argument, which matters for p.X
   (lines 750 and 756).  tmpX/tmp2 (738,751-753) are dead stores. *)
Definition e_from_bytes (s : bytes) : option ExtendedGE :=
  let Y := FeFromBytes s in
  let Zc := FeOne in
  let u := FeSquare Y in
  let v := FeMul u fe_d in
  let u := FeSub u Zc in
  let v := FeAdd v Zc in
  let v3 := FeSquare v in
  let v3 := FeMul v3 v in
  let X := FeSquare v3 in
  let X := FeMul X v in
  let X := FeMul X u in
  let X := fePow22523 X in
  let X := FeMul X v3 in
  let X := FeMul X u in
  let vxx := FeSquare X in
  let vxx := FeMul vxx v in
  let check := FeSub vxx u in
  let finish (X : fe) : option ExtendedGE :=
    let '(neg, X) := FeIsNegative X in
    let X := if neg =? Z.shiftr (byte_at s 31) 7 then X else FeNeg X in
    Some (EGE X Y Zc (FeMul X Y)) in
  if fst (FeIsNonZero check) =? 1 then
    let check := FeAdd vxx u in
    if fst (FeIsNonZero check) =? 1 then None
    else
      let X := FeMul X fe_SqrtM1 in
      let '(_, X) := FeToBytes X in
      finish X
  else finish X.

(* CompletedGroupElement.ToProjective (764-768), .ToExtended (770-775) *)
Definition c_to_projective (p : CompletedGE) : ProjectiveGE :=
  PGE (FeMul (cX p) (cT p)) (FeMul (cY p) (cZ p)) (FeMul (cZ p) (cT p)).
Definition c_to_extended (p : CompletedGE) : ExtendedGE :=
  EGE (FeMul (cX p) (cT p)) (FeMul (cY p) (cZ p)) (FeMul (cZ p) (cT p)) (FeMul (cX p) (cY p)).

(* geAdd (783-797) *)
Definition geAdd (p : ExtendedGE) (q : CachedGE) : CompletedGE :=
  let rX := FeAdd (eY p) (eX p) in
  let rY := FeSub (eY p) (eX p) in
  let rZ := FeMul rX (c_yPlusX q) in
  let rY := FeMul rY (c_yMinusX q) in
  let rT := FeMul (c_T2d q) (eT p) in
  let rX := FeMul (eZ p) (c_Z q) in
  let t0 := FeAdd rX rX in
  let rX := FeSub rZ rY in
  let rY := FeAdd rZ rY in
  let rZ := FeAdd t0 rT in
  let rT := FeSub t0 rT in
  CGE rX rY rZ rT.

(* geSub (799-813) *)
Definition geSub (p : ExtendedGE) (q : CachedGE) : CompletedGE :=
  let rX := FeAdd (eY p) (eX p) in
  let rY := FeSub (eY p) (eX p) in
  let rZ := FeMul rX (c_yMinusX q) in
  let rY := FeMul rY (c_yPlusX q) in
  let rT := FeMul (c_T2d q) (eT p) in
  let rX := FeMul (eZ p) (c_Z q) in
  let t0 := FeAdd rX rX in
  let rX := FeSub rZ rY in
  let rY := FeAdd rZ rY in
  let rZ := FeSub t0 rT in
  let rT := FeAdd t0 rT in
  CGE rX rY rZ rT.

(* geMixedAdd (815-828) *)
Definition geMixedAdd (p : ExtendedGE) (q : PreComputedGE) : CompletedGE :=
  let rX := FeAdd (eY p) (eX p) in
  let rY := FeSub (eY p) (eX p) in
  let rZ := FeMul rX (yPlusX q) in
  let rY := FeMul rY (yMinusX q) in
  let rT := FeMul (xy2d q) (eT p) in
  let t0 := FeAdd (eZ p) (eZ p) in
  let rX := FeSub rZ rY in
  let rY := FeAdd rZ rY in
  let rZ := FeAdd t0 rT in
  let rT := FeSub t0 rT in
  CGE rX rY rZ rT.

(* geMixedSub (830-843) *)
Definition geMixedSub (p : ExtendedGE) (q : PreComputedGE) : CompletedGE :=
  let rX := FeAdd (eY p) (eX p) in
  let rY := FeSub (eY p) (eX p) in
  let rZ := FeMul rX (yMinusX q) in
  let rY := FeMul rY (yPlusX q) in
  let rT := FeMul (xy2d q) (eT p) in
  let t0 := FeAdd (eZ p) (eZ p) in
  let rX := FeSub rZ rY in
  let rY := FeAdd rZ rY in
  let rZ := FeSub t0 rT in
  let rT := FeAdd t0 rT in
  CGE rX rY rZ rT.

(* the x-coordinate part of Public.ToBox (signify/key.go:329-335):
   oneMinusY := 1 - Y; x := 1 + Y; x := x * (1/oneMinusY) *)
Definition montgomery_u (Y : fe) : bytes :=
  let oneMinusY := FeSub FeOne Y in
  let x := FeAdd FeOne Y in
  let oneMinusY := FeInvert oneMinusY in
  let x := FeMul x oneMinusY in
  fst (FeToBytes x).
