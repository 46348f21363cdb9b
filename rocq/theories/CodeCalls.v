(* The calls of Steps.v carried out by the routines of CodeListing.v, and ScMinimal as a
   program.  Definitions only. *)
From Verif Require Export CodeListing Steps.
Local Open Scope string_scope.
Local Open Scope list_scope.
Local Open Scope Z_scope.

(* the body of the routine that is called; Squares is a loop around FeSquare
   (edwards25519.go:507-621: for i = 1; i < n + 1; i++ has n rounds) *)
Definition code_of (c : call) : code :=
  match c with
  | Zero _ => FeZero_code
  | One _ => FeOne_code
  | Copy _ _ => FeCopy_code
  | Add _ _ _ => FeAdd_code
  | Sub _ _ _ => FeSub_code
  | Neg _ _ => FeNeg_code
  | CMove _ _ _ => FeCMove_code
  | Mul _ _ _ => FeMul_code
  | Square _ _ => FeSquare_code
  | Square2 _ _ => FeSquare2_code
  | Squares n _ => CFor "i" 0 n FeSquare_code
  end.
(* its parameters; zero is the package variable *)
Definition params (c : call) (x : string) : loc :=
  let fix find (l : list (string * loc)) : loc :=
    match l with [] => g_zero | (y, p) :: l => if String.eqb x y then p else find l end in
  find match c with
       | Zero d | One d => [("fe", d)]
       | Copy d s => [("dst", d); ("src", s)]
       | Add d a b | Sub d a b => [("dst", d); ("a", a); ("b", b)]
       | Neg d a | Square d a | Square2 d a => [("h", d); ("f", a)]
       | CMove d a _ => [("f", d); ("g", a)]
       | Mul d a b => [("h", d); ("f", a); ("g", b)]
       | Squares _ d => [("h", d); ("f", d)]
       end.
Definition value_params (c : call) (x : string) (k : nat) : Z :=
  match c with CMove _ _ b => if String.eqb x "b" then b else 0 | _ => 0 end.
Definition perform (c : call) (m : arrays) : arrays * list sight :=
  let '(s, t) := crun (code_of c) (State (value_params c) (params c) m) in (cells s, t).
Fixpoint perform_all (l : list call) (m : arrays) : arrays * list sight :=
  match l with
  | [] => (m, [])
  | c :: l => let '(m, t) := perform c m in let '(m, u) := perform_all l m in (m, t ++ u)
  end.

(* binary.LittleEndian.Uint64(scalar[o:]) *)
Definition load8_of (a : string) (o : Z) : expr :=
  fold_left (fun e i => EBin U64 OOr e (EBin U64 OShl (EElem a (ELit (o + i))) (ELit (8 * i)))) [1; 2; 3; 4; 5; 6; 7] (EElem a (ELit o)).
(* ScMinimal (1778-1793); the result in variable result.  A round that is not the last one
   goes on with the next, which stands in its place here. *)
Fixpoint minimal_code (n : nat) : code :=
  match n with
  | O => CSkip
  | S i =>
      CSeq (CSet "v" 0 (load8_of "scalar" (8 * Z.of_nat i)))
        (CIf (EBin U64 OLess (EElem "order" (ELit (Z.of_nat i))) (EVar "v" 0)) (CSet "result" 0 (ELit 0))
           (CIf (EBin U64 OLess (EVar "v" 0) (EElem "order" (ELit (Z.of_nat i)))) (CSet "result" 0 (ELit 1))
              (match i with O => CSet "result" 0 (ELit 0) | S _ => minimal_code i end)))
  end.
Definition ScMinimal_code : code := minimal_code 4.
