(* GENERATED by tools/gen_code.py from signify/internal/edwards25519/edwards25519.go;
   committed as source.  The leaf routines, statement by statement (Code.v). *)
From Verif Require Export Code.
Local Open Scope string_scope.
Local Open Scope list_scope.
Local Open Scope Z_scope.

(* load3 (77-83), load4 (85-92) of a slice that begins at element o; p, q and r are o + 1, ... *)
Definition load3_of (a : string) (o p q : Z) : expr :=
  EBin W64 OOr (EBin W64 OOr (EElem a (ELit o)) (EBin W64 OShl (EElem a (ELit p)) (ELit 8)))
       (EBin W64 OShl (EElem a (ELit q)) (ELit 16)).
Definition load4_of (a : string) (o p q r : Z) : expr :=
  EBin W64 OOr (load3_of a o p q) (EBin W64 OShl (EElem a (ELit r)) (ELit 24)).

(* FeZero (20-22); copy moves the ten words of the package variable zero *)
Definition FeZero_code : code := block [
    CPut "fe" (ELit 0) (EElem "zero" (ELit 0));
    CPut "fe" (ELit 1) (EElem "zero" (ELit 1));
    CPut "fe" (ELit 2) (EElem "zero" (ELit 2));
    CPut "fe" (ELit 3) (EElem "zero" (ELit 3));
    CPut "fe" (ELit 4) (EElem "zero" (ELit 4));
    CPut "fe" (ELit 5) (EElem "zero" (ELit 5));
    CPut "fe" (ELit 6) (EElem "zero" (ELit 6));
    CPut "fe" (ELit 7) (EElem "zero" (ELit 7));
    CPut "fe" (ELit 8) (EElem "zero" (ELit 8));
    CPut "fe" (ELit 9) (EElem "zero" (ELit 9))].

(* FeOne (24-27) *)
Definition FeOne_code : code := CSeq FeZero_code (CPut "fe" (ELit 0) (ELit 1)).

(* FeAdd (29-40) *)
Definition FeAdd_code : code := block [
    CPut "dst" (ELit 0) (EBin W32 OAdd (EElem "a" (ELit 0)) (EElem "b" (ELit 0)));
    CPut "dst" (ELit 1) (EBin W32 OAdd (EElem "a" (ELit 1)) (EElem "b" (ELit 1)));
    CPut "dst" (ELit 2) (EBin W32 OAdd (EElem "a" (ELit 2)) (EElem "b" (ELit 2)));
    CPut "dst" (ELit 3) (EBin W32 OAdd (EElem "a" (ELit 3)) (EElem "b" (ELit 3)));
    CPut "dst" (ELit 4) (EBin W32 OAdd (EElem "a" (ELit 4)) (EElem "b" (ELit 4)));
    CPut "dst" (ELit 5) (EBin W32 OAdd (EElem "a" (ELit 5)) (EElem "b" (ELit 5)));
    CPut "dst" (ELit 6) (EBin W32 OAdd (EElem "a" (ELit 6)) (EElem "b" (ELit 6)));
    CPut "dst" (ELit 7) (EBin W32 OAdd (EElem "a" (ELit 7)) (EElem "b" (ELit 7)));
    CPut "dst" (ELit 8) (EBin W32 OAdd (EElem "a" (ELit 8)) (EElem "b" (ELit 8)));
    CPut "dst" (ELit 9) (EBin W32 OAdd (EElem "a" (ELit 9)) (EElem "b" (ELit 9)))].

(* FeSub (42-53) *)
Definition FeSub_code : code := block [
    CPut "dst" (ELit 0) (EBin W32 OSub (EElem "a" (ELit 0)) (EElem "b" (ELit 0)));
    CPut "dst" (ELit 1) (EBin W32 OSub (EElem "a" (ELit 1)) (EElem "b" (ELit 1)));
    CPut "dst" (ELit 2) (EBin W32 OSub (EElem "a" (ELit 2)) (EElem "b" (ELit 2)));
    CPut "dst" (ELit 3) (EBin W32 OSub (EElem "a" (ELit 3)) (EElem "b" (ELit 3)));
    CPut "dst" (ELit 4) (EBin W32 OSub (EElem "a" (ELit 4)) (EElem "b" (ELit 4)));
    CPut "dst" (ELit 5) (EBin W32 OSub (EElem "a" (ELit 5)) (EElem "b" (ELit 5)));
    CPut "dst" (ELit 6) (EBin W32 OSub (EElem "a" (ELit 6)) (EElem "b" (ELit 6)));
    CPut "dst" (ELit 7) (EBin W32 OSub (EElem "a" (ELit 7)) (EElem "b" (ELit 7)));
    CPut "dst" (ELit 8) (EBin W32 OSub (EElem "a" (ELit 8)) (EElem "b" (ELit 8)));
    CPut "dst" (ELit 9) (EBin W32 OSub (EElem "a" (ELit 9)) (EElem "b" (ELit 9)))].

(* FeCopy (55-57) *)
Definition FeCopy_code : code := block [
    CPut "dst" (ELit 0) (EElem "src" (ELit 0));
    CPut "dst" (ELit 1) (EElem "src" (ELit 1));
    CPut "dst" (ELit 2) (EElem "src" (ELit 2));
    CPut "dst" (ELit 3) (EElem "src" (ELit 3));
    CPut "dst" (ELit 4) (EElem "src" (ELit 4));
    CPut "dst" (ELit 5) (EElem "src" (ELit 5));
    CPut "dst" (ELit 6) (EElem "src" (ELit 6));
    CPut "dst" (ELit 7) (EElem "src" (ELit 7));
    CPut "dst" (ELit 8) (EElem "src" (ELit 8));
    CPut "dst" (ELit 9) (EElem "src" (ELit 9))].

(* FeCMove (63-75) *)
Definition FeCMove_code : code := block [
    CSet "b" 0 (EBin W32 OSub (ELit 0) (EVar "b" 0));
    CPut "f" (ELit 0) (EBin W32 OXor (EElem "f" (ELit 0)) (EBin W32 OAnd (EVar "b" 0) (EBin W32 OXor (EElem "f" (ELit 0)) (EElem "g" (ELit 0)))));
    CPut "f" (ELit 1) (EBin W32 OXor (EElem "f" (ELit 1)) (EBin W32 OAnd (EVar "b" 0) (EBin W32 OXor (EElem "f" (ELit 1)) (EElem "g" (ELit 1)))));
    CPut "f" (ELit 2) (EBin W32 OXor (EElem "f" (ELit 2)) (EBin W32 OAnd (EVar "b" 0) (EBin W32 OXor (EElem "f" (ELit 2)) (EElem "g" (ELit 2)))));
    CPut "f" (ELit 3) (EBin W32 OXor (EElem "f" (ELit 3)) (EBin W32 OAnd (EVar "b" 0) (EBin W32 OXor (EElem "f" (ELit 3)) (EElem "g" (ELit 3)))));
    CPut "f" (ELit 4) (EBin W32 OXor (EElem "f" (ELit 4)) (EBin W32 OAnd (EVar "b" 0) (EBin W32 OXor (EElem "f" (ELit 4)) (EElem "g" (ELit 4)))));
    CPut "f" (ELit 5) (EBin W32 OXor (EElem "f" (ELit 5)) (EBin W32 OAnd (EVar "b" 0) (EBin W32 OXor (EElem "f" (ELit 5)) (EElem "g" (ELit 5)))));
    CPut "f" (ELit 6) (EBin W32 OXor (EElem "f" (ELit 6)) (EBin W32 OAnd (EVar "b" 0) (EBin W32 OXor (EElem "f" (ELit 6)) (EElem "g" (ELit 6)))));
    CPut "f" (ELit 7) (EBin W32 OXor (EElem "f" (ELit 7)) (EBin W32 OAnd (EVar "b" 0) (EBin W32 OXor (EElem "f" (ELit 7)) (EElem "g" (ELit 7)))));
    CPut "f" (ELit 8) (EBin W32 OXor (EElem "f" (ELit 8)) (EBin W32 OAnd (EVar "b" 0) (EBin W32 OXor (EElem "f" (ELit 8)) (EElem "g" (ELit 8)))));
    CPut "f" (ELit 9) (EBin W32 OXor (EElem "f" (ELit 9)) (EBin W32 OAnd (EVar "b" 0) (EBin W32 OXor (EElem "f" (ELit 9)) (EElem "g" (ELit 9)))))].

(* FeNeg (247-258) *)
Definition FeNeg_code : code := block [
    CPut "h" (ELit 0) (EBin W32 OSub (ELit 0) (EElem "f" (ELit 0)));
    CPut "h" (ELit 1) (EBin W32 OSub (ELit 0) (EElem "f" (ELit 1)));
    CPut "h" (ELit 2) (EBin W32 OSub (ELit 0) (EElem "f" (ELit 2)));
    CPut "h" (ELit 3) (EBin W32 OSub (ELit 0) (EElem "f" (ELit 3)));
    CPut "h" (ELit 4) (EBin W32 OSub (ELit 0) (EElem "f" (ELit 4)));
    CPut "h" (ELit 5) (EBin W32 OSub (ELit 0) (EElem "f" (ELit 5)));
    CPut "h" (ELit 6) (EBin W32 OSub (ELit 0) (EElem "f" (ELit 6)));
    CPut "h" (ELit 7) (EBin W32 OSub (ELit 0) (EElem "f" (ELit 7)));
    CPut "h" (ELit 8) (EBin W32 OSub (ELit 0) (EElem "f" (ELit 8)));
    CPut "h" (ELit 9) (EBin W32 OSub (ELit 0) (EElem "f" (ELit 9)))].

(* FeCombine (260-347), for the pointer h and the variables h0..h9 *)
Definition FeCombine_code : code := block [
    CSet "c" 0 (EBin W64 OShr (EBin W64 OAdd (EVar "h" 0) (EBin W64 OShl (ELit 1) (ELit 25))) (ELit 26));
    CSet "h" 1 (EBin W64 OAdd (EVar "h" 1) (EVar "c" 0));
    CSet "h" 0 (EBin W64 OSub (EVar "h" 0) (EBin W64 OShl (EVar "c" 0) (ELit 26)));
    CSet "c" 4 (EBin W64 OShr (EBin W64 OAdd (EVar "h" 4) (EBin W64 OShl (ELit 1) (ELit 25))) (ELit 26));
    CSet "h" 5 (EBin W64 OAdd (EVar "h" 5) (EVar "c" 4));
    CSet "h" 4 (EBin W64 OSub (EVar "h" 4) (EBin W64 OShl (EVar "c" 4) (ELit 26)));
    CSet "c" 1 (EBin W64 OShr (EBin W64 OAdd (EVar "h" 1) (EBin W64 OShl (ELit 1) (ELit 24))) (ELit 25));
    CSet "h" 2 (EBin W64 OAdd (EVar "h" 2) (EVar "c" 1));
    CSet "h" 1 (EBin W64 OSub (EVar "h" 1) (EBin W64 OShl (EVar "c" 1) (ELit 25)));
    CSet "c" 5 (EBin W64 OShr (EBin W64 OAdd (EVar "h" 5) (EBin W64 OShl (ELit 1) (ELit 24))) (ELit 25));
    CSet "h" 6 (EBin W64 OAdd (EVar "h" 6) (EVar "c" 5));
    CSet "h" 5 (EBin W64 OSub (EVar "h" 5) (EBin W64 OShl (EVar "c" 5) (ELit 25)));
    CSet "c" 2 (EBin W64 OShr (EBin W64 OAdd (EVar "h" 2) (EBin W64 OShl (ELit 1) (ELit 25))) (ELit 26));
    CSet "h" 3 (EBin W64 OAdd (EVar "h" 3) (EVar "c" 2));
    CSet "h" 2 (EBin W64 OSub (EVar "h" 2) (EBin W64 OShl (EVar "c" 2) (ELit 26)));
    CSet "c" 6 (EBin W64 OShr (EBin W64 OAdd (EVar "h" 6) (EBin W64 OShl (ELit 1) (ELit 25))) (ELit 26));
    CSet "h" 7 (EBin W64 OAdd (EVar "h" 7) (EVar "c" 6));
    CSet "h" 6 (EBin W64 OSub (EVar "h" 6) (EBin W64 OShl (EVar "c" 6) (ELit 26)));
    CSet "c" 3 (EBin W64 OShr (EBin W64 OAdd (EVar "h" 3) (EBin W64 OShl (ELit 1) (ELit 24))) (ELit 25));
    CSet "h" 4 (EBin W64 OAdd (EVar "h" 4) (EVar "c" 3));
    CSet "h" 3 (EBin W64 OSub (EVar "h" 3) (EBin W64 OShl (EVar "c" 3) (ELit 25)));
    CSet "c" 7 (EBin W64 OShr (EBin W64 OAdd (EVar "h" 7) (EBin W64 OShl (ELit 1) (ELit 24))) (ELit 25));
    CSet "h" 8 (EBin W64 OAdd (EVar "h" 8) (EVar "c" 7));
    CSet "h" 7 (EBin W64 OSub (EVar "h" 7) (EBin W64 OShl (EVar "c" 7) (ELit 25)));
    CSet "c" 4 (EBin W64 OShr (EBin W64 OAdd (EVar "h" 4) (EBin W64 OShl (ELit 1) (ELit 25))) (ELit 26));
    CSet "h" 5 (EBin W64 OAdd (EVar "h" 5) (EVar "c" 4));
    CSet "h" 4 (EBin W64 OSub (EVar "h" 4) (EBin W64 OShl (EVar "c" 4) (ELit 26)));
    CSet "c" 8 (EBin W64 OShr (EBin W64 OAdd (EVar "h" 8) (EBin W64 OShl (ELit 1) (ELit 25))) (ELit 26));
    CSet "h" 9 (EBin W64 OAdd (EVar "h" 9) (EVar "c" 8));
    CSet "h" 8 (EBin W64 OSub (EVar "h" 8) (EBin W64 OShl (EVar "c" 8) (ELit 26)));
    CSet "c" 9 (EBin W64 OShr (EBin W64 OAdd (EVar "h" 9) (EBin W64 OShl (ELit 1) (ELit 24))) (ELit 25));
    CSet "h" 0 (EBin W64 OAdd (EVar "h" 0) (EBin W64 OMul (EVar "c" 9) (ELit 19)));
    CSet "h" 9 (EBin W64 OSub (EVar "h" 9) (EBin W64 OShl (EVar "c" 9) (ELit 25)));
    CSet "c" 0 (EBin W64 OShr (EBin W64 OAdd (EVar "h" 0) (EBin W64 OShl (ELit 1) (ELit 25))) (ELit 26));
    CSet "h" 1 (EBin W64 OAdd (EVar "h" 1) (EVar "c" 0));
    CSet "h" 0 (EBin W64 OSub (EVar "h" 0) (EBin W64 OShl (EVar "c" 0) (ELit 26)));
    CPut "h" (ELit 0) (EConv W32 (EVar "h" 0));
    CPut "h" (ELit 1) (EConv W32 (EVar "h" 1));
    CPut "h" (ELit 2) (EConv W32 (EVar "h" 2));
    CPut "h" (ELit 3) (EConv W32 (EVar "h" 3));
    CPut "h" (ELit 4) (EConv W32 (EVar "h" 4));
    CPut "h" (ELit 5) (EConv W32 (EVar "h" 5));
    CPut "h" (ELit 6) (EConv W32 (EVar "h" 6));
    CPut "h" (ELit 7) (EConv W32 (EVar "h" 7));
    CPut "h" (ELit 8) (EConv W32 (EVar "h" 8));
    CPut "h" (ELit 9) (EConv W32 (EVar "h" 9))].

(* FeMul (376-427) *)
Definition FeMul_code : code := CSeq (block [
    CSet "f" 0 (EElem "f" (ELit 0));
    CSet "f" 1 (EElem "f" (ELit 1));
    CSet "f" 2 (EElem "f" (ELit 2));
    CSet "f" 3 (EElem "f" (ELit 3));
    CSet "f" 4 (EElem "f" (ELit 4));
    CSet "f" 5 (EElem "f" (ELit 5));
    CSet "f" 6 (EElem "f" (ELit 6));
    CSet "f" 7 (EElem "f" (ELit 7));
    CSet "f" 8 (EElem "f" (ELit 8));
    CSet "f" 9 (EElem "f" (ELit 9));
    CSet "f_2" 1 (EBin W32 OMul (ELit 2) (EElem "f" (ELit 1)));
    CSet "f_2" 3 (EBin W32 OMul (ELit 2) (EElem "f" (ELit 3)));
    CSet "f_2" 5 (EBin W32 OMul (ELit 2) (EElem "f" (ELit 5)));
    CSet "f_2" 7 (EBin W32 OMul (ELit 2) (EElem "f" (ELit 7)));
    CSet "f_2" 9 (EBin W32 OMul (ELit 2) (EElem "f" (ELit 9)));
    CSet "g" 0 (EElem "g" (ELit 0));
    CSet "g" 1 (EElem "g" (ELit 1));
    CSet "g" 2 (EElem "g" (ELit 2));
    CSet "g" 3 (EElem "g" (ELit 3));
    CSet "g" 4 (EElem "g" (ELit 4));
    CSet "g" 5 (EElem "g" (ELit 5));
    CSet "g" 6 (EElem "g" (ELit 6));
    CSet "g" 7 (EElem "g" (ELit 7));
    CSet "g" 8 (EElem "g" (ELit 8));
    CSet "g" 9 (EElem "g" (ELit 9));
    CSet "g_19" 1 (EBin W32 OMul (ELit 19) (EElem "g" (ELit 1)));
    CSet "g_19" 2 (EBin W32 OMul (ELit 19) (EElem "g" (ELit 2)));
    CSet "g_19" 3 (EBin W32 OMul (ELit 19) (EElem "g" (ELit 3)));
    CSet "g_19" 4 (EBin W32 OMul (ELit 19) (EElem "g" (ELit 4)));
    CSet "g_19" 5 (EBin W32 OMul (ELit 19) (EElem "g" (ELit 5)));
    CSet "g_19" 6 (EBin W32 OMul (ELit 19) (EElem "g" (ELit 6)));
    CSet "g_19" 7 (EBin W32 OMul (ELit 19) (EElem "g" (ELit 7)));
    CSet "g_19" 8 (EBin W32 OMul (ELit 19) (EElem "g" (ELit 8)));
    CSet "g_19" 9 (EBin W32 OMul (ELit 19) (EElem "g" (ELit 9)));
    CSet "h" 0 (EBin W64 OAdd (EBin W64 OAdd (EBin W64 OAdd (EBin W64 OAdd (EBin W64 OAdd (EBin W64 OAdd (EBin W64 OAdd (EBin W64 OAdd (EBin W64 OAdd (EBin W64 OMul (EVar "f" 0) (EVar "g" 0)) (EBin W64 OMul (EVar "f_2" 1) (EVar "g_19" 9))) (EBin W64 OMul (EVar "f" 2) (EVar "g_19" 8))) (EBin W64 OMul (EVar "f_2" 3) (EVar "g_19" 7))) (EBin W64 OMul (EVar "f" 4) (EVar "g_19" 6))) (EBin W64 OMul (EVar "f_2" 5) (EVar "g_19" 5))) (EBin W64 OMul (EVar "f" 6) (EVar "g_19" 4))) (EBin W64 OMul (EVar "f_2" 7) (EVar "g_19" 3))) (EBin W64 OMul (EVar "f" 8) (EVar "g_19" 2))) (EBin W64 OMul (EVar "f_2" 9) (EVar "g_19" 1)));
    CSet "h" 1 (EBin W64 OAdd (EBin W64 OAdd (EBin W64 OAdd (EBin W64 OAdd (EBin W64 OAdd (EBin W64 OAdd (EBin W64 OAdd (EBin W64 OAdd (EBin W64 OAdd (EBin W64 OMul (EVar "f" 0) (EVar "g" 1)) (EBin W64 OMul (EVar "f" 1) (EVar "g" 0))) (EBin W64 OMul (EVar "f" 2) (EVar "g_19" 9))) (EBin W64 OMul (EVar "f" 3) (EVar "g_19" 8))) (EBin W64 OMul (EVar "f" 4) (EVar "g_19" 7))) (EBin W64 OMul (EVar "f" 5) (EVar "g_19" 6))) (EBin W64 OMul (EVar "f" 6) (EVar "g_19" 5))) (EBin W64 OMul (EVar "f" 7) (EVar "g_19" 4))) (EBin W64 OMul (EVar "f" 8) (EVar "g_19" 3))) (EBin W64 OMul (EVar "f" 9) (EVar "g_19" 2)));
    CSet "h" 2 (EBin W64 OAdd (EBin W64 OAdd (EBin W64 OAdd (EBin W64 OAdd (EBin W64 OAdd (EBin W64 OAdd (EBin W64 OAdd (EBin W64 OAdd (EBin W64 OAdd (EBin W64 OMul (EVar "f" 0) (EVar "g" 2)) (EBin W64 OMul (EVar "f_2" 1) (EVar "g" 1))) (EBin W64 OMul (EVar "f" 2) (EVar "g" 0))) (EBin W64 OMul (EVar "f_2" 3) (EVar "g_19" 9))) (EBin W64 OMul (EVar "f" 4) (EVar "g_19" 8))) (EBin W64 OMul (EVar "f_2" 5) (EVar "g_19" 7))) (EBin W64 OMul (EVar "f" 6) (EVar "g_19" 6))) (EBin W64 OMul (EVar "f_2" 7) (EVar "g_19" 5))) (EBin W64 OMul (EVar "f" 8) (EVar "g_19" 4))) (EBin W64 OMul (EVar "f_2" 9) (EVar "g_19" 3)));
    CSet "h" 3 (EBin W64 OAdd (EBin W64 OAdd (EBin W64 OAdd (EBin W64 OAdd (EBin W64 OAdd (EBin W64 OAdd (EBin W64 OAdd (EBin W64 OAdd (EBin W64 OAdd (EBin W64 OMul (EVar "f" 0) (EVar "g" 3)) (EBin W64 OMul (EVar "f" 1) (EVar "g" 2))) (EBin W64 OMul (EVar "f" 2) (EVar "g" 1))) (EBin W64 OMul (EVar "f" 3) (EVar "g" 0))) (EBin W64 OMul (EVar "f" 4) (EVar "g_19" 9))) (EBin W64 OMul (EVar "f" 5) (EVar "g_19" 8))) (EBin W64 OMul (EVar "f" 6) (EVar "g_19" 7))) (EBin W64 OMul (EVar "f" 7) (EVar "g_19" 6))) (EBin W64 OMul (EVar "f" 8) (EVar "g_19" 5))) (EBin W64 OMul (EVar "f" 9) (EVar "g_19" 4)));
    CSet "h" 4 (EBin W64 OAdd (EBin W64 OAdd (EBin W64 OAdd (EBin W64 OAdd (EBin W64 OAdd (EBin W64 OAdd (EBin W64 OAdd (EBin W64 OAdd (EBin W64 OAdd (EBin W64 OMul (EVar "f" 0) (EVar "g" 4)) (EBin W64 OMul (EVar "f_2" 1) (EVar "g" 3))) (EBin W64 OMul (EVar "f" 2) (EVar "g" 2))) (EBin W64 OMul (EVar "f_2" 3) (EVar "g" 1))) (EBin W64 OMul (EVar "f" 4) (EVar "g" 0))) (EBin W64 OMul (EVar "f_2" 5) (EVar "g_19" 9))) (EBin W64 OMul (EVar "f" 6) (EVar "g_19" 8))) (EBin W64 OMul (EVar "f_2" 7) (EVar "g_19" 7))) (EBin W64 OMul (EVar "f" 8) (EVar "g_19" 6))) (EBin W64 OMul (EVar "f_2" 9) (EVar "g_19" 5)));
    CSet "h" 5 (EBin W64 OAdd (EBin W64 OAdd (EBin W64 OAdd (EBin W64 OAdd (EBin W64 OAdd (EBin W64 OAdd (EBin W64 OAdd (EBin W64 OAdd (EBin W64 OAdd (EBin W64 OMul (EVar "f" 0) (EVar "g" 5)) (EBin W64 OMul (EVar "f" 1) (EVar "g" 4))) (EBin W64 OMul (EVar "f" 2) (EVar "g" 3))) (EBin W64 OMul (EVar "f" 3) (EVar "g" 2))) (EBin W64 OMul (EVar "f" 4) (EVar "g" 1))) (EBin W64 OMul (EVar "f" 5) (EVar "g" 0))) (EBin W64 OMul (EVar "f" 6) (EVar "g_19" 9))) (EBin W64 OMul (EVar "f" 7) (EVar "g_19" 8))) (EBin W64 OMul (EVar "f" 8) (EVar "g_19" 7))) (EBin W64 OMul (EVar "f" 9) (EVar "g_19" 6)));
    CSet "h" 6 (EBin W64 OAdd (EBin W64 OAdd (EBin W64 OAdd (EBin W64 OAdd (EBin W64 OAdd (EBin W64 OAdd (EBin W64 OAdd (EBin W64 OAdd (EBin W64 OAdd (EBin W64 OMul (EVar "f" 0) (EVar "g" 6)) (EBin W64 OMul (EVar "f_2" 1) (EVar "g" 5))) (EBin W64 OMul (EVar "f" 2) (EVar "g" 4))) (EBin W64 OMul (EVar "f_2" 3) (EVar "g" 3))) (EBin W64 OMul (EVar "f" 4) (EVar "g" 2))) (EBin W64 OMul (EVar "f_2" 5) (EVar "g" 1))) (EBin W64 OMul (EVar "f" 6) (EVar "g" 0))) (EBin W64 OMul (EVar "f_2" 7) (EVar "g_19" 9))) (EBin W64 OMul (EVar "f" 8) (EVar "g_19" 8))) (EBin W64 OMul (EVar "f_2" 9) (EVar "g_19" 7)));
    CSet "h" 7 (EBin W64 OAdd (EBin W64 OAdd (EBin W64 OAdd (EBin W64 OAdd (EBin W64 OAdd (EBin W64 OAdd (EBin W64 OAdd (EBin W64 OAdd (EBin W64 OAdd (EBin W64 OMul (EVar "f" 0) (EVar "g" 7)) (EBin W64 OMul (EVar "f" 1) (EVar "g" 6))) (EBin W64 OMul (EVar "f" 2) (EVar "g" 5))) (EBin W64 OMul (EVar "f" 3) (EVar "g" 4))) (EBin W64 OMul (EVar "f" 4) (EVar "g" 3))) (EBin W64 OMul (EVar "f" 5) (EVar "g" 2))) (EBin W64 OMul (EVar "f" 6) (EVar "g" 1))) (EBin W64 OMul (EVar "f" 7) (EVar "g" 0))) (EBin W64 OMul (EVar "f" 8) (EVar "g_19" 9))) (EBin W64 OMul (EVar "f" 9) (EVar "g_19" 8)));
    CSet "h" 8 (EBin W64 OAdd (EBin W64 OAdd (EBin W64 OAdd (EBin W64 OAdd (EBin W64 OAdd (EBin W64 OAdd (EBin W64 OAdd (EBin W64 OAdd (EBin W64 OAdd (EBin W64 OMul (EVar "f" 0) (EVar "g" 8)) (EBin W64 OMul (EVar "f_2" 1) (EVar "g" 7))) (EBin W64 OMul (EVar "f" 2) (EVar "g" 6))) (EBin W64 OMul (EVar "f_2" 3) (EVar "g" 5))) (EBin W64 OMul (EVar "f" 4) (EVar "g" 4))) (EBin W64 OMul (EVar "f_2" 5) (EVar "g" 3))) (EBin W64 OMul (EVar "f" 6) (EVar "g" 2))) (EBin W64 OMul (EVar "f_2" 7) (EVar "g" 1))) (EBin W64 OMul (EVar "f" 8) (EVar "g" 0))) (EBin W64 OMul (EVar "f_2" 9) (EVar "g_19" 9)));
    CSet "h" 9 (EBin W64 OAdd (EBin W64 OAdd (EBin W64 OAdd (EBin W64 OAdd (EBin W64 OAdd (EBin W64 OAdd (EBin W64 OAdd (EBin W64 OAdd (EBin W64 OAdd (EBin W64 OMul (EVar "f" 0) (EVar "g" 9)) (EBin W64 OMul (EVar "f" 1) (EVar "g" 8))) (EBin W64 OMul (EVar "f" 2) (EVar "g" 7))) (EBin W64 OMul (EVar "f" 3) (EVar "g" 6))) (EBin W64 OMul (EVar "f" 4) (EVar "g" 5))) (EBin W64 OMul (EVar "f" 5) (EVar "g" 4))) (EBin W64 OMul (EVar "f" 6) (EVar "g" 3))) (EBin W64 OMul (EVar "f" 7) (EVar "g" 2))) (EBin W64 OMul (EVar "f" 8) (EVar "g" 1))) (EBin W64 OMul (EVar "f" 9) (EVar "g" 0)))]) FeCombine_code.

(* feSquare (429-466) *)
Definition feSquare_code : code := block [
    CSet "f" 0 (EElem "f" (ELit 0));
    CSet "f" 1 (EElem "f" (ELit 1));
    CSet "f" 2 (EElem "f" (ELit 2));
    CSet "f" 3 (EElem "f" (ELit 3));
    CSet "f" 4 (EElem "f" (ELit 4));
    CSet "f" 5 (EElem "f" (ELit 5));
    CSet "f" 6 (EElem "f" (ELit 6));
    CSet "f" 7 (EElem "f" (ELit 7));
    CSet "f" 8 (EElem "f" (ELit 8));
    CSet "f" 9 (EElem "f" (ELit 9));
    CSet "f_2" 0 (EBin W32 OMul (ELit 2) (EElem "f" (ELit 0)));
    CSet "f_2" 1 (EBin W32 OMul (ELit 2) (EElem "f" (ELit 1)));
    CSet "f_2" 2 (EBin W32 OMul (ELit 2) (EElem "f" (ELit 2)));
    CSet "f_2" 3 (EBin W32 OMul (ELit 2) (EElem "f" (ELit 3)));
    CSet "f_2" 4 (EBin W32 OMul (ELit 2) (EElem "f" (ELit 4)));
    CSet "f_2" 5 (EBin W32 OMul (ELit 2) (EElem "f" (ELit 5)));
    CSet "f_2" 6 (EBin W32 OMul (ELit 2) (EElem "f" (ELit 6)));
    CSet "f_2" 7 (EBin W32 OMul (ELit 2) (EElem "f" (ELit 7)));
    CSet "f_38" 5 (EBin W64 OMul (ELit 38) (EVar "f" 5));
    CSet "f_19" 6 (EBin W64 OMul (ELit 19) (EVar "f" 6));
    CSet "f_38" 7 (EBin W64 OMul (ELit 38) (EVar "f" 7));
    CSet "f_19" 8 (EBin W64 OMul (ELit 19) (EVar "f" 8));
    CSet "f_38" 9 (EBin W64 OMul (ELit 38) (EVar "f" 9));
    CSet "h" 0 (EBin W64 OAdd (EBin W64 OAdd (EBin W64 OAdd (EBin W64 OAdd (EBin W64 OAdd (EBin W64 OMul (EVar "f" 0) (EVar "f" 0)) (EBin W64 OMul (EVar "f_2" 1) (EVar "f_38" 9))) (EBin W64 OMul (EVar "f_2" 2) (EVar "f_19" 8))) (EBin W64 OMul (EVar "f_2" 3) (EVar "f_38" 7))) (EBin W64 OMul (EVar "f_2" 4) (EVar "f_19" 6))) (EBin W64 OMul (EVar "f" 5) (EVar "f_38" 5)));
    CSet "h" 1 (EBin W64 OAdd (EBin W64 OAdd (EBin W64 OAdd (EBin W64 OAdd (EBin W64 OMul (EVar "f_2" 0) (EVar "f" 1)) (EBin W64 OMul (EVar "f" 2) (EVar "f_38" 9))) (EBin W64 OMul (EVar "f_2" 3) (EVar "f_19" 8))) (EBin W64 OMul (EVar "f" 4) (EVar "f_38" 7))) (EBin W64 OMul (EVar "f_2" 5) (EVar "f_19" 6)));
    CSet "h" 2 (EBin W64 OAdd (EBin W64 OAdd (EBin W64 OAdd (EBin W64 OAdd (EBin W64 OAdd (EBin W64 OMul (EVar "f_2" 0) (EVar "f" 2)) (EBin W64 OMul (EVar "f_2" 1) (EVar "f" 1))) (EBin W64 OMul (EVar "f_2" 3) (EVar "f_38" 9))) (EBin W64 OMul (EVar "f_2" 4) (EVar "f_19" 8))) (EBin W64 OMul (EVar "f_2" 5) (EVar "f_38" 7))) (EBin W64 OMul (EVar "f" 6) (EVar "f_19" 6)));
    CSet "h" 3 (EBin W64 OAdd (EBin W64 OAdd (EBin W64 OAdd (EBin W64 OAdd (EBin W64 OMul (EVar "f_2" 0) (EVar "f" 3)) (EBin W64 OMul (EVar "f_2" 1) (EVar "f" 2))) (EBin W64 OMul (EVar "f" 4) (EVar "f_38" 9))) (EBin W64 OMul (EVar "f_2" 5) (EVar "f_19" 8))) (EBin W64 OMul (EVar "f" 6) (EVar "f_38" 7)));
    CSet "h" 4 (EBin W64 OAdd (EBin W64 OAdd (EBin W64 OAdd (EBin W64 OAdd (EBin W64 OAdd (EBin W64 OMul (EVar "f_2" 0) (EVar "f" 4)) (EBin W64 OMul (EVar "f_2" 1) (EVar "f_2" 3))) (EBin W64 OMul (EVar "f" 2) (EVar "f" 2))) (EBin W64 OMul (EVar "f_2" 5) (EVar "f_38" 9))) (EBin W64 OMul (EVar "f_2" 6) (EVar "f_19" 8))) (EBin W64 OMul (EVar "f" 7) (EVar "f_38" 7)));
    CSet "h" 5 (EBin W64 OAdd (EBin W64 OAdd (EBin W64 OAdd (EBin W64 OAdd (EBin W64 OMul (EVar "f_2" 0) (EVar "f" 5)) (EBin W64 OMul (EVar "f_2" 1) (EVar "f" 4))) (EBin W64 OMul (EVar "f_2" 2) (EVar "f" 3))) (EBin W64 OMul (EVar "f" 6) (EVar "f_38" 9))) (EBin W64 OMul (EVar "f_2" 7) (EVar "f_19" 8)));
    CSet "h" 6 (EBin W64 OAdd (EBin W64 OAdd (EBin W64 OAdd (EBin W64 OAdd (EBin W64 OAdd (EBin W64 OMul (EVar "f_2" 0) (EVar "f" 6)) (EBin W64 OMul (EVar "f_2" 1) (EVar "f_2" 5))) (EBin W64 OMul (EVar "f_2" 2) (EVar "f" 4))) (EBin W64 OMul (EVar "f_2" 3) (EVar "f" 3))) (EBin W64 OMul (EVar "f_2" 7) (EVar "f_38" 9))) (EBin W64 OMul (EVar "f" 8) (EVar "f_19" 8)));
    CSet "h" 7 (EBin W64 OAdd (EBin W64 OAdd (EBin W64 OAdd (EBin W64 OAdd (EBin W64 OMul (EVar "f_2" 0) (EVar "f" 7)) (EBin W64 OMul (EVar "f_2" 1) (EVar "f" 6))) (EBin W64 OMul (EVar "f_2" 2) (EVar "f" 5))) (EBin W64 OMul (EVar "f_2" 3) (EVar "f" 4))) (EBin W64 OMul (EVar "f" 8) (EVar "f_38" 9)));
    CSet "h" 8 (EBin W64 OAdd (EBin W64 OAdd (EBin W64 OAdd (EBin W64 OAdd (EBin W64 OAdd (EBin W64 OMul (EVar "f_2" 0) (EVar "f" 8)) (EBin W64 OMul (EVar "f_2" 1) (EVar "f_2" 7))) (EBin W64 OMul (EVar "f_2" 2) (EVar "f" 6))) (EBin W64 OMul (EVar "f_2" 3) (EVar "f_2" 5))) (EBin W64 OMul (EVar "f" 4) (EVar "f" 4))) (EBin W64 OMul (EVar "f" 9) (EVar "f_38" 9)));
    CSet "h" 9 (EBin W64 OAdd (EBin W64 OAdd (EBin W64 OAdd (EBin W64 OAdd (EBin W64 OMul (EVar "f_2" 0) (EVar "f" 9)) (EBin W64 OMul (EVar "f_2" 1) (EVar "f" 8))) (EBin W64 OMul (EVar "f_2" 2) (EVar "f" 7))) (EBin W64 OMul (EVar "f_2" 3) (EVar "f" 6))) (EBin W64 OMul (EVar "f_2" 4) (EVar "f" 5)))].

(* FeSquare (475-478) *)
Definition FeSquare_code : code := CSeq feSquare_code FeCombine_code.

(* FeSquare2 (490-505) *)
Definition FeSquare2_code : code := CSeq feSquare_code (CSeq (block [
    CSet "h" 0 (EBin W64 OAdd (EVar "h" 0) (EVar "h" 0));
    CSet "h" 1 (EBin W64 OAdd (EVar "h" 1) (EVar "h" 1));
    CSet "h" 2 (EBin W64 OAdd (EVar "h" 2) (EVar "h" 2));
    CSet "h" 3 (EBin W64 OAdd (EVar "h" 3) (EVar "h" 3));
    CSet "h" 4 (EBin W64 OAdd (EVar "h" 4) (EVar "h" 4));
    CSet "h" 5 (EBin W64 OAdd (EVar "h" 5) (EVar "h" 5));
    CSet "h" 6 (EBin W64 OAdd (EVar "h" 6) (EVar "h" 6));
    CSet "h" 7 (EBin W64 OAdd (EVar "h" 7) (EVar "h" 7));
    CSet "h" 8 (EBin W64 OAdd (EVar "h" 8) (EVar "h" 8));
    CSet "h" 9 (EBin W64 OAdd (EVar "h" 9) (EVar "h" 9))]) FeCombine_code).

(* FeFromBytes (94-107); its dst is called h here, as in FeCombine *)
Definition FeFromBytes_code : code := CSeq (block [
    CSet "h" 0 (load4_of "src" 0 1 2 3);
    CSet "h" 1 (EBin W64 OShl (load3_of "src" 4 5 6) (ELit 6));
    CSet "h" 2 (EBin W64 OShl (load3_of "src" 7 8 9) (ELit 5));
    CSet "h" 3 (EBin W64 OShl (load3_of "src" 10 11 12) (ELit 3));
    CSet "h" 4 (EBin W64 OShl (load3_of "src" 13 14 15) (ELit 2));
    CSet "h" 5 (load4_of "src" 16 17 18 19);
    CSet "h" 6 (EBin W64 OShl (load3_of "src" 20 21 22) (ELit 7));
    CSet "h" 7 (EBin W64 OShl (load3_of "src" 23 24 25) (ELit 5));
    CSet "h" 8 (EBin W64 OShl (load3_of "src" 26 27 28) (ELit 4));
    CSet "h" 9 (EBin W64 OShl (EBin W64 OAnd (load3_of "src" 29 30 31) (ELit 8388607)) (ELit 2))]) FeCombine_code.

(* FeToBytes (132-219) *)
Definition FeToBytes_code : code := block [
    CSet "q" 0 (EBin W32 OShr (EBin W32 OAdd (EBin W32 OMul (ELit 19) (EElem "h" (ELit 9))) (EBin W32 OShl (ELit 1) (ELit 24))) (ELit 25));
    CSet "q" 0 (EBin W32 OShr (EBin W32 OAdd (EElem "h" (ELit 0)) (EVar "q" 0)) (ELit 26));
    CSet "q" 0 (EBin W32 OShr (EBin W32 OAdd (EElem "h" (ELit 1)) (EVar "q" 0)) (ELit 25));
    CSet "q" 0 (EBin W32 OShr (EBin W32 OAdd (EElem "h" (ELit 2)) (EVar "q" 0)) (ELit 26));
    CSet "q" 0 (EBin W32 OShr (EBin W32 OAdd (EElem "h" (ELit 3)) (EVar "q" 0)) (ELit 25));
    CSet "q" 0 (EBin W32 OShr (EBin W32 OAdd (EElem "h" (ELit 4)) (EVar "q" 0)) (ELit 26));
    CSet "q" 0 (EBin W32 OShr (EBin W32 OAdd (EElem "h" (ELit 5)) (EVar "q" 0)) (ELit 25));
    CSet "q" 0 (EBin W32 OShr (EBin W32 OAdd (EElem "h" (ELit 6)) (EVar "q" 0)) (ELit 26));
    CSet "q" 0 (EBin W32 OShr (EBin W32 OAdd (EElem "h" (ELit 7)) (EVar "q" 0)) (ELit 25));
    CSet "q" 0 (EBin W32 OShr (EBin W32 OAdd (EElem "h" (ELit 8)) (EVar "q" 0)) (ELit 26));
    CSet "q" 0 (EBin W32 OShr (EBin W32 OAdd (EElem "h" (ELit 9)) (EVar "q" 0)) (ELit 25));
    CPut "h" (ELit 0) (EBin W32 OAdd (EElem "h" (ELit 0)) (EBin W32 OMul (ELit 19) (EVar "q" 0)));
    CSet "carry" 0 (EBin W32 OShr (EElem "h" (ELit 0)) (ELit 26));
    CPut "h" (ELit 1) (EBin W32 OAdd (EElem "h" (ELit 1)) (EVar "carry" 0));
    CPut "h" (ELit 0) (EBin W32 OSub (EElem "h" (ELit 0)) (EBin W32 OShl (EVar "carry" 0) (ELit 26)));
    CSet "carry" 1 (EBin W32 OShr (EElem "h" (ELit 1)) (ELit 25));
    CPut "h" (ELit 2) (EBin W32 OAdd (EElem "h" (ELit 2)) (EVar "carry" 1));
    CPut "h" (ELit 1) (EBin W32 OSub (EElem "h" (ELit 1)) (EBin W32 OShl (EVar "carry" 1) (ELit 25)));
    CSet "carry" 2 (EBin W32 OShr (EElem "h" (ELit 2)) (ELit 26));
    CPut "h" (ELit 3) (EBin W32 OAdd (EElem "h" (ELit 3)) (EVar "carry" 2));
    CPut "h" (ELit 2) (EBin W32 OSub (EElem "h" (ELit 2)) (EBin W32 OShl (EVar "carry" 2) (ELit 26)));
    CSet "carry" 3 (EBin W32 OShr (EElem "h" (ELit 3)) (ELit 25));
    CPut "h" (ELit 4) (EBin W32 OAdd (EElem "h" (ELit 4)) (EVar "carry" 3));
    CPut "h" (ELit 3) (EBin W32 OSub (EElem "h" (ELit 3)) (EBin W32 OShl (EVar "carry" 3) (ELit 25)));
    CSet "carry" 4 (EBin W32 OShr (EElem "h" (ELit 4)) (ELit 26));
    CPut "h" (ELit 5) (EBin W32 OAdd (EElem "h" (ELit 5)) (EVar "carry" 4));
    CPut "h" (ELit 4) (EBin W32 OSub (EElem "h" (ELit 4)) (EBin W32 OShl (EVar "carry" 4) (ELit 26)));
    CSet "carry" 5 (EBin W32 OShr (EElem "h" (ELit 5)) (ELit 25));
    CPut "h" (ELit 6) (EBin W32 OAdd (EElem "h" (ELit 6)) (EVar "carry" 5));
    CPut "h" (ELit 5) (EBin W32 OSub (EElem "h" (ELit 5)) (EBin W32 OShl (EVar "carry" 5) (ELit 25)));
    CSet "carry" 6 (EBin W32 OShr (EElem "h" (ELit 6)) (ELit 26));
    CPut "h" (ELit 7) (EBin W32 OAdd (EElem "h" (ELit 7)) (EVar "carry" 6));
    CPut "h" (ELit 6) (EBin W32 OSub (EElem "h" (ELit 6)) (EBin W32 OShl (EVar "carry" 6) (ELit 26)));
    CSet "carry" 7 (EBin W32 OShr (EElem "h" (ELit 7)) (ELit 25));
    CPut "h" (ELit 8) (EBin W32 OAdd (EElem "h" (ELit 8)) (EVar "carry" 7));
    CPut "h" (ELit 7) (EBin W32 OSub (EElem "h" (ELit 7)) (EBin W32 OShl (EVar "carry" 7) (ELit 25)));
    CSet "carry" 8 (EBin W32 OShr (EElem "h" (ELit 8)) (ELit 26));
    CPut "h" (ELit 9) (EBin W32 OAdd (EElem "h" (ELit 9)) (EVar "carry" 8));
    CPut "h" (ELit 8) (EBin W32 OSub (EElem "h" (ELit 8)) (EBin W32 OShl (EVar "carry" 8) (ELit 26)));
    CSet "carry" 9 (EBin W32 OShr (EElem "h" (ELit 9)) (ELit 25));
    CPut "h" (ELit 9) (EBin W32 OSub (EElem "h" (ELit 9)) (EBin W32 OShl (EVar "carry" 9) (ELit 25)));
    CPut "s" (ELit 0) (EConv U8 (EBin W32 OShr (EElem "h" (ELit 0)) (ELit 0)));
    CPut "s" (ELit 1) (EConv U8 (EBin W32 OShr (EElem "h" (ELit 0)) (ELit 8)));
    CPut "s" (ELit 2) (EConv U8 (EBin W32 OShr (EElem "h" (ELit 0)) (ELit 16)));
    CPut "s" (ELit 3) (EConv U8 (EBin W32 OOr (EBin W32 OShr (EElem "h" (ELit 0)) (ELit 24)) (EBin W32 OShl (EElem "h" (ELit 1)) (ELit 2))));
    CPut "s" (ELit 4) (EConv U8 (EBin W32 OShr (EElem "h" (ELit 1)) (ELit 6)));
    CPut "s" (ELit 5) (EConv U8 (EBin W32 OShr (EElem "h" (ELit 1)) (ELit 14)));
    CPut "s" (ELit 6) (EConv U8 (EBin W32 OOr (EBin W32 OShr (EElem "h" (ELit 1)) (ELit 22)) (EBin W32 OShl (EElem "h" (ELit 2)) (ELit 3))));
    CPut "s" (ELit 7) (EConv U8 (EBin W32 OShr (EElem "h" (ELit 2)) (ELit 5)));
    CPut "s" (ELit 8) (EConv U8 (EBin W32 OShr (EElem "h" (ELit 2)) (ELit 13)));
    CPut "s" (ELit 9) (EConv U8 (EBin W32 OOr (EBin W32 OShr (EElem "h" (ELit 2)) (ELit 21)) (EBin W32 OShl (EElem "h" (ELit 3)) (ELit 5))));
    CPut "s" (ELit 10) (EConv U8 (EBin W32 OShr (EElem "h" (ELit 3)) (ELit 3)));
    CPut "s" (ELit 11) (EConv U8 (EBin W32 OShr (EElem "h" (ELit 3)) (ELit 11)));
    CPut "s" (ELit 12) (EConv U8 (EBin W32 OOr (EBin W32 OShr (EElem "h" (ELit 3)) (ELit 19)) (EBin W32 OShl (EElem "h" (ELit 4)) (ELit 6))));
    CPut "s" (ELit 13) (EConv U8 (EBin W32 OShr (EElem "h" (ELit 4)) (ELit 2)));
    CPut "s" (ELit 14) (EConv U8 (EBin W32 OShr (EElem "h" (ELit 4)) (ELit 10)));
    CPut "s" (ELit 15) (EConv U8 (EBin W32 OShr (EElem "h" (ELit 4)) (ELit 18)));
    CPut "s" (ELit 16) (EConv U8 (EBin W32 OShr (EElem "h" (ELit 5)) (ELit 0)));
    CPut "s" (ELit 17) (EConv U8 (EBin W32 OShr (EElem "h" (ELit 5)) (ELit 8)));
    CPut "s" (ELit 18) (EConv U8 (EBin W32 OShr (EElem "h" (ELit 5)) (ELit 16)));
    CPut "s" (ELit 19) (EConv U8 (EBin W32 OOr (EBin W32 OShr (EElem "h" (ELit 5)) (ELit 24)) (EBin W32 OShl (EElem "h" (ELit 6)) (ELit 1))));
    CPut "s" (ELit 20) (EConv U8 (EBin W32 OShr (EElem "h" (ELit 6)) (ELit 7)));
    CPut "s" (ELit 21) (EConv U8 (EBin W32 OShr (EElem "h" (ELit 6)) (ELit 15)));
    CPut "s" (ELit 22) (EConv U8 (EBin W32 OOr (EBin W32 OShr (EElem "h" (ELit 6)) (ELit 23)) (EBin W32 OShl (EElem "h" (ELit 7)) (ELit 3))));
    CPut "s" (ELit 23) (EConv U8 (EBin W32 OShr (EElem "h" (ELit 7)) (ELit 5)));
    CPut "s" (ELit 24) (EConv U8 (EBin W32 OShr (EElem "h" (ELit 7)) (ELit 13)));
    CPut "s" (ELit 25) (EConv U8 (EBin W32 OOr (EBin W32 OShr (EElem "h" (ELit 7)) (ELit 21)) (EBin W32 OShl (EElem "h" (ELit 8)) (ELit 4))));
    CPut "s" (ELit 26) (EConv U8 (EBin W32 OShr (EElem "h" (ELit 8)) (ELit 4)));
    CPut "s" (ELit 27) (EConv U8 (EBin W32 OShr (EElem "h" (ELit 8)) (ELit 12)));
    CPut "s" (ELit 28) (EConv U8 (EBin W32 OOr (EBin W32 OShr (EElem "h" (ELit 8)) (ELit 20)) (EBin W32 OShl (EElem "h" (ELit 9)) (ELit 6))));
    CPut "s" (ELit 29) (EConv U8 (EBin W32 OShr (EElem "h" (ELit 9)) (ELit 2)));
    CPut "s" (ELit 30) (EConv U8 (EBin W32 OShr (EElem "h" (ELit 9)) (ELit 10)));
    CPut "s" (ELit 31) (EConv U8 (EBin W32 OShr (EElem "h" (ELit 9)) (ELit 18)))].

(* FeIsNegative (221-225), its f called h; the result in variable result *)
Definition FeIsNegative_code : code := CSeq FeToBytes_code (CSet "result" 0 (EBin U8 OAnd (EElem "s" (ELit 0)) (ELit 1))).

(* FeIsNonZero (227-238), its f called h; the value b of the loop is s[i] *)
Definition FeIsNonZero_code : code := CSeq FeToBytes_code (block [
    CSet "x" 0 (ELit 0); CFor "i" 0 32 (CSet "x" 0 (EBin U8 OOr (EVar "x" 0) (EElem "s" (EVar "i" 0))));
    CSet "x" 0 (EBin U8 OOr (EVar "x" 0) (EBin U8 OShr (EVar "x" 0) (ELit 4)));
    CSet "x" 0 (EBin U8 OOr (EVar "x" 0) (EBin U8 OShr (EVar "x" 0) (ELit 2)));
    CSet "x" 0 (EBin U8 OOr (EVar "x" 0) (EBin U8 OShr (EVar "x" 0) (ELit 1)));
    CSet "result" 0 (EBin U8 OAnd (EVar "x" 0) (ELit 1))]).

(* equal (932-936) *)
Definition equal_code : code := block [
    CSet "x" 0 (EConv U32 (EBin W32 OXor (EVar "b" 0) (EVar "c" 0)));
    CSet "x" 0 (EBin U32 OSub (EVar "x" 0) (ELit 1));
    CSet "result" 0 (EConv W32 (EBin U32 OShr (EVar "x" 0) (ELit 31)))].

(* negative (939-941) *)
Definition negative_code : code := CSet "result" 0 (EBin W32 OAnd (EBin W32 OShr (EVar "b" 0) (ELit 31)) (ELit 1)).

(* selectPoint (949-952): bNegative and bAbs *)
Definition bAbs_code : code := CSeq negative_code (block [CSet "bNegative" 0 (EVar "result" 0);
    CSet "bAbs" 0 (EBin W32 OSub (EVar "b" 0) (EBin W32 OShl (EBin W32 OAnd (EBin W32 OSub (ELit 0) (EVar "bNegative" 0)) (EVar "b" 0)) (ELit 1)))]).

(* GeScalarMultBase (970-986): the digits e; v is a[i] *)
Definition recode_code : code := block [
    CFor "i" 0 32 (block [
    CPut "e" (EBin WInt OMul (ELit 2) (EVar "i" 0)) (EConv W8 (EBin U8 OAnd (EElem "a" (EVar "i" 0)) (ELit 15)));
    CPut "e" (EBin WInt OAdd (EBin WInt OMul (ELit 2) (EVar "i" 0)) (ELit 1)) (EConv W8 (EBin U8 OAnd (EBin U8 OShr (EElem "a" (EVar "i" 0)) (ELit 4)) (ELit 15)))]);
    CSet "carry" 0 (ELit 0);
    CFor "i" 0 63 (block [
    CPut "e" (EVar "i" 0) (EBin W8 OAdd (EElem "e" (EVar "i" 0)) (EVar "carry" 0));
    CSet "carry" 0 (EBin W8 OShr (EBin W8 OAdd (EElem "e" (EVar "i" 0)) (ELit 8)) (ELit 4));
    CPut "e" (EVar "i" 0) (EBin W8 OSub (EElem "e" (EVar "i" 0)) (EBin W8 OShl (EVar "carry" 0) (ELit 4)))]);
    CPut "e" (ELit 63) (EBin W8 OAdd (EElem "e" (ELit 63)) (EVar "carry" 0))].

(* ScMulAdd (1026-1449) *)
Definition ScMulAdd_code : code := block [
    CSet "a" 0 (EBin W64 OAnd (ELit 2097151) (load3_of "a" 0 1 2));
    CSet "a" 1 (EBin W64 OAnd (ELit 2097151) (EBin W64 OShr (load4_of "a" 2 3 4 5) (ELit 5)));
    CSet "a" 2 (EBin W64 OAnd (ELit 2097151) (EBin W64 OShr (load3_of "a" 5 6 7) (ELit 2)));
    CSet "a" 3 (EBin W64 OAnd (ELit 2097151) (EBin W64 OShr (load4_of "a" 7 8 9 10) (ELit 7)));
    CSet "a" 4 (EBin W64 OAnd (ELit 2097151) (EBin W64 OShr (load4_of "a" 10 11 12 13) (ELit 4)));
    CSet "a" 5 (EBin W64 OAnd (ELit 2097151) (EBin W64 OShr (load3_of "a" 13 14 15) (ELit 1)));
    CSet "a" 6 (EBin W64 OAnd (ELit 2097151) (EBin W64 OShr (load4_of "a" 15 16 17 18) (ELit 6)));
    CSet "a" 7 (EBin W64 OAnd (ELit 2097151) (EBin W64 OShr (load3_of "a" 18 19 20) (ELit 3)));
    CSet "a" 8 (EBin W64 OAnd (ELit 2097151) (load3_of "a" 21 22 23));
    CSet "a" 9 (EBin W64 OAnd (ELit 2097151) (EBin W64 OShr (load4_of "a" 23 24 25 26) (ELit 5)));
    CSet "a" 10 (EBin W64 OAnd (ELit 2097151) (EBin W64 OShr (load3_of "a" 26 27 28) (ELit 2)));
    CSet "a" 11 (EBin W64 OShr (load4_of "a" 28 29 30 31) (ELit 7));
    CSet "b" 0 (EBin W64 OAnd (ELit 2097151) (load3_of "b" 0 1 2));
    CSet "b" 1 (EBin W64 OAnd (ELit 2097151) (EBin W64 OShr (load4_of "b" 2 3 4 5) (ELit 5)));
    CSet "b" 2 (EBin W64 OAnd (ELit 2097151) (EBin W64 OShr (load3_of "b" 5 6 7) (ELit 2)));
    CSet "b" 3 (EBin W64 OAnd (ELit 2097151) (EBin W64 OShr (load4_of "b" 7 8 9 10) (ELit 7)));
    CSet "b" 4 (EBin W64 OAnd (ELit 2097151) (EBin W64 OShr (load4_of "b" 10 11 12 13) (ELit 4)));
    CSet "b" 5 (EBin W64 OAnd (ELit 2097151) (EBin W64 OShr (load3_of "b" 13 14 15) (ELit 1)));
    CSet "b" 6 (EBin W64 OAnd (ELit 2097151) (EBin W64 OShr (load4_of "b" 15 16 17 18) (ELit 6)));
    CSet "b" 7 (EBin W64 OAnd (ELit 2097151) (EBin W64 OShr (load3_of "b" 18 19 20) (ELit 3)));
    CSet "b" 8 (EBin W64 OAnd (ELit 2097151) (load3_of "b" 21 22 23));
    CSet "b" 9 (EBin W64 OAnd (ELit 2097151) (EBin W64 OShr (load4_of "b" 23 24 25 26) (ELit 5)));
    CSet "b" 10 (EBin W64 OAnd (ELit 2097151) (EBin W64 OShr (load3_of "b" 26 27 28) (ELit 2)));
    CSet "b" 11 (EBin W64 OShr (load4_of "b" 28 29 30 31) (ELit 7));
    CSet "c" 0 (EBin W64 OAnd (ELit 2097151) (load3_of "c" 0 1 2));
    CSet "c" 1 (EBin W64 OAnd (ELit 2097151) (EBin W64 OShr (load4_of "c" 2 3 4 5) (ELit 5)));
    CSet "c" 2 (EBin W64 OAnd (ELit 2097151) (EBin W64 OShr (load3_of "c" 5 6 7) (ELit 2)));
    CSet "c" 3 (EBin W64 OAnd (ELit 2097151) (EBin W64 OShr (load4_of "c" 7 8 9 10) (ELit 7)));
    CSet "c" 4 (EBin W64 OAnd (ELit 2097151) (EBin W64 OShr (load4_of "c" 10 11 12 13) (ELit 4)));
    CSet "c" 5 (EBin W64 OAnd (ELit 2097151) (EBin W64 OShr (load3_of "c" 13 14 15) (ELit 1)));
    CSet "c" 6 (EBin W64 OAnd (ELit 2097151) (EBin W64 OShr (load4_of "c" 15 16 17 18) (ELit 6)));
    CSet "c" 7 (EBin W64 OAnd (ELit 2097151) (EBin W64 OShr (load3_of "c" 18 19 20) (ELit 3)));
    CSet "c" 8 (EBin W64 OAnd (ELit 2097151) (load3_of "c" 21 22 23));
    CSet "c" 9 (EBin W64 OAnd (ELit 2097151) (EBin W64 OShr (load4_of "c" 23 24 25 26) (ELit 5)));
    CSet "c" 10 (EBin W64 OAnd (ELit 2097151) (EBin W64 OShr (load3_of "c" 26 27 28) (ELit 2)));
    CSet "c" 11 (EBin W64 OShr (load4_of "c" 28 29 30 31) (ELit 7));
    CSet "s" 0 (EBin W64 OAdd (EVar "c" 0) (EBin W64 OMul (EVar "a" 0) (EVar "b" 0)));
    CSet "s" 1 (EBin W64 OAdd (EBin W64 OAdd (EVar "c" 1) (EBin W64 OMul (EVar "a" 0) (EVar "b" 1))) (EBin W64 OMul (EVar "a" 1) (EVar "b" 0)));
    CSet "s" 2 (EBin W64 OAdd (EBin W64 OAdd (EBin W64 OAdd (EVar "c" 2) (EBin W64 OMul (EVar "a" 0) (EVar "b" 2))) (EBin W64 OMul (EVar "a" 1) (EVar "b" 1))) (EBin W64 OMul (EVar "a" 2) (EVar "b" 0)));
    CSet "s" 3 (EBin W64 OAdd (EBin W64 OAdd (EBin W64 OAdd (EBin W64 OAdd (EVar "c" 3) (EBin W64 OMul (EVar "a" 0) (EVar "b" 3))) (EBin W64 OMul (EVar "a" 1) (EVar "b" 2))) (EBin W64 OMul (EVar "a" 2) (EVar "b" 1))) (EBin W64 OMul (EVar "a" 3) (EVar "b" 0)));
    CSet "s" 4 (EBin W64 OAdd (EBin W64 OAdd (EBin W64 OAdd (EBin W64 OAdd (EBin W64 OAdd (EVar "c" 4) (EBin W64 OMul (EVar "a" 0) (EVar "b" 4))) (EBin W64 OMul (EVar "a" 1) (EVar "b" 3))) (EBin W64 OMul (EVar "a" 2) (EVar "b" 2))) (EBin W64 OMul (EVar "a" 3) (EVar "b" 1))) (EBin W64 OMul (EVar "a" 4) (EVar "b" 0)));
    CSet "s" 5 (EBin W64 OAdd (EBin W64 OAdd (EBin W64 OAdd (EBin W64 OAdd (EBin W64 OAdd (EBin W64 OAdd (EVar "c" 5) (EBin W64 OMul (EVar "a" 0) (EVar "b" 5))) (EBin W64 OMul (EVar "a" 1) (EVar "b" 4))) (EBin W64 OMul (EVar "a" 2) (EVar "b" 3))) (EBin W64 OMul (EVar "a" 3) (EVar "b" 2))) (EBin W64 OMul (EVar "a" 4) (EVar "b" 1))) (EBin W64 OMul (EVar "a" 5) (EVar "b" 0)));
    CSet "s" 6 (EBin W64 OAdd (EBin W64 OAdd (EBin W64 OAdd (EBin W64 OAdd (EBin W64 OAdd (EBin W64 OAdd (EBin W64 OAdd (EVar "c" 6) (EBin W64 OMul (EVar "a" 0) (EVar "b" 6))) (EBin W64 OMul (EVar "a" 1) (EVar "b" 5))) (EBin W64 OMul (EVar "a" 2) (EVar "b" 4))) (EBin W64 OMul (EVar "a" 3) (EVar "b" 3))) (EBin W64 OMul (EVar "a" 4) (EVar "b" 2))) (EBin W64 OMul (EVar "a" 5) (EVar "b" 1))) (EBin W64 OMul (EVar "a" 6) (EVar "b" 0)));
    CSet "s" 7 (EBin W64 OAdd (EBin W64 OAdd (EBin W64 OAdd (EBin W64 OAdd (EBin W64 OAdd (EBin W64 OAdd (EBin W64 OAdd (EBin W64 OAdd (EVar "c" 7) (EBin W64 OMul (EVar "a" 0) (EVar "b" 7))) (EBin W64 OMul (EVar "a" 1) (EVar "b" 6))) (EBin W64 OMul (EVar "a" 2) (EVar "b" 5))) (EBin W64 OMul (EVar "a" 3) (EVar "b" 4))) (EBin W64 OMul (EVar "a" 4) (EVar "b" 3))) (EBin W64 OMul (EVar "a" 5) (EVar "b" 2))) (EBin W64 OMul (EVar "a" 6) (EVar "b" 1))) (EBin W64 OMul (EVar "a" 7) (EVar "b" 0)));
    CSet "s" 8 (EBin W64 OAdd (EBin W64 OAdd (EBin W64 OAdd (EBin W64 OAdd (EBin W64 OAdd (EBin W64 OAdd (EBin W64 OAdd (EBin W64 OAdd (EBin W64 OAdd (EVar "c" 8) (EBin W64 OMul (EVar "a" 0) (EVar "b" 8))) (EBin W64 OMul (EVar "a" 1) (EVar "b" 7))) (EBin W64 OMul (EVar "a" 2) (EVar "b" 6))) (EBin W64 OMul (EVar "a" 3) (EVar "b" 5))) (EBin W64 OMul (EVar "a" 4) (EVar "b" 4))) (EBin W64 OMul (EVar "a" 5) (EVar "b" 3))) (EBin W64 OMul (EVar "a" 6) (EVar "b" 2))) (EBin W64 OMul (EVar "a" 7) (EVar "b" 1))) (EBin W64 OMul (EVar "a" 8) (EVar "b" 0)));
    CSet "s" 9 (EBin W64 OAdd (EBin W64 OAdd (EBin W64 OAdd (EBin W64 OAdd (EBin W64 OAdd (EBin W64 OAdd (EBin W64 OAdd (EBin W64 OAdd (EBin W64 OAdd (EBin W64 OAdd (EVar "c" 9) (EBin W64 OMul (EVar "a" 0) (EVar "b" 9))) (EBin W64 OMul (EVar "a" 1) (EVar "b" 8))) (EBin W64 OMul (EVar "a" 2) (EVar "b" 7))) (EBin W64 OMul (EVar "a" 3) (EVar "b" 6))) (EBin W64 OMul (EVar "a" 4) (EVar "b" 5))) (EBin W64 OMul (EVar "a" 5) (EVar "b" 4))) (EBin W64 OMul (EVar "a" 6) (EVar "b" 3))) (EBin W64 OMul (EVar "a" 7) (EVar "b" 2))) (EBin W64 OMul (EVar "a" 8) (EVar "b" 1))) (EBin W64 OMul (EVar "a" 9) (EVar "b" 0)));
    CSet "s" 10 (EBin W64 OAdd (EBin W64 OAdd (EBin W64 OAdd (EBin W64 OAdd (EBin W64 OAdd (EBin W64 OAdd (EBin W64 OAdd (EBin W64 OAdd (EBin W64 OAdd (EBin W64 OAdd (EBin W64 OAdd (EVar "c" 10) (EBin W64 OMul (EVar "a" 0) (EVar "b" 10))) (EBin W64 OMul (EVar "a" 1) (EVar "b" 9))) (EBin W64 OMul (EVar "a" 2) (EVar "b" 8))) (EBin W64 OMul (EVar "a" 3) (EVar "b" 7))) (EBin W64 OMul (EVar "a" 4) (EVar "b" 6))) (EBin W64 OMul (EVar "a" 5) (EVar "b" 5))) (EBin W64 OMul (EVar "a" 6) (EVar "b" 4))) (EBin W64 OMul (EVar "a" 7) (EVar "b" 3))) (EBin W64 OMul (EVar "a" 8) (EVar "b" 2))) (EBin W64 OMul (EVar "a" 9) (EVar "b" 1))) (EBin W64 OMul (EVar "a" 10) (EVar "b" 0)));
    CSet "s" 11 (EBin W64 OAdd (EBin W64 OAdd (EBin W64 OAdd (EBin W64 OAdd (EBin W64 OAdd (EBin W64 OAdd (EBin W64 OAdd (EBin W64 OAdd (EBin W64 OAdd (EBin W64 OAdd (EBin W64 OAdd (EBin W64 OAdd (EVar "c" 11) (EBin W64 OMul (EVar "a" 0) (EVar "b" 11))) (EBin W64 OMul (EVar "a" 1) (EVar "b" 10))) (EBin W64 OMul (EVar "a" 2) (EVar "b" 9))) (EBin W64 OMul (EVar "a" 3) (EVar "b" 8))) (EBin W64 OMul (EVar "a" 4) (EVar "b" 7))) (EBin W64 OMul (EVar "a" 5) (EVar "b" 6))) (EBin W64 OMul (EVar "a" 6) (EVar "b" 5))) (EBin W64 OMul (EVar "a" 7) (EVar "b" 4))) (EBin W64 OMul (EVar "a" 8) (EVar "b" 3))) (EBin W64 OMul (EVar "a" 9) (EVar "b" 2))) (EBin W64 OMul (EVar "a" 10) (EVar "b" 1))) (EBin W64 OMul (EVar "a" 11) (EVar "b" 0)));
    CSet "s" 12 (EBin W64 OAdd (EBin W64 OAdd (EBin W64 OAdd (EBin W64 OAdd (EBin W64 OAdd (EBin W64 OAdd (EBin W64 OAdd (EBin W64 OAdd (EBin W64 OAdd (EBin W64 OAdd (EBin W64 OMul (EVar "a" 1) (EVar "b" 11)) (EBin W64 OMul (EVar "a" 2) (EVar "b" 10))) (EBin W64 OMul (EVar "a" 3) (EVar "b" 9))) (EBin W64 OMul (EVar "a" 4) (EVar "b" 8))) (EBin W64 OMul (EVar "a" 5) (EVar "b" 7))) (EBin W64 OMul (EVar "a" 6) (EVar "b" 6))) (EBin W64 OMul (EVar "a" 7) (EVar "b" 5))) (EBin W64 OMul (EVar "a" 8) (EVar "b" 4))) (EBin W64 OMul (EVar "a" 9) (EVar "b" 3))) (EBin W64 OMul (EVar "a" 10) (EVar "b" 2))) (EBin W64 OMul (EVar "a" 11) (EVar "b" 1)));
    CSet "s" 13 (EBin W64 OAdd (EBin W64 OAdd (EBin W64 OAdd (EBin W64 OAdd (EBin W64 OAdd (EBin W64 OAdd (EBin W64 OAdd (EBin W64 OAdd (EBin W64 OAdd (EBin W64 OMul (EVar "a" 2) (EVar "b" 11)) (EBin W64 OMul (EVar "a" 3) (EVar "b" 10))) (EBin W64 OMul (EVar "a" 4) (EVar "b" 9))) (EBin W64 OMul (EVar "a" 5) (EVar "b" 8))) (EBin W64 OMul (EVar "a" 6) (EVar "b" 7))) (EBin W64 OMul (EVar "a" 7) (EVar "b" 6))) (EBin W64 OMul (EVar "a" 8) (EVar "b" 5))) (EBin W64 OMul (EVar "a" 9) (EVar "b" 4))) (EBin W64 OMul (EVar "a" 10) (EVar "b" 3))) (EBin W64 OMul (EVar "a" 11) (EVar "b" 2)));
    CSet "s" 14 (EBin W64 OAdd (EBin W64 OAdd (EBin W64 OAdd (EBin W64 OAdd (EBin W64 OAdd (EBin W64 OAdd (EBin W64 OAdd (EBin W64 OAdd (EBin W64 OMul (EVar "a" 3) (EVar "b" 11)) (EBin W64 OMul (EVar "a" 4) (EVar "b" 10))) (EBin W64 OMul (EVar "a" 5) (EVar "b" 9))) (EBin W64 OMul (EVar "a" 6) (EVar "b" 8))) (EBin W64 OMul (EVar "a" 7) (EVar "b" 7))) (EBin W64 OMul (EVar "a" 8) (EVar "b" 6))) (EBin W64 OMul (EVar "a" 9) (EVar "b" 5))) (EBin W64 OMul (EVar "a" 10) (EVar "b" 4))) (EBin W64 OMul (EVar "a" 11) (EVar "b" 3)));
    CSet "s" 15 (EBin W64 OAdd (EBin W64 OAdd (EBin W64 OAdd (EBin W64 OAdd (EBin W64 OAdd (EBin W64 OAdd (EBin W64 OAdd (EBin W64 OMul (EVar "a" 4) (EVar "b" 11)) (EBin W64 OMul (EVar "a" 5) (EVar "b" 10))) (EBin W64 OMul (EVar "a" 6) (EVar "b" 9))) (EBin W64 OMul (EVar "a" 7) (EVar "b" 8))) (EBin W64 OMul (EVar "a" 8) (EVar "b" 7))) (EBin W64 OMul (EVar "a" 9) (EVar "b" 6))) (EBin W64 OMul (EVar "a" 10) (EVar "b" 5))) (EBin W64 OMul (EVar "a" 11) (EVar "b" 4)));
    CSet "s" 16 (EBin W64 OAdd (EBin W64 OAdd (EBin W64 OAdd (EBin W64 OAdd (EBin W64 OAdd (EBin W64 OAdd (EBin W64 OMul (EVar "a" 5) (EVar "b" 11)) (EBin W64 OMul (EVar "a" 6) (EVar "b" 10))) (EBin W64 OMul (EVar "a" 7) (EVar "b" 9))) (EBin W64 OMul (EVar "a" 8) (EVar "b" 8))) (EBin W64 OMul (EVar "a" 9) (EVar "b" 7))) (EBin W64 OMul (EVar "a" 10) (EVar "b" 6))) (EBin W64 OMul (EVar "a" 11) (EVar "b" 5)));
    CSet "s" 17 (EBin W64 OAdd (EBin W64 OAdd (EBin W64 OAdd (EBin W64 OAdd (EBin W64 OAdd (EBin W64 OMul (EVar "a" 6) (EVar "b" 11)) (EBin W64 OMul (EVar "a" 7) (EVar "b" 10))) (EBin W64 OMul (EVar "a" 8) (EVar "b" 9))) (EBin W64 OMul (EVar "a" 9) (EVar "b" 8))) (EBin W64 OMul (EVar "a" 10) (EVar "b" 7))) (EBin W64 OMul (EVar "a" 11) (EVar "b" 6)));
    CSet "s" 18 (EBin W64 OAdd (EBin W64 OAdd (EBin W64 OAdd (EBin W64 OAdd (EBin W64 OMul (EVar "a" 7) (EVar "b" 11)) (EBin W64 OMul (EVar "a" 8) (EVar "b" 10))) (EBin W64 OMul (EVar "a" 9) (EVar "b" 9))) (EBin W64 OMul (EVar "a" 10) (EVar "b" 8))) (EBin W64 OMul (EVar "a" 11) (EVar "b" 7)));
    CSet "s" 19 (EBin W64 OAdd (EBin W64 OAdd (EBin W64 OAdd (EBin W64 OMul (EVar "a" 8) (EVar "b" 11)) (EBin W64 OMul (EVar "a" 9) (EVar "b" 10))) (EBin W64 OMul (EVar "a" 10) (EVar "b" 9))) (EBin W64 OMul (EVar "a" 11) (EVar "b" 8)));
    CSet "s" 20 (EBin W64 OAdd (EBin W64 OAdd (EBin W64 OMul (EVar "a" 9) (EVar "b" 11)) (EBin W64 OMul (EVar "a" 10) (EVar "b" 10))) (EBin W64 OMul (EVar "a" 11) (EVar "b" 9)));
    CSet "s" 21 (EBin W64 OAdd (EBin W64 OMul (EVar "a" 10) (EVar "b" 11)) (EBin W64 OMul (EVar "a" 11) (EVar "b" 10)));
    CSet "s" 22 (EBin W64 OMul (EVar "a" 11) (EVar "b" 11));
    CSet "s" 23 (ELit 0);
    CSet "carry" 0 (EBin W64 OShr (EBin W64 OAdd (EVar "s" 0) (EBin W64 OShl (ELit 1) (ELit 20))) (ELit 21));
    CSet "s" 1 (EBin W64 OAdd (EVar "s" 1) (EVar "carry" 0));
    CSet "s" 0 (EBin W64 OSub (EVar "s" 0) (EBin W64 OShl (EVar "carry" 0) (ELit 21)));
    CSet "carry" 2 (EBin W64 OShr (EBin W64 OAdd (EVar "s" 2) (EBin W64 OShl (ELit 1) (ELit 20))) (ELit 21));
    CSet "s" 3 (EBin W64 OAdd (EVar "s" 3) (EVar "carry" 2));
    CSet "s" 2 (EBin W64 OSub (EVar "s" 2) (EBin W64 OShl (EVar "carry" 2) (ELit 21)));
    CSet "carry" 4 (EBin W64 OShr (EBin W64 OAdd (EVar "s" 4) (EBin W64 OShl (ELit 1) (ELit 20))) (ELit 21));
    CSet "s" 5 (EBin W64 OAdd (EVar "s" 5) (EVar "carry" 4));
    CSet "s" 4 (EBin W64 OSub (EVar "s" 4) (EBin W64 OShl (EVar "carry" 4) (ELit 21)));
    CSet "carry" 6 (EBin W64 OShr (EBin W64 OAdd (EVar "s" 6) (EBin W64 OShl (ELit 1) (ELit 20))) (ELit 21));
    CSet "s" 7 (EBin W64 OAdd (EVar "s" 7) (EVar "carry" 6));
    CSet "s" 6 (EBin W64 OSub (EVar "s" 6) (EBin W64 OShl (EVar "carry" 6) (ELit 21)));
    CSet "carry" 8 (EBin W64 OShr (EBin W64 OAdd (EVar "s" 8) (EBin W64 OShl (ELit 1) (ELit 20))) (ELit 21));
    CSet "s" 9 (EBin W64 OAdd (EVar "s" 9) (EVar "carry" 8));
    CSet "s" 8 (EBin W64 OSub (EVar "s" 8) (EBin W64 OShl (EVar "carry" 8) (ELit 21)));
    CSet "carry" 10 (EBin W64 OShr (EBin W64 OAdd (EVar "s" 10) (EBin W64 OShl (ELit 1) (ELit 20))) (ELit 21));
    CSet "s" 11 (EBin W64 OAdd (EVar "s" 11) (EVar "carry" 10));
    CSet "s" 10 (EBin W64 OSub (EVar "s" 10) (EBin W64 OShl (EVar "carry" 10) (ELit 21)));
    CSet "carry" 12 (EBin W64 OShr (EBin W64 OAdd (EVar "s" 12) (EBin W64 OShl (ELit 1) (ELit 20))) (ELit 21));
    CSet "s" 13 (EBin W64 OAdd (EVar "s" 13) (EVar "carry" 12));
    CSet "s" 12 (EBin W64 OSub (EVar "s" 12) (EBin W64 OShl (EVar "carry" 12) (ELit 21)));
    CSet "carry" 14 (EBin W64 OShr (EBin W64 OAdd (EVar "s" 14) (EBin W64 OShl (ELit 1) (ELit 20))) (ELit 21));
    CSet "s" 15 (EBin W64 OAdd (EVar "s" 15) (EVar "carry" 14));
    CSet "s" 14 (EBin W64 OSub (EVar "s" 14) (EBin W64 OShl (EVar "carry" 14) (ELit 21)));
    CSet "carry" 16 (EBin W64 OShr (EBin W64 OAdd (EVar "s" 16) (EBin W64 OShl (ELit 1) (ELit 20))) (ELit 21));
    CSet "s" 17 (EBin W64 OAdd (EVar "s" 17) (EVar "carry" 16));
    CSet "s" 16 (EBin W64 OSub (EVar "s" 16) (EBin W64 OShl (EVar "carry" 16) (ELit 21)));
    CSet "carry" 18 (EBin W64 OShr (EBin W64 OAdd (EVar "s" 18) (EBin W64 OShl (ELit 1) (ELit 20))) (ELit 21));
    CSet "s" 19 (EBin W64 OAdd (EVar "s" 19) (EVar "carry" 18));
    CSet "s" 18 (EBin W64 OSub (EVar "s" 18) (EBin W64 OShl (EVar "carry" 18) (ELit 21)));
    CSet "carry" 20 (EBin W64 OShr (EBin W64 OAdd (EVar "s" 20) (EBin W64 OShl (ELit 1) (ELit 20))) (ELit 21));
    CSet "s" 21 (EBin W64 OAdd (EVar "s" 21) (EVar "carry" 20));
    CSet "s" 20 (EBin W64 OSub (EVar "s" 20) (EBin W64 OShl (EVar "carry" 20) (ELit 21)));
    CSet "carry" 22 (EBin W64 OShr (EBin W64 OAdd (EVar "s" 22) (EBin W64 OShl (ELit 1) (ELit 20))) (ELit 21));
    CSet "s" 23 (EBin W64 OAdd (EVar "s" 23) (EVar "carry" 22));
    CSet "s" 22 (EBin W64 OSub (EVar "s" 22) (EBin W64 OShl (EVar "carry" 22) (ELit 21)));
    CSet "carry" 1 (EBin W64 OShr (EBin W64 OAdd (EVar "s" 1) (EBin W64 OShl (ELit 1) (ELit 20))) (ELit 21));
    CSet "s" 2 (EBin W64 OAdd (EVar "s" 2) (EVar "carry" 1));
    CSet "s" 1 (EBin W64 OSub (EVar "s" 1) (EBin W64 OShl (EVar "carry" 1) (ELit 21)));
    CSet "carry" 3 (EBin W64 OShr (EBin W64 OAdd (EVar "s" 3) (EBin W64 OShl (ELit 1) (ELit 20))) (ELit 21));
    CSet "s" 4 (EBin W64 OAdd (EVar "s" 4) (EVar "carry" 3));
    CSet "s" 3 (EBin W64 OSub (EVar "s" 3) (EBin W64 OShl (EVar "carry" 3) (ELit 21)));
    CSet "carry" 5 (EBin W64 OShr (EBin W64 OAdd (EVar "s" 5) (EBin W64 OShl (ELit 1) (ELit 20))) (ELit 21));
    CSet "s" 6 (EBin W64 OAdd (EVar "s" 6) (EVar "carry" 5));
    CSet "s" 5 (EBin W64 OSub (EVar "s" 5) (EBin W64 OShl (EVar "carry" 5) (ELit 21)));
    CSet "carry" 7 (EBin W64 OShr (EBin W64 OAdd (EVar "s" 7) (EBin W64 OShl (ELit 1) (ELit 20))) (ELit 21));
    CSet "s" 8 (EBin W64 OAdd (EVar "s" 8) (EVar "carry" 7));
    CSet "s" 7 (EBin W64 OSub (EVar "s" 7) (EBin W64 OShl (EVar "carry" 7) (ELit 21)));
    CSet "carry" 9 (EBin W64 OShr (EBin W64 OAdd (EVar "s" 9) (EBin W64 OShl (ELit 1) (ELit 20))) (ELit 21));
    CSet "s" 10 (EBin W64 OAdd (EVar "s" 10) (EVar "carry" 9));
    CSet "s" 9 (EBin W64 OSub (EVar "s" 9) (EBin W64 OShl (EVar "carry" 9) (ELit 21)));
    CSet "carry" 11 (EBin W64 OShr (EBin W64 OAdd (EVar "s" 11) (EBin W64 OShl (ELit 1) (ELit 20))) (ELit 21));
    CSet "s" 12 (EBin W64 OAdd (EVar "s" 12) (EVar "carry" 11));
    CSet "s" 11 (EBin W64 OSub (EVar "s" 11) (EBin W64 OShl (EVar "carry" 11) (ELit 21)));
    CSet "carry" 13 (EBin W64 OShr (EBin W64 OAdd (EVar "s" 13) (EBin W64 OShl (ELit 1) (ELit 20))) (ELit 21));
    CSet "s" 14 (EBin W64 OAdd (EVar "s" 14) (EVar "carry" 13));
    CSet "s" 13 (EBin W64 OSub (EVar "s" 13) (EBin W64 OShl (EVar "carry" 13) (ELit 21)));
    CSet "carry" 15 (EBin W64 OShr (EBin W64 OAdd (EVar "s" 15) (EBin W64 OShl (ELit 1) (ELit 20))) (ELit 21));
    CSet "s" 16 (EBin W64 OAdd (EVar "s" 16) (EVar "carry" 15));
    CSet "s" 15 (EBin W64 OSub (EVar "s" 15) (EBin W64 OShl (EVar "carry" 15) (ELit 21)));
    CSet "carry" 17 (EBin W64 OShr (EBin W64 OAdd (EVar "s" 17) (EBin W64 OShl (ELit 1) (ELit 20))) (ELit 21));
    CSet "s" 18 (EBin W64 OAdd (EVar "s" 18) (EVar "carry" 17));
    CSet "s" 17 (EBin W64 OSub (EVar "s" 17) (EBin W64 OShl (EVar "carry" 17) (ELit 21)));
    CSet "carry" 19 (EBin W64 OShr (EBin W64 OAdd (EVar "s" 19) (EBin W64 OShl (ELit 1) (ELit 20))) (ELit 21));
    CSet "s" 20 (EBin W64 OAdd (EVar "s" 20) (EVar "carry" 19));
    CSet "s" 19 (EBin W64 OSub (EVar "s" 19) (EBin W64 OShl (EVar "carry" 19) (ELit 21)));
    CSet "carry" 21 (EBin W64 OShr (EBin W64 OAdd (EVar "s" 21) (EBin W64 OShl (ELit 1) (ELit 20))) (ELit 21));
    CSet "s" 22 (EBin W64 OAdd (EVar "s" 22) (EVar "carry" 21));
    CSet "s" 21 (EBin W64 OSub (EVar "s" 21) (EBin W64 OShl (EVar "carry" 21) (ELit 21)));
    CSet "s" 11 (EBin W64 OAdd (EVar "s" 11) (EBin W64 OMul (EVar "s" 23) (ELit 666643)));
    CSet "s" 12 (EBin W64 OAdd (EVar "s" 12) (EBin W64 OMul (EVar "s" 23) (ELit 470296)));
    CSet "s" 13 (EBin W64 OAdd (EVar "s" 13) (EBin W64 OMul (EVar "s" 23) (ELit 654183)));
    CSet "s" 14 (EBin W64 OSub (EVar "s" 14) (EBin W64 OMul (EVar "s" 23) (ELit 997805)));
    CSet "s" 15 (EBin W64 OAdd (EVar "s" 15) (EBin W64 OMul (EVar "s" 23) (ELit 136657)));
    CSet "s" 16 (EBin W64 OSub (EVar "s" 16) (EBin W64 OMul (EVar "s" 23) (ELit 683901)));
    CSet "s" 23 (ELit 0);
    CSet "s" 10 (EBin W64 OAdd (EVar "s" 10) (EBin W64 OMul (EVar "s" 22) (ELit 666643)));
    CSet "s" 11 (EBin W64 OAdd (EVar "s" 11) (EBin W64 OMul (EVar "s" 22) (ELit 470296)));
    CSet "s" 12 (EBin W64 OAdd (EVar "s" 12) (EBin W64 OMul (EVar "s" 22) (ELit 654183)));
    CSet "s" 13 (EBin W64 OSub (EVar "s" 13) (EBin W64 OMul (EVar "s" 22) (ELit 997805)));
    CSet "s" 14 (EBin W64 OAdd (EVar "s" 14) (EBin W64 OMul (EVar "s" 22) (ELit 136657)));
    CSet "s" 15 (EBin W64 OSub (EVar "s" 15) (EBin W64 OMul (EVar "s" 22) (ELit 683901)));
    CSet "s" 22 (ELit 0);
    CSet "s" 9 (EBin W64 OAdd (EVar "s" 9) (EBin W64 OMul (EVar "s" 21) (ELit 666643)));
    CSet "s" 10 (EBin W64 OAdd (EVar "s" 10) (EBin W64 OMul (EVar "s" 21) (ELit 470296)));
    CSet "s" 11 (EBin W64 OAdd (EVar "s" 11) (EBin W64 OMul (EVar "s" 21) (ELit 654183)));
    CSet "s" 12 (EBin W64 OSub (EVar "s" 12) (EBin W64 OMul (EVar "s" 21) (ELit 997805)));
    CSet "s" 13 (EBin W64 OAdd (EVar "s" 13) (EBin W64 OMul (EVar "s" 21) (ELit 136657)));
    CSet "s" 14 (EBin W64 OSub (EVar "s" 14) (EBin W64 OMul (EVar "s" 21) (ELit 683901)));
    CSet "s" 21 (ELit 0);
    CSet "s" 8 (EBin W64 OAdd (EVar "s" 8) (EBin W64 OMul (EVar "s" 20) (ELit 666643)));
    CSet "s" 9 (EBin W64 OAdd (EVar "s" 9) (EBin W64 OMul (EVar "s" 20) (ELit 470296)));
    CSet "s" 10 (EBin W64 OAdd (EVar "s" 10) (EBin W64 OMul (EVar "s" 20) (ELit 654183)));
    CSet "s" 11 (EBin W64 OSub (EVar "s" 11) (EBin W64 OMul (EVar "s" 20) (ELit 997805)));
    CSet "s" 12 (EBin W64 OAdd (EVar "s" 12) (EBin W64 OMul (EVar "s" 20) (ELit 136657)));
    CSet "s" 13 (EBin W64 OSub (EVar "s" 13) (EBin W64 OMul (EVar "s" 20) (ELit 683901)));
    CSet "s" 20 (ELit 0);
    CSet "s" 7 (EBin W64 OAdd (EVar "s" 7) (EBin W64 OMul (EVar "s" 19) (ELit 666643)));
    CSet "s" 8 (EBin W64 OAdd (EVar "s" 8) (EBin W64 OMul (EVar "s" 19) (ELit 470296)));
    CSet "s" 9 (EBin W64 OAdd (EVar "s" 9) (EBin W64 OMul (EVar "s" 19) (ELit 654183)));
    CSet "s" 10 (EBin W64 OSub (EVar "s" 10) (EBin W64 OMul (EVar "s" 19) (ELit 997805)));
    CSet "s" 11 (EBin W64 OAdd (EVar "s" 11) (EBin W64 OMul (EVar "s" 19) (ELit 136657)));
    CSet "s" 12 (EBin W64 OSub (EVar "s" 12) (EBin W64 OMul (EVar "s" 19) (ELit 683901)));
    CSet "s" 19 (ELit 0);
    CSet "s" 6 (EBin W64 OAdd (EVar "s" 6) (EBin W64 OMul (EVar "s" 18) (ELit 666643)));
    CSet "s" 7 (EBin W64 OAdd (EVar "s" 7) (EBin W64 OMul (EVar "s" 18) (ELit 470296)));
    CSet "s" 8 (EBin W64 OAdd (EVar "s" 8) (EBin W64 OMul (EVar "s" 18) (ELit 654183)));
    CSet "s" 9 (EBin W64 OSub (EVar "s" 9) (EBin W64 OMul (EVar "s" 18) (ELit 997805)));
    CSet "s" 10 (EBin W64 OAdd (EVar "s" 10) (EBin W64 OMul (EVar "s" 18) (ELit 136657)));
    CSet "s" 11 (EBin W64 OSub (EVar "s" 11) (EBin W64 OMul (EVar "s" 18) (ELit 683901)));
    CSet "s" 18 (ELit 0);
    CSet "carry" 6 (EBin W64 OShr (EBin W64 OAdd (EVar "s" 6) (EBin W64 OShl (ELit 1) (ELit 20))) (ELit 21));
    CSet "s" 7 (EBin W64 OAdd (EVar "s" 7) (EVar "carry" 6));
    CSet "s" 6 (EBin W64 OSub (EVar "s" 6) (EBin W64 OShl (EVar "carry" 6) (ELit 21)));
    CSet "carry" 8 (EBin W64 OShr (EBin W64 OAdd (EVar "s" 8) (EBin W64 OShl (ELit 1) (ELit 20))) (ELit 21));
    CSet "s" 9 (EBin W64 OAdd (EVar "s" 9) (EVar "carry" 8));
    CSet "s" 8 (EBin W64 OSub (EVar "s" 8) (EBin W64 OShl (EVar "carry" 8) (ELit 21)));
    CSet "carry" 10 (EBin W64 OShr (EBin W64 OAdd (EVar "s" 10) (EBin W64 OShl (ELit 1) (ELit 20))) (ELit 21));
    CSet "s" 11 (EBin W64 OAdd (EVar "s" 11) (EVar "carry" 10));
    CSet "s" 10 (EBin W64 OSub (EVar "s" 10) (EBin W64 OShl (EVar "carry" 10) (ELit 21)));
    CSet "carry" 12 (EBin W64 OShr (EBin W64 OAdd (EVar "s" 12) (EBin W64 OShl (ELit 1) (ELit 20))) (ELit 21));
    CSet "s" 13 (EBin W64 OAdd (EVar "s" 13) (EVar "carry" 12));
    CSet "s" 12 (EBin W64 OSub (EVar "s" 12) (EBin W64 OShl (EVar "carry" 12) (ELit 21)));
    CSet "carry" 14 (EBin W64 OShr (EBin W64 OAdd (EVar "s" 14) (EBin W64 OShl (ELit 1) (ELit 20))) (ELit 21));
    CSet "s" 15 (EBin W64 OAdd (EVar "s" 15) (EVar "carry" 14));
    CSet "s" 14 (EBin W64 OSub (EVar "s" 14) (EBin W64 OShl (EVar "carry" 14) (ELit 21)));
    CSet "carry" 16 (EBin W64 OShr (EBin W64 OAdd (EVar "s" 16) (EBin W64 OShl (ELit 1) (ELit 20))) (ELit 21));
    CSet "s" 17 (EBin W64 OAdd (EVar "s" 17) (EVar "carry" 16));
    CSet "s" 16 (EBin W64 OSub (EVar "s" 16) (EBin W64 OShl (EVar "carry" 16) (ELit 21)));
    CSet "carry" 7 (EBin W64 OShr (EBin W64 OAdd (EVar "s" 7) (EBin W64 OShl (ELit 1) (ELit 20))) (ELit 21));
    CSet "s" 8 (EBin W64 OAdd (EVar "s" 8) (EVar "carry" 7));
    CSet "s" 7 (EBin W64 OSub (EVar "s" 7) (EBin W64 OShl (EVar "carry" 7) (ELit 21)));
    CSet "carry" 9 (EBin W64 OShr (EBin W64 OAdd (EVar "s" 9) (EBin W64 OShl (ELit 1) (ELit 20))) (ELit 21));
    CSet "s" 10 (EBin W64 OAdd (EVar "s" 10) (EVar "carry" 9));
    CSet "s" 9 (EBin W64 OSub (EVar "s" 9) (EBin W64 OShl (EVar "carry" 9) (ELit 21)));
    CSet "carry" 11 (EBin W64 OShr (EBin W64 OAdd (EVar "s" 11) (EBin W64 OShl (ELit 1) (ELit 20))) (ELit 21));
    CSet "s" 12 (EBin W64 OAdd (EVar "s" 12) (EVar "carry" 11));
    CSet "s" 11 (EBin W64 OSub (EVar "s" 11) (EBin W64 OShl (EVar "carry" 11) (ELit 21)));
    CSet "carry" 13 (EBin W64 OShr (EBin W64 OAdd (EVar "s" 13) (EBin W64 OShl (ELit 1) (ELit 20))) (ELit 21));
    CSet "s" 14 (EBin W64 OAdd (EVar "s" 14) (EVar "carry" 13));
    CSet "s" 13 (EBin W64 OSub (EVar "s" 13) (EBin W64 OShl (EVar "carry" 13) (ELit 21)));
    CSet "carry" 15 (EBin W64 OShr (EBin W64 OAdd (EVar "s" 15) (EBin W64 OShl (ELit 1) (ELit 20))) (ELit 21));
    CSet "s" 16 (EBin W64 OAdd (EVar "s" 16) (EVar "carry" 15));
    CSet "s" 15 (EBin W64 OSub (EVar "s" 15) (EBin W64 OShl (EVar "carry" 15) (ELit 21)));
    CSet "s" 5 (EBin W64 OAdd (EVar "s" 5) (EBin W64 OMul (EVar "s" 17) (ELit 666643)));
    CSet "s" 6 (EBin W64 OAdd (EVar "s" 6) (EBin W64 OMul (EVar "s" 17) (ELit 470296)));
    CSet "s" 7 (EBin W64 OAdd (EVar "s" 7) (EBin W64 OMul (EVar "s" 17) (ELit 654183)));
    CSet "s" 8 (EBin W64 OSub (EVar "s" 8) (EBin W64 OMul (EVar "s" 17) (ELit 997805)));
    CSet "s" 9 (EBin W64 OAdd (EVar "s" 9) (EBin W64 OMul (EVar "s" 17) (ELit 136657)));
    CSet "s" 10 (EBin W64 OSub (EVar "s" 10) (EBin W64 OMul (EVar "s" 17) (ELit 683901)));
    CSet "s" 17 (ELit 0);
    CSet "s" 4 (EBin W64 OAdd (EVar "s" 4) (EBin W64 OMul (EVar "s" 16) (ELit 666643)));
    CSet "s" 5 (EBin W64 OAdd (EVar "s" 5) (EBin W64 OMul (EVar "s" 16) (ELit 470296)));
    CSet "s" 6 (EBin W64 OAdd (EVar "s" 6) (EBin W64 OMul (EVar "s" 16) (ELit 654183)));
    CSet "s" 7 (EBin W64 OSub (EVar "s" 7) (EBin W64 OMul (EVar "s" 16) (ELit 997805)));
    CSet "s" 8 (EBin W64 OAdd (EVar "s" 8) (EBin W64 OMul (EVar "s" 16) (ELit 136657)));
    CSet "s" 9 (EBin W64 OSub (EVar "s" 9) (EBin W64 OMul (EVar "s" 16) (ELit 683901)));
    CSet "s" 16 (ELit 0);
    CSet "s" 3 (EBin W64 OAdd (EVar "s" 3) (EBin W64 OMul (EVar "s" 15) (ELit 666643)));
    CSet "s" 4 (EBin W64 OAdd (EVar "s" 4) (EBin W64 OMul (EVar "s" 15) (ELit 470296)));
    CSet "s" 5 (EBin W64 OAdd (EVar "s" 5) (EBin W64 OMul (EVar "s" 15) (ELit 654183)));
    CSet "s" 6 (EBin W64 OSub (EVar "s" 6) (EBin W64 OMul (EVar "s" 15) (ELit 997805)));
    CSet "s" 7 (EBin W64 OAdd (EVar "s" 7) (EBin W64 OMul (EVar "s" 15) (ELit 136657)));
    CSet "s" 8 (EBin W64 OSub (EVar "s" 8) (EBin W64 OMul (EVar "s" 15) (ELit 683901)));
    CSet "s" 15 (ELit 0);
    CSet "s" 2 (EBin W64 OAdd (EVar "s" 2) (EBin W64 OMul (EVar "s" 14) (ELit 666643)));
    CSet "s" 3 (EBin W64 OAdd (EVar "s" 3) (EBin W64 OMul (EVar "s" 14) (ELit 470296)));
    CSet "s" 4 (EBin W64 OAdd (EVar "s" 4) (EBin W64 OMul (EVar "s" 14) (ELit 654183)));
    CSet "s" 5 (EBin W64 OSub (EVar "s" 5) (EBin W64 OMul (EVar "s" 14) (ELit 997805)));
    CSet "s" 6 (EBin W64 OAdd (EVar "s" 6) (EBin W64 OMul (EVar "s" 14) (ELit 136657)));
    CSet "s" 7 (EBin W64 OSub (EVar "s" 7) (EBin W64 OMul (EVar "s" 14) (ELit 683901)));
    CSet "s" 14 (ELit 0);
    CSet "s" 1 (EBin W64 OAdd (EVar "s" 1) (EBin W64 OMul (EVar "s" 13) (ELit 666643)));
    CSet "s" 2 (EBin W64 OAdd (EVar "s" 2) (EBin W64 OMul (EVar "s" 13) (ELit 470296)));
    CSet "s" 3 (EBin W64 OAdd (EVar "s" 3) (EBin W64 OMul (EVar "s" 13) (ELit 654183)));
    CSet "s" 4 (EBin W64 OSub (EVar "s" 4) (EBin W64 OMul (EVar "s" 13) (ELit 997805)));
    CSet "s" 5 (EBin W64 OAdd (EVar "s" 5) (EBin W64 OMul (EVar "s" 13) (ELit 136657)));
    CSet "s" 6 (EBin W64 OSub (EVar "s" 6) (EBin W64 OMul (EVar "s" 13) (ELit 683901)));
    CSet "s" 13 (ELit 0);
    CSet "s" 0 (EBin W64 OAdd (EVar "s" 0) (EBin W64 OMul (EVar "s" 12) (ELit 666643)));
    CSet "s" 1 (EBin W64 OAdd (EVar "s" 1) (EBin W64 OMul (EVar "s" 12) (ELit 470296)));
    CSet "s" 2 (EBin W64 OAdd (EVar "s" 2) (EBin W64 OMul (EVar "s" 12) (ELit 654183)));
    CSet "s" 3 (EBin W64 OSub (EVar "s" 3) (EBin W64 OMul (EVar "s" 12) (ELit 997805)));
    CSet "s" 4 (EBin W64 OAdd (EVar "s" 4) (EBin W64 OMul (EVar "s" 12) (ELit 136657)));
    CSet "s" 5 (EBin W64 OSub (EVar "s" 5) (EBin W64 OMul (EVar "s" 12) (ELit 683901)));
    CSet "s" 12 (ELit 0);
    CSet "carry" 0 (EBin W64 OShr (EBin W64 OAdd (EVar "s" 0) (EBin W64 OShl (ELit 1) (ELit 20))) (ELit 21));
    CSet "s" 1 (EBin W64 OAdd (EVar "s" 1) (EVar "carry" 0));
    CSet "s" 0 (EBin W64 OSub (EVar "s" 0) (EBin W64 OShl (EVar "carry" 0) (ELit 21)));
    CSet "carry" 2 (EBin W64 OShr (EBin W64 OAdd (EVar "s" 2) (EBin W64 OShl (ELit 1) (ELit 20))) (ELit 21));
    CSet "s" 3 (EBin W64 OAdd (EVar "s" 3) (EVar "carry" 2));
    CSet "s" 2 (EBin W64 OSub (EVar "s" 2) (EBin W64 OShl (EVar "carry" 2) (ELit 21)));
    CSet "carry" 4 (EBin W64 OShr (EBin W64 OAdd (EVar "s" 4) (EBin W64 OShl (ELit 1) (ELit 20))) (ELit 21));
    CSet "s" 5 (EBin W64 OAdd (EVar "s" 5) (EVar "carry" 4));
    CSet "s" 4 (EBin W64 OSub (EVar "s" 4) (EBin W64 OShl (EVar "carry" 4) (ELit 21)));
    CSet "carry" 6 (EBin W64 OShr (EBin W64 OAdd (EVar "s" 6) (EBin W64 OShl (ELit 1) (ELit 20))) (ELit 21));
    CSet "s" 7 (EBin W64 OAdd (EVar "s" 7) (EVar "carry" 6));
    CSet "s" 6 (EBin W64 OSub (EVar "s" 6) (EBin W64 OShl (EVar "carry" 6) (ELit 21)));
    CSet "carry" 8 (EBin W64 OShr (EBin W64 OAdd (EVar "s" 8) (EBin W64 OShl (ELit 1) (ELit 20))) (ELit 21));
    CSet "s" 9 (EBin W64 OAdd (EVar "s" 9) (EVar "carry" 8));
    CSet "s" 8 (EBin W64 OSub (EVar "s" 8) (EBin W64 OShl (EVar "carry" 8) (ELit 21)));
    CSet "carry" 10 (EBin W64 OShr (EBin W64 OAdd (EVar "s" 10) (EBin W64 OShl (ELit 1) (ELit 20))) (ELit 21));
    CSet "s" 11 (EBin W64 OAdd (EVar "s" 11) (EVar "carry" 10));
    CSet "s" 10 (EBin W64 OSub (EVar "s" 10) (EBin W64 OShl (EVar "carry" 10) (ELit 21)));
    CSet "carry" 1 (EBin W64 OShr (EBin W64 OAdd (EVar "s" 1) (EBin W64 OShl (ELit 1) (ELit 20))) (ELit 21));
    CSet "s" 2 (EBin W64 OAdd (EVar "s" 2) (EVar "carry" 1));
    CSet "s" 1 (EBin W64 OSub (EVar "s" 1) (EBin W64 OShl (EVar "carry" 1) (ELit 21)));
    CSet "carry" 3 (EBin W64 OShr (EBin W64 OAdd (EVar "s" 3) (EBin W64 OShl (ELit 1) (ELit 20))) (ELit 21));
    CSet "s" 4 (EBin W64 OAdd (EVar "s" 4) (EVar "carry" 3));
    CSet "s" 3 (EBin W64 OSub (EVar "s" 3) (EBin W64 OShl (EVar "carry" 3) (ELit 21)));
    CSet "carry" 5 (EBin W64 OShr (EBin W64 OAdd (EVar "s" 5) (EBin W64 OShl (ELit 1) (ELit 20))) (ELit 21));
    CSet "s" 6 (EBin W64 OAdd (EVar "s" 6) (EVar "carry" 5));
    CSet "s" 5 (EBin W64 OSub (EVar "s" 5) (EBin W64 OShl (EVar "carry" 5) (ELit 21)));
    CSet "carry" 7 (EBin W64 OShr (EBin W64 OAdd (EVar "s" 7) (EBin W64 OShl (ELit 1) (ELit 20))) (ELit 21));
    CSet "s" 8 (EBin W64 OAdd (EVar "s" 8) (EVar "carry" 7));
    CSet "s" 7 (EBin W64 OSub (EVar "s" 7) (EBin W64 OShl (EVar "carry" 7) (ELit 21)));
    CSet "carry" 9 (EBin W64 OShr (EBin W64 OAdd (EVar "s" 9) (EBin W64 OShl (ELit 1) (ELit 20))) (ELit 21));
    CSet "s" 10 (EBin W64 OAdd (EVar "s" 10) (EVar "carry" 9));
    CSet "s" 9 (EBin W64 OSub (EVar "s" 9) (EBin W64 OShl (EVar "carry" 9) (ELit 21)));
    CSet "carry" 11 (EBin W64 OShr (EBin W64 OAdd (EVar "s" 11) (EBin W64 OShl (ELit 1) (ELit 20))) (ELit 21));
    CSet "s" 12 (EBin W64 OAdd (EVar "s" 12) (EVar "carry" 11));
    CSet "s" 11 (EBin W64 OSub (EVar "s" 11) (EBin W64 OShl (EVar "carry" 11) (ELit 21)));
    CSet "s" 0 (EBin W64 OAdd (EVar "s" 0) (EBin W64 OMul (EVar "s" 12) (ELit 666643)));
    CSet "s" 1 (EBin W64 OAdd (EVar "s" 1) (EBin W64 OMul (EVar "s" 12) (ELit 470296)));
    CSet "s" 2 (EBin W64 OAdd (EVar "s" 2) (EBin W64 OMul (EVar "s" 12) (ELit 654183)));
    CSet "s" 3 (EBin W64 OSub (EVar "s" 3) (EBin W64 OMul (EVar "s" 12) (ELit 997805)));
    CSet "s" 4 (EBin W64 OAdd (EVar "s" 4) (EBin W64 OMul (EVar "s" 12) (ELit 136657)));
    CSet "s" 5 (EBin W64 OSub (EVar "s" 5) (EBin W64 OMul (EVar "s" 12) (ELit 683901)));
    CSet "s" 12 (ELit 0);
    CSet "carry" 0 (EBin W64 OShr (EVar "s" 0) (ELit 21));
    CSet "s" 1 (EBin W64 OAdd (EVar "s" 1) (EVar "carry" 0));
    CSet "s" 0 (EBin W64 OSub (EVar "s" 0) (EBin W64 OShl (EVar "carry" 0) (ELit 21)));
    CSet "carry" 1 (EBin W64 OShr (EVar "s" 1) (ELit 21));
    CSet "s" 2 (EBin W64 OAdd (EVar "s" 2) (EVar "carry" 1));
    CSet "s" 1 (EBin W64 OSub (EVar "s" 1) (EBin W64 OShl (EVar "carry" 1) (ELit 21)));
    CSet "carry" 2 (EBin W64 OShr (EVar "s" 2) (ELit 21));
    CSet "s" 3 (EBin W64 OAdd (EVar "s" 3) (EVar "carry" 2));
    CSet "s" 2 (EBin W64 OSub (EVar "s" 2) (EBin W64 OShl (EVar "carry" 2) (ELit 21)));
    CSet "carry" 3 (EBin W64 OShr (EVar "s" 3) (ELit 21));
    CSet "s" 4 (EBin W64 OAdd (EVar "s" 4) (EVar "carry" 3));
    CSet "s" 3 (EBin W64 OSub (EVar "s" 3) (EBin W64 OShl (EVar "carry" 3) (ELit 21)));
    CSet "carry" 4 (EBin W64 OShr (EVar "s" 4) (ELit 21));
    CSet "s" 5 (EBin W64 OAdd (EVar "s" 5) (EVar "carry" 4));
    CSet "s" 4 (EBin W64 OSub (EVar "s" 4) (EBin W64 OShl (EVar "carry" 4) (ELit 21)));
    CSet "carry" 5 (EBin W64 OShr (EVar "s" 5) (ELit 21));
    CSet "s" 6 (EBin W64 OAdd (EVar "s" 6) (EVar "carry" 5));
    CSet "s" 5 (EBin W64 OSub (EVar "s" 5) (EBin W64 OShl (EVar "carry" 5) (ELit 21)));
    CSet "carry" 6 (EBin W64 OShr (EVar "s" 6) (ELit 21));
    CSet "s" 7 (EBin W64 OAdd (EVar "s" 7) (EVar "carry" 6));
    CSet "s" 6 (EBin W64 OSub (EVar "s" 6) (EBin W64 OShl (EVar "carry" 6) (ELit 21)));
    CSet "carry" 7 (EBin W64 OShr (EVar "s" 7) (ELit 21));
    CSet "s" 8 (EBin W64 OAdd (EVar "s" 8) (EVar "carry" 7));
    CSet "s" 7 (EBin W64 OSub (EVar "s" 7) (EBin W64 OShl (EVar "carry" 7) (ELit 21)));
    CSet "carry" 8 (EBin W64 OShr (EVar "s" 8) (ELit 21));
    CSet "s" 9 (EBin W64 OAdd (EVar "s" 9) (EVar "carry" 8));
    CSet "s" 8 (EBin W64 OSub (EVar "s" 8) (EBin W64 OShl (EVar "carry" 8) (ELit 21)));
    CSet "carry" 9 (EBin W64 OShr (EVar "s" 9) (ELit 21));
    CSet "s" 10 (EBin W64 OAdd (EVar "s" 10) (EVar "carry" 9));
    CSet "s" 9 (EBin W64 OSub (EVar "s" 9) (EBin W64 OShl (EVar "carry" 9) (ELit 21)));
    CSet "carry" 10 (EBin W64 OShr (EVar "s" 10) (ELit 21));
    CSet "s" 11 (EBin W64 OAdd (EVar "s" 11) (EVar "carry" 10));
    CSet "s" 10 (EBin W64 OSub (EVar "s" 10) (EBin W64 OShl (EVar "carry" 10) (ELit 21)));
    CSet "carry" 11 (EBin W64 OShr (EVar "s" 11) (ELit 21));
    CSet "s" 12 (EBin W64 OAdd (EVar "s" 12) (EVar "carry" 11));
    CSet "s" 11 (EBin W64 OSub (EVar "s" 11) (EBin W64 OShl (EVar "carry" 11) (ELit 21)));
    CSet "s" 0 (EBin W64 OAdd (EVar "s" 0) (EBin W64 OMul (EVar "s" 12) (ELit 666643)));
    CSet "s" 1 (EBin W64 OAdd (EVar "s" 1) (EBin W64 OMul (EVar "s" 12) (ELit 470296)));
    CSet "s" 2 (EBin W64 OAdd (EVar "s" 2) (EBin W64 OMul (EVar "s" 12) (ELit 654183)));
    CSet "s" 3 (EBin W64 OSub (EVar "s" 3) (EBin W64 OMul (EVar "s" 12) (ELit 997805)));
    CSet "s" 4 (EBin W64 OAdd (EVar "s" 4) (EBin W64 OMul (EVar "s" 12) (ELit 136657)));
    CSet "s" 5 (EBin W64 OSub (EVar "s" 5) (EBin W64 OMul (EVar "s" 12) (ELit 683901)));
    CSet "s" 12 (ELit 0);
    CSet "carry" 0 (EBin W64 OShr (EVar "s" 0) (ELit 21));
    CSet "s" 1 (EBin W64 OAdd (EVar "s" 1) (EVar "carry" 0));
    CSet "s" 0 (EBin W64 OSub (EVar "s" 0) (EBin W64 OShl (EVar "carry" 0) (ELit 21)));
    CSet "carry" 1 (EBin W64 OShr (EVar "s" 1) (ELit 21));
    CSet "s" 2 (EBin W64 OAdd (EVar "s" 2) (EVar "carry" 1));
    CSet "s" 1 (EBin W64 OSub (EVar "s" 1) (EBin W64 OShl (EVar "carry" 1) (ELit 21)));
    CSet "carry" 2 (EBin W64 OShr (EVar "s" 2) (ELit 21));
    CSet "s" 3 (EBin W64 OAdd (EVar "s" 3) (EVar "carry" 2));
    CSet "s" 2 (EBin W64 OSub (EVar "s" 2) (EBin W64 OShl (EVar "carry" 2) (ELit 21)));
    CSet "carry" 3 (EBin W64 OShr (EVar "s" 3) (ELit 21));
    CSet "s" 4 (EBin W64 OAdd (EVar "s" 4) (EVar "carry" 3));
    CSet "s" 3 (EBin W64 OSub (EVar "s" 3) (EBin W64 OShl (EVar "carry" 3) (ELit 21)));
    CSet "carry" 4 (EBin W64 OShr (EVar "s" 4) (ELit 21));
    CSet "s" 5 (EBin W64 OAdd (EVar "s" 5) (EVar "carry" 4));
    CSet "s" 4 (EBin W64 OSub (EVar "s" 4) (EBin W64 OShl (EVar "carry" 4) (ELit 21)));
    CSet "carry" 5 (EBin W64 OShr (EVar "s" 5) (ELit 21));
    CSet "s" 6 (EBin W64 OAdd (EVar "s" 6) (EVar "carry" 5));
    CSet "s" 5 (EBin W64 OSub (EVar "s" 5) (EBin W64 OShl (EVar "carry" 5) (ELit 21)));
    CSet "carry" 6 (EBin W64 OShr (EVar "s" 6) (ELit 21));
    CSet "s" 7 (EBin W64 OAdd (EVar "s" 7) (EVar "carry" 6));
    CSet "s" 6 (EBin W64 OSub (EVar "s" 6) (EBin W64 OShl (EVar "carry" 6) (ELit 21)));
    CSet "carry" 7 (EBin W64 OShr (EVar "s" 7) (ELit 21));
    CSet "s" 8 (EBin W64 OAdd (EVar "s" 8) (EVar "carry" 7));
    CSet "s" 7 (EBin W64 OSub (EVar "s" 7) (EBin W64 OShl (EVar "carry" 7) (ELit 21)));
    CSet "carry" 8 (EBin W64 OShr (EVar "s" 8) (ELit 21));
    CSet "s" 9 (EBin W64 OAdd (EVar "s" 9) (EVar "carry" 8));
    CSet "s" 8 (EBin W64 OSub (EVar "s" 8) (EBin W64 OShl (EVar "carry" 8) (ELit 21)));
    CSet "carry" 9 (EBin W64 OShr (EVar "s" 9) (ELit 21));
    CSet "s" 10 (EBin W64 OAdd (EVar "s" 10) (EVar "carry" 9));
    CSet "s" 9 (EBin W64 OSub (EVar "s" 9) (EBin W64 OShl (EVar "carry" 9) (ELit 21)));
    CSet "carry" 10 (EBin W64 OShr (EVar "s" 10) (ELit 21));
    CSet "s" 11 (EBin W64 OAdd (EVar "s" 11) (EVar "carry" 10));
    CSet "s" 10 (EBin W64 OSub (EVar "s" 10) (EBin W64 OShl (EVar "carry" 10) (ELit 21)));
    CPut "s" (ELit 0) (EConv U8 (EBin W64 OShr (EVar "s" 0) (ELit 0)));
    CPut "s" (ELit 1) (EConv U8 (EBin W64 OShr (EVar "s" 0) (ELit 8)));
    CPut "s" (ELit 2) (EConv U8 (EBin W64 OOr (EBin W64 OShr (EVar "s" 0) (ELit 16)) (EBin W64 OShl (EVar "s" 1) (ELit 5))));
    CPut "s" (ELit 3) (EConv U8 (EBin W64 OShr (EVar "s" 1) (ELit 3)));
    CPut "s" (ELit 4) (EConv U8 (EBin W64 OShr (EVar "s" 1) (ELit 11)));
    CPut "s" (ELit 5) (EConv U8 (EBin W64 OOr (EBin W64 OShr (EVar "s" 1) (ELit 19)) (EBin W64 OShl (EVar "s" 2) (ELit 2))));
    CPut "s" (ELit 6) (EConv U8 (EBin W64 OShr (EVar "s" 2) (ELit 6)));
    CPut "s" (ELit 7) (EConv U8 (EBin W64 OOr (EBin W64 OShr (EVar "s" 2) (ELit 14)) (EBin W64 OShl (EVar "s" 3) (ELit 7))));
    CPut "s" (ELit 8) (EConv U8 (EBin W64 OShr (EVar "s" 3) (ELit 1)));
    CPut "s" (ELit 9) (EConv U8 (EBin W64 OShr (EVar "s" 3) (ELit 9)));
    CPut "s" (ELit 10) (EConv U8 (EBin W64 OOr (EBin W64 OShr (EVar "s" 3) (ELit 17)) (EBin W64 OShl (EVar "s" 4) (ELit 4))));
    CPut "s" (ELit 11) (EConv U8 (EBin W64 OShr (EVar "s" 4) (ELit 4)));
    CPut "s" (ELit 12) (EConv U8 (EBin W64 OShr (EVar "s" 4) (ELit 12)));
    CPut "s" (ELit 13) (EConv U8 (EBin W64 OOr (EBin W64 OShr (EVar "s" 4) (ELit 20)) (EBin W64 OShl (EVar "s" 5) (ELit 1))));
    CPut "s" (ELit 14) (EConv U8 (EBin W64 OShr (EVar "s" 5) (ELit 7)));
    CPut "s" (ELit 15) (EConv U8 (EBin W64 OOr (EBin W64 OShr (EVar "s" 5) (ELit 15)) (EBin W64 OShl (EVar "s" 6) (ELit 6))));
    CPut "s" (ELit 16) (EConv U8 (EBin W64 OShr (EVar "s" 6) (ELit 2)));
    CPut "s" (ELit 17) (EConv U8 (EBin W64 OShr (EVar "s" 6) (ELit 10)));
    CPut "s" (ELit 18) (EConv U8 (EBin W64 OOr (EBin W64 OShr (EVar "s" 6) (ELit 18)) (EBin W64 OShl (EVar "s" 7) (ELit 3))));
    CPut "s" (ELit 19) (EConv U8 (EBin W64 OShr (EVar "s" 7) (ELit 5)));
    CPut "s" (ELit 20) (EConv U8 (EBin W64 OShr (EVar "s" 7) (ELit 13)));
    CPut "s" (ELit 21) (EConv U8 (EBin W64 OShr (EVar "s" 8) (ELit 0)));
    CPut "s" (ELit 22) (EConv U8 (EBin W64 OShr (EVar "s" 8) (ELit 8)));
    CPut "s" (ELit 23) (EConv U8 (EBin W64 OOr (EBin W64 OShr (EVar "s" 8) (ELit 16)) (EBin W64 OShl (EVar "s" 9) (ELit 5))));
    CPut "s" (ELit 24) (EConv U8 (EBin W64 OShr (EVar "s" 9) (ELit 3)));
    CPut "s" (ELit 25) (EConv U8 (EBin W64 OShr (EVar "s" 9) (ELit 11)));
    CPut "s" (ELit 26) (EConv U8 (EBin W64 OOr (EBin W64 OShr (EVar "s" 9) (ELit 19)) (EBin W64 OShl (EVar "s" 10) (ELit 2))));
    CPut "s" (ELit 27) (EConv U8 (EBin W64 OShr (EVar "s" 10) (ELit 6)));
    CPut "s" (ELit 28) (EConv U8 (EBin W64 OOr (EBin W64 OShr (EVar "s" 10) (ELit 14)) (EBin W64 OShl (EVar "s" 11) (ELit 7))));
    CPut "s" (ELit 29) (EConv U8 (EBin W64 OShr (EVar "s" 11) (ELit 1)));
    CPut "s" (ELit 30) (EConv U8 (EBin W64 OShr (EVar "s" 11) (ELit 9)));
    CPut "s" (ELit 31) (EConv U8 (EBin W64 OShr (EVar "s" 11) (ELit 17)))].

(* ScReduce (1457-1773) *)
Definition ScReduce_code : code := block [
    CSet "s" 0 (EBin W64 OAnd (ELit 2097151) (load3_of "s" 0 1 2));
    CSet "s" 1 (EBin W64 OAnd (ELit 2097151) (EBin W64 OShr (load4_of "s" 2 3 4 5) (ELit 5)));
    CSet "s" 2 (EBin W64 OAnd (ELit 2097151) (EBin W64 OShr (load3_of "s" 5 6 7) (ELit 2)));
    CSet "s" 3 (EBin W64 OAnd (ELit 2097151) (EBin W64 OShr (load4_of "s" 7 8 9 10) (ELit 7)));
    CSet "s" 4 (EBin W64 OAnd (ELit 2097151) (EBin W64 OShr (load4_of "s" 10 11 12 13) (ELit 4)));
    CSet "s" 5 (EBin W64 OAnd (ELit 2097151) (EBin W64 OShr (load3_of "s" 13 14 15) (ELit 1)));
    CSet "s" 6 (EBin W64 OAnd (ELit 2097151) (EBin W64 OShr (load4_of "s" 15 16 17 18) (ELit 6)));
    CSet "s" 7 (EBin W64 OAnd (ELit 2097151) (EBin W64 OShr (load3_of "s" 18 19 20) (ELit 3)));
    CSet "s" 8 (EBin W64 OAnd (ELit 2097151) (load3_of "s" 21 22 23));
    CSet "s" 9 (EBin W64 OAnd (ELit 2097151) (EBin W64 OShr (load4_of "s" 23 24 25 26) (ELit 5)));
    CSet "s" 10 (EBin W64 OAnd (ELit 2097151) (EBin W64 OShr (load3_of "s" 26 27 28) (ELit 2)));
    CSet "s" 11 (EBin W64 OAnd (ELit 2097151) (EBin W64 OShr (load4_of "s" 28 29 30 31) (ELit 7)));
    CSet "s" 12 (EBin W64 OAnd (ELit 2097151) (EBin W64 OShr (load4_of "s" 31 32 33 34) (ELit 4)));
    CSet "s" 13 (EBin W64 OAnd (ELit 2097151) (EBin W64 OShr (load3_of "s" 34 35 36) (ELit 1)));
    CSet "s" 14 (EBin W64 OAnd (ELit 2097151) (EBin W64 OShr (load4_of "s" 36 37 38 39) (ELit 6)));
    CSet "s" 15 (EBin W64 OAnd (ELit 2097151) (EBin W64 OShr (load3_of "s" 39 40 41) (ELit 3)));
    CSet "s" 16 (EBin W64 OAnd (ELit 2097151) (load3_of "s" 42 43 44));
    CSet "s" 17 (EBin W64 OAnd (ELit 2097151) (EBin W64 OShr (load4_of "s" 44 45 46 47) (ELit 5)));
    CSet "s" 18 (EBin W64 OAnd (ELit 2097151) (EBin W64 OShr (load3_of "s" 47 48 49) (ELit 2)));
    CSet "s" 19 (EBin W64 OAnd (ELit 2097151) (EBin W64 OShr (load4_of "s" 49 50 51 52) (ELit 7)));
    CSet "s" 20 (EBin W64 OAnd (ELit 2097151) (EBin W64 OShr (load4_of "s" 52 53 54 55) (ELit 4)));
    CSet "s" 21 (EBin W64 OAnd (ELit 2097151) (EBin W64 OShr (load3_of "s" 55 56 57) (ELit 1)));
    CSet "s" 22 (EBin W64 OAnd (ELit 2097151) (EBin W64 OShr (load4_of "s" 57 58 59 60) (ELit 6)));
    CSet "s" 23 (EBin W64 OShr (load4_of "s" 60 61 62 63) (ELit 3));
    CSet "s" 11 (EBin W64 OAdd (EVar "s" 11) (EBin W64 OMul (EVar "s" 23) (ELit 666643)));
    CSet "s" 12 (EBin W64 OAdd (EVar "s" 12) (EBin W64 OMul (EVar "s" 23) (ELit 470296)));
    CSet "s" 13 (EBin W64 OAdd (EVar "s" 13) (EBin W64 OMul (EVar "s" 23) (ELit 654183)));
    CSet "s" 14 (EBin W64 OSub (EVar "s" 14) (EBin W64 OMul (EVar "s" 23) (ELit 997805)));
    CSet "s" 15 (EBin W64 OAdd (EVar "s" 15) (EBin W64 OMul (EVar "s" 23) (ELit 136657)));
    CSet "s" 16 (EBin W64 OSub (EVar "s" 16) (EBin W64 OMul (EVar "s" 23) (ELit 683901)));
    CSet "s" 23 (ELit 0);
    CSet "s" 10 (EBin W64 OAdd (EVar "s" 10) (EBin W64 OMul (EVar "s" 22) (ELit 666643)));
    CSet "s" 11 (EBin W64 OAdd (EVar "s" 11) (EBin W64 OMul (EVar "s" 22) (ELit 470296)));
    CSet "s" 12 (EBin W64 OAdd (EVar "s" 12) (EBin W64 OMul (EVar "s" 22) (ELit 654183)));
    CSet "s" 13 (EBin W64 OSub (EVar "s" 13) (EBin W64 OMul (EVar "s" 22) (ELit 997805)));
    CSet "s" 14 (EBin W64 OAdd (EVar "s" 14) (EBin W64 OMul (EVar "s" 22) (ELit 136657)));
    CSet "s" 15 (EBin W64 OSub (EVar "s" 15) (EBin W64 OMul (EVar "s" 22) (ELit 683901)));
    CSet "s" 22 (ELit 0);
    CSet "s" 9 (EBin W64 OAdd (EVar "s" 9) (EBin W64 OMul (EVar "s" 21) (ELit 666643)));
    CSet "s" 10 (EBin W64 OAdd (EVar "s" 10) (EBin W64 OMul (EVar "s" 21) (ELit 470296)));
    CSet "s" 11 (EBin W64 OAdd (EVar "s" 11) (EBin W64 OMul (EVar "s" 21) (ELit 654183)));
    CSet "s" 12 (EBin W64 OSub (EVar "s" 12) (EBin W64 OMul (EVar "s" 21) (ELit 997805)));
    CSet "s" 13 (EBin W64 OAdd (EVar "s" 13) (EBin W64 OMul (EVar "s" 21) (ELit 136657)));
    CSet "s" 14 (EBin W64 OSub (EVar "s" 14) (EBin W64 OMul (EVar "s" 21) (ELit 683901)));
    CSet "s" 21 (ELit 0);
    CSet "s" 8 (EBin W64 OAdd (EVar "s" 8) (EBin W64 OMul (EVar "s" 20) (ELit 666643)));
    CSet "s" 9 (EBin W64 OAdd (EVar "s" 9) (EBin W64 OMul (EVar "s" 20) (ELit 470296)));
    CSet "s" 10 (EBin W64 OAdd (EVar "s" 10) (EBin W64 OMul (EVar "s" 20) (ELit 654183)));
    CSet "s" 11 (EBin W64 OSub (EVar "s" 11) (EBin W64 OMul (EVar "s" 20) (ELit 997805)));
    CSet "s" 12 (EBin W64 OAdd (EVar "s" 12) (EBin W64 OMul (EVar "s" 20) (ELit 136657)));
    CSet "s" 13 (EBin W64 OSub (EVar "s" 13) (EBin W64 OMul (EVar "s" 20) (ELit 683901)));
    CSet "s" 20 (ELit 0);
    CSet "s" 7 (EBin W64 OAdd (EVar "s" 7) (EBin W64 OMul (EVar "s" 19) (ELit 666643)));
    CSet "s" 8 (EBin W64 OAdd (EVar "s" 8) (EBin W64 OMul (EVar "s" 19) (ELit 470296)));
    CSet "s" 9 (EBin W64 OAdd (EVar "s" 9) (EBin W64 OMul (EVar "s" 19) (ELit 654183)));
    CSet "s" 10 (EBin W64 OSub (EVar "s" 10) (EBin W64 OMul (EVar "s" 19) (ELit 997805)));
    CSet "s" 11 (EBin W64 OAdd (EVar "s" 11) (EBin W64 OMul (EVar "s" 19) (ELit 136657)));
    CSet "s" 12 (EBin W64 OSub (EVar "s" 12) (EBin W64 OMul (EVar "s" 19) (ELit 683901)));
    CSet "s" 19 (ELit 0);
    CSet "s" 6 (EBin W64 OAdd (EVar "s" 6) (EBin W64 OMul (EVar "s" 18) (ELit 666643)));
    CSet "s" 7 (EBin W64 OAdd (EVar "s" 7) (EBin W64 OMul (EVar "s" 18) (ELit 470296)));
    CSet "s" 8 (EBin W64 OAdd (EVar "s" 8) (EBin W64 OMul (EVar "s" 18) (ELit 654183)));
    CSet "s" 9 (EBin W64 OSub (EVar "s" 9) (EBin W64 OMul (EVar "s" 18) (ELit 997805)));
    CSet "s" 10 (EBin W64 OAdd (EVar "s" 10) (EBin W64 OMul (EVar "s" 18) (ELit 136657)));
    CSet "s" 11 (EBin W64 OSub (EVar "s" 11) (EBin W64 OMul (EVar "s" 18) (ELit 683901)));
    CSet "s" 18 (ELit 0);
    CSet "carry" 6 (EBin W64 OShr (EBin W64 OAdd (EVar "s" 6) (EBin W64 OShl (ELit 1) (ELit 20))) (ELit 21));
    CSet "s" 7 (EBin W64 OAdd (EVar "s" 7) (EVar "carry" 6));
    CSet "s" 6 (EBin W64 OSub (EVar "s" 6) (EBin W64 OShl (EVar "carry" 6) (ELit 21)));
    CSet "carry" 8 (EBin W64 OShr (EBin W64 OAdd (EVar "s" 8) (EBin W64 OShl (ELit 1) (ELit 20))) (ELit 21));
    CSet "s" 9 (EBin W64 OAdd (EVar "s" 9) (EVar "carry" 8));
    CSet "s" 8 (EBin W64 OSub (EVar "s" 8) (EBin W64 OShl (EVar "carry" 8) (ELit 21)));
    CSet "carry" 10 (EBin W64 OShr (EBin W64 OAdd (EVar "s" 10) (EBin W64 OShl (ELit 1) (ELit 20))) (ELit 21));
    CSet "s" 11 (EBin W64 OAdd (EVar "s" 11) (EVar "carry" 10));
    CSet "s" 10 (EBin W64 OSub (EVar "s" 10) (EBin W64 OShl (EVar "carry" 10) (ELit 21)));
    CSet "carry" 12 (EBin W64 OShr (EBin W64 OAdd (EVar "s" 12) (EBin W64 OShl (ELit 1) (ELit 20))) (ELit 21));
    CSet "s" 13 (EBin W64 OAdd (EVar "s" 13) (EVar "carry" 12));
    CSet "s" 12 (EBin W64 OSub (EVar "s" 12) (EBin W64 OShl (EVar "carry" 12) (ELit 21)));
    CSet "carry" 14 (EBin W64 OShr (EBin W64 OAdd (EVar "s" 14) (EBin W64 OShl (ELit 1) (ELit 20))) (ELit 21));
    CSet "s" 15 (EBin W64 OAdd (EVar "s" 15) (EVar "carry" 14));
    CSet "s" 14 (EBin W64 OSub (EVar "s" 14) (EBin W64 OShl (EVar "carry" 14) (ELit 21)));
    CSet "carry" 16 (EBin W64 OShr (EBin W64 OAdd (EVar "s" 16) (EBin W64 OShl (ELit 1) (ELit 20))) (ELit 21));
    CSet "s" 17 (EBin W64 OAdd (EVar "s" 17) (EVar "carry" 16));
    CSet "s" 16 (EBin W64 OSub (EVar "s" 16) (EBin W64 OShl (EVar "carry" 16) (ELit 21)));
    CSet "carry" 7 (EBin W64 OShr (EBin W64 OAdd (EVar "s" 7) (EBin W64 OShl (ELit 1) (ELit 20))) (ELit 21));
    CSet "s" 8 (EBin W64 OAdd (EVar "s" 8) (EVar "carry" 7));
    CSet "s" 7 (EBin W64 OSub (EVar "s" 7) (EBin W64 OShl (EVar "carry" 7) (ELit 21)));
    CSet "carry" 9 (EBin W64 OShr (EBin W64 OAdd (EVar "s" 9) (EBin W64 OShl (ELit 1) (ELit 20))) (ELit 21));
    CSet "s" 10 (EBin W64 OAdd (EVar "s" 10) (EVar "carry" 9));
    CSet "s" 9 (EBin W64 OSub (EVar "s" 9) (EBin W64 OShl (EVar "carry" 9) (ELit 21)));
    CSet "carry" 11 (EBin W64 OShr (EBin W64 OAdd (EVar "s" 11) (EBin W64 OShl (ELit 1) (ELit 20))) (ELit 21));
    CSet "s" 12 (EBin W64 OAdd (EVar "s" 12) (EVar "carry" 11));
    CSet "s" 11 (EBin W64 OSub (EVar "s" 11) (EBin W64 OShl (EVar "carry" 11) (ELit 21)));
    CSet "carry" 13 (EBin W64 OShr (EBin W64 OAdd (EVar "s" 13) (EBin W64 OShl (ELit 1) (ELit 20))) (ELit 21));
    CSet "s" 14 (EBin W64 OAdd (EVar "s" 14) (EVar "carry" 13));
    CSet "s" 13 (EBin W64 OSub (EVar "s" 13) (EBin W64 OShl (EVar "carry" 13) (ELit 21)));
    CSet "carry" 15 (EBin W64 OShr (EBin W64 OAdd (EVar "s" 15) (EBin W64 OShl (ELit 1) (ELit 20))) (ELit 21));
    CSet "s" 16 (EBin W64 OAdd (EVar "s" 16) (EVar "carry" 15));
    CSet "s" 15 (EBin W64 OSub (EVar "s" 15) (EBin W64 OShl (EVar "carry" 15) (ELit 21)));
    CSet "s" 5 (EBin W64 OAdd (EVar "s" 5) (EBin W64 OMul (EVar "s" 17) (ELit 666643)));
    CSet "s" 6 (EBin W64 OAdd (EVar "s" 6) (EBin W64 OMul (EVar "s" 17) (ELit 470296)));
    CSet "s" 7 (EBin W64 OAdd (EVar "s" 7) (EBin W64 OMul (EVar "s" 17) (ELit 654183)));
    CSet "s" 8 (EBin W64 OSub (EVar "s" 8) (EBin W64 OMul (EVar "s" 17) (ELit 997805)));
    CSet "s" 9 (EBin W64 OAdd (EVar "s" 9) (EBin W64 OMul (EVar "s" 17) (ELit 136657)));
    CSet "s" 10 (EBin W64 OSub (EVar "s" 10) (EBin W64 OMul (EVar "s" 17) (ELit 683901)));
    CSet "s" 17 (ELit 0);
    CSet "s" 4 (EBin W64 OAdd (EVar "s" 4) (EBin W64 OMul (EVar "s" 16) (ELit 666643)));
    CSet "s" 5 (EBin W64 OAdd (EVar "s" 5) (EBin W64 OMul (EVar "s" 16) (ELit 470296)));
    CSet "s" 6 (EBin W64 OAdd (EVar "s" 6) (EBin W64 OMul (EVar "s" 16) (ELit 654183)));
    CSet "s" 7 (EBin W64 OSub (EVar "s" 7) (EBin W64 OMul (EVar "s" 16) (ELit 997805)));
    CSet "s" 8 (EBin W64 OAdd (EVar "s" 8) (EBin W64 OMul (EVar "s" 16) (ELit 136657)));
    CSet "s" 9 (EBin W64 OSub (EVar "s" 9) (EBin W64 OMul (EVar "s" 16) (ELit 683901)));
    CSet "s" 16 (ELit 0);
    CSet "s" 3 (EBin W64 OAdd (EVar "s" 3) (EBin W64 OMul (EVar "s" 15) (ELit 666643)));
    CSet "s" 4 (EBin W64 OAdd (EVar "s" 4) (EBin W64 OMul (EVar "s" 15) (ELit 470296)));
    CSet "s" 5 (EBin W64 OAdd (EVar "s" 5) (EBin W64 OMul (EVar "s" 15) (ELit 654183)));
    CSet "s" 6 (EBin W64 OSub (EVar "s" 6) (EBin W64 OMul (EVar "s" 15) (ELit 997805)));
    CSet "s" 7 (EBin W64 OAdd (EVar "s" 7) (EBin W64 OMul (EVar "s" 15) (ELit 136657)));
    CSet "s" 8 (EBin W64 OSub (EVar "s" 8) (EBin W64 OMul (EVar "s" 15) (ELit 683901)));
    CSet "s" 15 (ELit 0);
    CSet "s" 2 (EBin W64 OAdd (EVar "s" 2) (EBin W64 OMul (EVar "s" 14) (ELit 666643)));
    CSet "s" 3 (EBin W64 OAdd (EVar "s" 3) (EBin W64 OMul (EVar "s" 14) (ELit 470296)));
    CSet "s" 4 (EBin W64 OAdd (EVar "s" 4) (EBin W64 OMul (EVar "s" 14) (ELit 654183)));
    CSet "s" 5 (EBin W64 OSub (EVar "s" 5) (EBin W64 OMul (EVar "s" 14) (ELit 997805)));
    CSet "s" 6 (EBin W64 OAdd (EVar "s" 6) (EBin W64 OMul (EVar "s" 14) (ELit 136657)));
    CSet "s" 7 (EBin W64 OSub (EVar "s" 7) (EBin W64 OMul (EVar "s" 14) (ELit 683901)));
    CSet "s" 14 (ELit 0);
    CSet "s" 1 (EBin W64 OAdd (EVar "s" 1) (EBin W64 OMul (EVar "s" 13) (ELit 666643)));
    CSet "s" 2 (EBin W64 OAdd (EVar "s" 2) (EBin W64 OMul (EVar "s" 13) (ELit 470296)));
    CSet "s" 3 (EBin W64 OAdd (EVar "s" 3) (EBin W64 OMul (EVar "s" 13) (ELit 654183)));
    CSet "s" 4 (EBin W64 OSub (EVar "s" 4) (EBin W64 OMul (EVar "s" 13) (ELit 997805)));
    CSet "s" 5 (EBin W64 OAdd (EVar "s" 5) (EBin W64 OMul (EVar "s" 13) (ELit 136657)));
    CSet "s" 6 (EBin W64 OSub (EVar "s" 6) (EBin W64 OMul (EVar "s" 13) (ELit 683901)));
    CSet "s" 13 (ELit 0);
    CSet "s" 0 (EBin W64 OAdd (EVar "s" 0) (EBin W64 OMul (EVar "s" 12) (ELit 666643)));
    CSet "s" 1 (EBin W64 OAdd (EVar "s" 1) (EBin W64 OMul (EVar "s" 12) (ELit 470296)));
    CSet "s" 2 (EBin W64 OAdd (EVar "s" 2) (EBin W64 OMul (EVar "s" 12) (ELit 654183)));
    CSet "s" 3 (EBin W64 OSub (EVar "s" 3) (EBin W64 OMul (EVar "s" 12) (ELit 997805)));
    CSet "s" 4 (EBin W64 OAdd (EVar "s" 4) (EBin W64 OMul (EVar "s" 12) (ELit 136657)));
    CSet "s" 5 (EBin W64 OSub (EVar "s" 5) (EBin W64 OMul (EVar "s" 12) (ELit 683901)));
    CSet "s" 12 (ELit 0);
    CSet "carry" 0 (EBin W64 OShr (EBin W64 OAdd (EVar "s" 0) (EBin W64 OShl (ELit 1) (ELit 20))) (ELit 21));
    CSet "s" 1 (EBin W64 OAdd (EVar "s" 1) (EVar "carry" 0));
    CSet "s" 0 (EBin W64 OSub (EVar "s" 0) (EBin W64 OShl (EVar "carry" 0) (ELit 21)));
    CSet "carry" 2 (EBin W64 OShr (EBin W64 OAdd (EVar "s" 2) (EBin W64 OShl (ELit 1) (ELit 20))) (ELit 21));
    CSet "s" 3 (EBin W64 OAdd (EVar "s" 3) (EVar "carry" 2));
    CSet "s" 2 (EBin W64 OSub (EVar "s" 2) (EBin W64 OShl (EVar "carry" 2) (ELit 21)));
    CSet "carry" 4 (EBin W64 OShr (EBin W64 OAdd (EVar "s" 4) (EBin W64 OShl (ELit 1) (ELit 20))) (ELit 21));
    CSet "s" 5 (EBin W64 OAdd (EVar "s" 5) (EVar "carry" 4));
    CSet "s" 4 (EBin W64 OSub (EVar "s" 4) (EBin W64 OShl (EVar "carry" 4) (ELit 21)));
    CSet "carry" 6 (EBin W64 OShr (EBin W64 OAdd (EVar "s" 6) (EBin W64 OShl (ELit 1) (ELit 20))) (ELit 21));
    CSet "s" 7 (EBin W64 OAdd (EVar "s" 7) (EVar "carry" 6));
    CSet "s" 6 (EBin W64 OSub (EVar "s" 6) (EBin W64 OShl (EVar "carry" 6) (ELit 21)));
    CSet "carry" 8 (EBin W64 OShr (EBin W64 OAdd (EVar "s" 8) (EBin W64 OShl (ELit 1) (ELit 20))) (ELit 21));
    CSet "s" 9 (EBin W64 OAdd (EVar "s" 9) (EVar "carry" 8));
    CSet "s" 8 (EBin W64 OSub (EVar "s" 8) (EBin W64 OShl (EVar "carry" 8) (ELit 21)));
    CSet "carry" 10 (EBin W64 OShr (EBin W64 OAdd (EVar "s" 10) (EBin W64 OShl (ELit 1) (ELit 20))) (ELit 21));
    CSet "s" 11 (EBin W64 OAdd (EVar "s" 11) (EVar "carry" 10));
    CSet "s" 10 (EBin W64 OSub (EVar "s" 10) (EBin W64 OShl (EVar "carry" 10) (ELit 21)));
    CSet "carry" 1 (EBin W64 OShr (EBin W64 OAdd (EVar "s" 1) (EBin W64 OShl (ELit 1) (ELit 20))) (ELit 21));
    CSet "s" 2 (EBin W64 OAdd (EVar "s" 2) (EVar "carry" 1));
    CSet "s" 1 (EBin W64 OSub (EVar "s" 1) (EBin W64 OShl (EVar "carry" 1) (ELit 21)));
    CSet "carry" 3 (EBin W64 OShr (EBin W64 OAdd (EVar "s" 3) (EBin W64 OShl (ELit 1) (ELit 20))) (ELit 21));
    CSet "s" 4 (EBin W64 OAdd (EVar "s" 4) (EVar "carry" 3));
    CSet "s" 3 (EBin W64 OSub (EVar "s" 3) (EBin W64 OShl (EVar "carry" 3) (ELit 21)));
    CSet "carry" 5 (EBin W64 OShr (EBin W64 OAdd (EVar "s" 5) (EBin W64 OShl (ELit 1) (ELit 20))) (ELit 21));
    CSet "s" 6 (EBin W64 OAdd (EVar "s" 6) (EVar "carry" 5));
    CSet "s" 5 (EBin W64 OSub (EVar "s" 5) (EBin W64 OShl (EVar "carry" 5) (ELit 21)));
    CSet "carry" 7 (EBin W64 OShr (EBin W64 OAdd (EVar "s" 7) (EBin W64 OShl (ELit 1) (ELit 20))) (ELit 21));
    CSet "s" 8 (EBin W64 OAdd (EVar "s" 8) (EVar "carry" 7));
    CSet "s" 7 (EBin W64 OSub (EVar "s" 7) (EBin W64 OShl (EVar "carry" 7) (ELit 21)));
    CSet "carry" 9 (EBin W64 OShr (EBin W64 OAdd (EVar "s" 9) (EBin W64 OShl (ELit 1) (ELit 20))) (ELit 21));
    CSet "s" 10 (EBin W64 OAdd (EVar "s" 10) (EVar "carry" 9));
    CSet "s" 9 (EBin W64 OSub (EVar "s" 9) (EBin W64 OShl (EVar "carry" 9) (ELit 21)));
    CSet "carry" 11 (EBin W64 OShr (EBin W64 OAdd (EVar "s" 11) (EBin W64 OShl (ELit 1) (ELit 20))) (ELit 21));
    CSet "s" 12 (EBin W64 OAdd (EVar "s" 12) (EVar "carry" 11));
    CSet "s" 11 (EBin W64 OSub (EVar "s" 11) (EBin W64 OShl (EVar "carry" 11) (ELit 21)));
    CSet "s" 0 (EBin W64 OAdd (EVar "s" 0) (EBin W64 OMul (EVar "s" 12) (ELit 666643)));
    CSet "s" 1 (EBin W64 OAdd (EVar "s" 1) (EBin W64 OMul (EVar "s" 12) (ELit 470296)));
    CSet "s" 2 (EBin W64 OAdd (EVar "s" 2) (EBin W64 OMul (EVar "s" 12) (ELit 654183)));
    CSet "s" 3 (EBin W64 OSub (EVar "s" 3) (EBin W64 OMul (EVar "s" 12) (ELit 997805)));
    CSet "s" 4 (EBin W64 OAdd (EVar "s" 4) (EBin W64 OMul (EVar "s" 12) (ELit 136657)));
    CSet "s" 5 (EBin W64 OSub (EVar "s" 5) (EBin W64 OMul (EVar "s" 12) (ELit 683901)));
    CSet "s" 12 (ELit 0);
    CSet "carry" 0 (EBin W64 OShr (EVar "s" 0) (ELit 21));
    CSet "s" 1 (EBin W64 OAdd (EVar "s" 1) (EVar "carry" 0));
    CSet "s" 0 (EBin W64 OSub (EVar "s" 0) (EBin W64 OShl (EVar "carry" 0) (ELit 21)));
    CSet "carry" 1 (EBin W64 OShr (EVar "s" 1) (ELit 21));
    CSet "s" 2 (EBin W64 OAdd (EVar "s" 2) (EVar "carry" 1));
    CSet "s" 1 (EBin W64 OSub (EVar "s" 1) (EBin W64 OShl (EVar "carry" 1) (ELit 21)));
    CSet "carry" 2 (EBin W64 OShr (EVar "s" 2) (ELit 21));
    CSet "s" 3 (EBin W64 OAdd (EVar "s" 3) (EVar "carry" 2));
    CSet "s" 2 (EBin W64 OSub (EVar "s" 2) (EBin W64 OShl (EVar "carry" 2) (ELit 21)));
    CSet "carry" 3 (EBin W64 OShr (EVar "s" 3) (ELit 21));
    CSet "s" 4 (EBin W64 OAdd (EVar "s" 4) (EVar "carry" 3));
    CSet "s" 3 (EBin W64 OSub (EVar "s" 3) (EBin W64 OShl (EVar "carry" 3) (ELit 21)));
    CSet "carry" 4 (EBin W64 OShr (EVar "s" 4) (ELit 21));
    CSet "s" 5 (EBin W64 OAdd (EVar "s" 5) (EVar "carry" 4));
    CSet "s" 4 (EBin W64 OSub (EVar "s" 4) (EBin W64 OShl (EVar "carry" 4) (ELit 21)));
    CSet "carry" 5 (EBin W64 OShr (EVar "s" 5) (ELit 21));
    CSet "s" 6 (EBin W64 OAdd (EVar "s" 6) (EVar "carry" 5));
    CSet "s" 5 (EBin W64 OSub (EVar "s" 5) (EBin W64 OShl (EVar "carry" 5) (ELit 21)));
    CSet "carry" 6 (EBin W64 OShr (EVar "s" 6) (ELit 21));
    CSet "s" 7 (EBin W64 OAdd (EVar "s" 7) (EVar "carry" 6));
    CSet "s" 6 (EBin W64 OSub (EVar "s" 6) (EBin W64 OShl (EVar "carry" 6) (ELit 21)));
    CSet "carry" 7 (EBin W64 OShr (EVar "s" 7) (ELit 21));
    CSet "s" 8 (EBin W64 OAdd (EVar "s" 8) (EVar "carry" 7));
    CSet "s" 7 (EBin W64 OSub (EVar "s" 7) (EBin W64 OShl (EVar "carry" 7) (ELit 21)));
    CSet "carry" 8 (EBin W64 OShr (EVar "s" 8) (ELit 21));
    CSet "s" 9 (EBin W64 OAdd (EVar "s" 9) (EVar "carry" 8));
    CSet "s" 8 (EBin W64 OSub (EVar "s" 8) (EBin W64 OShl (EVar "carry" 8) (ELit 21)));
    CSet "carry" 9 (EBin W64 OShr (EVar "s" 9) (ELit 21));
    CSet "s" 10 (EBin W64 OAdd (EVar "s" 10) (EVar "carry" 9));
    CSet "s" 9 (EBin W64 OSub (EVar "s" 9) (EBin W64 OShl (EVar "carry" 9) (ELit 21)));
    CSet "carry" 10 (EBin W64 OShr (EVar "s" 10) (ELit 21));
    CSet "s" 11 (EBin W64 OAdd (EVar "s" 11) (EVar "carry" 10));
    CSet "s" 10 (EBin W64 OSub (EVar "s" 10) (EBin W64 OShl (EVar "carry" 10) (ELit 21)));
    CSet "carry" 11 (EBin W64 OShr (EVar "s" 11) (ELit 21));
    CSet "s" 12 (EBin W64 OAdd (EVar "s" 12) (EVar "carry" 11));
    CSet "s" 11 (EBin W64 OSub (EVar "s" 11) (EBin W64 OShl (EVar "carry" 11) (ELit 21)));
    CSet "s" 0 (EBin W64 OAdd (EVar "s" 0) (EBin W64 OMul (EVar "s" 12) (ELit 666643)));
    CSet "s" 1 (EBin W64 OAdd (EVar "s" 1) (EBin W64 OMul (EVar "s" 12) (ELit 470296)));
    CSet "s" 2 (EBin W64 OAdd (EVar "s" 2) (EBin W64 OMul (EVar "s" 12) (ELit 654183)));
    CSet "s" 3 (EBin W64 OSub (EVar "s" 3) (EBin W64 OMul (EVar "s" 12) (ELit 997805)));
    CSet "s" 4 (EBin W64 OAdd (EVar "s" 4) (EBin W64 OMul (EVar "s" 12) (ELit 136657)));
    CSet "s" 5 (EBin W64 OSub (EVar "s" 5) (EBin W64 OMul (EVar "s" 12) (ELit 683901)));
    CSet "s" 12 (ELit 0);
    CSet "carry" 0 (EBin W64 OShr (EVar "s" 0) (ELit 21));
    CSet "s" 1 (EBin W64 OAdd (EVar "s" 1) (EVar "carry" 0));
    CSet "s" 0 (EBin W64 OSub (EVar "s" 0) (EBin W64 OShl (EVar "carry" 0) (ELit 21)));
    CSet "carry" 1 (EBin W64 OShr (EVar "s" 1) (ELit 21));
    CSet "s" 2 (EBin W64 OAdd (EVar "s" 2) (EVar "carry" 1));
    CSet "s" 1 (EBin W64 OSub (EVar "s" 1) (EBin W64 OShl (EVar "carry" 1) (ELit 21)));
    CSet "carry" 2 (EBin W64 OShr (EVar "s" 2) (ELit 21));
    CSet "s" 3 (EBin W64 OAdd (EVar "s" 3) (EVar "carry" 2));
    CSet "s" 2 (EBin W64 OSub (EVar "s" 2) (EBin W64 OShl (EVar "carry" 2) (ELit 21)));
    CSet "carry" 3 (EBin W64 OShr (EVar "s" 3) (ELit 21));
    CSet "s" 4 (EBin W64 OAdd (EVar "s" 4) (EVar "carry" 3));
    CSet "s" 3 (EBin W64 OSub (EVar "s" 3) (EBin W64 OShl (EVar "carry" 3) (ELit 21)));
    CSet "carry" 4 (EBin W64 OShr (EVar "s" 4) (ELit 21));
    CSet "s" 5 (EBin W64 OAdd (EVar "s" 5) (EVar "carry" 4));
    CSet "s" 4 (EBin W64 OSub (EVar "s" 4) (EBin W64 OShl (EVar "carry" 4) (ELit 21)));
    CSet "carry" 5 (EBin W64 OShr (EVar "s" 5) (ELit 21));
    CSet "s" 6 (EBin W64 OAdd (EVar "s" 6) (EVar "carry" 5));
    CSet "s" 5 (EBin W64 OSub (EVar "s" 5) (EBin W64 OShl (EVar "carry" 5) (ELit 21)));
    CSet "carry" 6 (EBin W64 OShr (EVar "s" 6) (ELit 21));
    CSet "s" 7 (EBin W64 OAdd (EVar "s" 7) (EVar "carry" 6));
    CSet "s" 6 (EBin W64 OSub (EVar "s" 6) (EBin W64 OShl (EVar "carry" 6) (ELit 21)));
    CSet "carry" 7 (EBin W64 OShr (EVar "s" 7) (ELit 21));
    CSet "s" 8 (EBin W64 OAdd (EVar "s" 8) (EVar "carry" 7));
    CSet "s" 7 (EBin W64 OSub (EVar "s" 7) (EBin W64 OShl (EVar "carry" 7) (ELit 21)));
    CSet "carry" 8 (EBin W64 OShr (EVar "s" 8) (ELit 21));
    CSet "s" 9 (EBin W64 OAdd (EVar "s" 9) (EVar "carry" 8));
    CSet "s" 8 (EBin W64 OSub (EVar "s" 8) (EBin W64 OShl (EVar "carry" 8) (ELit 21)));
    CSet "carry" 9 (EBin W64 OShr (EVar "s" 9) (ELit 21));
    CSet "s" 10 (EBin W64 OAdd (EVar "s" 10) (EVar "carry" 9));
    CSet "s" 9 (EBin W64 OSub (EVar "s" 9) (EBin W64 OShl (EVar "carry" 9) (ELit 21)));
    CSet "carry" 10 (EBin W64 OShr (EVar "s" 10) (ELit 21));
    CSet "s" 11 (EBin W64 OAdd (EVar "s" 11) (EVar "carry" 10));
    CSet "s" 10 (EBin W64 OSub (EVar "s" 10) (EBin W64 OShl (EVar "carry" 10) (ELit 21)));
    CPut "out" (ELit 0) (EConv U8 (EBin W64 OShr (EVar "s" 0) (ELit 0)));
    CPut "out" (ELit 1) (EConv U8 (EBin W64 OShr (EVar "s" 0) (ELit 8)));
    CPut "out" (ELit 2) (EConv U8 (EBin W64 OOr (EBin W64 OShr (EVar "s" 0) (ELit 16)) (EBin W64 OShl (EVar "s" 1) (ELit 5))));
    CPut "out" (ELit 3) (EConv U8 (EBin W64 OShr (EVar "s" 1) (ELit 3)));
    CPut "out" (ELit 4) (EConv U8 (EBin W64 OShr (EVar "s" 1) (ELit 11)));
    CPut "out" (ELit 5) (EConv U8 (EBin W64 OOr (EBin W64 OShr (EVar "s" 1) (ELit 19)) (EBin W64 OShl (EVar "s" 2) (ELit 2))));
    CPut "out" (ELit 6) (EConv U8 (EBin W64 OShr (EVar "s" 2) (ELit 6)));
    CPut "out" (ELit 7) (EConv U8 (EBin W64 OOr (EBin W64 OShr (EVar "s" 2) (ELit 14)) (EBin W64 OShl (EVar "s" 3) (ELit 7))));
    CPut "out" (ELit 8) (EConv U8 (EBin W64 OShr (EVar "s" 3) (ELit 1)));
    CPut "out" (ELit 9) (EConv U8 (EBin W64 OShr (EVar "s" 3) (ELit 9)));
    CPut "out" (ELit 10) (EConv U8 (EBin W64 OOr (EBin W64 OShr (EVar "s" 3) (ELit 17)) (EBin W64 OShl (EVar "s" 4) (ELit 4))));
    CPut "out" (ELit 11) (EConv U8 (EBin W64 OShr (EVar "s" 4) (ELit 4)));
    CPut "out" (ELit 12) (EConv U8 (EBin W64 OShr (EVar "s" 4) (ELit 12)));
    CPut "out" (ELit 13) (EConv U8 (EBin W64 OOr (EBin W64 OShr (EVar "s" 4) (ELit 20)) (EBin W64 OShl (EVar "s" 5) (ELit 1))));
    CPut "out" (ELit 14) (EConv U8 (EBin W64 OShr (EVar "s" 5) (ELit 7)));
    CPut "out" (ELit 15) (EConv U8 (EBin W64 OOr (EBin W64 OShr (EVar "s" 5) (ELit 15)) (EBin W64 OShl (EVar "s" 6) (ELit 6))));
    CPut "out" (ELit 16) (EConv U8 (EBin W64 OShr (EVar "s" 6) (ELit 2)));
    CPut "out" (ELit 17) (EConv U8 (EBin W64 OShr (EVar "s" 6) (ELit 10)));
    CPut "out" (ELit 18) (EConv U8 (EBin W64 OOr (EBin W64 OShr (EVar "s" 6) (ELit 18)) (EBin W64 OShl (EVar "s" 7) (ELit 3))));
    CPut "out" (ELit 19) (EConv U8 (EBin W64 OShr (EVar "s" 7) (ELit 5)));
    CPut "out" (ELit 20) (EConv U8 (EBin W64 OShr (EVar "s" 7) (ELit 13)));
    CPut "out" (ELit 21) (EConv U8 (EBin W64 OShr (EVar "s" 8) (ELit 0)));
    CPut "out" (ELit 22) (EConv U8 (EBin W64 OShr (EVar "s" 8) (ELit 8)));
    CPut "out" (ELit 23) (EConv U8 (EBin W64 OOr (EBin W64 OShr (EVar "s" 8) (ELit 16)) (EBin W64 OShl (EVar "s" 9) (ELit 5))));
    CPut "out" (ELit 24) (EConv U8 (EBin W64 OShr (EVar "s" 9) (ELit 3)));
    CPut "out" (ELit 25) (EConv U8 (EBin W64 OShr (EVar "s" 9) (ELit 11)));
    CPut "out" (ELit 26) (EConv U8 (EBin W64 OOr (EBin W64 OShr (EVar "s" 9) (ELit 19)) (EBin W64 OShl (EVar "s" 10) (ELit 2))));
    CPut "out" (ELit 27) (EConv U8 (EBin W64 OShr (EVar "s" 10) (ELit 6)));
    CPut "out" (ELit 28) (EConv U8 (EBin W64 OOr (EBin W64 OShr (EVar "s" 10) (ELit 14)) (EBin W64 OShl (EVar "s" 11) (ELit 7))));
    CPut "out" (ELit 29) (EConv U8 (EBin W64 OShr (EVar "s" 11) (ELit 1)));
    CPut "out" (ELit 30) (EConv U8 (EBin W64 OShr (EVar "s" 11) (ELit 9)));
    CPut "out" (ELit 31) (EConv U8 (EBin W64 OShr (EVar "s" 11) (ELit 17)))].
