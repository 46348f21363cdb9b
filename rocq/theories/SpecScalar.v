(* Positional values of digit lists, and the scalars of edwards25519
   (RFC 8032, 5.1: L).  Independent of the routines. *)
From Verif Require Export Bytes.
Local Open Scope Z_scope.

(* l_0 + b l_1 + b^2 l_2 + ... *)
Fixpoint dval (b : Z) (l : list Z) : Z := match l with [] => 0 | x :: t => x + b * dval b t end.

Definition ell : Z := 2 ^ 252 + 27742317777372353535851937790883648493.
