(* What is asked of programs over a memory. *)
From Verif Require Export SpecCode CodeWhole.
Local Open Scope Z_scope.

(* nobody sees what is in the memory *)
Definition silent (p : prog) : Prop := forall m m', snd (p m) = snd (p m').
(* an array for bytes or digits: apart from the fields of all points, and no package variable *)
Definition array (l : loc) : Prop := (4 <= snd l)%nat /\ 0 <= fst l.
