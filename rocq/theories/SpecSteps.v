(* What an observer of instructions and addresses sees of a run. *)
From Verif Require Export Steps.
Open Scope Z_scope.

(* which routine is called and what its pointers are.  FeCMove does the same ten
   loads, exclusive ors and stores whether its bit is 0 or 1, so the bit does not
   show *)
Definition seen (c : call) : call := match c with CMove d a _ => CMove d a 0 | c => c end.
Definition view (l : list call) : list call := map seen l.
