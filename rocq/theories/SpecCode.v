(* What the programs of CodeListing.v are about: field elements, bytes and digits in arrays. *)
From Verif Require Export CodeCalls.
Local Open Scope Z_scope.

(* the field element at a location *)
Definition as_fe (m : arrays) (l : loc) : fe :=
  Fe (m l 0) (m l 1) (m l 2) (m l 3) (m l 4) (m l 5) (m l 6) (m l 7) (m l 8) (m l 9).
(* these numbers, these bytes are in the array *)
Definition contains (m : arrays) (l : loc) (z : list Z) : Prop := map (fun i => m l (Z.of_nat i)) (seq 0 (length z)) = z.
Definition has_bytes (m : arrays) (l : loc) (b : bytes) : Prop := contains m l (map b2z b).
(* nothing has changed outside these arrays *)
Definition only_at (l : list loc) (m m' : arrays) : Prop := forall x i, ~ In x l -> m' x i = m x i.
(* a run shows nothing of the variables and arrays it works on *)
Definition oblivious (c : code) : Prop := forall s s', ptrs s = ptrs s' -> snd (crun c s) = snd (crun c s').
