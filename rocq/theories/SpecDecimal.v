(* A natural number in decimal: digits with that value, with no zero in front unless it is the only digit. *)
From Verif Require Export Bytes.
Local Open Scope Z_scope.
Definition is_digit (b : byte) : Prop := 48 <= b2z b <= 57.
Definition step_value (v : Z) (b : byte) : Z := 10 * v + (b2z b - 48).
Definition value (t : bytes) : Z := fold_left step_value t 0.
Definition decimal_of (n : Z) (t : bytes) : Prop :=
  Forall is_digit t /\ t <> [] /\ ((forall r, t <> x30 :: r) \/ t = [x30]) /\ value t = n.
