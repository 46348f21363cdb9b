(* What a routine may do to a memory (Pointers.v).  Specification only. *)
From Verif Require Import Pointers.
Open Scope Z_scope.

(* the location d gets the value v and nothing else changes *)
Definition writes (d : loc) (v : fe) (m m' : mem) : Prop :=
  m' d = v /\ forall x, x <> d -> m' x = m x.
(* the same for a routine with variables of its own, the first of them fr *)
Definition writes_new (fr : Z) (d : loc) (v : fe) (m m' : mem) : Prop :=
  m' d = v /\ forall x, x <> d -> fst x < fr -> m' x = m x.
(* nothing but the variable r and variables that did not exist before has changed *)
Definition only (r fr : Z) (m m' : mem) : Prop := forall x, fst x <> r -> fst x < fr -> m' x = m x.
(* nothing but variables that did not exist before has changed *)
Definition untouched (fr : Z) (m m' : mem) : Prop := forall x, fst x < fr -> m' x = m x.

(* the package variables have the values they are declared with *)
Definition globals (m : mem) : Prop :=
  m g_zero = FeZero /\ m g_d = fe_d /\ m g_d2 = fe_d2 /\ m g_SqrtM1 = fe_SqrtM1 /\
  (forall i, (i < 8)%nat -> get_pc m (g_bi i) = nth i bi pc_zero) /\
  (forall pos i, (pos < 32)%nat -> (i < 8)%nat -> get_pc m (g_base pos i) = nth i (nth pos base []) pc_zero).

