(* Property theorems: what the order of the calls shows of a scalar. *)
From Verif Require Import StepFacts SpecSteps.
Local Open Scope Z_scope.

(* C90: the lists of calls describe the same runs as the routines on a memory *)
Theorem C90_runs : forall fr r h A a b m,
  run (GeScalarMultBase_calls fr h a) m = GeScalarMultBase_at fr h a m /\
  run (GeDoubleScalarMultVartime_calls fr r a A b) m = GeDoubleScalarMultVartime_at fr r a A b m.
Proof. exact (fun fr r h A a b m => conj (base_run fr h a m) (double_run fr r a A b m)). Qed.
Print Assumptions C90_runs.

(* GeScalarMultBase: the same routines with the same pointers for every scalar *)
Theorem C90_base : forall fr h a a', view (GeScalarMultBase_calls fr h a) = view (GeScalarMultBase_calls fr h a').
Proof. exact base_view. Qed.
Print Assumptions C90_base.

(* all of the table is read, and the bits that do not show are bits *)
Theorem C90_table : forall fr h a,
  Z.of_nat (length (GeScalarMultBase_calls fr h a)) = 3064 /\
  (forall pos i f, (pos < 32)%nat -> (i < 8)%nat -> (f < 3)%nat ->
     exists b, In (CMove (fr, f) (g_base pos i, f) b) (GeScalarMultBase_calls fr h a)) /\
  (forall d s b, In (CMove d s b) (GeScalarMultBase_calls fr h a) -> b = 0 \/ b = 1).
Proof. exact (fun fr h a => conj (base_count fr h a) (conj (base_reads fr h a) (bits fr h a))). Qed.
Print Assumptions C90_table.

(* GeDoubleScalarMultVartime: the calls show both scalars completely *)
Theorem C90_vartime : forall fr r A a b a' b', 0 <= fr ->
  length a = 32%nat -> length b = 32%nat -> length a' = 32%nat -> length b' = 32%nat ->
  view (GeDoubleScalarMultVartime_calls fr r a A b) = view (GeDoubleScalarMultVartime_calls fr r a' A b') ->
  a = a' /\ b = b'.
Proof. exact double_view. Qed.
Print Assumptions C90_vartime.

(* even the number of calls differs *)
Theorem C90_vartime_constant_refuted : exists a a' b, length a = 32%nat /\ length a' = 32%nat /\ length b = 32%nat /\
  forall fr r A, length (GeDoubleScalarMultVartime_calls fr r a A b) <> length (GeDoubleScalarMultVartime_calls fr r a' A b).
Proof. exact number_differs. Qed.
Print Assumptions C90_vartime_constant_refuted.

(* two scalars; their calls differ in bits only *)
Example C90_instance : forall fr h,
  view (GeScalarMultBase_calls fr h (x01 :: repeat x00 31)) = view (GeScalarMultBase_calls fr h (x02 :: repeat x00 31)) /\
  In (CMove (fr, 0%nat) (g_base 0 0, 0%nat) 1) (GeScalarMultBase_calls fr h (x01 :: repeat x00 31)) /\
  In (CMove (fr, 0%nat) (g_base 0 1, 0%nat) 1) (GeScalarMultBase_calls fr h (x02 :: repeat x00 31)) /\
  GeScalarMultBase_calls fr h (x01 :: repeat x00 31) <> GeScalarMultBase_calls fr h (x02 :: repeat x00 31).
Proof. exact two_scalars. Qed.
