(* Two's complement 32- and 64-bit integers (Go int32, int64) as Z with explicit
   wrap-around after every operation. *)
From Verif Require Export Go.

Definition i32 (z : Z) : Z := (z + 2147483648) mod 4294967296 - 2147483648.
Definition i64 (z : Z) : Z :=
  (z + 9223372036854775808) mod 18446744073709551616 - 9223372036854775808.

Declare Scope i32_scope.
Delimit Scope i32_scope with i32.
Declare Scope i64_scope.
Delimit Scope i64_scope with i64.

Definition add32 (a b : Z) := i32 (a + b).
Definition sub32 (a b : Z) := i32 (a - b).
Definition mul32 (a b : Z) := i32 (a * b).
Definition shl32 (a b : Z) := i32 (Z.shiftl a b).
(* >> on signed integers is arithmetic; >>, | and & cannot overflow *)
Definition shr32 (a b : Z) := Z.shiftr a b.
Definition or32 (a b : Z) := Z.lor a b.
Definition and32 (a b : Z) := Z.land a b.
Definition add64 (a b : Z) := i64 (a + b).
Definition sub64 (a b : Z) := i64 (a - b).
Definition mul64 (a b : Z) := i64 (a * b).
Definition shl64 (a b : Z) := i64 (Z.shiftl a b).
Definition shr64 (a b : Z) := Z.shiftr a b.
Definition or64 (a b : Z) := Z.lor a b.
Definition and64 (a b : Z) := Z.land a b.

(* the operands of a notation are read in the same scope as the whole *)
Arguments add32 (a b)%i32_scope.
Arguments sub32 (a b)%i32_scope.
Arguments mul32 (a b)%i32_scope.
Arguments shl32 (a b)%i32_scope.
Arguments shr32 (a b)%i32_scope.
Arguments or32 (a b)%i32_scope.
Arguments and32 (a b)%i32_scope.
Arguments add64 (a b)%i64_scope.
Arguments sub64 (a b)%i64_scope.
Arguments mul64 (a b)%i64_scope.
Arguments shl64 (a b)%i64_scope.
Arguments shr64 (a b)%i64_scope.
Arguments or64 (a b)%i64_scope.
Arguments and64 (a b)%i64_scope.

(* Go precedence: * << >> & bind tighter than + - |, all left associative *)
Notation "a + b" := (add32 a b) : i32_scope.
Notation "a - b" := (sub32 a b) : i32_scope.
Notation "a * b" := (mul32 a b) : i32_scope.
Notation "a << b" := (shl32 a b) (at level 40, left associativity) : i32_scope.
Notation "a >> b" := (shr32 a b) (at level 40, left associativity) : i32_scope.
Notation "a || b" := (or32 a b) : i32_scope.
Notation "a && b" := (and32 a b) : i32_scope.
Notation "a + b" := (add64 a b) : i64_scope.
Notation "a - b" := (sub64 a b) : i64_scope.
Notation "a * b" := (mul64 a b) : i64_scope.
Notation "a << b" := (shl64 a b) (at level 40, left associativity) : i64_scope.
Notation "a >> b" := (shr64 a b) (at level 40, left associativity) : i64_scope.
Notation "a || b" := (or64 a b) : i64_scope.
Notation "a && b" := (and64 a b) : i64_scope.
