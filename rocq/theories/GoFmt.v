(* fmt: the verb %d for integers.  Definitions only. *)
From Coq Require DecimalString.
From Verif Require Export Bytes.

Definition decimal (z : Z) : bytes := str (DecimalString.NilZero.string_of_int (Z.to_int z)).
