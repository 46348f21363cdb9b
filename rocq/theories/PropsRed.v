(* Property theorems: arithmetic modulo the group order, C67 to C69. *)
From Verif Require Import ScalarRedFacts EdSigFacts PointBytes.
Local Open Scope Z_scope.

(* C67 *)
Theorem C67_reduce : forall s, length s = 64%nat ->
  le_val (ScReduce s) = le_val s mod ell /\ ScReduce s = le_bytes 32 (le_val s mod ell).
Proof. exact (fun s L => conj (ScReduce_ok s L) (le_bytes_unique _ _ (ScReduce_length s) (ScReduce_ok s L))). Qed.
Print Assumptions C67_reduce.

Example C67_instance : le_val (repeat xff 64) = 2 ^ 512 - 1 /\ ScReduce (repeat xff 64) = le_bytes 32 ((2 ^ 512 - 1) mod ell) /\
  ScReduce (le_bytes 64 (3 * ell + 7)) = x07 :: repeat x00 31 /\ ScReduce (le_bytes 64 (ell - 1)) = le_bytes 32 (ell - 1).
Proof.
  split; [vm_compute; reflexivity|]. assert (L : forall n : Z, length (le_bytes 64 n) = 64%nat) by (intro n; apply length_le_bytes).
  rewrite !(fun s H => proj2 (C67_reduce s H)) by (apply L || reflexivity). repeat split; vm_compute; reflexivity.
Qed.

(* C68 *)
Theorem C68_muladd : forall a b c, length a = 32%nat -> length b = 32%nat -> length c = 32%nat ->
  le_val (ScMulAdd a b c) = (le_val a * le_val b + le_val c) mod ell /\
  ScMulAdd a b c = le_bytes 32 ((le_val a * le_val b + le_val c) mod ell).
Proof.
  exact (fun a b c A B C => conj (ScMulAdd_ok a b c A B C) (le_bytes_unique _ _ (ScMulAdd_length a b c) (ScMulAdd_ok a b c A B C))).
Qed.
Print Assumptions C68_muladd.

Example C68_instance :
  ScMulAdd (repeat xff 32) (repeat xff 32) (repeat xff 32) = le_bytes 32 ((2 ^ 256 - 1) * 2 ^ 256 mod ell) /\
  ScMulAdd (le_bytes 32 (ell - 1)) (le_bytes 32 (ell - 1)) (repeat x00 32) = x01 :: repeat x00 31 /\
  ScMulAdd (x02 :: repeat x00 31) (x03 :: repeat x00 31) (x04 :: repeat x00 31) = x0a :: repeat x00 31.
Proof.
  assert (L : forall n : Z, length (le_bytes 32 n) = 32%nat) by (intro n; apply length_le_bytes).
  rewrite !(fun a b c A B C => proj2 (C68_muladd a b c A B C)) by (apply L || reflexivity). repeat split; vm_compute; reflexivity.
Qed.

(* C69 *)
Theorem C69_minimal : forall s, length s = 32%nat -> (ScMinimal s = true <-> le_val s < ell).
Proof. exact (fun s L => eq_ind_r (fun b => b = true <-> le_val s < ell) (Z.ltb_lt (le_val s) ell) (ScMinimal_ok s L)). Qed.
Print Assumptions C69_minimal.

Example C69_instance : ScMinimal (le_bytes 32 (ell - 1)) = true /\ ScMinimal (le_bytes 32 ell) = false /\ ScMinimal (repeat xff 32) = false /\
  ScMinimal (le_bytes 32 (2 ^ 252)) = true.
Proof. repeat split; vm_compute; reflexivity. Qed.
