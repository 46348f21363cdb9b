(* Property theorems: the leaf routines of edwards25519 statement by statement, what they
   compute and what a run shows. *)
From Verif Require Import SpecScalar SpecX25519 ScalarRed CodeFacts CodeBytes CodeLeaf CodeScalar.
From Verif Require Import SpecCode.
Local Open Scope string_scope.
Local Open Scope list_scope.
Local Open Scope Z_scope.

(* C97: any list of calls, with whatever pointers equal: the statements of the routines leave
   the field elements that Steps.v says *)
Theorem C97_calls : forall l m x, as_fe (fst (perform_all l m)) x = run l (as_fe m) x.
Proof. exact perform_all_fe. Qed.
Print Assumptions C97_calls.
(* FeMul(x, x, y) through memory, with x = 2^26 + 3 and y = 7: x is both result and argument *)
Example C97_calls_instance :
  as_fe (fst (perform_all [Mul (1, 0%nat) (1, 0%nat) (2, 0%nat); Add (2, 0%nat) (1, 0%nat) (2, 0%nat)]
           (fun l i => match fst l, i with 1, 0 => 3 | 1, 1 => 1 | 2, 0 => 7 | _, _ => 0 end))) (2, 0%nat) = Fe 28 7 0 0 0 0 0 0 0 0.
Proof. vm_compute. reflexivity. Qed.

(* the field routines show nothing but where their arguments are: no branch, no address and no
   kind of operation depends on a number *)
Theorem C97_field : Forall oblivious [FeZero_code; FeOne_code; FeCopy_code; FeAdd_code; FeSub_code; FeNeg_code; FeCMove_code; FeMul_code;
  FeSquare_code; FeSquare2_code; FeFromBytes_code; FeToBytes_code; FeIsNegative_code; FeIsNonZero_code].
Proof. exact oblivious_fe. Qed.
Print Assumptions C97_field.
Theorem C97_scalar : Forall oblivious [equal_code; negative_code; bAbs_code; recode_code; ScMulAdd_code; ScReduce_code].
Proof. exact oblivious_scalar. Qed.
Print Assumptions C97_scalar.
(* there is much to see, and different operations are told apart *)
Example C97_scalar_instance :
  Z.of_nat (length (snd (crun ScMulAdd_code (under "s" (1, 0%nat) (filled (1, 0%nat) []))))) = 1298 /\
  firstn 5 (snd (crun equal_code (under "s" (1, 0%nat) (filled (1, 0%nat) [])))) = [Did W32 OXor; Converted U32; Did U32 OSub; Did U32 OShr; Converted W32] /\
  ~ oblivious (CIf (EVar "b" 0) (CPut "f" (ELit 0) (EElem "g" (ELit 0))) CSkip).
Proof.
  split; [vm_compute; reflexivity|]. split; [reflexivity|]. intro O.
  specialize (O (State (fun _ _ => 0) (fun _ => (1, 0%nat)) (fun _ _ => 0)) (State (fun _ _ => 1) (fun _ => (1, 0%nat)) (fun _ _ => 0)) eq_refl). discriminate O.
Qed.

(* GeScalarMultBase: every operation, branch and address of all its field routines, one after
   the other, is the same for two scalars and two memories *)
Theorem C97_base : forall fr h a a' m m',
  snd (perform_all (GeScalarMultBase_calls fr h a) m) = snd (perform_all (GeScalarMultBase_calls fr h a') m').
Proof. exact base_sights. Qed.
Print Assumptions C97_base.
Theorem C97_base_result : forall fr h a m x,
  as_fe (fst (perform_all (GeScalarMultBase_calls fr h a) m)) x = GeScalarMultBase_at fr h a (as_fe m) x.
Proof. exact base_result. Qed.
Print Assumptions C97_base_result.
(* the bits do differ: a number made of them *)
Example C97_base_instance :
  firstn 3 (snd (perform_all (firstn 2 (GeScalarMultBase_calls 100 200 (repeat x01 32))) (fun _ _ => 0))) =
    [Loaded g_zero 0; Stored (200, 0%nat) 0; Loaded g_zero 1] /\
  fold_left (fun z c => match c with CMove _ _ b => (3 * z + b) mod 1009 | _ => z end) (GeScalarMultBase_calls 100 200 (repeat x01 32)) 0 <>
  fold_left (fun z c => match c with CMove _ _ b => (3 * z + b) mod 1009 | _ => z end) (GeScalarMultBase_calls 100 200 (repeat x02 32)) 0.
Proof. split; vm_compute; [reflexivity|discriminate]. Qed.

(* bytes out: the encoding, and the argument left carried; nothing else is written *)
Theorem C97_to_bytes : forall s, ptrs s "s" <> ptrs s "h" ->
  let m := cells (fst (crun FeToBytes_code s)) in let '(b, f) := FeToBytes (as_fe (cells s) (ptrs s "h")) in
  has_bytes m (ptrs s "s") b /\ as_fe m (ptrs s "h") = f /\ only_at [ptrs s "s"; ptrs s "h"] (cells s) m.
Proof. exact to_bytes_code. Qed.
Print Assumptions C97_to_bytes.
(* bytes in *)
Theorem C97_from_bytes : forall s b, length b = 32%nat -> has_bytes (cells s) (ptrs s "src") b ->
  let m := cells (fst (crun FeFromBytes_code s)) in
  as_fe m (ptrs s "h") = FeFromBytes b /\ only_at [ptrs s "h"] (cells s) m.
Proof. exact from_bytes_code. Qed.
Print Assumptions C97_from_bytes.
Example C97_bytes_instance :
  as_fe (cells (fst (crun FeFromBytes_code (under "src" (1, 0%nat) (filled (1, 0%nat) (9 :: repeat 0 31)))))) (9, 0%nat) = Fe 9 0 0 0 0 0 0 0 0 0 /\
  map (cells (fst (crun FeToBytes_code (under "h" (1, 0%nat) (filled (1, 0%nat) [0; 0; 1]))))  (9, 0%nat)) [0; 5; 6; 7] = [0; 0; 8; 0].
Proof. split; vm_compute; reflexivity. Qed.

(* the sign and the test against zero *)
Theorem C97_is_negative : forall s, ptrs s "s" <> ptrs s "h" ->
  let s' := fst (crun FeIsNegative_code s) in let '(r, f) := FeIsNegative (as_fe (cells s) (ptrs s "h")) in
  vars s' "result" 0%nat = r /\ as_fe (cells s') (ptrs s "h") = f /\ only_at [ptrs s "s"; ptrs s "h"] (cells s) (cells s').
Proof. exact is_negative_code. Qed.
Print Assumptions C97_is_negative.
Theorem C97_is_nonzero : forall s, ptrs s "s" <> ptrs s "h" ->
  let s' := fst (crun FeIsNonZero_code s) in let '(r, f) := FeIsNonZero (as_fe (cells s) (ptrs s "h")) in
  vars s' "result" 0%nat = r /\ as_fe (cells s') (ptrs s "h") = f /\ only_at [ptrs s "s"; ptrs s "h"] (cells s) (cells s').
Proof. exact is_nonzero_code. Qed.
Print Assumptions C97_is_nonzero.
Example C97_sign_instance :
  map (fun z => let s := under "h" (1, 0%nat) (filled (1, 0%nat) z) in
         (vars (fst (crun FeIsNegative_code s)) "result" 0%nat, vars (fst (crun FeIsNonZero_code s)) "result" 0%nat)) [[0]; [1]; [0; 1]; [-1]]
  = [(0, 0); (1, 1); (0, 1); (0, 1)].
Proof. vm_compute. reflexivity. Qed.

(* the digits and the comparisons behind the table look-up *)
Theorem C97_equal : forall s, vars (fst (crun equal_code s)) "result" 0%nat = equal (vars s "b" 0%nat) (vars s "c" 0%nat) /\ cells (fst (crun equal_code s)) = cells s.
Proof. exact equal_code_ok. Qed.
Print Assumptions C97_equal.
Theorem C97_magnitude : forall s, let b := vars s "b" 0%nat in
  vars (fst (crun bAbs_code s)) "bAbs" 0%nat = (b - (((0 - negative b) && b) << 1))%i32 /\
  vars (fst (crun bAbs_code s)) "bNegative" 0%nat = negative b /\ cells (fst (crun bAbs_code s)) = cells s.
Proof. exact bAbs_code_ok. Qed.
Print Assumptions C97_magnitude.
Theorem C97_digits : forall s b, length b = 32%nat -> ptrs s "e" <> ptrs s "a" -> has_bytes (cells s) (ptrs s "a") b ->
  contains (cells (fst (crun recode_code s))) (ptrs s "e") (recode 63 0 (nibbles b)) /\ only_at [ptrs s "e"] (cells s) (cells (fst (crun recode_code s))).
Proof. exact recode_code_ok. Qed.
Print Assumptions C97_digits.
(* 0x9c is -4, -6, 1 *)
Example C97_digits_instance :
  map (cells (fst (crun recode_code (under "a" (1, 0%nat) (filled (1, 0%nat) [156])))) (9, 0%nat)) [0; 1; 2; 3] = [-4; -6; 1; 0] /\
  vars (fst (crun bAbs_code (State (fun _ _ => -6) (fun _ => (1, 0%nat)) (fun _ _ => 0)))) "bAbs" 0%nat = 6.
Proof. split; vm_compute; reflexivity. Qed.

(* arithmetic modulo the group order; the result may lie over the arguments *)
Theorem C97_muladd : forall s a b c, length a = 32%nat -> length b = 32%nat -> length c = 32%nat ->
  has_bytes (cells s) (ptrs s "a") a -> has_bytes (cells s) (ptrs s "b") b -> has_bytes (cells s) (ptrs s "c") c ->
  let m := cells (fst (crun ScMulAdd_code s)) in has_bytes m (ptrs s "s") (ScMulAdd a b c) /\ only_at [ptrs s "s"] (cells s) m.
Proof. exact muladd_code. Qed.
Print Assumptions C97_muladd.
Theorem C97_reduce : forall s b, length b = 64%nat -> has_bytes (cells s) (ptrs s "s") b ->
  let m := cells (fst (crun ScReduce_code s)) in has_bytes m (ptrs s "out") (ScReduce b) /\ only_at [ptrs s "out"] (cells s) m.
Proof. exact reduce_code. Qed.
Print Assumptions C97_reduce.
(* 2 * 2 + 2 with all four pointers equal; 2^253 - 2^252 - ... *)
Example C97_muladd_instance :
  map (cells (fst (crun ScMulAdd_code (State (fun _ _ => 0) (fun _ => (1, 0%nat)) (filled (1, 0%nat) (2 :: repeat 0 31))))) (1, 0%nat)) [0; 1; 31] = [6; 0; 0] /\
  map (cells (fst (crun ScReduce_code (under "s" (1, 0%nat) (filled (1, 0%nat) (map b2z (le_bytes 64 (ell + 513))))))) (9, 0%nat)) [0; 1; 2; 31] = [1; 2; 0; 0].
Proof. split; vm_compute; reflexivity. Qed.

(* ScMinimal *)
Theorem C97_minimal : forall s b, length b = 32%nat -> has_bytes (cells s) (ptrs s "scalar") b -> contains (cells s) (ptrs s "order") order ->
  vars (fst (crun ScMinimal_code s)) "result" 0%nat = (if ScMinimal b then 1 else 0).
Proof. exact minimal_code_ok. Qed.
Print Assumptions C97_minimal.
(* it is the one whose branches show something of what it is given (part of a signature) *)
Theorem C97_minimal_refuted : ~ oblivious ScMinimal_code.
Proof. exact minimal_shows. Qed.
Print Assumptions C97_minimal_refuted.
Example C97_minimal_instance :
  let s z := State (fun _ _ => 0) (fun x => if String.eqb x "order" then (2, 0%nat) else (1, 0%nat))
    (fun l i => if loc_eqb l (2, 0%nat) then nth (Z.to_nat i) order 0 else nth (Z.to_nat i) (map b2z (le_bytes 32 z)) 0) in
  map (fun z => vars (fst (crun ScMinimal_code (s z))) "result" 0%nat) [0; ell - 1; ell; ell + 1] = [1; 1; 0; 0].
Proof. vm_compute. reflexivity. Qed.
