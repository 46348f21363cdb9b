(* Property theorems: scalar multiplication on edwards25519. *)
From Verif Require Import ScalarKeys DecodeFacts NumTheory OrderPrime.
Local Open Scope Z_scope.

(* C63 *)
Theorem C63_digits : forall a, length (slide a) = 256%nat /\
  (forall d, In d (slide a) -> d = 0 \/ (Z.odd d = true /\ -15 <= d <= 15)) /\
  (forall i j, (i < j <= i + 4)%nat -> nth i (slide a) 0 <> 0 -> nth j (slide a) 0 = 0).
Proof. exact slide_shape. Qed.
Print Assumptions C63_digits.

Theorem C63_value : forall a, length a = 32%nat ->
  dval 2 (slide a) mod 2 ^ 256 = le_val a /\ (le_val a <= 2 ^ 255 -> dval 2 (slide a) = le_val a).
Proof. exact (fun a L => conj (slide_mod a L) (slide_val a L)). Qed.
Print Assumptions C63_value.

(* beyond 2^255 the carry out of the last digit is lost *)
Theorem C63_any_value_refuted : exists a, length a = 32%nat /\ le_val a = 2 ^ 256 - 1 /\ dval 2 (slide a) = -1.
Proof. exact (ex_intro _ all_ones (conj eq_refl (conj eq_refl slide_all_ones))). Qed.
Print Assumptions C63_any_value_refuted.

Example C63_instance : firstn 12 (slide (x2f :: repeat x00 31)) = [15; 0; 0; 0; 0; 1; 0; 0; 0; 0; 0; 0] /\
  firstn 12 (slide (x1f :: repeat x00 31)) = [-1; 0; 0; 0; 0; 1; 0; 0; 0; 0; 0; 0].
Proof. split; vm_compute; reflexivity. Qed.

(* C64 *)
Theorem C64_mult : forall a, length a = 32%nat -> byte_at a 31 <= 127 -> ext_rep (GeScalarMultBase a) (zmul (le_val a) pB).
Proof. exact scalar_mult_base_ok. Qed.
Print Assumptions C64_mult.

Theorem C64_public_key : forall hash seed, length (hash seed) = 64%nat ->
  e_to_bytes (GeScalarMultBase (fit 32 (clamp (hash seed)))) = Ed25519_public hash seed.
Proof. exact public_key. Qed.
Print Assumptions C64_public_key.

(* the documented precondition is needed *)
Theorem C64_any_scalar_refuted : exists a, length a = 32%nat /\ ext_rep (GeScalarMultBase a) pO /\ zmul (le_val a) pB <> pO.
Proof. exact (ex_intro _ top_0x90 (conj eq_refl base_top_0x90)). Qed.
Print Assumptions C64_any_scalar_refuted.

Example C64_instance : e_to_bytes (GeScalarMultBase (x02 :: repeat x00 31)) = point_bytes (padd pB pB) /\ padd pB pB <> pO /\ padd pB pB <> pB.
Proof.
  split; [|destruct pB_double; split; assumption].
  rewrite (e_to_bytes_ok _ _ (C64_mult (x02 :: repeat x00 31) eq_refl ltac:(discriminate))). rewrite <- zmul_2 by exact on_pB. reflexivity.
Qed.

(* C65 *)
Theorem C65_mult : forall a b A P, on P -> ext_rep A P -> length a = 32%nat -> length b = 32%nat ->
  le_val a <= 2 ^ 255 -> le_val b <= 2 ^ 255 ->
  proj_rep (GeDoubleScalarMultVartime a A b) (padd (zmul (le_val a) P) (zmul (le_val b) pB)) /\
  p_to_bytes (GeDoubleScalarMultVartime a A b) = point_bytes (padd (zmul (le_val a) P) (zmul (le_val b) pB)).
Proof. exact (fun a b A P O H La Lb Ra Rb => let D := double_scalar_ok a b A P O H La Lb Ra Rb in conj D (p_to_bytes_ok _ _ D)). Qed.
Print Assumptions C65_mult.

(* for any scalars the result is a combination of A and B with the recoded scalars *)
Theorem C65_any_scalar : forall a b A P, on P -> ext_rep A P ->
  proj_rep (GeDoubleScalarMultVartime a A b) (padd (zmul (dval 2 (slide a)) P) (zmul (dval 2 (slide b)) pB)).
Proof. exact double_scalar_gen. Qed.
Print Assumptions C65_any_scalar.

(* the doc comment states no bound on the scalars *)
Theorem C65_doc_refuted : exists a b A, length a = 32%nat /\ length b = 32%nat /\ ext_rep A pB /\
  ~ proj_rep (GeDoubleScalarMultVartime a A b) (padd (zmul (le_val a) pB) (zmul (le_val b) pB)).
Proof. exact double_doc_refuted. Qed.
Print Assumptions C65_doc_refuted.

Example C65_instance : exists A, ext_rep A pB /\
  proj_rep (GeDoubleScalarMultVartime (x02 :: repeat x00 31) A (x01 :: repeat x00 31)) (zmul 3 pB) /\ zmul 3 pB <> pO.
Proof.
  destruct (decode_encode pB on_pB) as (A & _ & H). exists A. split; [exact H|]. split.
  - destruct (C65_mult (x02 :: repeat x00 31) (x01 :: repeat x00 31) A pB on_pB H eq_refl eq_refl ltac:(discriminate) ltac:(discriminate)) as [D _].
    rewrite <- zmul_add in D by exact on_pB. exact D.
  - intro E. apply B_order in E. destruct E as [k E]. apply (f_equal (fun z => z mod ell)) in E. rewrite Z.mod_mul in E by discriminate. vm_compute in E. discriminate E.
Qed.

(* C66 *)
Theorem C66_base_table : forall i j, (i < 32)%nat -> (j < 8)%nat ->
  pre_rep (nth j (nth i base []) pc_zero) (zmul ((Z.of_nat j + 1) * 256 ^ Z.of_nat i) pB).
Proof. exact (fun i j Hi Hj => pre_tight_rep _ _ (base_ok i j pc_zero Hi Hj)). Qed.
Print Assumptions C66_base_table.

Theorem C66_odd_table : forall j, (j < 8)%nat -> pre_rep (nth j bi pc_zero) (zmul (2 * Z.of_nat j + 1) pB).
Proof. exact (fun j Hj => pre_tight_rep _ _ (bi_ok j pc_zero Hj)). Qed.
Print Assumptions C66_odd_table.

Theorem C66_select : forall pos d, (pos < 32)%nat -> -8 <= d <= 8 -> pre_rep (selectPoint pos d) (zmul (d * 256 ^ Z.of_nat pos) pB).
Proof. exact selectPoint_ok. Qed.
Print Assumptions C66_select.

(* the base point generates a group of prime order l *)
Theorem C66_order : prime ell /\ (forall m n, zmul m pB = zmul n pB <-> m mod ell = n mod ell).
Proof. exact (conj prime_ell zmul_B_eq). Qed.
Print Assumptions C66_order.

Example C66_instance : length base = 32%nat /\ Forall (fun r => length r = 8%nat) base /\ length bi = 8%nat /\ zmul ell pB = pO /\ zmul (ell - 1) pB = pneg pB.
Proof.
  split; [reflexivity|]. split; [repeat constructor|]. split; [reflexivity|]. split; [exact order_B|].
  rewrite <- (zmul_1 pB) at 2. rewrite <- zmul_opp. apply C66_order. vm_compute. reflexivity.
Qed.
