(* Property theorems for field arithmetic and the key conversion (C50-C53, C55). *)
From Verif Require Import DecodeFacts.

(* C50 *)
Theorem C50_add : forall A B A' B' f g, limbs A B f -> limbs A' B' g -> A + A' < 2^31 -> B + B' < 2^31 ->
  limbs (A + A') (B + B') (FeAdd f g) /\ fval (FeAdd f g) = fval f + fval g.
Proof. exact FeAdd_ok. Qed.
Print Assumptions C50_add.

Theorem C50_sub : forall A B A' B' f g, limbs A B f -> limbs A' B' g -> A + A' < 2^31 -> B + B' < 2^31 ->
  limbs (A + A') (B + B') (FeSub f g) /\ fval (FeSub f g) = fval f - fval g.
Proof. exact FeSub_ok. Qed.
Print Assumptions C50_sub.

Theorem C50_neg : forall A B f, limbs A B f -> A < 2^31 -> B < 2^31 -> limbs A B (FeNeg f) /\ fval (FeNeg f) = - fval f.
Proof. exact FeNeg_ok. Qed.
Print Assumptions C50_neg.

Theorem C50_mul : forall f g, loose165 f -> loose165 g ->
  tight101 (FeMul f g) /\ eqp (fval (FeMul f g)) (fval f * fval g).
Proof. exact FeMul_ok. Qed.
Print Assumptions C50_mul.

Theorem C50_square : forall f, loose165 f ->
  tight101 (FeSquare f) /\ eqp (fval (FeSquare f)) (fval f * fval f).
Proof. exact FeSquare_ok. Qed.
Print Assumptions C50_square.

Theorem C50_square2 : forall f, loose165 f ->
  tight101 (FeSquare2 f) /\ eqp (fval (FeSquare2 f)) (2 * (fval f * fval f)).
Proof. exact FeSquare2_ok. Qed.
Print Assumptions C50_square2.

(* the largest admitted limbs; and a product that must be reduced *)
Definition fe_big : fe := Fe 110729625 (-55364812) 110729625 55364812 (-110729625) 55364812 110729625 (-55364812) 110729625 55364812.
Example C50_instance : loose165 fe_big /\ fval fe_big * fval fe_big > 2 ^ 500 /\
  fval (FeMul fe_big fe_big) mod p25519 = (fval fe_big * fval fe_big) mod p25519 /\ FeSquare fe_big = FeMul fe_big fe_big.
Proof. split; [repeat split; discriminate|]. split; [vm_compute; reflexivity|]. split; vm_compute; reflexivity. Qed.

(* C51 *)
Theorem C51_load : forall s, length s = 32%nat ->
  tight101 (FeFromBytes s) /\ eqp (fval (FeFromBytes s)) (le_val s mod 2 ^ 255).
Proof. exact FeFromBytes_ok. Qed.
Print Assumptions C51_load.

Theorem C51_store : forall h, loose165 h ->
  le_val (fst (FeToBytes h)) = fval h mod p25519 /\ length (fst (FeToBytes h)) = 32%nat /\
  canon_limbs (snd (FeToBytes h)) /\ fval (snd (FeToBytes h)) = fval h mod p25519.
Proof. exact FeToBytes_ok. Qed.
Print Assumptions C51_store.

Theorem C51_store_load : forall s, length s = 32%nat -> let out := fst (FeToBytes (FeFromBytes s)) in
  length out = 32%nat /\ le_val out = (le_val s mod 2 ^ 255) mod p25519.
Proof. exact store_load. Qed.
Print Assumptions C51_store_load.

Theorem C51_tests : forall f, loose165 f ->
  fst (FeIsNegative f) = (fval f mod p25519) mod 2 /\
  fst (FeIsNonZero f) = (if fval f mod p25519 =? 0 then 0 else 1) /\
  canon_limbs (snd (FeIsNegative f)) /\ eqp (fval (snd (FeIsNegative f))) (fval f) /\
  canon_limbs (snd (FeIsNonZero f)) /\ eqp (fval (snd (FeIsNonZero f))) (fval f).
Proof. exact tests_exact. Qed.
Print Assumptions C51_tests.

(* p - 1, p, 2^255 - 1 with the top bit set, and a non-canonical zero *)
Example C51_instance :
  fst (FeToBytes (FeFromBytes (xec :: repeat xff 30 ++ [x7f]))) = xec :: repeat xff 30 ++ [x7f] /\
  fst (FeToBytes (FeFromBytes (xed :: repeat xff 30 ++ [x7f]))) = repeat x00 32 /\
  fst (FeToBytes (FeFromBytes (repeat xff 32))) = x12 :: repeat x00 31 /\
  fst (FeIsNonZero (FeFromBytes (xed :: repeat xff 30 ++ [x7f]))) = 0.
Proof. split; [vm_compute; reflexivity|]. split; [vm_compute; reflexivity|]. split; vm_compute; reflexivity. Qed.

(* C52 *)
Theorem C52_invert : forall z, loose165 z -> tight101 (FeInvert z) /\
  (fval z mod p25519 <> 0 -> eqp (fval z * fval (FeInvert z)) 1) /\
  (fval z mod p25519 = 0 -> eqp (fval (FeInvert z)) 0) /\
  eqp (fval (FeInvert z)) (fval z ^ (p25519 - 2)).
Proof. exact FeInvert_Z. Qed.
Print Assumptions C52_invert.

Theorem C52_pow22523 : forall z, loose165 z ->
  tight101 (fePow22523 z) /\ eqp (fval (fePow22523 z)) (fval z ^ (2 ^ 252 - 3)).
Proof. exact pow22523_Z. Qed.
Print Assumptions C52_pow22523.

Example C52_instance : loose165 fe_d /\ fval fe_d mod p25519 <> 0 /\ loose165 FeZero /\ fval FeZero mod p25519 = 0.
Proof. split; [repeat split; discriminate|]. split; [vm_compute; discriminate|]. split; [repeat split; discriminate|reflexivity]. Qed.

(* C53 *)
Theorem C53_to_box : forall a num k, length k = 32%nat ->
  match pub_ToBox (Pub a num k) with
  | Ok b => (exists x, on_curve x (enc_y k)) /\ F_encodes b ((F1 + enc_y k) / (F1 - enc_y k))%F
  | Err e => (forall x, ~ on_curve x (enc_y k)) /\ e = EMsg (str "signify: invalid public key")
  | Panic => False
  end.
Proof. exact pub_ToBox_ok. Qed.
Print Assumptions C53_to_box.

(* in the specification 1/0 = 0, so the case y = 1 gives 0 *)
Theorem C53_division : Finv F0 = F0 /\ forall x, x <> F0 -> (Finv x * x = F1)%F.
Proof. exact (conj Finv_0 Finv_l). Qed.
Print Assumptions C53_division.

Theorem C53_sign_bit : forall a a' num num' k k', length k = 32%nat -> length k' = 32%nat ->
  enc_y k = enc_y k' -> pub_ToBox (Pub a num k) = pub_ToBox (Pub a' num' k').
Proof. exact pub_ToBox_sign. Qed.
Print Assumptions C53_sign_bit.

Theorem C53_sign_bit_bytes : forall k k', length k = 32%nat -> length k' = 32%nat ->
  firstn 31 k = firstn 31 k' -> b2z (nth 31 k x00) mod 128 = b2z (nth 31 k' x00) mod 128 -> enc_y k = enc_y k'.
Proof. exact low255. Qed.
Print Assumptions C53_sign_bit_bytes.

Theorem C53_from_bytes : forall s, length s = 32%nat ->
  match e_from_bytes s with
  | Some A => decoded s A
  | None => forall x, ~ on_curve x (enc_y s)
  end.
Proof. exact e_from_bytes_ok. Qed.
Print Assumptions C53_from_bytes.

(* the base point (y = 4/5) converts to 9, with either sign; y = 2 is refused *)
Example C53_instance :
  pub_ToBox (Pub (str "Ed") (repeat x00 8) base_y) = Ok (x09 :: repeat x00 31) /\
  pub_ToBox (Pub (str "Ed") (repeat x00 8) (x58 :: repeat x66 30 ++ [xe6])) = Ok (x09 :: repeat x00 31) /\
  pub_ToBox (Pub (str "Ed") (repeat x00 8) (x02 :: repeat x00 31)) = Err (EMsg (str "signify: invalid public key")).
Proof.
  split; [apply base_ToBox|]. split; [|apply two_ToBox].
  rewrite (C53_sign_bit _ (str "Ed") _ (repeat x00 8) _ base_y) by reflexivity. apply base_ToBox.
Qed.

(* C55 *)
Theorem C55_zero_key : forall a num k, length k = 32%nat ->
  (pub_ToBox (Pub a num k) = Ok (repeat x00 32) <-> enc_y k = F1 \/ enc_y k = (- F1)%F).
Proof. exact pub_ToBox_zero. Qed.
Print Assumptions C55_zero_key.

(* "the conversion rejects keys whose box key is all zero" is false *)
Theorem C55_rejected_refuted : exists p, length (p_key p) = 32%nat /\ pub_ToBox p = Ok (repeat x00 32).
Proof. exact neutral_accepted. Qed.
Print Assumptions C55_rejected_refuted.

Example C55_instance : enc_y (x01 :: repeat x00 31) = F1 /\ enc_y (xec :: repeat xff 31) = (- F1)%F /\
  enc_y (xee :: repeat xff 30 ++ [x7f]) = F1.
Proof. split; [F_eq_compute|]. split; F_eq_compute. Qed.
