(* Property theorems about points: C61, C62. *)
From Verif Require Import GroupFacts PointBytes DecodeFacts.
Local Open Scope Z_scope.

(* C61 *)
Theorem C61_add : forall p q P Q, ext_rep p P -> cached_rep q Q -> on P -> on Q -> comp_rep (geAdd p q) (padd P Q).
Proof. exact geAdd_ok. Qed.
Print Assumptions C61_add.

Theorem C61_sub : forall p q P Q, ext_rep p P -> cached_rep q Q -> on P -> on Q -> comp_rep (geSub p q) (padd P (pneg Q)).
Proof. exact geSub_ok. Qed.
Print Assumptions C61_sub.

Theorem C61_mixed_add : forall p q P Q, ext_rep p P -> pre_rep q Q -> on P -> on Q -> comp_rep (geMixedAdd p q) (padd P Q).
Proof. exact geMixedAdd_ok. Qed.
Print Assumptions C61_mixed_add.

Theorem C61_mixed_sub : forall p q P Q, ext_rep p P -> pre_rep q Q -> on P -> on Q -> comp_rep (geMixedSub p q) (padd P (pneg Q)).
Proof. exact geMixedSub_ok. Qed.
Print Assumptions C61_mixed_sub.

Theorem C61_double : forall P, on P ->
  (forall p, proj_rep p P -> comp_rep (p_double p) (padd P P)) /\ (forall p, ext_rep p P -> comp_rep (e_double p) (padd P P)).
Proof. exact (fun P O => conj (fun p H => p_double_ok p P H O) (fun p H => e_double_ok p P H O)). Qed.
Print Assumptions C61_double.

Theorem C61_conversions : forall P,
  (forall p, ext_rep p P -> cached_rep (e_to_cached p) P) /\ (forall p, ext_rep p P -> proj_rep (e_to_projective p) P) /\
  (forall p, comp_rep p P -> ext_rep (c_to_extended p) P) /\ (forall p, comp_rep p P -> proj_rep (c_to_projective p) P).
Proof.
  exact (fun P => conj (fun p => to_cached_ok p P) (conj (fun p => proj_of_ext p P)
    (conj (fun p => c_to_extended_ok p P) (fun p => c_to_projective_ok p P)))).
Qed.
Print Assumptions C61_conversions.

Theorem C61_zero : ext_rep e_zero pO /\ proj_rep p_zero pO /\ pre_rep pc_zero pO.
Proof. exact (conj e_zero_ok (conj p_zero_ok pc_zero_ok)). Qed.
Print Assumptions C61_zero.

(* the base point: it has a representation, is not neutral, and is doubled as 2B *)
Example C61_instance : on pB /\ pB <> pO /\ exists p, ext_rep p pB /\ comp_rep (geAdd p (e_to_cached p)) (padd pB pB).
Proof.
  split; [exact on_pB|]. split; [intro H; apply (f_equal (fun P => rep (fst P))) in H; vm_compute in H; discriminate|].
  destruct (decode_encode pB on_pB) as (A & _ & H). exists A. split; [exact H|]. apply C61_add; try exact on_pB; [exact H|].
  apply C61_conversions. exact H.
Qed.

(* C62 *)
Theorem C62_encode : forall P, (forall p, ext_rep p P -> e_to_bytes p = point_bytes P) /\ (forall p, proj_rep p P -> p_to_bytes p = point_bytes P).
Proof. exact (fun P => conj (fun p => e_to_bytes_ok p P) (fun p => p_to_bytes_ok p P)). Qed.
Print Assumptions C62_encode.

Theorem C62_decode_encode : forall P, on P -> exists A, e_from_bytes (point_bytes P) = Some A /\ ext_rep A P.
Proof. exact decode_encode. Qed.
Print Assumptions C62_decode_encode.

Theorem C62_encode_decode : forall s A, length s = 32%nat -> e_from_bytes s = Some A ->
  exists P, on P /\ ext_rep A P /\ snd P = enc_y s /\ (fst P <> F0 -> parity (fst P) = enc_sign s) /\ e_to_bytes A = point_bytes P /\
    (e_to_bytes A = s <-> le_val s mod 2 ^ 255 < p25519 /\ (fst P = F0 -> enc_sign s = 0)).
Proof. exact encode_decode. Qed.
Print Assumptions C62_encode_decode.

(* "only canonical encodings are accepted" is false: y = p + 1, and the neutral element with the sign bit set *)
Theorem C62_canonical_refuted : (exists s A, length s = 32%nat /\ e_from_bytes s = Some A /\ p25519 <= le_val s < 2 ^ 255) /\
  (exists s A, length s = 32%nat /\ e_from_bytes s = Some A /\ le_val s mod 2 ^ 255 < p25519 /\ e_to_bytes A <> s).
Proof. exact noncanonical_accepted. Qed.
Print Assumptions C62_canonical_refuted.

Example C62_instance : exists A, e_from_bytes (point_bytes pB) = Some A /\ e_to_bytes A = x58 :: repeat x66 31.
Proof.
  destruct (decode_encode pB on_pB) as (A & E & H). exists A. split; [exact E|].
  rewrite (e_to_bytes_ok _ _ H). vm_compute. reflexivity.
Qed.
