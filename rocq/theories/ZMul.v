(* Integer multiples of a point. *)
From Verif Require Export EdGroup.
Local Open Scope Z_scope.

Lemma pneg_pneg P : pneg (pneg P) = P.
Proof. destruct P as [x y]. unfold pneg. cbn [fst snd]. f_equal. ring. Qed.
Lemma pneg_O : pneg pO = pO.
Proof. unfold pneg, pO. cbn [fst snd]. replace (- F0)%F with F0 by ring. reflexivity. Qed.
Lemma pneg_padd P Q : pneg (padd P Q) = padd (pneg P) (pneg Q).
Proof.
  destruct P as [x1 y1], Q as [x2 y2]. unfold pneg, padd. cbn [fst snd].
  replace (curve_d * - x1 * - x2 * y1 * y2)%F with (curve_d * x1 * x2 * y1 * y2)%F by ring.
  f_equal; unfold Fdiv; ring.
Qed.
Lemma padd_neg_r P : on P -> padd P (pneg P) = pO.
Proof. intro O. rewrite padd_comm. apply padd_neg. exact O. Qed.
Lemma zmul_nat n P : zmul (Z.of_nat n) P = pmul n P.
Proof. unfold zmul. rewrite (proj2 (Z.ltb_ge _ _)) by lia. rewrite Nat2Z.id. reflexivity. Qed.
Lemma zmul_pos n P : 0 <= n -> zmul n P = pmul (Z.to_nat n) P.
Proof. intro H. unfold zmul. rewrite (proj2 (Z.ltb_ge _ _)) by lia. reflexivity. Qed.
Lemma zmul_0 P : zmul 0 P = pO. Proof. reflexivity. Qed.
Lemma zmul_1 P : zmul 1 P = P. Proof. apply pmul_1. Qed.
Lemma zmul_opp n P : zmul (- n) P = pneg (zmul n P).
Proof.
  unfold zmul. destruct (Z.ltb_spec (- n) 0), (Z.ltb_spec n 0); try lia.
  - rewrite Z.opp_involutive. reflexivity.
  - rewrite pneg_pneg. reflexivity.
  - assert (n = 0) as -> by lia. change (pmul (Z.to_nat (- 0)) P) with pO. change (pmul (Z.to_nat 0) P) with pO. symmetry. exact pneg_O.
Qed.
Lemma on_zmul n P : on P -> on (zmul n P).
Proof. intro O. unfold zmul. destruct (n <? 0); [apply on_pneg|]; apply on_pmul; exact O. Qed.
Lemma zmul_succ n P : on P -> zmul (Z.succ n) P = padd P (zmul n P).
Proof.
  intro O. unfold zmul. destruct (Z.ltb_spec n 0), (Z.ltb_spec (Z.succ n) 0); try lia.
  - replace (Z.to_nat (- n)) with (S (Z.to_nat (- Z.succ n))) by lia. rewrite pmul_S, pneg_padd.
    set (Q := pmul (Z.to_nat (- Z.succ n)) P). assert (OQ : on Q) by (apply on_pmul; exact O).
    rewrite <- padd_assoc by (try apply on_pneg; assumption). rewrite padd_neg_r, padd_O_l by exact O. reflexivity.
  - assert (n = -1) as -> by lia. change (Z.to_nat (Z.succ (-1))) with 0%nat. change (Z.to_nat (- -1)) with 1%nat. rewrite pmul_1, padd_neg_r by exact O. reflexivity.
  - rewrite Z2Nat.inj_succ by assumption. apply pmul_S.
Qed.
Lemma zmul_pred n P : on P -> zmul (Z.pred n) P = padd (pneg P) (zmul n P).
Proof.
  intro O. rewrite <- (Z.succ_pred n) at 2. rewrite zmul_succ by exact O.
  rewrite <- padd_assoc by (try apply on_pneg; try apply on_zmul; exact O). rewrite padd_neg, padd_O_l by exact O. reflexivity.
Qed.
Lemma zmul_add m n P : on P -> zmul (m + n) P = padd (zmul m P) (zmul n P).
Proof.
  intro O. revert m. apply Z.bi_induction; [intros ? ? ->; tauto|rewrite zmul_0, padd_O_l; reflexivity|].
  intro m. rewrite Z.add_succ_l, !zmul_succ by exact O. rewrite padd_assoc by (try apply on_zmul; exact O).
  split; [intros ->; reflexivity|]. intro H. apply (f_equal (padd (pneg P))) in H.
  rewrite <- !padd_assoc in H by (try apply on_padd; try apply on_pneg; try apply on_zmul; exact O).
  rewrite padd_neg, padd_O_l in H by exact O. rewrite H. rewrite padd_O_l. reflexivity.
Qed.
Lemma zmul_mul m n P : on P -> zmul m (zmul n P) = zmul (m * n) P.
Proof.
  intro O. revert m. apply Z.bi_induction; [intros ? ? ->; tauto|reflexivity|].
  intro m. rewrite zmul_succ by (apply on_zmul; exact O). rewrite Z.mul_succ_l, Z.add_comm, zmul_add by exact O.
  split; [intros ->; reflexivity|]. intro H. apply (f_equal (padd (pneg (zmul n P)))) in H.
  rewrite <- !padd_assoc in H by (repeat first [apply on_padd | apply on_pneg | apply on_zmul]; exact O).
  rewrite !padd_neg, !padd_O_l in H by (apply on_zmul; exact O). exact H.
Qed.
Lemma zmul_2 P : on P -> zmul 2 P = padd P P.
Proof. intro O. change 2 with (Z.succ 1). rewrite zmul_succ, zmul_1 by exact O. reflexivity. Qed.
Lemma zmul_O n : zmul n pO = pO.
Proof. unfold zmul. rewrite !pmul_O. destruct (n <? 0); [exact pneg_O|reflexivity]. Qed.
Lemma zmul_padd n P Q : on P -> on Q -> zmul n (padd P Q) = padd (zmul n P) (zmul n Q).
Proof.
  intros OP OQ. revert n. assert (OS : on (padd P Q)) by (apply on_padd; assumption).
  assert (S1 : forall n, zmul n (padd P Q) = padd (zmul n P) (zmul n Q) -> zmul (Z.succ n) (padd P Q) = padd (zmul (Z.succ n) P) (zmul (Z.succ n) Q)).
  { intros n H. rewrite !zmul_succ by assumption. rewrite H. set (A := zmul n P). set (B := zmul n Q).
    assert (on A /\ on B) as [OA OB] by (split; apply on_zmul; assumption). clearbody A B.
    rewrite padd_assoc, (padd_assoc P A (padd Q B)) by (repeat apply on_padd; assumption). f_equal.
    rewrite <- padd_assoc by assumption. rewrite (padd_comm Q A), padd_assoc by assumption. reflexivity. }
  intro n. destruct (Z.le_gt_cases 0 n) as [H|H].
  - pattern n. apply natlike_ind; [rewrite !zmul_0, padd_O_l; reflexivity|intros; apply S1; assumption|exact H].
  - rewrite <- (Z.opp_involutive n), !(zmul_opp (- n)), <- pneg_padd. f_equal.
    pattern (- n). apply natlike_ind; [rewrite !zmul_0, padd_O_l; reflexivity|intros; apply S1; assumption|lia].
Qed.
