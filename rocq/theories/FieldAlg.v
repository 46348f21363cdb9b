(* The limb operations as operations of the field F, and the power chains. *)
From Verif Require Export SpecCurve FieldBytes.

Lemma limbs_loose A B f : limbs A B f -> A <= 110729625 -> B <= 55364812 -> loose165 f.
Proof. intros H HA HB. exact (limbs_weaken _ _ _ _ f HA HB H). Qed.
Lemma tight_loose f : tight101 f -> loose165 f.
Proof. apply limbs_weaken; discriminate. Qed.
Lemma canon_loose f : canon_limbs f -> limbs 67108863 33554431 f.
Proof. destruct f. cbn [canon_limbs limbs]. intuition lia. Qed.
Lemma FV_zero : FV FeZero = F0. Proof. reflexivity. Qed.
Lemma FV_one : FV FeOne = F1. Proof. reflexivity. Qed.
Lemma limbs_one : limbs 1 0 FeOne. Proof. repeat split; discriminate. Qed.

Lemma FeMul_F f g : loose165 f -> loose165 g -> tight101 (FeMul f g) /\ FV (FeMul f g) = (FV f * FV g)%F.
Proof. intros Hf Hg. destruct (FeMul_ok f g Hf Hg) as [T E]. split; [exact T|]. unfold FV. rewrite <- toF_mul. apply toF_eq. exact E. Qed.
Lemma FeSquare_F f : loose165 f -> tight101 (FeSquare f) /\ FV (FeSquare f) = (FV f * FV f)%F.
Proof. intros Hf. destruct (FeSquare_ok f Hf) as [T E]. split; [exact T|]. unfold FV. rewrite <- toF_mul. apply toF_eq. exact E. Qed.
Lemma FeSquare2_F f : loose165 f -> tight101 (FeSquare2 f) /\ FV (FeSquare2 f) = (toF 2 * (FV f * FV f))%F.
Proof. intros Hf. destruct (FeSquare2_ok f Hf) as [T E]. split; [exact T|]. unfold FV. rewrite <- !toF_mul. apply toF_eq. exact E. Qed.
Lemma FeAdd_F A B A' B' f g : limbs A B f -> limbs A' B' g -> A + A' < 2^31 -> B + B' < 2^31 ->
  limbs (A + A') (B + B') (FeAdd f g) /\ FV (FeAdd f g) = (FV f + FV g)%F.
Proof. intros Hf Hg HA HB. destruct (FeAdd_ok A B A' B' f g Hf Hg HA HB) as [T E]. split; [exact T|]. unfold FV. rewrite <- toF_add, E. reflexivity. Qed.
Lemma FeSub_F A B A' B' f g : limbs A B f -> limbs A' B' g -> A + A' < 2^31 -> B + B' < 2^31 ->
  limbs (A + A') (B + B') (FeSub f g) /\ FV (FeSub f g) = (FV f - FV g)%F.
Proof. intros Hf Hg HA HB. destruct (FeSub_ok A B A' B' f g Hf Hg HA HB) as [T E]. split; [exact T|]. unfold FV. rewrite <- toF_sub, E. reflexivity. Qed.
Lemma FeNeg_F A B f : limbs A B f -> A < 2^31 -> B < 2^31 -> limbs A B (FeNeg f) /\ FV (FeNeg f) = (- FV f)%F.
Proof. intros Hf HA HB. destruct (FeNeg_ok A B f Hf HA HB) as [T E]. split; [exact T|]. unfold FV. rewrite <- toF_opp, E. reflexivity. Qed.
Lemma FeFromBytes_F s : length s = 32%nat -> tight101 (FeFromBytes s) /\ FV (FeFromBytes s) = toF (le_val s mod 2^255).
Proof. intro H. destruct (FeFromBytes_ok s H) as [T E]. split; [exact T|]. apply toF_eq. exact E. Qed.
Lemma FeToBytes_F f : loose165 f -> le_val (fst (FeToBytes f)) = rep (FV f) /\ length (fst (FeToBytes f)) = 32%nat /\
  canon_limbs (snd (FeToBytes f)) /\ FV (snd (FeToBytes f)) = FV f.
Proof.
  intro H. destruct (FeToBytes_ok f H) as (E & L & C & V). split; [exact E|]. split; [exact L|]. split; [exact C|].
  apply toF_eq. unfold eqp. rewrite V. apply Z.mod_mod. pose proof p_pos. lia.
Qed.

(* ---- powers ---- *)
Definition lp (f : fe) (a : F) (k : Z) : Prop := loose165 f /\ FV f = (a ^ k)%F /\ 0 <= k.
Lemma lp_mul f g a j k : lp f a j -> lp g a k -> lp (FeMul f g) a (j + k).
Proof.
  intros (Lf & Ef & Hj) (Lg & Eg & Hk). destruct (FeMul_F f g Lf Lg) as [T E]. split; [apply tight_loose; exact T|].
  split; [|lia]. rewrite E, Ef, Eg, Fpow_add by assumption. reflexivity.
Qed.
Lemma lp_sq f a k : lp f a k -> lp (FeSquare f) a (2 * k).
Proof.
  intros (Lf & Ef & Hk). destruct (FeSquare_F f Lf) as [T E]. split; [apply tight_loose; exact T|]. split; [|lia].
  rewrite E, Ef, <- Fpow_add by assumption. f_equal. lia.
Qed.
Lemma lp_sqn n f a k : lp f a k -> lp (sqn n f) a (2 ^ Z.of_nat n * k).
Proof.
  intro H. unfold sqn. induction n as [|n IH]; [cbn [Nat.iter]; rewrite Z.pow_0_r, Z.mul_1_l; exact H|].
  cbn [Nat.iter nat_rect]. rewrite Nat2Z.inj_succ, Z.pow_succ_r, <- Z.mul_assoc by lia. apply lp_sq. exact IH.
Qed.
Ltac chain y :=
  elim_let y;
  let H := fresh "L" in
  eassert (H : lp y _ _) by (unfold y; first [apply lp_mul; eassumption | apply lp_sqn; eassumption | apply lp_sq; eassumption]);
  clearbody y;
  lazymatch type of H with lp _ _ ?K => let v := eval vm_compute in K in change K with v in H end.

Lemma FeInvert_F z : loose165 z -> tight101 (FeInvert z) /\ FV (FeInvert z) = Finv (FV z).
Proof.
  intro Hz. assert (L0 : lp z (FV z) 1) by (split; [exact Hz|split; [symmetry; apply Fpow_1|lia]]).
  pattern (FeInvert z). match goal with |- ?Q _ => set (P := Q) end. cbv beta delta [FeInvert].
  repeat (let y := fresh "t" in chain y).
  match goal with |- P (FeMul ?a ?b) => match goal with A : lp a _ ?j, B : lp b _ ?k |- _ =>
    destruct A as (A1 & A2 & A3), B as (B1 & B2 & B3); destruct (FeMul_F a b A1 B1) as [T E];
    assert (X : FV (FeMul a b) = (FV z ^ (j + k))%F) by (rewrite Fpow_add by assumption; rewrite E; f_equal; assumption) end end.
  subst P. cbv beta. split; [exact T|]. rewrite X. reflexivity.
Qed.
Lemma fePow22523_F z : loose165 z -> tight101 (fePow22523 z) /\ FV (fePow22523 z) = (FV z ^ ((p25519 - 5) / 8))%F.
Proof.
  intro Hz. assert (L0 : lp z (FV z) 1) by (split; [exact Hz|split; [symmetry; apply Fpow_1|lia]]).
  pattern (fePow22523 z). match goal with |- ?Q _ => set (P := Q) end. cbv beta delta [fePow22523].
  repeat (let y := fresh "t" in chain y).
  match goal with |- P (FeMul ?a ?b) => match goal with A : lp a _ ?j, B : lp b _ ?k |- _ =>
    destruct A as (A1 & A2 & A3), B as (B1 & B2 & B3); destruct (FeMul_F a b A1 B1) as [T E];
    assert (X : FV (FeMul a b) = (FV z ^ (j + k))%F) by (rewrite Fpow_add by assumption; rewrite E; f_equal; assumption) end end.
  subst P. cbv beta. split; [exact T|]. rewrite X. reflexivity.
Qed.
