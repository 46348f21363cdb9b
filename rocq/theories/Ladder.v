(* The Montgomery ladder computes multiples of points of the Edwards curve. *)
From Verif Require Export SpecX25519 EdGroup.
Local Open Scope F_scope.

(* the u-coordinate (1+y)/(1-y); 0 for y = 1 *)
Definition umap (P : point) : F := (F1 + snd P) / (F1 - snd P).
(* X:Z is a ratio for the u-coordinate of P *)
Definition urep (X Z : F) (P : point) : Prop :=
  exists l, l <> F0 /\ X = l * (F1 + snd P) /\ Z = l * (F1 - snd P).

Lemma urep_intro X Z P : X * (F1 - snd P) = Z * (F1 + snd P) -> ~ (X = F0 /\ Z = F0) -> urep X Z P.
Proof.
  intros H N. set (y := snd P) in *.
  assert (HX : (X + Z) / toF 2 * (F1 + y) = X).
  { transitivity ((X + X * y + (Z * (F1 + y))) / toF 2); [field; exact F2_nz|]. rewrite <- H. field. exact F2_nz. }
  assert (HZ : (X + Z) / toF 2 * (F1 - y) = Z).
  { transitivity ((Z - Z * y + (X * (F1 - y))) / toF 2); [field; exact F2_nz|]. rewrite H. field. exact F2_nz. }
  exists ((X + Z) / toF 2). fold y. split; [|split; symmetry; assumption].
  intro Q. apply N. rewrite Q in HX, HZ. split; [rewrite <- HX|rewrite <- HZ]; ring.
Qed.
Lemma urep_y X Z P Q : snd P = snd Q -> urep X Z P -> urep X Z Q.
Proof. intros E H. unfold urep in *. rewrite <- E. exact H. Qed.

Lemma d_121666 : toF 121666 * curve_d + a24 = F0.
Proof. rewrite <- fe_d_F. apply F_eq. vm_compute. reflexivity. Qed.
Lemma a24_1 : toF 121666 = a24 + F1.
Proof. apply F_eq. vm_compute. reflexivity. Qed.

(* doubling *)
Lemma dbl_ok X Z P : on P -> urep X Z P ->
  let AA := (X + Z) * (X + Z) in let BB := (X - Z) * (X - Z) in let E := AA - BB in
  urep (AA * BB) (E * (AA + a24 * E)) (padd P P).
Proof.
  destruct P as [x y]. intros C (l & Nl & -> & ->). cbn [snd]. cbv zeta. unfold on in C. cbn [fst snd] in C.
  pose proof (den_minus _ _ _ _ C C) as ND.
  assert (K : y * y - x * x - F1 = curve_d * x * x * y * y) by (unfold on_curve in C; rewrite C; ring).
  set (W := F1 - curve_d * x * x * y * y) in *.
  assert (EW : W = toF 2 - y * y + x * x) by (unfold W; rewrite <- K; change (toF 2) with (F1 + F1) || (replace (toF 2) with (F1 + F1) by ring); ring).
  apply urep_intro; cbn [padd snd]; fold W.
  - transitivity (toF 16 * (l * l * l * l) * (y * y) * (F1 - (y * y + x * x) / W)); [ring|].
    transitivity (toF 16 * (l * l * l * l) * ((F1 - y * y) * (F1 + a24 * (F1 - y * y))) * (F1 + (y * y + x * x) / W)); [|ring].
    apply (F_mul_cancel _ _ W ND).
    transitivity (toF 16 * (l * l * l * l) * (y * y) * (W - (y * y + x * x))); [field; exact ND|].
    transitivity (toF 16 * (l * l * l * l) * ((F1 - y * y) * (F1 + a24 * (F1 - y * y))) * (W + (y * y + x * x))); [|field; exact ND].
    rewrite EW. apply F_sub_0.
    transitivity (toF 32 * (l * l * l * l) * (F1 - y * y) * ((y * y - x * x - F1) * (F1 + a24) + a24 * x * x * y * y)); [ring|].
    rewrite K. transitivity (toF 32 * (l * l * l * l) * (F1 - y * y) * (x * x * y * y) * (curve_d * (a24 + F1) + a24)); [ring|].
    rewrite <- a24_1. transitivity (toF 32 * (l * l * l * l) * (F1 - y * y) * (x * x * y * y) * (toF 121666 * curve_d + a24)); [ring|].
    rewrite d_121666. ring.
  - intros [H1 H2].
    assert (N4 : toF 16 * (l * l * l * l) <> F0).
    { apply F_mul_nz; [apply toF_nz; vm_compute; discriminate|]. repeat apply F_mul_nz; exact Nl. }
    assert (Y0 : y = F0).
    { apply F_square_0. assert (Q : toF 16 * (l * l * l * l) * (y * y) = F0) by (rewrite <- H1; ring).
      apply F_integral in Q. destruct Q as [Q|Q]; [contradiction|exact Q]. }
    subst y. assert (Q : toF 16 * (l * l * l * l) * (a24 + F1) = F0) by (rewrite <- H2; ring).
    apply F_integral in Q. destruct Q as [Q|Q]; [contradiction|]. rewrite <- a24_1 in Q. exact (c121666_nz Q).
Qed.

Lemma on_y_pm1 P : on P -> snd P * snd P = F1 -> fst P = F0.
Proof.
  destruct P as [x y]. unfold on, on_curve. cbn [fst snd]. intros C Y. rewrite Y in C.
  assert (Q : x * x * (F1 + curve_d) = F0).
  { transitivity ((F1 + curve_d * (x * x) * F1) - (F1 - x * x)); [ring|]. rewrite <- C. ring. }
  apply F_integral in Q. destruct Q as [Q|Q]; [apply F_square_0; exact Q|exfalso].
  apply (dy2_1_nz F1). rewrite <- Q. ring.
Qed.

(* differential addition *)
Lemma dadd_ok u X2 Z2 X3 Z3 Q2 Q3 P : on P -> on Q2 -> Q3 = padd Q2 P -> snd P <> F1 -> snd P <> - F1 -> u = umap P ->
  urep X2 Z2 Q2 -> urep X3 Z3 Q3 ->
  let DA := (X3 - Z3) * (X2 + Z2) in let CB := (X3 + Z3) * (X2 - Z2) in
  urep ((DA + CB) * (DA + CB)) (u * ((DA - CB) * (DA - CB))) (padd Q2 Q3).
Proof.
  intros CP C2 E3 N1 N2 Eu (l & Nl & -> & ->) (m & Nm & -> & ->). cbv zeta.
  assert (C3 : on Q3) by (rewrite E3; apply on_padd; assumption).
  assert (EP : padd (pneg Q2) Q3 = P).
  { rewrite E3, <- padd_assoc, padd_neg by auto using on_pneg. apply padd_O_l. }
  clear E3. rewrite <- EP in *. clear EP CP P.
  destruct Q2 as [x1 y1], Q3 as [x2 y2]. unfold on in C2, C3. cbn [fst snd] in C2, C3.
  assert (Cn : on_curve (- x1) y1) by exact (on_pneg (x1, y1) C2).
  pose proof (cert_diff x1 y1 x2 y2 ee (on_e _ _ C2) (on_e _ _ C3)) as K.
  pose proof (eA_nz _ _ _ _ C2 C3) as NA. pose proof (eB_nz _ _ _ _ C2 C3) as NB.
  set (y := snd (padd (pneg (x1, y1)) (x2, y2))) in *.
  assert (Ey : y * (ee + x1 * x2 * y1 * y2) = ee * (y1 * y2 - x1 * x2)).
  { unfold y, pneg. cbn [fst snd]. rewrite (padd_e _ _ _ _ Cn C3). cbn [snd].
    pose proof (eB_nz _ _ _ _ Cn C3) as NB'. transitivity (ee * (y1 * y2 + - x1 * x2) / (ee - - x1 * x2 * y1 * y2) * (ee - - x1 * x2 * y1 * y2)); [ring|]. field. exact NB'. }
  set (s := snd (padd (x1, y1) (x2, y2))) in *.
  assert (Es : s * (ee - x1 * x2 * y1 * y2) = ee * (y1 * y2 + x1 * x2)).
  { unfold s. rewrite (padd_e _ _ _ _ C2 C3). cbn [snd]. field. exact NB. }
  assert (Ku : u * (F1 - y) = F1 + y).
  { rewrite Eu. unfold umap. fold y. field. intro Q. apply N1. symmetry. apply F_sub_0. exact Q. }
  set (A := ee + x1 * x2 * y1 * y2) in *. set (B := ee - x1 * x2 * y1 * y2) in *.
  assert (K' : (y1 + y2) * (y1 + y2) * (F1 - s) * (F1 - y) = (y2 - y1) * (y2 - y1) * (F1 + s) * (F1 + y)).
  { apply (F_mul_cancel _ _ (A * B)); [apply F_mul_nz; assumption|].
    transitivity ((y1 + y2) * (y1 + y2) * (B - s * B) * (A - y * A)); [ring|].
    transitivity ((y2 - y1) * (y2 - y1) * (B + s * B) * (A + y * A)); [|ring]. rewrite Ey, Es. exact K. }
  assert (Nu : u <> F0).
  { intro Q. apply N2. apply F_sub_0. transitivity (F1 + y); [ring|]. rewrite <- Ku, Q. ring. }
  apply urep_intro.
  - fold s. cbn [snd]. apply (F_mul_cancel _ _ (F1 - y)).
    { intro Q. apply N1. symmetry. apply F_sub_0. exact Q. }
    transitivity (toF 16 * (l * l * m * m) * ((y1 + y2) * (y1 + y2) * (F1 - s) * (F1 - y))); [ring|].
    rewrite K'. rewrite <- Ku. ring.
  - cbn [snd]. intros [H1 H2].
    assert (N4 : toF 4 * (l * m) <> F0).
    { apply F_mul_nz; [apply toF_nz; vm_compute; discriminate|]. apply F_mul_nz; assumption. }
    assert (S0 : y1 + y2 = F0).
    { apply F_square_0 in H1. assert (Q : toF 4 * (l * m) * (y1 + y2) = F0) by (rewrite <- H1; ring).
      apply F_integral in Q. tauto. }
    assert (D0 : y2 - y1 = F0).
    { apply F_integral in H2. destruct H2 as [H2|H2]; [contradiction|]. apply F_square_0 in H2.
      assert (Q : toF 4 * (l * m) * (y2 - y1) = F0) by (rewrite <- H2; ring). apply F_integral in Q. tauto. }
    assert (Y2 : y2 = F0).
    { assert (Q : toF 2 * y2 = F0) by (transitivity ((y1 + y2) + (y2 - y1)); [ring|]; rewrite S0, D0; ring).
      apply F_integral in Q. destruct Q as [Q|Q]; [elim (F2_nz Q)|exact Q]. }
    assert (Y1 : y1 = F0) by (rewrite Y2 in S0; rewrite <- S0; ring).
    subst y1 y2. unfold on_curve in C2, C3.
    assert (X1 : x1 * x1 = - F1) by (apply F_sub_0; transitivity (- ((F0 * F0 - x1 * x1) - (F1 + curve_d * (x1 * x1) * (F0 * F0)))); [ring|]; rewrite C2; ring).
    assert (X2 : x2 * x2 = - F1) by (apply F_sub_0; transitivity (- ((F0 * F0 - x2 * x2) - (F1 + curve_d * (x2 * x2) * (F0 * F0)))); [ring|]; rewrite C3; ring).
    assert (Y : y = - (x1 * x2)).
    { apply (F_mul_cancel _ _ A NA). rewrite Ey. unfold A. ring. }
    assert (YY : y * y = F1) by (rewrite Y; transitivity ((x1 * x1) * (x2 * x2)); [ring|]; rewrite X1, X2; ring).
    apply sqrt_one in YY. tauto.
Qed.

(* ---- the loop ---- *)
Definition lad_inv (P : point) (m : nat) (l : lad) : Prop :=
  (l_swap l = 0%Z /\ urep (l_x2 l) (l_z2 l) (pmul m P) /\ urep (l_x3 l) (l_z3 l) (pmul (S m) P)) \/
  (l_swap l = 1%Z /\ urep (l_x3 l) (l_z3 l) (pmul m P) /\ urep (l_x2 l) (l_z2 l) (pmul (S m) P)).

(* the step once the operands are in place *)
Lemma core_step u X2 Z2 X3 Z3 P Q2 Q3 : on P -> snd P <> F1 -> snd P <> - F1 -> u = umap P -> on Q2 ->
  Q3 = padd Q2 P \/ Q3 = padd Q2 (pneg P) -> urep X2 Z2 Q2 -> urep X3 Z3 Q3 ->
  let A := X2 + Z2 in let AA := A * A in let B := X2 - Z2 in let BB := B * B in let E := AA - BB in
  let C := X3 + Z3 in let D := X3 - Z3 in let DA := D * A in let CB := C * B in
  urep (AA * BB) (E * (AA + a24 * E)) (padd Q2 Q2) /\
  urep ((DA + CB) * (DA + CB)) (u * ((DA - CB) * (DA - CB))) (padd Q2 Q3).
Proof.
  intros CP N1 N2 Eu C2 E3 R2 R3. cbv zeta. split; [exact (dbl_ok X2 Z2 Q2 C2 R2)|].
  destruct E3 as [E3|E3].
  - exact (dadd_ok u X2 Z2 X3 Z3 Q2 Q3 P CP C2 E3 N1 N2 Eu R2 R3).
  - exact (dadd_ok u X2 Z2 X3 Z3 Q2 Q3 (pneg P) (on_pneg P CP) C2 E3 N1 N2 Eu R2 R3).
Qed.

Lemma lad_step_ok P k t m l : on P -> snd P <> F1 -> snd P <> - F1 -> lad_inv P m l ->
  lad_inv P (2 * m + Z.to_nat (Z.shiftr k t mod 2)) (lad_step (umap P) k t l).
Proof.
  intros CP N1 N2 I. assert (Hk : (Z.shiftr k t mod 2 = 0 \/ Z.shiftr k t mod 2 = 1)%Z).
  { pose proof (Z.mod_pos_bound (Z.shiftr k t) 2 ltac:(lia)). lia. }
  destruct l as [X2 Z2 X3 Z3 sw]. unfold lad_inv in I. cbn [l_swap l_x2 l_z2 l_x3 l_z3] in I. unfold lad_step. cbn [l_swap l_x2 l_z2 l_x3 l_z3].
  pose proof (on_pmul m P CP) as Cm. pose proof (on_pmul (S m) P CP) as Cm1.
  assert (S1 : pmul (S m) P = padd (pmul m P) P) by (rewrite pmul_S; apply padd_comm).
  assert (S2 : pmul m P = padd (pmul (S m) P) (pneg P)).
  { rewrite S1, padd_assoc, (padd_comm P), padd_neg, padd_O_r by auto using on_pneg. reflexivity. }
  assert (T0 : padd (pmul m P) (pmul m P) = pmul (2 * m) P) by (rewrite <- pmul_add by exact CP; f_equal; lia).
  assert (T1 : padd (pmul m P) (pmul (S m) P) = pmul (S (2 * m)) P) by (rewrite <- pmul_add by exact CP; f_equal; lia).
  assert (T1' : padd (pmul (S m) P) (pmul m P) = pmul (S (2 * m)) P) by (rewrite <- pmul_add by exact CP; f_equal; lia).
  assert (T2 : padd (pmul (S m) P) (pmul (S m) P) = pmul (S (S (2 * m))) P) by (rewrite <- pmul_add by exact CP; f_equal; lia).
  destruct Hk as [-> | ->].
  - assert (G : exists X2' Z2' X3' Z3', cswap (Z.lxor sw 0) X2 X3 = (X2', X3') /\ cswap (Z.lxor sw 0) Z2 Z3 = (Z2', Z3') /\
      urep X2' Z2' (pmul m P) /\ urep X3' Z3' (pmul (S m) P)).
    { destruct I as [(-> & A & B)|(-> & A & B)]; [exists X2, Z2, X3, Z3|exists X3, Z3, X2, Z2]; repeat split; assumption. }
    destruct G as (X2' & Z2' & X3' & Z3' & -> & -> & R2 & R3).
    destruct (core_step (umap P) X2' Z2' X3' Z3' P (pmul m P) (pmul (S m) P) CP N1 N2 eq_refl Cm (or_introl S1) R2 R3) as [G2 G3].
    left. cbn [l_swap l_x2 l_z2 l_x3 l_z3]. change (Z.to_nat 0) with O. rewrite Nat.add_0_r, <- T0, <- T1. split; [reflexivity|]. split; assumption.
  - assert (G : exists X2' Z2' X3' Z3', cswap (Z.lxor sw 1) X2 X3 = (X2', X3') /\ cswap (Z.lxor sw 1) Z2 Z3 = (Z2', Z3') /\
      urep X2' Z2' (pmul (S m) P) /\ urep X3' Z3' (pmul m P)).
    { destruct I as [(-> & A & B)|(-> & A & B)]; [exists X3, Z3, X2, Z2|exists X2, Z2, X3, Z3]; repeat split; assumption. }
    destruct G as (X2' & Z2' & X3' & Z3' & -> & -> & R2 & R3).
    destruct (core_step (umap P) X2' Z2' X3' Z3' P (pmul (S m) P) (pmul m P) CP N1 N2 eq_refl Cm1 (or_intror S2) R2 R3) as [G2 G3].
    right. cbn [l_swap l_x2 l_z2 l_x3 l_z3]. change (Z.to_nat 1) with 1%nat.
    replace (2 * m + 1)%nat with (S (2 * m)) by lia. rewrite <- T2, <- T1'. split; [reflexivity|]. split; assumption.
Qed.

Lemma shiftr_split k n : (0 <= k)%Z -> Z.to_nat (Z.shiftr k (Z.of_nat n)) =
  (2 * Z.to_nat (Z.shiftr k (Z.of_nat (S n))) + Z.to_nat (Z.shiftr k (Z.of_nat n) mod 2))%nat.
Proof.
  intro H. rewrite Nat2Z.inj_succ. unfold Z.succ. rewrite <- Z.shiftr_shiftr by lia.
  assert (N : (0 <= Z.shiftr k (Z.of_nat n))%Z) by (apply Z.shiftr_nonneg; exact H).
  set (j := Z.shiftr k (Z.of_nat n)) in *. clearbody j. rewrite Z.shiftr_div_pow2 by lia. change (2 ^ 1)%Z with 2%Z.
  pose proof (Z.div_mod j 2 ltac:(lia)). pose proof (Z.mod_pos_bound j 2 ltac:(lia)). assert (0 <= j / 2)%Z by (apply Z.div_pos; lia). lia.
Qed.
Lemma lad_loop_ok P k n l : on P -> snd P <> F1 -> snd P <> - F1 -> (0 <= k)%Z ->
  lad_inv P (Z.to_nat (Z.shiftr k (Z.of_nat n))) l ->
  lad_inv P (Z.to_nat k) (lad_loop (umap P) k n l).
Proof.
  intros CP N1 N2 Hk. revert l. induction n as [|n IH]; intros l I.
  - cbn [lad_loop]. change (Z.of_nat 0) with 0%Z in I. rewrite Z.shiftr_0_r in I. exact I.
  - cbn [lad_loop]. apply IH. rewrite (shiftr_split k n Hk). apply lad_step_ok; assumption.
Qed.

Lemma urep_ratio X Z P : urep X Z P -> X * Z ^ (p25519 - 2) = umap P.
Proof.
  intros (l & Nl & -> & ->). change (l * (F1 + snd P) * Finv (l * (F1 - snd P)) = umap P). unfold umap.
  destruct (F_eq_dec (F1 - snd P) F0) as [Q|Q].
  - rewrite Q. unfold Fdiv. replace (l * F0) with F0 by ring. rewrite Finv_0. ring.
  - transitivity (l * (F1 + snd P) / (l * (F1 - snd P))); [reflexivity|]. field. split; assumption.
Qed.

Lemma ladder_ok P k : on P -> snd P <> F1 -> snd P <> - F1 -> (0 <= k < 2 ^ 255)%Z ->
  ladder k (umap P) = umap (pmul (Z.to_nat k) P).
Proof.
  intros CP N1 N2 Hk. unfold ladder.
  assert (I : lad_inv P (Z.to_nat k) (lad_loop (umap P) k 255 (Lad F1 F0 (umap P) F1 0))).
  { apply lad_loop_ok; try assumption; [lia|]. replace (Z.shiftr k (Z.of_nat 255)) with 0%Z.
    2:{ rewrite Z.shiftr_div_pow2 by lia. symmetry. apply Z.div_small. exact Hk. }
    left. cbn [l_swap l_x2 l_z2 l_x3 l_z3]. split; [reflexivity|]. split.
    - apply urep_intro; [cbn [pmul Nat.iter nat_rect Z.to_nat pO snd]; ring|]. intros [Q _]. exact (F1_neq_F0 Q).
    - change (Z.to_nat 0) with O. rewrite pmul_1. assert (N : F1 - snd P <> F0) by (intro Q; apply N1; symmetry; apply F_sub_0; exact Q).
      apply urep_intro; [unfold umap; field; exact N|]. intros [_ Q]. exact (F1_neq_F0 Q). }
  destruct (lad_loop (umap P) k 255 (Lad F1 F0 (umap P) F1 0)) as [X2 Z2 X3 Z3 sw]. unfold lad_inv in I. cbn [l_swap l_x2 l_z2 l_x3 l_z3] in *.
  destruct I as [(-> & R & _)|(-> & R & _)]; cbn [cswap Z.eqb]; exact (urep_ratio _ _ _ R).
Qed.

(* u = 0 always gives 0 *)
Lemma lad_step_0 k t l : l_x2 l * l_z2 l = F0 -> l_x3 l * l_z3 l = F0 ->
  l_z2 (lad_step F0 k t l) = F0 /\ l_z3 (lad_step F0 k t l) = F0.
Proof.
  destruct l as [X2 Z2 X3 Z3 sw]. cbn [l_swap l_x2 l_z2 l_x3 l_z3]. intros H2 H3. unfold lad_step, cswap. cbn [l_swap l_x2 l_z2 l_x3 l_z3].
  destruct (_ =? 0)%Z; cbn [l_z2 l_z3]; (split; [|ring]).
  - transitivity (toF 4 * (X2 * Z2) * ((X2 + Z2) * (X2 + Z2) + a24 * ((X2 + Z2) * (X2 + Z2) - (X2 - Z2) * (X2 - Z2)))); [ring|]. rewrite H2. ring.
  - transitivity (toF 4 * (X3 * Z3) * ((X3 + Z3) * (X3 + Z3) + a24 * ((X3 + Z3) * (X3 + Z3) - (X3 - Z3) * (X3 - Z3)))); [ring|]. rewrite H3. ring.
Qed.
Lemma lad_loop_0 k n l : l_x2 l * l_z2 l = F0 -> l_x3 l * l_z3 l = F0 ->
  l_z2 (lad_loop F0 k (S n) l) = F0 /\ l_z3 (lad_loop F0 k (S n) l) = F0.
Proof.
  revert l. induction n as [|n IH]; intros l H2 H3; [apply lad_step_0; assumption|].
  change (lad_loop F0 k (S (S n)) l) with (lad_loop F0 k (S n) (lad_step F0 k (Z.of_nat (S n)) l)).
  destruct (lad_step_0 k (Z.of_nat (S n)) l H2 H3) as [A B]. apply IH; [rewrite A|rewrite B]; ring.
Qed.
Lemma ladder_0 k : ladder k F0 = F0.
Proof.
  unfold ladder. destruct (lad_loop_0 k 254 (Lad F1 F0 F0 F1 0)) as [A B]; [cbn [l_x2 l_z2]; ring|cbn [l_x3 l_z3]; ring|].
  destruct (lad_loop F0 k 255 (Lad F1 F0 F0 F1 0)) as [X2 Z2 X3 Z3 sw]. cbn [l_swap l_x2 l_z2 l_x3 l_z3] in *. subst.
  unfold cswap. destruct (sw =? 0)%Z; change (F0 ^ (p25519 - 2)) with (Finv F0); rewrite Finv_0; ring.
Qed.

(* any point, even scalars *)
Lemma ladder_any P k : on P -> (0 <= k < 2 ^ 255)%Z -> (k mod 2 = 0)%Z ->
  ladder k (umap P) = umap (pmul (Z.to_nat k) P).
Proof.
  intros CP Hk Ev.
  assert (U1 : umap pO = F0) by (unfold umap, pO; cbn [snd]; replace (F1 - F1) with F0 by ring; unfold Fdiv; rewrite Finv_0; ring).
  destruct (F_eq_dec (snd P) F1) as [Q|Q]; [|destruct (F_eq_dec (snd P) (- F1)) as [Q2|Q2]; [|apply ladder_ok; assumption]].
  - assert (EP : P = pO).
    { pose proof (on_y_pm1 P CP) as X. rewrite Q in X. destruct P as [x y]. cbn [fst snd] in *. rewrite Q. rewrite X by ring. reflexivity. }
    rewrite EP, pmul_O, U1. apply ladder_0.
  - assert (EP : P = (F0, - F1)).
    { pose proof (on_y_pm1 P CP) as X. rewrite Q2 in X. destruct P as [x y]. cbn [fst snd] in *. rewrite Q2. rewrite X by ring. reflexivity. }
    assert (D : padd P P = pO).
    { rewrite EP. unfold padd, pO. f_equal; field; intro Z0; apply F1_neq_F0; rewrite <- Z0; ring. }
    replace (Z.to_nat k) with (Z.to_nat (k / 2) * 2)%nat by (pose proof (Z.div_mod k 2 ltac:(lia)); assert (0 <= k / 2)%Z by (apply Z.div_pos; lia); lia).
    rewrite pmul_mul by exact CP. rewrite (pmul_S 1), pmul_1, D, pmul_O, U1.
    assert (U : umap P = F0) by (rewrite EP; unfold umap; cbn [snd]; unfold Fdiv; ring). rewrite U. apply ladder_0.
Qed.
