(* The points of the curve form a commutative group under padd. *)
From Verif Require Export EdCert Decode.
Local Open Scope F_scope.

Definition ee : F := Finv curve_d.
Lemma ee_nz : ee <> F0. Proof. apply Finv_nz. exact d_nz. Qed.
Lemma d_ee : curve_d * ee = F1.
Proof. transitivity (Finv curve_d * curve_d); [unfold ee; ring|]. apply Finv_l. exact d_nz. Qed.
Lemma on_e x y : on_curve x y -> x * x * y * y - ee * (y * y - x * x - F1) = F0.
Proof.
  unfold on_curve. intro H. rewrite H.
  transitivity (x * x * y * y * (F1 - curve_d * ee)); [ring|]. rewrite d_ee. ring.
Qed.
Lemma e_on x y : x * x * y * y - ee * (y * y - x * x - F1) = F0 -> on_curve x y.
Proof.
  unfold on_curve. intro H. apply F_sub_0.
  transitivity (- curve_d * (x * x * y * y - ee * (y * y - x * x - F1)) + (F1 - curve_d * ee) * (y * y - x * x - F1)); [ring|].
  rewrite H, d_ee. ring.
Qed.

(* ---- completeness ---- *)
(* -d is not a square *)
Lemma md_nonsquare r : r * r <> - curve_d.
Proof.
  intro H. apply (d_nonsquare (sqrt_m1 * r)). transitivity (sqrt_m1 * sqrt_m1 * (r * r)); [ring|]. rewrite sqrt_m1_sq, H. ring.
Qed.
(* if a^2 = -d b^2 then b = 0 *)
Lemma md_zero a b : a * a = - curve_d * (b * b) -> b = F0.
Proof.
  intro H. destruct (F_eq_dec b F0) as [Q|Q]; [exact Q|exfalso]. apply (md_nonsquare (a / b)).
  apply (F_mul_cancel _ _ (b * b)); [apply F_mul_nz; exact Q|]. rewrite <- H. field. exact Q.
Qed.
Lemma complete_core X1 y1 X2 y2 d s :
  (forall a b, a * a = d * (b * b) -> b = F0) ->
  X1 * X1 + y1 * y1 = F1 + d * (X1 * X1) * (y1 * y1) ->
  X2 * X2 + y2 * y2 = F1 + d * (X2 * X2) * (y2 * y2) ->
  s * s = F1 -> d * X1 * X2 * y1 * y2 <> s.
Proof.
  intros ND C1 C2 Hs E.
  assert (K : d * (X1 * X1) * (y1 * y1) * (X2 * X2 + y2 * y2) = X1 * X1 + y1 * y1).
  { rewrite C2, C1. transitivity (d * (X1 * X1) * (y1 * y1) + (d * X1 * X2 * y1 * y2) * (d * X1 * X2 * y1 * y2)); [ring|].
    rewrite E, Hs. ring. }
  assert (S1 : (X1 + s * y1) * (X1 + s * y1) = d * ((X1 * y1 * (X2 + y2)) * (X1 * y1 * (X2 + y2)))).
  { transitivity (X1 * X1 + y1 * y1 * (s * s) + toF 2 * s * X1 * y1); [ring|]. rewrite Hs.
    transitivity ((X1 * X1 + y1 * y1) + toF 2 * s * X1 * y1); [ring|]. rewrite <- K, <- E. ring. }
  assert (S2 : (X1 - s * y1) * (X1 - s * y1) = d * ((X1 * y1 * (X2 - y2)) * (X1 * y1 * (X2 - y2)))).
  { transitivity (X1 * X1 + y1 * y1 * (s * s) - toF 2 * s * X1 * y1); [ring|]. rewrite Hs.
    transitivity ((X1 * X1 + y1 * y1) - toF 2 * s * X1 * y1); [ring|]. rewrite <- K, <- E. ring. }
  apply ND in S1. apply ND in S2.
  assert (Z0 : toF 2 * (d * X1 * X2 * y1 * y2) = F0).
  { transitivity (d * y2 * ((X1 * y1 * (X2 + y2)) + (X1 * y1 * (X2 - y2)))); [ring|]. rewrite S1, S2. ring. }
  rewrite E in Z0. apply F_integral in Z0. destruct Z0 as [Z0|Z0]; [exact (F2_nz Z0)|].
  apply F1_neq_F0. rewrite <- Hs, Z0. ring.
Qed.
Lemma complete x1 y1 x2 y2 s : on_curve x1 y1 -> on_curve x2 y2 -> s * s = F1 ->
  curve_d * x1 * x2 * y1 * y2 <> s.
Proof.
  intros C1 C2 Hs E.
  apply (complete_core (sqrt_m1 * x1) y1 (sqrt_m1 * x2) y2 (- curve_d) s md_zero); [| |exact Hs|].
  - transitivity (sqrt_m1 * sqrt_m1 * (x1 * x1) + y1 * y1); [ring|]. rewrite sqrt_m1_sq. transitivity (y1 * y1 - x1 * x1); [ring|].
    rewrite C1. transitivity (F1 - curve_d * (- F1) * (x1 * x1) * (y1 * y1)); [ring|]. rewrite <- sqrt_m1_sq. ring.
  - transitivity (sqrt_m1 * sqrt_m1 * (x2 * x2) + y2 * y2); [ring|]. rewrite sqrt_m1_sq. transitivity (y2 * y2 - x2 * x2); [ring|].
    rewrite C2. transitivity (F1 - curve_d * (- F1) * (x2 * x2) * (y2 * y2)); [ring|]. rewrite <- sqrt_m1_sq. ring.
  - transitivity (- curve_d * (sqrt_m1 * sqrt_m1) * x1 * x2 * y1 * y2); [ring|]. rewrite sqrt_m1_sq. rewrite <- E. ring.
Qed.
Lemma den_plus x1 y1 x2 y2 : on_curve x1 y1 -> on_curve x2 y2 -> F1 + curve_d * x1 * x2 * y1 * y2 <> F0.
Proof.
  intros C1 C2 H. apply (complete x1 y1 x2 y2 (- F1) C1 C2); [ring|]. apply F_sub_0. rewrite <- H. ring.
Qed.
Lemma den_minus x1 y1 x2 y2 : on_curve x1 y1 -> on_curve x2 y2 -> F1 - curve_d * x1 * x2 * y1 * y2 <> F0.
Proof.
  intros C1 C2 H. apply (complete x1 y1 x2 y2 F1 C1 C2); [ring|]. symmetry. apply F_sub_0. exact H.
Qed.
Lemma eA_nz x1 y1 x2 y2 : on_curve x1 y1 -> on_curve x2 y2 -> ee + x1 * x2 * y1 * y2 <> F0.
Proof.
  intros C1 C2 H. apply (den_plus x1 y1 x2 y2 C1 C2). rewrite <- d_ee.
  transitivity (curve_d * (ee + x1 * x2 * y1 * y2)); [ring|]. rewrite H. ring.
Qed.
Lemma eB_nz x1 y1 x2 y2 : on_curve x1 y1 -> on_curve x2 y2 -> ee - x1 * x2 * y1 * y2 <> F0.
Proof.
  intros C1 C2 H. apply (den_minus x1 y1 x2 y2 C1 C2). rewrite <- d_ee.
  transitivity (curve_d * (ee - x1 * x2 * y1 * y2)); [ring|]. rewrite H. ring.
Qed.

(* the sum, with e = 1/d *)
Lemma padd_e x1 y1 x2 y2 : on_curve x1 y1 -> on_curve x2 y2 ->
  padd (x1, y1) (x2, y2) = (ee * (x1 * y2 + x2 * y1) / (ee + x1 * x2 * y1 * y2), ee * (y1 * y2 + x1 * x2) / (ee - x1 * x2 * y1 * y2)).
Proof.
  intros C1 C2. unfold padd. f_equal.
  - apply (F_mul_cancel _ _ ((F1 + curve_d * x1 * x2 * y1 * y2) * (ee + x1 * x2 * y1 * y2)));
      [apply F_mul_nz; [apply den_plus|apply eA_nz]; assumption|].
    transitivity ((x1 * y2 + x2 * y1) * (ee + x1 * x2 * y1 * y2)); [field; apply den_plus; assumption|].
    transitivity (ee * (x1 * y2 + x2 * y1) * (F1 + curve_d * x1 * x2 * y1 * y2)); [|field; apply eA_nz; assumption].
    transitivity ((x1 * y2 + x2 * y1) * (ee + (curve_d * ee) * (x1 * x2 * y1 * y2))); [rewrite d_ee; ring|ring].
  - apply (F_mul_cancel _ _ ((F1 - curve_d * x1 * x2 * y1 * y2) * (ee - x1 * x2 * y1 * y2)));
      [apply F_mul_nz; [apply den_minus|apply eB_nz]; assumption|].
    transitivity ((y1 * y2 + x1 * x2) * (ee - x1 * x2 * y1 * y2)); [field; apply den_minus; assumption|].
    transitivity (ee * (y1 * y2 + x1 * x2) * (F1 - curve_d * x1 * x2 * y1 * y2)); [|field; apply eB_nz; assumption].
    transitivity ((y1 * y2 + x1 * x2) * (ee - (curve_d * ee) * (x1 * x2 * y1 * y2))); [rewrite d_ee; ring|ring].
Qed.

Lemma on_padd P Q : on P -> on Q -> on (padd P Q).
Proof.
  destruct P as [x1 y1], Q as [x2 y2]. unfold on. cbn [fst snd]. intros C1 C2. rewrite (padd_e _ _ _ _ C1 C2). cbn [fst snd].
  pose proof (cert_closure x1 y1 x2 y2 ee (on_e _ _ C1) (on_e _ _ C2)) as K.
  pose proof (eA_nz _ _ _ _ C1 C2) as NA. pose proof (eB_nz _ _ _ _ C1 C2) as NB.
  apply e_on. set (A := ee + x1 * x2 * y1 * y2) in *. set (B := ee - x1 * x2 * y1 * y2) in *.
  set (N := x1 * y2 + x2 * y1) in *. set (M := y1 * y2 + x1 * x2) in *. clearbody A B N M.
  apply (F_mul_cancel _ _ (A * A * B * B)); [repeat apply F_mul_nz; assumption|].
  transitivity (ee * (ee * ee * ee * (N * N) * (M * M) - (ee * ee * (M * M) * (A * A) - ee * ee * (N * N) * (B * B) - A * A * (B * B)))).
  - field. split; assumption.
  - transitivity (ee * (ee * ee * ee * N * N * M * M - (ee * ee * M * M * A * A - ee * ee * N * N * B * B - A * A * B * B))); [ring|].
    rewrite K. ring.
Qed.

Lemma on_pO : on pO. Proof. unfold on, pO, on_curve. cbn [fst snd]. ring. Qed.
Lemma on_pneg P : on P -> on (pneg P).
Proof. destruct P as [x y]. unfold on, pneg, on_curve. cbn [fst snd]. intro H. transitivity (y * y - x * x); [ring|]. rewrite H. ring. Qed.
Lemma padd_comm P Q : padd P Q = padd Q P.
Proof. destruct P as [x1 y1], Q as [x2 y2]. unfold padd. f_equal; f_equal; ring. Qed.
Lemma padd_O_l P : padd pO P = P.
Proof.
  destruct P as [x y]. unfold padd, pO. f_equal; field; intro H; apply F1_neq_F0; rewrite <- H; ring.
Qed.
Lemma padd_O_r P : padd P pO = P. Proof. rewrite padd_comm. apply padd_O_l. Qed.
Lemma padd_neg P : on P -> padd (pneg P) P = pO.
Proof.
  destruct P as [x y]. unfold on, pneg. cbn [fst snd]. intro C. pose proof C as C'. unfold on_curve in C'.
  assert (Cn : on_curve (- x) y) by exact (on_pneg (x, y) C).
  unfold padd, pO. f_equal.
  - apply (F_mul_cancel _ _ (F1 + curve_d * - x * x * y * y)); [apply den_plus; assumption|]. field_simplify_eq; [ring|apply den_plus; assumption].
  - apply (F_mul_cancel _ _ (F1 - curve_d * - x * x * y * y)); [apply den_minus; assumption|].
    transitivity (y * y - x * x); [field; apply den_minus; assumption|]. rewrite C'. ring.
Qed.

Lemma padd_assoc P Q R : on P -> on Q -> on R -> padd (padd P Q) R = padd P (padd Q R).
Proof.
  intros CP CQ CR. pose proof (on_padd P Q CP CQ) as CPQ. pose proof (on_padd Q R CQ CR) as CQR.
  rewrite (padd_comm P (padd Q R)).
  destruct P as [x1 y1], Q as [x2 y2], R as [x3 y3]. unfold on in *. cbn [fst snd] in CP, CQ, CR.
  rewrite (padd_e _ _ _ _ CP CQ) in *. rewrite (padd_e _ _ _ _ CQ CR) in *. cbn [fst snd] in CPQ, CQR.
  rewrite (padd_e _ _ _ _ CPQ CR), (padd_e _ _ _ _ CQR CP).
  pose proof (eA_nz _ _ _ _ CPQ CR) as NA3. pose proof (eB_nz _ _ _ _ CPQ CR) as NB3.
  pose proof (eA_nz _ _ _ _ CQR CP) as NA4. pose proof (eB_nz _ _ _ _ CQR CP) as NB4.
  pose proof (cert_assoc_x x1 y1 x2 y2 x3 y3 ee (on_e _ _ CP) (on_e _ _ CQ) (on_e _ _ CR)) as KX.
  pose proof (cert_assoc_y x1 y1 x2 y2 x3 y3 ee (on_e _ _ CP) (on_e _ _ CQ) (on_e _ _ CR)) as KY.
  pose proof (eA_nz _ _ _ _ CP CQ) as NA1. pose proof (eB_nz _ _ _ _ CP CQ) as NB1.
  pose proof (eA_nz _ _ _ _ CQ CR) as NA2. pose proof (eB_nz _ _ _ _ CQ CR) as NB2.
  clear CP CQ CR CPQ CQR.
  set (A1 := ee + x1 * x2 * y1 * y2) in *. set (B1 := ee - x1 * x2 * y1 * y2) in *.
  set (A2 := ee + x2 * x3 * y2 * y3) in *. set (B2 := ee - x2 * x3 * y2 * y3) in *.
  set (N1 := x1 * y2 + x2 * y1) in *. set (M1 := y1 * y2 + x1 * x2) in *.
  set (N2 := x2 * y3 + x3 * y2) in *. set (M2 := y2 * y3 + x2 * x3) in *.
  pose proof ee_nz as NE. clearbody A1 B1 A2 B2 N1 M1 N2 M2. generalize dependent ee. intros e **.
  (* the outer denominators, cleared *)
  assert (E3 : forall s, e + s * (e * N1 / A1 * x3 * (e * M1 / B1) * y3) = e / (A1 * B1) * (A1 * B1 + s * (e * N1 * M1 * x3 * y3))) by (intro s; field; split; assumption).
  assert (E4 : forall s, e + s * (e * N2 / A2 * x1 * (e * M2 / B2) * y1) = e / (A2 * B2) * (A2 * B2 + s * (e * N2 * M2 * x1 * y1))) by (intro s; field; split; assumption).
  assert (D3 : A1 * B1 + e * N1 * M1 * x3 * y3 <> F0).
  { intro Z0. apply NA3. transitivity (e + F1 * (e * N1 / A1 * x3 * (e * M1 / B1) * y3)); [ring|]. rewrite E3.
    transitivity (e / (A1 * B1) * (A1 * B1 + e * N1 * M1 * x3 * y3)); [ring|]. rewrite Z0. ring. }
  assert (D3' : A1 * B1 - e * N1 * M1 * x3 * y3 <> F0).
  { intro Z0. apply NB3. transitivity (e + (- F1) * (e * N1 / A1 * x3 * (e * M1 / B1) * y3)); [ring|]. rewrite E3.
    transitivity (e / (A1 * B1) * (A1 * B1 - e * N1 * M1 * x3 * y3)); [ring|]. rewrite Z0. ring. }
  assert (D4 : A2 * B2 + e * N2 * M2 * x1 * y1 <> F0).
  { intro Z0. apply NA4. transitivity (e + F1 * (e * N2 / A2 * x1 * (e * M2 / B2) * y1)); [ring|]. rewrite E4.
    transitivity (e / (A2 * B2) * (A2 * B2 + e * N2 * M2 * x1 * y1)); [ring|]. rewrite Z0. ring. }
  assert (D4' : A2 * B2 - e * N2 * M2 * x1 * y1 <> F0).
  { intro Z0. apply NB4. transitivity (e + (- F1) * (e * N2 / A2 * x1 * (e * M2 / B2) * y1)); [ring|]. rewrite E4.
    transitivity (e / (A2 * B2) * (A2 * B2 - e * N2 * M2 * x1 * y1)); [ring|]. rewrite Z0. ring. }
  assert (G : forall a b, a <> F0 -> e * a = b -> b <> F0) by (intros a b Ha <-; apply F_mul_nz; assumption).
  Ltac dens := repeat split; try assumption;
    match goal with
    | H : ?a <> F0 |- ?b <> F0 => match goal with G : forall a b, a <> F0 -> _ |- _ => apply (G a b H); ring end
    end.
  f_equal.
  - transitivity (e * (N1 * B1 * y3 + x3 * M1 * A1) / (A1 * B1 + e * N1 * M1 * x3 * y3)).
    { field. dens. }
    transitivity (e * (N2 * B2 * y1 + x1 * M2 * A2) / (A2 * B2 + e * N2 * M2 * x1 * y1)).
    2:{ field. dens. }
    apply (F_mul_cancel _ _ ((A1 * B1 + e * N1 * M1 * x3 * y3) * (A2 * B2 + e * N2 * M2 * x1 * y1))); [apply F_mul_nz; assumption|].
    transitivity (e * ((N1 * B1 * y3 + x3 * M1 * A1) * (A2 * B2 + e * N2 * M2 * x1 * y1))); [field; exact D3|].
    rewrite KX. field. exact D4.
  - transitivity (e * (M1 * y3 * A1 + N1 * x3 * B1) / (A1 * B1 - e * N1 * M1 * x3 * y3)).
    { field. dens. }
    transitivity (e * (M2 * y1 * A2 + N2 * x1 * B2) / (A2 * B2 - e * N2 * M2 * x1 * y1)).
    2:{ field. dens. }
    apply (F_mul_cancel _ _ ((A1 * B1 - e * N1 * M1 * x3 * y3) * (A2 * B2 - e * N2 * M2 * x1 * y1))); [apply F_mul_nz; assumption|].
    transitivity (e * ((M1 * y3 * A1 + N1 * x3 * B1) * (A2 * B2 - e * N2 * M2 * x1 * y1))); [field; exact D3'|].
    rewrite KY. field. exact D4'.
Qed.

(* ---- multiples ---- *)
Lemma on_pmul n P : on P -> on (pmul n P).
Proof. intro H. induction n as [|n IH]; [exact on_pO|]. cbn [pmul Nat.iter nat_rect]. apply on_padd; assumption. Qed.
Lemma pmul_S n P : pmul (S n) P = padd P (pmul n P).
Proof. reflexivity. Qed.
Lemma pmul_1 P : pmul 1 P = P. Proof. rewrite pmul_S. apply padd_O_r. Qed.
Lemma pmul_add m n P : on P -> pmul (m + n) P = padd (pmul m P) (pmul n P).
Proof.
  intro H. induction m as [|m IH]; [symmetry; apply padd_O_l|].
  cbn [plus]. rewrite !pmul_S, IH, padd_assoc by auto using on_pmul. reflexivity.
Qed.
Lemma pmul_mul m n P : on P -> pmul (m * n) P = pmul m (pmul n P).
Proof.
  intro H. induction m as [|m IH]; [reflexivity|]. cbn [mult]. rewrite pmul_add, IH, pmul_S by assumption. reflexivity.
Qed.
Lemma pmul_swap m n P : on P -> pmul m (pmul n P) = pmul n (pmul m P).
Proof. intro H. rewrite <- !pmul_mul, Nat.mul_comm by assumption. reflexivity. Qed.
Lemma pmul_O n : pmul n pO = pO.
Proof. induction n as [|n IH]; [reflexivity|]. rewrite pmul_S, IH. apply padd_O_l. Qed.
