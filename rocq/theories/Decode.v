(* Sign and zero tests, and decoding of points. *)
From Verif Require Export SpecCurve FieldAlg Group.

Lemma le_val_range l : 0 <= le_val l < 256 ^ Z.of_nat (length l).
Proof.
  induction l as [|b l IH]; [cbn; lia|]. cbn [le_val length]. rewrite Nat2Z.inj_succ, Z.pow_succ_r by lia.
  pose proof (b2z_range b). lia.
Qed.
Lemma le_val_app l r : le_val (l ++ r) = le_val l + 256 ^ Z.of_nat (length l) * le_val r.
Proof.
  induction l as [|b l IH]; [cbn [app le_val length]; rewrite Z.pow_0_r; lia|].
  cbn [app le_val length]. rewrite IH, Nat2Z.inj_succ, Z.pow_succ_r by lia. ring.
Qed.
Lemma le_val_inj l r : length l = length r -> le_val l = le_val r -> l = r.
Proof.
  revert r. induction l as [|a l IH]; destruct r as [|b r]; intros Hl H; try discriminate; [reflexivity|].
  cbn [le_val] in H. pose proof (b2z_range a). pose proof (b2z_range b).
  assert (b2z a = b2z b /\ le_val l = le_val r) as [E1 E2] by lia.
  f_equal; [apply b2z_inj; exact E1|apply IH; [cbn in Hl; congruence|exact E2]].
Qed.

(* ---- FeIsNegative, FeIsNonZero ---- *)
Lemma land_1 z : Z.land z 1 = z mod 2.
Proof. change 1 with (Z.ones 1). rewrite Z.land_ones by lia. reflexivity. Qed.
Lemma FeIsNegative_F f : loose165 f -> fst (FeIsNegative f) = parity (FV f) /\
  canon_limbs (snd (FeIsNegative f)) /\ FV (snd (FeIsNegative f)) = FV f.
Proof.
  intro H. destruct (FeToBytes_F f H) as (E & L & C & V). unfold FeIsNegative, parity.
  destruct (FeToBytes f) as [s f']. cbn [fst snd] in *. split; [|split; assumption].
  destruct s as [|b s]; [discriminate|]. unfold byte_at. cbn [nth]. rewrite land_1, <- E. cbn [le_val].
  replace (b2z b + 256 * le_val s) with (b2z b + (128 * le_val s) * 2) by ring. rewrite Z.mod_add by lia. reflexivity.
Qed.

Lemma lor_byte a b : 0 <= a < 256 -> 0 <= b < 256 -> 0 <= Z.lor a b < 256.
Proof.
  intros Ha Hb. split; [apply Z.lor_nonneg; lia|].
  destruct (Z.eq_dec (Z.lor a b) 0) as [->|N]; [lia|].
  assert (0 < Z.lor a b) by (assert (0 <= Z.lor a b) by (apply Z.lor_nonneg; lia); lia).
  change 256 with (2^8). apply Z.log2_lt_pow2; [assumption|]. rewrite Z.log2_lor by lia.
  assert (G : forall x, 0 <= x < 256 -> Z.log2 x < 8).
  { intros x Hx. destruct (Z.eq_dec x 0) as [->|]; [reflexivity|]. apply Z.log2_lt_pow2; lia. }
  apply Z.max_lub_lt; apply G; assumption.
Qed.
Lemma fold_lor s : forall x, 0 <= x < 256 -> let r := fold_left (fun x b => Z.lor x (b2z b)) s x in
  0 <= r < 256 /\ (r = 0 <-> x = 0 /\ le_val s = 0).
Proof.
  induction s as [|b s IH]; intros x Hx; cbn [fold_left le_val]; [intuition|].
  pose proof (b2z_range b) as Hb. pose proof (le_val_range s) as Hs.
  destruct (IH (Z.lor x (b2z b)) (lor_byte _ _ Hx Hb)) as [R E]. split; [exact R|]. rewrite E, Z.lor_eq_0_iff. lia.
Qed.
Definition smear (x : Z) : Z :=
  let x := Z.lor x (Z.shiftr x 4) in let x := Z.lor x (Z.shiftr x 2) in let x := Z.lor x (Z.shiftr x 1) in Z.land x 1.
Lemma smear_ok x : 0 <= x < 256 -> smear x = if x =? 0 then 0 else 1.
Proof.
  intro H. assert (C : forallb (fun n => smear (Z.of_nat n) =? (if Z.of_nat n =? 0 then 0 else 1)) (seq 0 256) = true) by (vm_compute; reflexivity).
  rewrite forallb_forall in C. specialize (C (Z.to_nat x)). rewrite Z2Nat.id in C by lia. apply Z.eqb_eq. apply C. apply in_seq. lia.
Qed.
Lemma FeIsNonZero_F f : loose165 f -> fst (FeIsNonZero f) = (if F_eq_dec (FV f) F0 then 0 else 1) /\
  canon_limbs (snd (FeIsNonZero f)) /\ FV (snd (FeIsNonZero f)) = FV f.
Proof.
  intro H. destruct (FeToBytes_F f H) as (E & L & C & V). unfold FeIsNonZero.
  destruct (FeToBytes f) as [s f']. cbn [fst snd] in *. split; [|split; assumption].
  destruct (fold_lor s 0 ltac:(lia)) as [R Z0]. set (x := fold_left (fun x b => Z.lor x (b2z b)) s 0) in *.
  change (smear x = if F_eq_dec (FV f) F0 then 0 else 1). rewrite (smear_ok x R).
  destruct (F_eq_dec (FV f) F0) as [Q|Q]; destruct (Z.eqb_spec x 0) as [X|X]; try reflexivity; exfalso.
  - apply X, Z0. split; [reflexivity|]. rewrite E, Q. reflexivity.
  - apply Q. apply rep_0. rewrite <- E. apply Z0. exact X.
Qed.

(* ---- conditional move ---- *)
Lemma FeCMove_ok f g b : b = 0 \/ b = 1 -> FeCMove f g b = if b =? 1 then g else f.
Proof.
  intros [-> | ->]; destruct f as [f0 f1 f2 f3 f4 f5 f6 f7 f8 f9], g as [g0 g1 g2 g3 g4 g5 g6 g7 g8 g9]; unfold FeCMove.
  - change (i32 (- 0)) with 0. rewrite !Z.land_0_l, !Z.lxor_0_r. reflexivity.
  - change (i32 (- (1))) with (-1). rewrite !Z.land_m1_l.
    rewrite <- !Z.lxor_assoc, !Z.lxor_nilpotent, !Z.lxor_0_l. reflexivity.
Qed.

(* ---- constants ---- *)
Definition sqrt_m1 : F := FV fe_SqrtM1.
Lemma c121666_nz : toF 121666 <> F0.
Proof. intro H. assert (X : rep (toF 121666) = 0) by (rewrite H; reflexivity). vm_compute in X. discriminate. Qed.
Lemma fe_d_F : FV fe_d = curve_d.
Proof.
  apply (F_mul_cancel _ _ (toF 121666) c121666_nz).
  transitivity (toF (-121665)); [apply F_eq; vm_compute; reflexivity|].
  unfold curve_d. field. exact c121666_nz.
Qed.
Lemma fe_d2_F : FV fe_d2 = (toF 2 * curve_d)%F.
Proof. rewrite <- fe_d_F. apply F_eq. vm_compute. reflexivity. Qed.
Lemma sqrt_m1_sq : (sqrt_m1 * sqrt_m1 = - F1)%F.
Proof. apply F_eq. vm_compute. reflexivity. Qed.
Lemma minus1_neq_1 : (- F1)%F <> F1.
Proof. intro H. assert (X : rep (- F1)%F = rep F1) by (rewrite H; reflexivity). vm_compute in X. discriminate. Qed.
(* -1 has no fourth root: p - 1 is not a multiple of 8 *)
Lemma Fpow_one n : 0 <= n -> (F1 ^ n = F1)%F.
Proof. intro H. change F1 with (toF 1). rewrite <- toF_pow, Z.pow_1_l by exact H. reflexivity. Qed.
Lemma sqrt_m1_nonsquare x : (x * x)%F <> sqrt_m1.
Proof.
  intro H. assert (N : x <> F0).
  { intros ->. apply F1_neq_F0. transitivity (- (sqrt_m1 * sqrt_m1))%F; [rewrite sqrt_m1_sq; ring|]. rewrite <- H. ring. }
  apply minus1_neq_1. transitivity (sqrt_m1 ^ ((p25519 - 1) / 2))%F; [|rewrite <- H; apply euler_square; exact N]. symmetry.
  assert (E : (p25519 - 1) / 2 = 2 * (1 + 2 * ((p25519 - 5) / 8))) by (vm_compute; reflexivity).
  assert (P : 0 <= (p25519 - 5) / 8) by (vm_compute; discriminate).
  rewrite E. set (k := (p25519 - 5) / 8) in *. clearbody k. clear - P.
  rewrite Fpow_mul, Fpow_2, sqrt_m1_sq, Fpow_add, Fpow_mul, Fpow_2, Fpow_1 by lia.
  replace (- F1 * - F1)%F with F1 by ring. rewrite Fpow_one by lia. ring.
Qed.
(* if a * sqrt(-1) is a non-zero square then a is not a square *)
Lemma nonsquare_by r a : (r * r = a * sqrt_m1)%F -> r <> F0 -> forall x, (x * x)%F <> a.
Proof.
  intros H N x E. assert (Nx : x <> F0) by (intros ->; apply N, F_square_0; rewrite H, <- E; ring).
  apply (sqrt_m1_nonsquare (r / x)%F). apply (F_mul_cancel _ _ a); [rewrite <- E; apply F_mul_nz; exact Nx|].
  rewrite <- E at 1. transitivity (r * r)%F; [field; exact Nx|]. rewrite H. ring.
Qed.
Lemma toF_nz n : n mod p25519 <> 0 -> toF n <> F0.
Proof. intros H Q. apply H. apply rep_0 in Q. rewrite rep_toF in Q. exact Q. Qed.
Lemma d_nonsquare x : (x * x)%F <> curve_d.
Proof.
  apply (nonsquare_by (toF 55317625704484474054323040104211100889138369048739196775942058122275509756997)).
  - rewrite <- fe_d_F. apply F_eq. vm_compute. reflexivity.
  - apply toF_nz. vm_compute. discriminate.
Qed.
Lemma d_nz : curve_d <> F0.
Proof. intro H. apply (d_nonsquare F0). rewrite H. ring. Qed.

(* d y^2 + 1 is never 0 *)
Lemma dy2_1_nz y : (curve_d * (y * y) + F1)%F <> F0.
Proof.
  intro H. assert (Ny : y <> F0).
  { intros ->. apply F1_neq_F0. rewrite <- H. ring. }
  apply (d_nonsquare (sqrt_m1 / y)%F).
  apply (F_mul_cancel _ _ (y * y)%F); [apply F_mul_nz; exact Ny|].
  transitivity (sqrt_m1 * sqrt_m1)%F; [field; exact Ny|]. rewrite sqrt_m1_sq.
  apply F_sub_0. replace (- F1 - curve_d * (y * y))%F with (- (curve_d * (y * y) + F1))%F by ring. rewrite H. ring.
Qed.
Lemma on_curve_v x y : on_curve x y <-> ((curve_d * (y * y) + F1) * (x * x) = y * y - F1)%F.
Proof.
  unfold on_curve. split; intro H.
  - replace ((curve_d * (y * y) + F1) * (x * x))%F with (F1 + curve_d * (x * x) * (y * y) + x * x - F1)%F by ring. rewrite <- H. ring.
  - replace (y * y)%F with ((y * y - F1) + F1)%F at 1 by ring. rewrite <- H. ring.
Qed.

(* ---- square root of a quotient ---- *)
Lemma sqrt_ratio u v : let w := (u * v ^ 7)%F in let x := (u * v ^ 3 * w ^ ((p25519 - 5) / 8))%F in
  (exists r, v * (r * r) = u)%F -> (v * (x * x) = u)%F \/ (v * (x * x) = - u)%F.
Proof.
  intros w x [r Hr].
  assert (H8 : 0 <= (p25519 - 5) / 8) by (vm_compute; discriminate).
  assert (H4 : 0 <= (p25519 - 1) / 4) by (vm_compute; discriminate).
  assert (E4 : (p25519 - 1) / 4 = 1 + ((p25519 - 5) / 8 + (p25519 - 5) / 8)) by (vm_compute; reflexivity).
  assert (E2 : (p25519 - 1) / 4 + (p25519 - 1) / 4 = (p25519 - 1) / 2) by (vm_compute; reflexivity).
  subst x. set (e8 := (p25519 - 5) / 8) in *. set (e4 := (p25519 - 1) / 4) in *. set (x := (u * v ^ 3 * w ^ e8)%F). clearbody e8 e4.
  assert (X : (v * (x * x) = u * w ^ e4)%F).
  { rewrite E4. rewrite !Fpow_add by lia. rewrite Fpow_1. unfold x, w.
    generalize (((u * v ^ 7) ^ e8)%F). intro t.
    replace 7 with (3 + (3 + 1)) by reflexivity. rewrite !Fpow_add by lia. rewrite Fpow_1. ring. }
  destruct (F_eq_dec u F0) as [->|Nu]; [left; rewrite X; ring|].
  assert (Nr : r <> F0) by (intros ->; apply Nu; rewrite <- Hr; ring).
  assert (Nv : v <> F0) by (intros ->; apply Nu; rewrite <- Hr; ring).
  set (t := (r * v ^ 4)%F).
  assert (W : w = (t * t)%F).
  { unfold w, t. rewrite <- Hr. replace 7 with (4 + (1 + 1 + 1)) by reflexivity. rewrite !Fpow_add by lia. rewrite Fpow_1.
    replace 4 with (1 + 1 + 1 + 1) by reflexivity. rewrite !Fpow_add by lia. rewrite Fpow_1. ring. }
  assert (Nt : t <> F0).
  { unfold t. apply F_mul_nz; [exact Nr|]. replace 4 with (1 + 1 + 1 + 1) by reflexivity. rewrite !Fpow_add by lia. rewrite Fpow_1.
    repeat apply F_mul_nz; exact Nv. }
  assert (S : (w ^ e4 * w ^ e4 = F1)%F).
  { rewrite <- Fpow_add by exact H4. rewrite W, E2. apply euler_square. exact Nt. }
  apply sqrt_one in S. destruct S as [S|S]; rewrite S in X; [left|right]; rewrite X; ring.
Qed.

Lemma parity_01 x : parity x = 0 \/ parity x = 1.
Proof. unfold parity. pose proof (Z.mod_pos_bound (rep x) 2 ltac:(lia)). lia. Qed.
Lemma parity_opp x : x <> F0 -> parity (- x)%F = 1 - parity x.
Proof.
  intro N. unfold parity. rewrite <- (toF_rep x) at 1. rewrite <- toF_opp, rep_toF. pose proof (rep_range x) as R.
  assert (rep x <> 0) by (intro E; apply N; apply rep_0; exact E).
  assert (E : (- rep x) mod p25519 = p25519 - rep x) by (symmetry; apply (Z.mod_unique _ _ (-1)); lia).
  rewrite E. assert (P : p25519 mod 2 = 1) by reflexivity. set (q := p25519) in *. clearbody q.
  pose proof (Z.div_mod q 2 ltac:(lia)). rewrite P in H0.
  pose proof (Z.div_mod (rep x) 2 ltac:(lia)). pose proof (Z.mod_pos_bound (rep x) 2 ltac:(lia)).
  symmetry. apply (Z.mod_unique _ _ (q / 2 - rep x / 2)); lia.
Qed.
