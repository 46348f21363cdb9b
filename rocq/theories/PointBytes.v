(* Encodings of field elements and points. *)
From Verif Require Export SpecGroup Decode.
Local Open Scope Z_scope.
Ltac F_eq_compute := apply F_eq; vm_compute; reflexivity.

Lemma length_le_bytes n z : length (le_bytes n z) = n.
Proof. revert z. induction n as [|n IH]; intro z; [reflexivity|]. cbn [le_bytes length]. rewrite IH. reflexivity. Qed.
Lemma le_val_bytes n z : 0 <= z < 256 ^ Z.of_nat n -> le_val (le_bytes n z) = z.
Proof.
  revert z. induction n as [|n IH]; intros z H; [change (256 ^ Z.of_nat 0) with 1 in H; cbn [le_bytes le_val]; lia|].
  rewrite Nat2Z.inj_succ, Z.pow_succ_r in H by lia. cbn [le_bytes le_val].
  pose proof (Z.mod_pos_bound z 256 ltac:(lia)). pose proof (Z.div_mod z 256 ltac:(lia)).
  rewrite b2z_z2b, Z.mod_mod, IH by (try split; try apply Z.div_pos; try apply Z.div_lt_upper_bound; lia). lia.
Qed.
Lemma p_lt : p25519 < 2 ^ 255. Proof. reflexivity. Qed.
Lemma rep_255 x : 0 <= rep x < 2 ^ 255.
Proof. pose proof (rep_range x). pose proof p_lt. lia. Qed.
Lemma F_bytes_ok x : F_encodes (F_bytes x) x.
Proof.
  split; [apply length_le_bytes|]. apply le_val_bytes. pose proof (rep_255 x). change (256 ^ Z.of_nat 32) with (2 * 2 ^ 255). lia.
Qed.
Lemma rfc_u_F_bytes x : rfc_u (F_bytes x) = x.
Proof.
  unfold rfc_u. destruct (F_bytes_ok x) as [_ ->]. rewrite Z.mod_small by apply rep_255. apply toF_rep.
Qed.
Lemma point_bytes_length P : length (point_bytes P) = 32%nat. Proof. apply length_le_bytes. Qed.
Lemma point_bytes_y P : enc_y (point_bytes P) = snd P.
Proof.
  unfold enc_y, point_bytes. pose proof (rep_255 (snd P)) as R. destruct (parity_01 (fst P)) as [E|E]; rewrite E;
  rewrite le_val_bytes by (change (256 ^ Z.of_nat 32) with (2 * 2 ^ 255); lia).
  - rewrite Z.mul_0_r, Z.add_0_r, Z.mod_small by exact R. apply toF_rep.
  - rewrite Z.mul_1_r, <- (Z.mul_1_l (2 ^ 255)) at 1. rewrite Z.mod_add by lia. rewrite Z.mod_small by exact R. apply toF_rep.
Qed.

Lemma on_pB : on pB.
Proof. unfold on, on_curve, pB. cbn [fst snd]. rewrite <- fe_d_F. F_eq_compute. Qed.

Lemma point_bytes_val P : le_val (point_bytes P) = rep (snd P) + 2 ^ 255 * parity (fst P).
Proof.
  unfold point_bytes. pose proof (rep_255 (snd P)). apply le_val_bytes. change (256 ^ Z.of_nat 32) with (2 * 2 ^ 255).
  destruct (parity_01 (fst P)) as [-> | ->]; lia.
Qed.
Lemma point_bytes_sign P : enc_sign (point_bytes P) = parity (fst P).
Proof.
  unfold enc_sign. rewrite point_bytes_val. rewrite (Z.mul_comm (2 ^ 255)), Z.div_add by lia.
  rewrite Z.div_small by apply rep_255. reflexivity.
Qed.

(* the sign bit *)
Lemma byte_flip b n : n = 0 \/ n = 1 -> b2z b < 128 -> b2z (bxor b (z2b (Z.shiftl n 7))) = b2z b + 128 * n.
Proof. intros [-> | ->] H; destruct b; vm_compute; first [reflexivity | exfalso; revert H; vm_compute; discriminate]. Qed.
Lemma le_val_flip s n : length s = 32%nat -> le_val s < 2 ^ 255 -> n = 0 \/ n = 1 ->
  length (flip_sign s n) = 32%nat /\ le_val (flip_sign s n) = le_val s + 2 ^ 255 * n.
Proof.
  intros L H Hn.
  assert (E : s = firstn 31 s ++ [nth 31 s x00]).
  { do 32 (destruct s as [|? s]; [discriminate L|]). destruct s; [reflexivity|discriminate L]. }
  assert (E2 : flip_sign s n = firstn 31 s ++ [bxor (nth 31 s x00) (z2b (Z.shiftl n 7))]).
  { unfold flip_sign. do 32 (destruct s as [|? s]; [discriminate L|]). destruct s; [reflexivity|discriminate L]. }
  assert (L1 : length (firstn 31 s) = 31%nat) by (apply firstn_length_le; lia).
  revert E E2 L1. generalize (firstn 31 s) (nth 31 s x00). intros a b E E2 L1. rewrite E2. subst s.
  split; [rewrite app_length, L1; reflexivity|].
  rewrite le_val_app, L1 in H. rewrite !le_val_app, L1. cbn [le_val] in *. pose proof (le_val_range a) as R. rewrite L1 in R.
  change (256 ^ Z.of_nat 31) with (2 ^ 248) in *. rewrite byte_flip; [change (2 ^ 255) with (2 ^ 248 * 128); lia|exact Hn|].
  change (2 ^ 255) with (2 ^ 248 * 128) in H. nia.
Qed.

Lemma pair_let (a : bytes * fe) (b : Z * fe) : (let '(s, _) := a in let '(n, _) := b in flip_sign s n) = flip_sign (fst a) (fst b).
Proof. destruct a, b. reflexivity. Qed.
Lemma xyz_to_bytes_eq X Y Z' : xyz_to_bytes X Y Z' =
  flip_sign (fst (FeToBytes (FeMul Y (FeInvert Z')))) (fst (FeIsNegative (FeMul X (FeInvert Z')))).
Proof. unfold xyz_to_bytes. cbv zeta. apply pair_let. Qed.
Lemma xyz_to_bytes_ok X Y Z' P : loose165 X -> loose165 Y -> loose165 Z' -> FV Z' <> F0 ->
  FV X = (fst P * FV Z')%F -> FV Y = (snd P * FV Z')%F -> xyz_to_bytes X Y Z' = point_bytes P.
Proof.
  intros BX BY BZ N VX VY. rewrite xyz_to_bytes_eq. destruct (FeInvert_F Z' BZ) as [TI EI]. set (i := FeInvert Z') in *. clearbody i.
  destruct (FeMul_F X i BX (tight_loose _ TI)) as [Tx Ex]. destruct (FeMul_F Y i BY (tight_loose _ TI)) as [Ty Ey].
  set (x := FeMul X i) in *. set (y := FeMul Y i) in *. clearbody x y.
  assert (Vx : FV x = fst P) by (rewrite Ex, EI, VX; field; exact N).
  assert (Vy : FV y = snd P) by (rewrite Ey, EI, VY; field; exact N).
  destruct (FeToBytes_F y (tight_loose _ Ty)) as (D1 & D2 & _). destruct (FeIsNegative_F x (tight_loose _ Tx)) as (D3 & _).
  rewrite D3, Vx. rewrite Vy in D1. set (s := fst (FeToBytes y)) in *. clearbody s.
  pose proof (rep_255 (snd P)) as R.
  destruct (le_val_flip s (parity (fst P)) D2) as [L1 L2]; [lia|apply parity_01|].
  apply le_val_inj; [rewrite L1, point_bytes_length; reflexivity|]. rewrite L2, point_bytes_val, D1. reflexivity.
Qed.
Lemma e_to_bytes_ok p P : ext_rep p P -> e_to_bytes p = point_bytes P.
Proof.
  intros (BX & BY & BZ & _ & N & VX & VY & _). apply xyz_to_bytes_ok; try assumption; try (apply tight_loose; assumption).
  apply (limbs_loose _ _ _ BX); discriminate.
Qed.
Lemma p_to_bytes_ok p P : proj_rep p P -> p_to_bytes p = point_bytes P.
Proof.
  intros (BX & BY & BZ & N & VX & VY). apply xyz_to_bytes_ok; try assumption; try (apply tight_loose; assumption).
  apply (limbs_loose _ _ _ BX); discriminate.
Qed.
