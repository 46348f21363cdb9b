(* Decoding a point and the conversion to Montgomery form, proved against SpecCurve. *)
From Verif Require Export PointBytes Keys.
Local Open Scope Z_scope.

(* ---- decoding ---- *)
Lemma shiftr7_sign s : length s = 32%nat -> Z.shiftr (byte_at s 31) 7 = enc_sign s.
Proof.
  intro L. unfold byte_at, enc_sign. rewrite Z.shiftr_div_pow2 by lia.
  assert (E : s = firstn 31 s ++ [nth 31 s x00]).
  { do 32 (destruct s as [|? s]; [discriminate L|]). destruct s; [reflexivity|discriminate L]. }
  rewrite E at 2. rewrite le_val_app, firstn_length_le by lia. cbn [le_val].
  pose proof (le_val_range (firstn 31 s)) as R. rewrite firstn_length_le in R by lia.
  change (256 ^ Z.of_nat 31) with (2^248) in *. change (2^255) with (2^248 * 2^7).
  rewrite <- Z.div_div by lia. f_equal. rewrite Z.mul_0_r, Z.add_0_r.
  apply (Z.div_unique _ _ _ (le_val (firstn 31 s))); [left; lia|lia].
Qed.
Lemma enc_sign_01 s : length s = 32%nat -> enc_sign s = 0 \/ enc_sign s = 1.
Proof.
  intro L. unfold enc_sign. pose proof (le_val_range s) as R. rewrite L in R.
  assert (0 <= le_val s / 2^255 < 2); [|lia]. split; [apply Z.div_pos; lia|apply Z.div_lt_upper_bound; [lia|]].
  change (256 ^ Z.of_nat 32) with (2^255 * 2) in R. lia.
Qed.

Ltac fbound := first [reflexivity | discriminate | lia].

(* The decoder over arbitrary field routines: e_from_bytes is this at the real
   ones.  Abstracting them keeps the kernel from evaluating them. *)
Section Decoder.
Variable FeFromBytes : bytes -> fe.
Variable FeMul : fe -> fe -> fe.
Variable FeSquare : fe -> fe.
Variable FeAdd : fe -> fe -> fe.
Variable FeSub : fe -> fe -> fe.
Variable FeNeg : fe -> fe.
Variable FeToBytes : fe -> bytes * fe.
Variable fePow22523 : fe -> fe.
Variable FeIsNegative : fe -> Z * fe.
Variable FeIsNonZero : fe -> Z * fe.
Hypothesis FeFromBytes_F : forall s, length s = 32%nat -> tight101 (FeFromBytes s) /\ FV (FeFromBytes s) = toF (le_val s mod 2^255).
Hypothesis FeMul_F : forall f g, loose165 f -> loose165 g -> tight101 (FeMul f g) /\ FV (FeMul f g) = (FV f * FV g)%F.
Hypothesis FeSquare_F : forall f, loose165 f -> tight101 (FeSquare f) /\ FV (FeSquare f) = (FV f * FV f)%F.
Hypothesis FeAdd_F : forall A B A' B' f g, limbs A B f -> limbs A' B' g -> A + A' < 2^31 -> B + B' < 2^31 ->
  limbs (A + A') (B + B') (FeAdd f g) /\ FV (FeAdd f g) = (FV f + FV g)%F.
Hypothesis FeSub_F : forall A B A' B' f g, limbs A B f -> limbs A' B' g -> A + A' < 2^31 -> B + B' < 2^31 ->
  limbs (A + A') (B + B') (FeSub f g) /\ FV (FeSub f g) = (FV f - FV g)%F.
Hypothesis FeNeg_F : forall A B f, limbs A B f -> A < 2^31 -> B < 2^31 -> limbs A B (FeNeg f) /\ FV (FeNeg f) = (- FV f)%F.
Hypothesis FeToBytes_F : forall f, loose165 f -> le_val (fst (FeToBytes f)) = rep (FV f) /\ length (fst (FeToBytes f)) = 32%nat /\
  canon_limbs (snd (FeToBytes f)) /\ FV (snd (FeToBytes f)) = FV f.
Hypothesis fePow22523_F : forall z, loose165 z -> tight101 (fePow22523 z) /\ FV (fePow22523 z) = (FV z ^ ((p25519 - 5) / 8))%F.
Hypothesis FeIsNegative_F : forall f, loose165 f -> fst (FeIsNegative f) = parity (FV f) /\
  canon_limbs (snd (FeIsNegative f)) /\ FV (snd (FeIsNegative f)) = FV f.
Hypothesis FeIsNonZero_F : forall f, loose165 f -> fst (FeIsNonZero f) = (if F_eq_dec (FV f) F0 then 0 else 1) /\
  canon_limbs (snd (FeIsNonZero f)) /\ FV (snd (FeIsNonZero f)) = FV f.
Definition efb (s : bytes) : option ExtendedGE :=
  let Y := FeFromBytes s in
  let Zc := FeOne in
  let u := FeSquare Y in
  let v := FeMul u fe_d in
  let u := FeSub u Zc in
  let v := FeAdd v Zc in
  let v3 := FeSquare v in
  let v3 := FeMul v3 v in
  let X := FeSquare v3 in
  let X := FeMul X v in
  let X := FeMul X u in
  let X := fePow22523 X in
  let X := FeMul X v3 in
  let X := FeMul X u in
  let vxx := FeSquare X in
  let vxx := FeMul vxx v in
  let check := FeSub vxx u in
  let finish (X : fe) : option ExtendedGE :=
    let '(neg, X) := FeIsNegative X in
    let X := if neg =? Z.shiftr (byte_at s 31) 7 then X else FeNeg X in
    Some (EGE X Y Zc (FeMul X Y)) in
  if fst (FeIsNonZero check) =? 1 then
    let check := FeAdd vxx u in
    if fst (FeIsNonZero check) =? 1 then None
    else
      let X := FeMul X fe_SqrtM1 in
      let '(_, X) := FeToBytes X in
      finish X
  else finish X.
Lemma efb_ok s : length s = 32%nat ->
  match efb s with
  | Some A => decoded s A
  | None => forall x, ~ on_curve x (enc_y s)
  end.
Proof.
  intro L. destruct (FeFromBytes_F s L) as [TY EY].
  pattern (efb s). match goal with |- ?Q _ => set (P := Q) end. cbv beta delta [efb].
  elim_let Y. fold Y in TY, EY. clearbody Y. elim_let Zc. subst Zc.
  fold (enc_y s) in EY. 
  elim_let u0. destruct (FeSquare_F Y (tight_loose Y TY)) as [Tu0 Eu0]. fold u0 in Tu0, Eu0. clearbody u0.
  elim_let v0. assert (Td : loose165 fe_d) by (repeat split; discriminate).
  destruct (FeMul_F u0 fe_d (tight_loose _ Tu0) Td) as [Tv0 Ev0]. fold v0 in Tv0, Ev0. clearbody v0.
  elim_let u. destruct (FeSub_F _ _ _ _ u0 FeOne Tu0 limbs_one eq_refl eq_refl) as [Tu Eu]. fold u in Tu, Eu. clearbody u.
  elim_let v. destruct (FeAdd_F _ _ _ _ v0 FeOne Tv0 limbs_one eq_refl eq_refl) as [Tv Ev]. fold v in Tv, Ev. clearbody v.
  rewrite FV_one in Eu, Ev. rewrite fe_d_F in Ev0.
  set (y := enc_y s) in *. set (U := (y * y - F1)%F). set (V := (curve_d * (y * y) + F1)%F).
  assert (HU : FV u = U) by (rewrite Eu, Eu0, EY; reflexivity).
  assert (HV : FV v = V) by (rewrite Ev, Ev0, Eu0, EY; unfold V; ring).
  assert (Lu : loose165 u) by (apply (limbs_loose _ _ u Tu); discriminate).
  assert (Lv : loose165 v) by (apply (limbs_loose _ _ v Tv); discriminate).
  clear Eu Ev Eu0 Ev0 Td Tv. clear dependent u0. clear dependent v0.
  elim_let w0. destruct (FeSquare_F v Lv) as [Tw0 Ew0]. fold w0 in Tw0, Ew0. clearbody w0.
  elim_let v3. destruct (FeMul_F w0 v (tight_loose _ Tw0) Lv) as [Tv3 Ev3]. fold v3 in Tv3, Ev3. clearbody v3.
  elim_let X1. destruct (FeSquare_F v3 (tight_loose _ Tv3)) as [TX1 EX1]. fold X1 in TX1, EX1. clearbody X1.
  elim_let X2. destruct (FeMul_F X1 v (tight_loose _ TX1) Lv) as [TX2 EX2]. fold X2 in TX2, EX2. clearbody X2.
  elim_let X3. destruct (FeMul_F X2 u (tight_loose _ TX2) Lu) as [TX3 EX3]. fold X3 in TX3, EX3. clearbody X3.
  elim_let X4. destruct (fePow22523_F X3 (tight_loose _ TX3)) as [TX4 EX4]. fold X4 in TX4, EX4. clearbody X4.
  elim_let X5. destruct (FeMul_F X4 v3 (tight_loose _ TX4) (tight_loose _ Tv3)) as [TX5 EX5]. fold X5 in TX5, EX5. clearbody X5.
  elim_let X. destruct (FeMul_F X5 u (tight_loose _ TX5) Lu) as [TX EX]. fold X in TX, EX. clearbody X.
  rewrite HU, HV in *.
  assert (H3 : FV v3 = (V ^ 3)%F).
  { rewrite Ev3, Ew0. replace 3 with (1 + 1 + 1) by reflexivity. rewrite !Fpow_add by lia. rewrite Fpow_1. reflexivity. }
  assert (H7 : FV X3 = (U * V ^ 7)%F).
  { rewrite EX3, EX2, EX1, H3. replace 7 with (3 + 3 + 1) by reflexivity. rewrite !Fpow_add by lia. rewrite Fpow_1. ring. }
  assert (HX : FV X = (U * V ^ 3 * (U * V ^ 7) ^ ((p25519 - 5) / 8))%F).
  { rewrite EX, EX5, EX4, H3, H7. ring. }
  pose proof (sqrt_ratio U V) as SR. cbv zeta in SR. rewrite <- HX in SR.
  clear H3 H7 HX EX EX5 EX4 EX3 EX2 EX1 Ev3 Ew0. clear dependent X5. clear dependent X4. clear dependent X3. clear dependent X2. clear dependent X1. clear dependent v3. clear dependent w0.
  elim_let q0. destruct (FeSquare_F X (tight_loose _ TX)) as [Tq0 Eq0]. fold q0 in Tq0, Eq0. clearbody q0.
  elim_let vxx. destruct (FeMul_F q0 v (tight_loose _ Tq0) Lv) as [Tvxx Evxx]. fold vxx in Tvxx, Evxx. clearbody vxx.
  assert (Hvxx : FV vxx = (V * (FV X * FV X))%F) by (rewrite Evxx, Eq0, HV; ring).
  clear Evxx. clear dependent q0.
  elim_let check. destruct (FeSub_F _ _ _ _ vxx u Tvxx Tu eq_refl eq_refl) as [Tc Ec]. fold check in Tc, Ec. clearbody check.
  rewrite Hvxx, HU in Ec.
  assert (Lc : loose165 check) by (apply (limbs_loose _ _ _ Tc); discriminate).
  elim_let finish.
  (* the last part, for any square root *)
  assert (FIN : forall X', loose165 X' -> (V * (FV X' * FV X') = U)%F -> P (finish X')).
  { intros X' LX' HX'. unfold finish. destruct (FeIsNegative_F X' LX') as (Ng & Cn & En).
    destruct (FeIsNegative X') as [neg Xn]. cbn [fst snd] in *. subst neg. rewrite (shiftr7_sign s L).
    assert (Rn : limbs 67108863 33554431 Xn) by (apply canon_loose; exact Cn).
    set (Xf := if parity (FV X') =? enc_sign s then Xn else FeNeg Xn).
    assert (G : limbs 67108863 33554431 Xf /\ (FV Xf = FV X' /\ parity (FV X') = enc_sign s \/ FV Xf = (- FV X')%F /\ parity (FV X') <> enc_sign s)).
    { unfold Xf. destruct (Z.eqb_spec (parity (FV X')) (enc_sign s)) as [Q|Q].
      - split; [exact Rn|left; split; [exact En|exact Q]].
      - destruct (FeNeg_F _ _ Xn Rn eq_refl eq_refl) as [Rg Eg]. split; [exact Rg|right; split; [rewrite Eg, En; reflexivity|exact Q]]. }
    clearbody Xf. destruct G as [Rf G].
    assert (Lf : loose165 Xf) by (apply (limbs_loose _ _ _ Rf); discriminate).
    destruct (FeMul_F Xf Y Lf (tight_loose _ TY)) as [TT ET].
    subst P. cbv beta. unfold decoded. cbn [eX eY eZ eT]. fold y.
    assert (SQ : (FV Xf * FV Xf = FV X' * FV X')%F) by (destruct G as [[-> _]|[-> _]]; ring).
    split; [apply on_curve_v; fold U V; rewrite SQ; exact HX'|].
    split; [exact EY|]. split; [exact FV_one|]. split; [rewrite ET, EY; reflexivity|].
    split.
    { intro N. destruct G as [[E Q]|[E Q]]; [rewrite E; exact Q|]. rewrite E.
      assert (N' : FV X' <> F0) by (intro Z0; apply N; rewrite E, Z0; ring).
      rewrite (parity_opp _ N'). destruct (parity_01 (FV X')) as [A|A], (enc_sign_01 s L) as [B|B]; rewrite A, B in *; lia. }
    split; [exact Rf|]. split; [exact TY|]. split; [exact limbs_one|exact TT]. }
  clearbody finish.
  destruct (FeIsNonZero_F check Lc) as (N1 & _ & _). rewrite N1, Ec.
  destruct (F_eq_dec (V * (FV X * FV X) - U)%F F0) as [Q|Q]; [change (0 =? 1) with false|change (1 =? 1) with true]; cbv iota.
  - apply FIN; [apply tight_loose; exact TX|]. apply F_sub_0. exact Q.
  - elim_let chk2. destruct (FeAdd_F _ _ _ _ vxx u Tvxx Tu eq_refl eq_refl) as [Tc2 Ec2]. fold chk2 in Tc2, Ec2. clearbody chk2.
    rewrite Hvxx, HU in Ec2.
    assert (Lc2 : loose165 chk2) by (apply (limbs_loose _ _ _ Tc2); discriminate).
    destruct (FeIsNonZero_F chk2 Lc2) as (N2 & _ & _). rewrite N2, Ec2.
    destruct (F_eq_dec (V * (FV X * FV X) + U)%F F0) as [Q2|Q2]; [change (0 =? 1) with false|change (1 =? 1) with true]; cbv iota.
    + elim_let Xi. assert (Ls : loose165 fe_SqrtM1) by (repeat split; discriminate).
      destruct (FeMul_F X fe_SqrtM1 (tight_loose _ TX) Ls) as [TXi EXi]. fold Xi in TXi, EXi. clearbody Xi. fold sqrt_m1 in EXi.
      destruct (FeToBytes_F Xi (tight_loose _ TXi)) as (_ & _ & Cx & Ex). destruct (FeToBytes Xi) as [bs Xc]. cbn [fst snd] in *.
      apply FIN; [apply (limbs_loose _ _ _ (canon_loose _ Cx)); discriminate|].
      rewrite Ex, EXi. transitivity (V * (FV X * FV X) * (sqrt_m1 * sqrt_m1))%F; [ring|]. rewrite sqrt_m1_sq.
      apply F_sub_0. rewrite <- Q2. replace (V * (FV X * FV X) * - F1 - U)%F with (- (V * (FV X * FV X) + U))%F by ring. rewrite Q2. ring.
    + subst P. cbv beta. intros x Hx. apply on_curve_v in Hx. fold y U V in Hx.
      destruct SR as [SR|SR]; [exists x; exact Hx| |].
      * apply Q. rewrite SR. ring.
      * apply Q2. rewrite SR. ring.
Qed.
End Decoder.

Strategy expand [e_from_bytes efb].
Lemma e_from_bytes_efb s : e_from_bytes s = efb FeFromBytes FeMul FeSquare FeAdd FeSub FeNeg FeToBytes fePow22523 FeIsNegative FeIsNonZero s.
Proof. cbv beta delta [e_from_bytes efb]. reflexivity. Qed.
Lemma e_from_bytes_ok s : length s = 32%nat ->
  match e_from_bytes s with
  | Some A => decoded s A
  | None => forall x, ~ on_curve x (enc_y s)
  end.
Proof.
  intro L. rewrite e_from_bytes_efb.
  exact (efb_ok _ _ _ _ _ _ _ _ _ _ FeFromBytes_F FeMul_F FeSquare_F FeAdd_F FeSub_F FeNeg_F FeToBytes_F fePow22523_F FeIsNegative_F FeIsNonZero_F s L).
Qed.

(* ---- the conversion ---- *)
Lemma montgomery_u_ok Y : tight101 Y -> F_encodes (montgomery_u Y) ((F1 + FV Y) / (F1 - FV Y))%F.
Proof.
  intro T. pattern (montgomery_u Y). match goal with |- ?Q _ => set (P := Q) end. cbv beta delta [montgomery_u].
  elim_let a. destruct (FeSub_F _ _ _ _ FeOne Y limbs_one T eq_refl eq_refl) as [Ta Ea]. fold a in Ta, Ea. clearbody a.
  elim_let b. destruct (FeAdd_F _ _ _ _ FeOne Y limbs_one T eq_refl eq_refl) as [Tb Eb]. fold b in Tb, Eb. clearbody b.
  assert (La : loose165 a) by (apply (limbs_loose _ _ _ Ta); discriminate).
  assert (Lb : loose165 b) by (apply (limbs_loose _ _ _ Tb); discriminate).
  elim_let c. destruct (FeInvert_F a La) as [Tc Ec]. fold c in Tc, Ec. clearbody c.
  elim_let x. destruct (FeMul_F b c Lb (tight_loose _ Tc)) as [Tx Ex]. fold x in Tx, Ex. clearbody x.
  subst P. cbv beta. destruct (FeToBytes_F x (tight_loose _ Tx)) as (E & L & _ & _).
  split; [exact L|]. rewrite E, Ex, Ec, Ea, Eb, FV_one. reflexivity.
Qed.

(* C53 *)
Lemma pub_ToBox_ok a num k : length k = 32%nat ->
  match pub_ToBox (Pub a num k) with
  | Ok b => (exists x, on_curve x (enc_y k)) /\ F_encodes b ((F1 + enc_y k) / (F1 - enc_y k))%F
  | Err e => (forall x, ~ on_curve x (enc_y k)) /\ e = EMsg (str "signify: invalid public key")
  | _ => False
  end.
Proof.
  intro L. unfold pub_ToBox. cbn [p_key]. rewrite (fit_exact 32 k L).
  pose proof (e_from_bytes_ok k L) as H. destruct (e_from_bytes k) as [A|].
  - unfold decoded in H. cbv zeta in H. destruct H as (OC & EY & _ & _ & _ & _ & TY & _ & _). rewrite <- EY in *. split; [exists (FV (eX A)); exact OC|].
    apply montgomery_u_ok. exact TY.
  - split; [exact H|reflexivity].
Qed.

Lemma F_encodes_inj b b' x : F_encodes b x -> F_encodes b' x -> b = b'.
Proof. intros [L E] [L' E']. apply le_val_inj; congruence. Qed.

Lemma pub_ToBox_sign a a' num num' k k' : length k = 32%nat -> length k' = 32%nat -> enc_y k = enc_y k' ->
  pub_ToBox (Pub a num k) = pub_ToBox (Pub a' num' k').
Proof.
  intros L L' E. pose proof (pub_ToBox_ok a num k L) as H. pose proof (pub_ToBox_ok a' num' k' L') as H'. rewrite <- E in H'.
  destruct (pub_ToBox (Pub a num k)) as [b|e|], (pub_ToBox (Pub a' num' k')) as [b'|e'|]; try contradiction.
  - f_equal. exact (F_encodes_inj _ _ _ (proj2 H) (proj2 H')).
  - destruct H as [[x Hx] _], H' as [N _]. elim (N x Hx).
  - destruct H' as [[x Hx] _], H as [N _]. elim (N x Hx).
  - destruct H as [_ ->], H' as [_ ->]. reflexivity.
Qed.
Lemma low255 k k' : length k = 32%nat -> length k' = 32%nat -> firstn 31 k = firstn 31 k' ->
  b2z (nth 31 k x00) mod 128 = b2z (nth 31 k' x00) mod 128 -> enc_y k = enc_y k'.
Proof.
  intros L L' E1 E2. unfold enc_y. f_equal.
  assert (D : forall s, length s = 32%nat -> s = firstn 31 s ++ [nth 31 s x00]).
  { clear. intros s L. do 32 (destruct s as [|? s]; [discriminate L|]). destruct s; [reflexivity|discriminate L]. }
  rewrite (D k L), (D k' L'), E1, !le_val_app, !firstn_length_le by lia. cbn [le_val]. change (256 ^ Z.of_nat 31) with (2^248).
  rewrite !Z.mul_0_r, !Z.add_0_r. change (2^255) with (2^248 * 128).
  rewrite (Zplus_mod _ (2^248 * _)), (Zplus_mod _ (2^248 * b2z (nth 31 k' x00))).
  rewrite !Z.mul_mod_distr_l by lia. rewrite E2. reflexivity.
Qed.

(* C55 *)
Lemma on_curve_1 : on_curve F0 F1.
Proof. unfold on_curve. ring. Qed.
Lemma on_curve_m1 : on_curve F0 (- F1)%F.
Proof. unfold on_curve. ring. Qed.
Lemma le_val_zeros n : le_val (repeat x00 n) = 0.
Proof. induction n as [|n IH]; [reflexivity|]. cbn [repeat le_val]. rewrite IH. reflexivity. Qed.
Lemma F_encodes_0 b x : F_encodes b x -> (b = repeat x00 32 <-> x = F0).
Proof.
  intros [L E]. rewrite rep_0, <- E. split; [intros ->; apply le_val_zeros|]. intro Z0. apply le_val_inj; [exact L|]. rewrite Z0. symmetry. apply le_val_zeros.
Qed.
Lemma pub_ToBox_zero a num k : length k = 32%nat ->
  (pub_ToBox (Pub a num k) = Ok (repeat x00 32) <-> enc_y k = F1 \/ enc_y k = (- F1)%F).
Proof.
  intro L. pose proof (pub_ToBox_ok a num k L) as H. set (y := enc_y k) in *. clearbody y. split.
  - intro E. rewrite E in H. destruct H as [_ H]. apply F_encodes_0 in H. destruct H as [H _]. specialize (H eq_refl).
    destruct (F_eq_dec y F1) as [Q|Q]; [left; exact Q|right].
    assert (N : (F1 - y)%F <> F0) by (intro Z0; apply Q; symmetry; apply F_sub_0; exact Z0).
    apply F_sub_0. transitivity ((F1 + y) / (F1 - y) * (F1 - y))%F; [field; exact N|]. rewrite H. ring.
  - intro E. destruct (pub_ToBox (Pub a num k)) as [b|e|]; [| |contradiction].
    + f_equal. apply (F_encodes_0 _ _ (proj2 H)). destruct E as [-> | ->].
      * replace (F1 - F1)%F with F0 by ring. unfold Fdiv. rewrite Finv_0. ring.
      * unfold Fdiv. ring.
    + destruct H as [N _]. destruct E as [-> | ->]; [elim (N F0 on_curve_1)|elim (N F0 on_curve_m1)].
Qed.

(* ---- statements over the integers, for the property file ---- *)
Lemma FeInvert_Z z : loose165 z -> tight101 (FeInvert z) /\
  (fval z mod p25519 <> 0 -> eqp (fval z * fval (FeInvert z)) 1) /\
  (fval z mod p25519 = 0 -> eqp (fval (FeInvert z)) 0) /\
  eqp (fval (FeInvert z)) (fval z ^ (p25519 - 2)).
Proof.
  intro L. destruct (FeInvert_F z L) as [T E]. split; [exact T|]. split; [|split].
  - intro N. apply toF_eq. rewrite toF_mul. fold (FV z) (FV (FeInvert z)). rewrite E.
    assert (NZ : FV z <> F0) by (intro Q; apply N; apply rep_0 in Q; unfold FV in Q; rewrite rep_toF in Q; exact Q).
    transitivity (Finv (FV z) * FV z)%F; [ring|]. rewrite Finv_l by exact NZ. reflexivity.
  - intro N. apply toF_eq. fold (FV (FeInvert z)). rewrite E.
    assert (Z0 : FV z = F0) by (apply rep_0; unfold FV; rewrite rep_toF; exact N).
    rewrite Z0. exact Finv_0.
  - apply toF_eq. fold (FV (FeInvert z)). rewrite E. unfold FV. rewrite toF_pow. reflexivity.
Qed.
Lemma store_load s : length s = 32%nat -> let out := fst (FeToBytes (FeFromBytes s)) in
  length out = 32%nat /\ le_val out = (le_val s mod 2 ^ 255) mod p25519.
Proof.
  intro L. destruct (FeFromBytes_ok s L) as [T E]. destruct (FeToBytes_ok _ (tight_loose _ T)) as (V & L' & _ & _).
  cbv zeta. split; [exact L'|]. rewrite V. exact E.
Qed.
Lemma tests_exact f : loose165 f ->
  fst (FeIsNegative f) = (fval f mod p25519) mod 2 /\
  fst (FeIsNonZero f) = (if fval f mod p25519 =? 0 then 0 else 1) /\
  canon_limbs (snd (FeIsNegative f)) /\ eqp (fval (snd (FeIsNegative f))) (fval f) /\
  canon_limbs (snd (FeIsNonZero f)) /\ eqp (fval (snd (FeIsNonZero f))) (fval f).
Proof.
  intro L. destruct (FeIsNegative_F f L) as (A & B & C), (FeIsNonZero_F f L) as (A' & B' & C').
  split; [rewrite A; unfold parity, FV; rewrite rep_toF; reflexivity|].
  split; [|split; [exact B|split; [apply toF_eq; exact C|split; [exact B'|apply toF_eq; exact C']]]].
  rewrite A'. destruct (F_eq_dec (FV f) F0) as [Q|Q]; destruct (Z.eqb_spec (fval f mod p25519) 0) as [X|X]; try reflexivity; exfalso.
  - apply X. apply rep_0 in Q. unfold FV in Q. rewrite rep_toF in Q. exact Q.
  - apply Q. apply rep_0. unfold FV. rewrite rep_toF. exact X.
Qed.
Lemma pow22523_Z z : loose165 z -> tight101 (fePow22523 z) /\ eqp (fval (fePow22523 z)) (fval z ^ (2 ^ 252 - 3)).
Proof.
  intro L. destruct (fePow22523_F z L) as [T E]. split; [exact T|]. apply toF_eq. rewrite toF_pow. exact E.
Qed.
Lemma neutral_ToBox num : pub_ToBox (Pub (str "Ed") num (x01 :: repeat x00 31)) = Ok (repeat x00 32).
Proof. apply pub_ToBox_zero; [reflexivity|]. left. F_eq_compute. Qed.
Lemma neutral_accepted : exists p, length (p_key p) = 32%nat /\ pub_ToBox p = Ok (repeat x00 32).
Proof. exists (Pub (str "Ed") (repeat x00 8) (x01 :: repeat x00 31)). split; [reflexivity|]. apply neutral_ToBox. Qed.

(* concrete conversions, through the theorem (evaluating the code would be slow) *)
Lemma ToBox_by a num k b x : length k = 32%nat -> length b = 32%nat -> le_val b < p25519 -> on_curve x (enc_y k) ->
  enc_y k <> F1 -> (toF (le_val b) * (F1 - enc_y k) = F1 + enc_y k)%F -> pub_ToBox (Pub a num k) = Ok b.
Proof.
  intros Lk Lb Hb OC N E. pose proof (pub_ToBox_ok a num k Lk) as H.
  destruct (pub_ToBox (Pub a num k)) as [b'|e|]; [|elim (proj1 H x OC)|contradiction].
  f_equal. apply (F_encodes_inj _ _ _ (proj2 H)). split; [exact Lb|]. rewrite <- E.
  assert (N' : (F1 - enc_y k)%F <> F0) by (intro Z0; apply N; symmetry; apply F_sub_0; exact Z0).
  replace (toF (le_val b) * (F1 - enc_y k) / (F1 - enc_y k))%F with (toF (le_val b)) by (field; exact N').
  rewrite rep_toF. symmetry. apply Z.mod_small. pose proof (le_val_range b). lia.
Qed.
Lemma ToBox_not a num k r : length k = 32%nat -> r <> F0 ->
  (r * r * (curve_d * (enc_y k * enc_y k) + F1) = (enc_y k * enc_y k - F1) * sqrt_m1)%F ->
  pub_ToBox (Pub a num k) = Err (EMsg (str "signify: invalid public key")).
Proof.
  intros Lk Nr E. pose proof (pub_ToBox_ok a num k Lk) as H.
  destruct (pub_ToBox (Pub a num k)) as [b'|e|]; [exfalso|destruct H as [_ ->]; reflexivity|contradiction].
  destruct H as [[x OC] _]. apply on_curve_v in OC. pose proof (dy2_1_nz (enc_y k)) as NV.
  set (V := (curve_d * (enc_y k * enc_y k) + F1)%F) in *.
  apply (nonsquare_by r (x * x) ) with (x := x); [|exact Nr|reflexivity].
  apply (F_mul_cancel _ _ V NV). rewrite E, <- OC. ring.
Qed.
Definition base_x : F := toF 42783823269122696939284341094755422415180979639778424813682678720006717057747.
(* y = 4/5 *)
Definition base_y : bytes := x58 :: repeat x66 31.
Lemma base_on_curve : on_curve base_x (enc_y base_y).
Proof. unfold on_curve. rewrite <- fe_d_F. F_eq_compute. Qed.
Lemma base_ToBox a num : pub_ToBox (Pub a num base_y) = Ok (x09 :: repeat x00 31).
Proof.
  apply (ToBox_by a num base_y _ base_x); [reflexivity|reflexivity|vm_compute; reflexivity|exact base_on_curve| |F_eq_compute].
  intro H. assert (X : rep (enc_y base_y) = rep F1) by (rewrite H; reflexivity). vm_compute in X. discriminate.
Qed.
Lemma two_ToBox a num : pub_ToBox (Pub a num (x02 :: repeat x00 31)) = Err (EMsg (str "signify: invalid public key")).
Proof.
  apply (ToBox_not a num _ (toF 42711009062374859353427192936664230329899797903215836150923104693404851222521)); [reflexivity| |].
  - apply toF_nz. vm_compute. discriminate.
  - rewrite <- fe_d_F. F_eq_compute.
Qed.

(* ---- decoding and encoding (C62) ---- *)
Lemma same_y x x' y : on_curve x y -> on_curve x' y -> x = x' \/ x = (- x')%F.
Proof.
  intros H H'. apply on_curve_v in H, H'. assert (E : (x * x = x' * x')%F).
  { apply (F_mul_cancel _ _ (curve_d * (y * y) + F1)%F (dy2_1_nz y)). transitivity ((curve_d * (y * y) + F1) * (x * x))%F; [ring|].
    rewrite H, <- H'. ring. }
  destruct (F_integral (x - x') (x + x')) as [Q|Q]; [|left; apply F_sub_0; exact Q|right; apply F_sub_0; transitivity (x + x')%F; [ring|exact Q]].
  transitivity (x * x - x' * x')%F; [ring|]. rewrite E. ring.
Qed.
Lemma decoded_ext s A : decoded s A -> ext_rep A (FV (eX A), enc_y s) /\ on (FV (eX A), enc_y s).
Proof.
  unfold decoded. cbv zeta. intros (O & EY & EZ & ET & _ & BX & BY & BZ & BT). unfold ext_rep. cbn [fst snd]. rewrite EY, EZ, ET.
  split; [|exact O]. split; [exact BX|]. split; [exact BY|]. split; [refine (limbs_weaken _ _ _ _ _ _ _ BZ); discriminate|].
  split; [exact BT|]. split; [exact F1_neq_F0|]. split; [ring|]. split; ring.
Qed.
Lemma parity_0 : parity F0 = 0. Proof. reflexivity. Qed.
Lemma F_opp_0 : (- F0)%F = F0. Proof. ring. Qed.
(* what the decoded point is, for any point with this y and an admissible sign *)
Lemma decoded_point s A P : decoded s A -> on P -> snd P = enc_y s -> (fst P <> F0 -> parity (fst P) = enc_sign s) -> FV (eX A) = fst P.
Proof.
  unfold decoded. cbv zeta. intros (O & _ & _ & _ & HS & _) OP EY HP. unfold on in OP. rewrite EY in OP.
  destruct (same_y _ _ _ O OP) as [E|E]; [exact E|].
  destruct (F_eq_dec (fst P) F0) as [Z0|NZ]; [rewrite E, Z0; exact F_opp_0|]. exfalso.
  assert (N : FV (eX A) <> F0) by (rewrite E; intro Q; apply NZ, F_opp_inj; exact Q).
  pose proof (HS N) as H1. rewrite E, (parity_opp _ NZ), (HP NZ) in H1.
  pose proof (parity_01 (fst P)). rewrite (HP NZ) in H. lia.
Qed.
Lemma decode_encode P : on P -> exists A, e_from_bytes (point_bytes P) = Some A /\ ext_rep A P.
Proof.
  intro O. pose proof (e_from_bytes_ok (point_bytes P) (point_bytes_length P)) as H. rewrite point_bytes_y in H.
  destruct (e_from_bytes (point_bytes P)) as [A|]; [|elim (H (fst P) O)]. exists A. split; [reflexivity|].
  destruct (decoded_ext _ _ H) as [R _]. rewrite (decoded_point _ _ P H O) in R.
  - rewrite point_bytes_y, <- surjective_pairing in R. exact R.
  - symmetry. apply point_bytes_y.
  - intros _. symmetry. apply point_bytes_sign.
Qed.
(* a decoded point is encoded as the canonical form of the string *)
Lemma encode_decode s A : length s = 32%nat -> e_from_bytes s = Some A ->
  exists P, on P /\ ext_rep A P /\ snd P = enc_y s /\ (fst P <> F0 -> parity (fst P) = enc_sign s) /\ e_to_bytes A = point_bytes P /\
    (e_to_bytes A = s <-> le_val s mod 2 ^ 255 < p25519 /\ (fst P = F0 -> enc_sign s = 0)).
Proof.
  intros L H. pose proof (e_from_bytes_ok s L) as D. rewrite H in D. destruct (decoded_ext _ _ D) as [R O].
  exists (FV (eX A), enc_y s). split; [exact O|]. split; [exact R|]. split; [reflexivity|].
  assert (HS : FV (eX A) <> F0 -> parity (FV (eX A)) = enc_sign s) by (unfold decoded in D; cbv zeta in D; tauto).
  split; [exact HS|]. split; [apply e_to_bytes_ok; exact R|]. rewrite (e_to_bytes_ok _ _ R). clear R D. cbn [fst snd] in *.
  assert (DM : le_val s = le_val s mod 2 ^ 255 + 2 ^ 255 * enc_sign s) by (unfold enc_sign; pose proof (Z.div_mod (le_val s) (2 ^ 255) ltac:(lia)); lia).
  assert (RP : rep (enc_y s) = le_val s mod 2 ^ 255 mod p25519) by apply rep_toF.
  pose proof (Z.mod_pos_bound (le_val s) (2 ^ 255) ltac:(lia)) as R1. pose proof (rep_255 (enc_y s)) as R2.
  pose proof (point_bytes_val (FV (eX A), enc_y s)) as PV. cbn [fst snd] in PV.
  split.
  - intro E. rewrite E in PV. pose proof (parity_01 (FV (eX A))) as P01. pose proof (enc_sign_01 s L) as S01.
    assert (rep (enc_y s) = le_val s mod 2 ^ 255 /\ parity (FV (eX A)) = enc_sign s) as [Q1 Q2] by (split; lia).
    split; [rewrite <- Q1; apply rep_range|]. intro Z0. rewrite <- Q2, Z0. exact parity_0.
  - intros [Hy Hs]. apply le_val_inj; [rewrite point_bytes_length, L; reflexivity|]. rewrite PV, RP, Z.mod_small by (split; [apply R1|exact Hy]).
    rewrite DM at 2. do 2 f_equal. destruct (F_eq_dec (FV (eX A)) F0) as [Z0|NZ]; [rewrite Z0, (Hs Z0); exact parity_0|exact (HS NZ)].
Qed.
Lemma accepts_y1 s : length s = 32%nat -> enc_y s = F1 -> exists A, e_from_bytes s = Some A /\ FV (eX A) = F0.
Proof.
  intros L E. pose proof (e_from_bytes_ok s L) as D. rewrite E in D.
  assert (O : on_curve F0 F1) by (unfold on_curve; ring).
  destruct (e_from_bytes s) as [A|]; [|elim (D F0 O)]. exists A. split; [reflexivity|].
  unfold decoded in D. cbv zeta in D. rewrite E in D. destruct D as (OA & _). destruct (same_y _ _ _ OA O) as [Q|Q]; rewrite Q; [reflexivity|exact F_opp_0].
Qed.
Lemma noncanonical_accepted : (exists s A, length s = 32%nat /\ e_from_bytes s = Some A /\ p25519 <= le_val s < 2 ^ 255) /\
  (exists s A, length s = 32%nat /\ e_from_bytes s = Some A /\ le_val s mod 2 ^ 255 < p25519 /\ e_to_bytes A <> s).
Proof.
  split.
  - destruct (accepts_y1 (xee :: repeat xff 30 ++ [x7f])) as (A & E & _); [reflexivity|F_eq_compute|].
    exists (xee :: repeat xff 30 ++ [x7f]), A. split; [reflexivity|]. split; [exact E|]. split; vm_compute; [discriminate|reflexivity].
  - destruct (accepts_y1 (x01 :: repeat x00 30 ++ [x80])) as (A & E & Z0); [reflexivity|F_eq_compute|].
    exists (x01 :: repeat x00 30 ++ [x80]), A. split; [reflexivity|]. split; [exact E|]. split; [vm_compute; reflexivity|].
    pose proof (e_from_bytes_ok (x01 :: repeat x00 30 ++ [x80]) eq_refl) as D. rewrite E in D. destruct (decoded_ext _ _ D) as [R _].
    intro Q. rewrite (e_to_bytes_ok _ _ R) in Q. apply (f_equal enc_sign) in Q. rewrite point_bytes_sign in Q. cbn [fst] in Q. rewrite Z0 in Q.
    vm_compute in Q. discriminate.
Qed.
