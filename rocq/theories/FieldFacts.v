(* Field arithmetic: no wrap-around, correct values, output bounds. *)
From Verif Require Export SpecField.

Lemma i64_id z : - 2^63 <= z < 2^63 -> i64 z = z.
Proof. intro H. unfold i64. rewrite Z.mod_small; lia. Qed.
Lemma i32_id z : - 2^31 <= z < 2^31 -> i32 z = z.
Proof. intro H. unfold i32. rewrite Z.mod_small; lia. Qed.

(* e evaluates without wrap-around to v, and |v| <= K *)
Definition bd (e v K : Z) : Prop := e = v /\ Z.abs v <= K.
Lemma bd_var x K : Z.abs x <= K -> bd x x K.
Proof. split; auto. Qed.
Lemma bd_add64 a b a' b' A B : bd a a' A -> bd b b' B -> (A + B <? 2^63) = true -> bd (add64 a b) (a' + b') (A + B).
Proof. intros [-> Ha] [-> Hb] H. apply Z.ltb_lt in H. unfold add64. rewrite i64_id by lia. split; lia. Qed.
Lemma bd_sub64 a b a' b' A B : bd a a' A -> bd b b' B -> (A + B <? 2^63) = true -> bd (sub64 a b) (a' - b') (A + B).
Proof. intros [-> Ha] [-> Hb] H. apply Z.ltb_lt in H. unfold sub64. rewrite i64_id by lia. split; lia. Qed.
Lemma bd_mul64 a b a' b' A B : bd a a' A -> bd b b' B -> (A * B <? 2^63) = true -> bd (mul64 a b) (a' * b') (A * B).
Proof.
  intros [-> Ha] [-> Hb] H. apply Z.ltb_lt in H. unfold mul64.
  assert (X : Z.abs (a' * b') <= A * B) by (rewrite Z.abs_mul; apply Z.mul_le_mono_nonneg; lia).
  rewrite i64_id by lia. split; [reflexivity|exact X].
Qed.
Lemma bd_mul32 a b a' b' A B : bd a a' A -> bd b b' B -> (A * B <? 2^31) = true -> bd (mul32 a b) (a' * b') (A * B).
Proof.
  intros [-> Ha] [-> Hb] H. apply Z.ltb_lt in H. unfold mul32.
  assert (X : Z.abs (a' * b') <= A * B) by (rewrite Z.abs_mul; apply Z.mul_le_mono_nonneg; lia).
  rewrite i32_id by lia. split; [reflexivity|exact X].
Qed.
Lemma bd_add32 a b a' b' A B : bd a a' A -> bd b b' B -> (A + B <? 2^31) = true -> bd (add32 a b) (a' + b') (A + B).
Proof. intros [-> Ha] [-> Hb] H. apply Z.ltb_lt in H. unfold add32. rewrite i32_id by lia. split; lia. Qed.
Lemma bd_sub32 a b a' b' A B : bd a a' A -> bd b b' B -> (A + B <? 2^31) = true -> bd (sub32 a b) (a' - b') (A + B).
Proof. intros [-> Ha] [-> Hb] H. apply Z.ltb_lt in H. unfold sub32. rewrite i32_id by lia. split; lia. Qed.
Lemma bd_const c : bd c c (Z.abs c).
Proof. split; [reflexivity|lia]. Qed.
Lemma bd_weaken e v K K' : bd e v K -> (K <=? K') = true -> bd e v K'.
Proof. intros [-> H] L. apply Z.leb_le in L. split; [reflexivity|lia]. Qed.

Ltac is_num t := match t with Zpos _ => idtac | Zneg _ => idtac | Z0 => idtac end.
Ltac solve_bd :=
  lazymatch goal with
  | |- bd (add64 _ _) _ _ => eapply bd_add64; [solve_bd|solve_bd|vm_compute; reflexivity]
  | |- bd (sub64 _ _) _ _ => eapply bd_sub64; [solve_bd|solve_bd|vm_compute; reflexivity]
  | |- bd (mul64 _ _) _ _ => eapply bd_mul64; [solve_bd|solve_bd|vm_compute; reflexivity]
  | |- bd (mul32 _ _) _ _ => eapply bd_mul32; [solve_bd|solve_bd|vm_compute; reflexivity]
  | |- bd (add32 _ _) _ _ => eapply bd_add32; [solve_bd|solve_bd|vm_compute; reflexivity]
  | |- bd (sub32 _ _) _ _ => eapply bd_sub32; [solve_bd|solve_bd|vm_compute; reflexivity]
  | |- bd ?c _ _ => tryif is_num c then apply bd_const else first [eassumption | eapply bd_var; eassumption]
  end.

(* one signed carry: (h + 2^(k-1)) >> k *)
Lemma carry_eq k h K : 0 < k < 60 -> Z.abs h <= K -> K <= 2^62 + 2^61 ->
  exists c, shr64 (add64 h (shl64 1 (k - 1)%Z)) k = c /\
    - 2^(k-1) <= h - 2^k * c < 2^(k-1) /\ sub64 h (shl64 c k) = h - 2^k * c.
Proof.
  intros Hk Hh HK. exists ((h + 2^(k-1)) / 2^k).
  assert (P1 : 0 < 2^(k-1)) by (apply Z.pow_pos_nonneg; lia).
  assert (P2 : 2^k = 2 * 2^(k-1)) by (rewrite <- Z.pow_succ_r by lia; f_equal; lia).
  assert (P3 : 2^(k-1) <= 2^59) by (apply Z.pow_le_mono_r; lia).
  assert (E1 : shl64 1 (k-1)%Z = 2^(k-1)).
  { unfold shl64. rewrite Z.shiftl_mul_pow2 by lia. rewrite Z.mul_1_l. apply i64_id. lia. }
  assert (E2 : add64 h (2^(k-1))%Z = h + 2^(k-1)) by (unfold add64; apply i64_id; lia).
  unfold shr64. rewrite E1, E2, Z.shiftr_div_pow2 by lia.
  pose proof (Z.div_mod (h + 2^(k-1)) (2^k) ltac:(lia)) as D.
  pose proof (Z.mod_pos_bound (h + 2^(k-1)) (2^k) ltac:(lia)) as M.
  set (c := (h + 2^(k-1)) / 2^k) in *.
  split; [reflexivity|]. split; [lia|].
  unfold shl64. rewrite Z.shiftl_mul_pow2 by lia. rewrite (i64_id (c * 2^k)) by lia.
  unfold sub64. rewrite i64_id by lia. lia.
Qed.

Ltac elim_let y :=
  lazymatch goal with
  | |- ?P (let x := ?E in @?B x) => set (y := E); let T := eval cbv beta in (P (B y)) in change T
  end.

(* carry from h (limb of width k) into g, which then counts m times *)
Lemma carry_bd k h g K L m : (0 <? k) && (k <? 60) && (K <=? 2^62 + 2^61) && (0 <=? m) && (L + m * (K / 2^k + 1) <? 2^63) = true ->
  Z.abs h <= K -> Z.abs g <= L ->
  exists c, shr64 (add64 h (shl64 1 (k - 1)%Z)) k = c /\ sub64 h (shl64 c k) = h - 2^k * c /\
    (add64 g c = g + c \/ m = 0) /\ Z.abs c <= K / 2^k + 1 /\
    (Z.abs (g + m * c) <= L + m * (K / 2^k + 1)) /\ Z.abs (h - 2^k * c) <= 2^(k-1).
Proof.
  intros Hc Hh Hg. rewrite !andb_true_iff, !Z.ltb_lt, !Z.leb_le in Hc. destruct Hc as [[[[K1 K2] HK] Hm] HL].
  destruct (carry_eq k h K ltac:(lia) Hh HK) as (c & E & R & S). exists c.
  assert (P1 : 0 < 2^(k-1)) by (apply Z.pow_pos_nonneg; lia).
  assert (P2 : 2^k = 2 * 2^(k-1)) by (rewrite <- Z.pow_succ_r by lia; f_equal; lia).
  assert (B : Z.abs c <= K / 2^k + 1).
  { pose proof (Z.div_mod K (2^k) ltac:(lia)) as D. pose proof (Z.mod_pos_bound K (2^k) ltac:(lia)) as M.
    set (q := K / 2^k) in *. set (W := 2^k) in *. assert (Z.abs c < q + 2); [|lia].
    assert (Z.abs (W * c) <= K + W / 2) by (pose proof (Z.div_mod W 2 ltac:(lia)); pose proof (Z.mod_pos_bound W 2 ltac:(lia)); lia).
    rewrite Z.abs_mul, (Z.abs_eq W) in H by lia. assert (W / 2 * 2 <= W) by (pose proof (Z.div_mod W 2 ltac:(lia)); pose proof (Z.mod_pos_bound W 2 ltac:(lia)); lia). nia. }
  set (Q := K / 2^k + 1) in *.
  split; [exact E|]. split; [exact S|]. split.
  { destruct (Z.eq_dec m 0) as [->|N]; [right; reflexivity|left]. unfold add64. apply i64_id. nia. }
  split; [exact B|]. split; [|lia]. 
  assert (Z.abs (m * c) <= m * Q) by (rewrite Z.abs_mul, (Z.abs_eq m) by lia; apply Z.mul_le_mono_nonneg_l; lia). lia.
Qed.

Lemma carry1 (P : fe -> Prop) (F : Z -> Z -> fe) k h g K L :
  (0 <? k) && (k <? 60) && (K <=? 2^62 + 2^61) && (L + (K / 2^k + 1) <? 2^63) = true ->
  Z.abs h <= K -> Z.abs g <= L ->
  (forall c, Z.abs (g + c) <= L + (K / 2^k + 1) -> Z.abs (h - 2^k * c) <= 2^(k-1) -> P (F (g + c) (h - 2^k * c))) ->
  P (let c := shr64 (add64 h (shl64 1 (k - 1)%Z)) k in let g' := add64 g c in let h' := sub64 h (shl64 c k) in F g' h').
Proof.
  intros Hc Hh Hg H.
  destruct (carry_bd k h g K L 1) as (c & -> & E2 & E3 & _ & B1 & B2); [|exact Hh|exact Hg|].
  { rewrite !andb_true_iff in *. destruct Hc as [[[? ?] ?] ?]. rewrite Z.mul_1_l. auto. }
  cbv zeta. rewrite E2. destruct E3 as [->|X]; [|discriminate]. rewrite !Z.mul_1_l in B1. apply H; assumption.
Qed.

(* the one carry with a factor of 19 *)
Lemma carry19 (P : fe -> Prop) (F : Z -> Z -> fe) k h g K L :
  (0 <? k) && (k <? 60) && (K <=? 2^62 + 2^61) && (L + 19 * (K / 2^k + 1) <? 2^63) && (19 * (K / 2^k + 1) <? 2^63) = true ->
  Z.abs h <= K -> Z.abs g <= L ->
  (forall c, Z.abs (g + 19 * c) <= L + 19 * (K / 2^k + 1) -> Z.abs (h - 2^k * c) <= 2^(k-1) -> P (F (g + 19 * c) (h - 2^k * c))) ->
  P (let c := shr64 (add64 h (shl64 1 (k - 1)%Z)) k in let g' := add64 g (mul64 c 19) in let h' := sub64 h (shl64 c k) in F g' h').
Proof.
  intros Hc Hh Hg H.
  destruct (carry_bd k h g K L 19) as (c & -> & E2 & _ & B0 & B1 & B2); [|exact Hh|exact Hg|].
  { rewrite !andb_true_iff in *. destruct Hc as [[[[? ?] ?] ?] ?]. auto. }
  cbv zeta. rewrite E2. rewrite !andb_true_iff, !Z.ltb_lt in Hc.
  assert (E3 : mul64 c 19 = 19 * c) by (unfold mul64; rewrite i64_id; lia).
  assert (E4 : add64 g (19 * c)%Z = g + 19 * c) by (unfold add64; apply i64_id; lia).
  rewrite E3, E4. apply H; assumption.
Qed.

Ltac norm_bound H := lazymatch type of H with _ <= ?B => let v := eval vm_compute in B in change B with v in H end.
Ltac step_carry L k h g h' g' c :=
  lazymatch goal with H : Z.abs h <= ?K, G : Z.abs g <= ?Kg |- _ =>
    let Bg := fresh "B" in let Bh := fresh "B" in
    lazymatch goal with |- ?P (let c := _ in let a := _ in let b := _ in @?F c a b) =>
      let F' := eval cbv beta in (fun a b : Z => F 0%Z a b) in
      apply (L P F' k h g K Kg eq_refl H G) end; intros c Bg Bh; cbv beta; norm_bound Bg; norm_bound Bh;
    let Eg := fresh "E" g' in let Eh := fresh "E" h' in
    lazymatch type of Bg with Z.abs ?e <= _ => remember e as g' eqn:Eg end;
    lazymatch type of Bh with Z.abs ?e <= _ => remember e as h' eqn:Eh end
  end.

Lemma FeCombine_elim (P : fe -> Prop) h0 h1 h2 h3 h4 h5 h6 h7 h8 h9 :
  Z.abs h0 <= 2^62 -> Z.abs h1 <= 2^62 -> Z.abs h2 <= 2^62 -> Z.abs h3 <= 2^62 -> Z.abs h4 <= 2^62 ->
  Z.abs h5 <= 2^62 -> Z.abs h6 <= 2^62 -> Z.abs h7 <= 2^62 -> Z.abs h8 <= 2^62 -> Z.abs h9 <= 2^62 ->
  (forall r c, tight101 r -> fval r = fval (Fe h0 h1 h2 h3 h4 h5 h6 h7 h8 h9) - c * p25519 -> P r) ->
  P (FeCombine h0 h1 h2 h3 h4 h5 h6 h7 h8 h9).
Proof.
  intros B0 B1 B2 B3 B4 B5 B6 B7 B8 B9 HP.
  cbv beta delta [FeCombine].
  step_carry carry1 26 h0 h1 h0a h1a c0. step_carry carry1 26 h4 h5 h4a h5a c4.
  step_carry carry1 25 h1a h2 h1b h2a c1. step_carry carry1 25 h5a h6 h5b h6a c5.
  step_carry carry1 26 h2a h3 h2b h3a c2. step_carry carry1 26 h6a h7 h6b h7a c6.
  step_carry carry1 25 h3a h4a h3b h4b c3. step_carry carry1 25 h7a h8 h7b h8a c7.
  step_carry carry1 26 h4b h5b h4c h5c c4b. step_carry carry1 26 h8a h9 h8b h9a c8.
  step_carry carry19 25 h9a h0a h9b h0b c9.
  step_carry carry1 26 h0b h1b h0c h1c c0b.
  rewrite (i32_id h0c), (i32_id h1c), (i32_id h2b), (i32_id h3b), (i32_id h4c), (i32_id h5c), (i32_id h6b), (i32_id h7b), (i32_id h8b), (i32_id h9b)
    by (clear - B18 B20 B22 B24 B25 B26 B28 B30 B31 B32; lia).
  apply (HP _ c9).
  - clear HP. repeat split; eapply Z.le_trans; try eassumption; discriminate.
  - subst. unfold fval, p25519. ring.
Qed.

Lemma limbs_weaken A B A' B' f : A <= A' -> B <= B' -> limbs A B f -> limbs A' B' f.
Proof. intros HA HB. destruct f. cbn [limbs]. intuition lia. Qed.
Lemma tight101_110 f : tight101 f -> tight110 f.
Proof. apply limbs_weaken; discriminate. Qed.
Lemma tight110_loose110 f : tight110 f -> loose110 f.
Proof. apply limbs_weaken; discriminate. Qed.
Lemma loose110_165 f : loose110 f -> loose165 f.
Proof. apply limbs_weaken; discriminate. Qed.

(* ---- addition, subtraction, negation: any bounds whose sum fits ---- *)
Lemma add32_ok a b A B : A + B < 2^31 -> Z.abs a <= A -> Z.abs b <= B -> add32 a b = a + b /\ Z.abs (a + b) <= A + B.
Proof. intros. unfold add32. rewrite i32_id by lia. lia. Qed.
Lemma sub32_ok a b A B : A + B < 2^31 -> Z.abs a <= A -> Z.abs b <= B -> sub32 a b = a - b /\ Z.abs (a - b) <= A + B.
Proof. intros. unfold sub32. rewrite i32_id by lia. lia. Qed.

Lemma FeAdd_ok A B A' B' f g : limbs A B f -> limbs A' B' g -> A + A' < 2^31 -> B + B' < 2^31 ->
  limbs (A + A') (B + B') (FeAdd f g) /\ fval (FeAdd f g) = fval f + fval g.
Proof.
  destruct f as [f0 f1 f2 f3 f4 f5 f6 f7 f8 f9], g as [g0 g1 g2 g3 g4 g5 g6 g7 g8 g9]. cbn [limbs].
  intros (F0 & F1 & F2 & F3 & F4 & F5 & F6 & F7 & F8 & F9) (G0 & G1 & G2 & G3 & G4 & G5 & G6 & G7 & G8 & G9) HA HB.
  unfold FeAdd.
  destruct (add32_ok _ _ _ _ HA F0 G0) as [-> ?], (add32_ok _ _ _ _ HB F1 G1) as [-> ?], (add32_ok _ _ _ _ HA F2 G2) as [-> ?],
    (add32_ok _ _ _ _ HB F3 G3) as [-> ?], (add32_ok _ _ _ _ HA F4 G4) as [-> ?], (add32_ok _ _ _ _ HB F5 G5) as [-> ?],
    (add32_ok _ _ _ _ HA F6 G6) as [-> ?], (add32_ok _ _ _ _ HB F7 G7) as [-> ?], (add32_ok _ _ _ _ HA F8 G8) as [-> ?],
    (add32_ok _ _ _ _ HB F9 G9) as [-> ?].
  split; [repeat split; assumption|unfold fval; ring].
Qed.
Lemma FeSub_ok A B A' B' f g : limbs A B f -> limbs A' B' g -> A + A' < 2^31 -> B + B' < 2^31 ->
  limbs (A + A') (B + B') (FeSub f g) /\ fval (FeSub f g) = fval f - fval g.
Proof.
  destruct f as [f0 f1 f2 f3 f4 f5 f6 f7 f8 f9], g as [g0 g1 g2 g3 g4 g5 g6 g7 g8 g9]. cbn [limbs].
  intros (F0 & F1 & F2 & F3 & F4 & F5 & F6 & F7 & F8 & F9) (G0 & G1 & G2 & G3 & G4 & G5 & G6 & G7 & G8 & G9) HA HB.
  unfold FeSub.
  destruct (sub32_ok _ _ _ _ HA F0 G0) as [-> ?], (sub32_ok _ _ _ _ HB F1 G1) as [-> ?], (sub32_ok _ _ _ _ HA F2 G2) as [-> ?],
    (sub32_ok _ _ _ _ HB F3 G3) as [-> ?], (sub32_ok _ _ _ _ HA F4 G4) as [-> ?], (sub32_ok _ _ _ _ HB F5 G5) as [-> ?],
    (sub32_ok _ _ _ _ HA F6 G6) as [-> ?], (sub32_ok _ _ _ _ HB F7 G7) as [-> ?], (sub32_ok _ _ _ _ HA F8 G8) as [-> ?],
    (sub32_ok _ _ _ _ HB F9 G9) as [-> ?].
  split; [repeat split; assumption|unfold fval; ring].
Qed.
Lemma limbs_zero : limbs 0 0 FeZero.
Proof. repeat split; discriminate. Qed.
Lemma FeNeg_sub f : FeNeg f = FeSub FeZero f.
Proof. destruct f. reflexivity. Qed.
Lemma FeNeg_ok A B f : limbs A B f -> A < 2^31 -> B < 2^31 -> limbs A B (FeNeg f) /\ fval (FeNeg f) = - fval f.
Proof. intros H HA HB. rewrite FeNeg_sub. destruct (FeSub_ok 0 0 A B FeZero f limbs_zero H HA HB) as [L E]. split; [exact L|]. rewrite E. reflexivity. Qed.

(* ---- multiplication ---- *)
Ltac elim_bd y :=
  elim_let y;
  let H := fresh "D" in
  eassert (H : bd y _ _) by (unfold y; solve_bd);
  clearbody y;
  lazymatch type of H with bd _ _ ?K => let v := eval vm_compute in K in change K with v in H end.

Ltac start_bd :=
  repeat match goal with H : Z.abs ?x <= ?K |- _ => is_var x; apply bd_var in H end.

Lemma FeMul_elim (P : fe -> Prop) f g : loose165 f -> loose165 g ->
  (forall r c, tight101 r -> fval r = fval f * fval g - c * p25519 -> P r) -> P (FeMul f g).
Proof.
  destruct f as [f0 f1 f2 f3 f4 f5 f6 f7 f8 f9], g as [g0 g1 g2 g3 g4 g5 g6 g7 g8 g9]. unfold loose165. cbn [limbs].
  intros (F0 & F1 & F2 & F3 & F4 & F5 & F6 & F7 & F8 & F9) (G0 & G1 & G2 & G3 & G4 & G5 & G6 & G7 & G8 & G9) HP.
  start_bd. cbv beta iota delta [FeMul].
  do 10 (let y := fresh "a" in elim_let y; subst y).
  elim_bd f1_2. elim_bd f3_2. elim_bd f5_2. elim_bd f7_2. elim_bd f9_2.
  do 10 (let y := fresh "a" in elim_let y; subst y).
  elim_bd g1_19. elim_bd g2_19. elim_bd g3_19. elim_bd g4_19. elim_bd g5_19. elim_bd g6_19. elim_bd g7_19. elim_bd g8_19. elim_bd g9_19.
  elim_bd h0. elim_bd h1. elim_bd h2. elim_bd h3. elim_bd h4. elim_bd h5. elim_bd h6. elim_bd h7. elim_bd h8. elim_bd h9.
  clear - HP D13 D14 D15 D16 D17 D18 D19 D20 D21 D22.
  destruct D13 as [-> K0], D14 as [-> K1], D15 as [-> K2], D16 as [-> K3], D17 as [-> K4].
  destruct D18 as [-> K5], D19 as [-> K6], D20 as [-> K7], D21 as [-> K8], D22 as [-> K9].
  apply FeCombine_elim; try (eapply Z.le_trans; [eassumption|discriminate]).
  clear K0 K1 K2 K3 K4 K5 K6 K7 K8 K9.
  intros r c T E. apply (HP r (c + (2^1 * (f1 * g9) + 2^0 * (f2 * g8) + 2^26 * (f2 * g9) + 2^1 * (f3 * g7) + 2^26 * (f3 * g8) + 2^52 * (f3 * g9) + 2^0 * (f4 * g6) + 2^26 * (f4 * g7) + 2^51 * (f4 * g8) + 2^77 * (f4 * g9) + 2^1 * (f5 * g5) + 2^26 * (f5 * g6) + 2^52 * (f5 * g7) + 2^77 * (f5 * g8) + 2^103 * (f5 * g9) + 2^0 * (f6 * g4) + 2^26 * (f6 * g5) + 2^51 * (f6 * g6) + 2^77 * (f6 * g7) + 2^102 * (f6 * g8) + 2^128 * (f6 * g9) + 2^1 * (f7 * g3) + 2^26 * (f7 * g4) + 2^52 * (f7 * g5) + 2^77 * (f7 * g6) + 2^103 * (f7 * g7) + 2^128 * (f7 * g8) + 2^154 * (f7 * g9) + 2^0 * (f8 * g2) + 2^26 * (f8 * g3) + 2^51 * (f8 * g4) + 2^77 * (f8 * g5) + 2^102 * (f8 * g6) + 2^128 * (f8 * g7) + 2^153 * (f8 * g8) + 2^179 * (f8 * g9) + 2^1 * (f9 * g1) + 2^26 * (f9 * g2) + 2^52 * (f9 * g3) + 2^77 * (f9 * g4) + 2^103 * (f9 * g5) + 2^128 * (f9 * g6) + 2^154 * (f9 * g7) + 2^179 * (f9 * g8) + 2^205 * (f9 * g9)))); [exact T|].
  rewrite E. unfold fval, p25519. ring.
Qed.

(* ---- squaring: the ten coefficients ---- *)
Lemma feSquare_ok f : loose165 f ->
  exists h0 h1 h2 h3 h4 h5 h6 h7 h8 h9 c, feSquare f = (h0, h1, h2, h3, h4, h5, h6, h7, h8, h9) /\
    (Z.abs h0 <= 2^61 /\ Z.abs h1 <= 2^61 /\ Z.abs h2 <= 2^61 /\ Z.abs h3 <= 2^61 /\ Z.abs h4 <= 2^61 /\
     Z.abs h5 <= 2^61 /\ Z.abs h6 <= 2^61 /\ Z.abs h7 <= 2^61 /\ Z.abs h8 <= 2^61 /\ Z.abs h9 <= 2^61) /\
    fval (Fe h0 h1 h2 h3 h4 h5 h6 h7 h8 h9) = fval f * fval f - c * p25519.
Proof.
  destruct f as [f0 f1 f2 f3 f4 f5 f6 f7 f8 f9]. unfold loose165. cbn [limbs].
  intros (F0 & F1 & F2 & F3 & F4 & F5 & F6 & F7 & F8 & F9).
  start_bd. pattern (feSquare (Fe f0 f1 f2 f3 f4 f5 f6 f7 f8 f9)).
  match goal with |- ?Q _ => set (PP := Q) end. cbv beta iota delta [feSquare].
  do 10 (let y := fresh "a" in elim_let y; subst y).
  elim_bd f0_2. elim_bd f1_2. elim_bd f2_2. elim_bd f3_2. elim_bd f4_2. elim_bd f5_2. elim_bd f6_2. elim_bd f7_2.
  elim_bd f5_38. elim_bd f6_19. elim_bd f7_38. elim_bd f8_19. elim_bd f9_38.
  elim_bd h0. elim_bd h1. elim_bd h2. elim_bd h3. elim_bd h4. elim_bd h5. elim_bd h6. elim_bd h7. elim_bd h8. elim_bd h9.
  subst PP. cbv beta.
  clear - D12 D13 D14 D15 D16 D17 D18 D19 D20 D21.
  destruct D12 as [-> K0], D13 as [-> K1], D14 as [-> K2], D15 as [-> K3], D16 as [-> K4].
  destruct D17 as [-> K5], D18 as [-> K6], D19 as [-> K7], D20 as [-> K8], D21 as [-> K9].
  do 10 eexists. exists (2^1 * (f1 * f9) + 2^0 * (f2 * f8) + 2^26 * (f2 * f9) + 2^1 * (f3 * f7) + 2^26 * (f3 * f8) + 2^52 * (f3 * f9) + 2^0 * (f4 * f6) + 2^26 * (f4 * f7) + 2^51 * (f4 * f8) + 2^77 * (f4 * f9) + 2^1 * (f5 * f5) + 2^26 * (f5 * f6) + 2^52 * (f5 * f7) + 2^77 * (f5 * f8) + 2^103 * (f5 * f9) + 2^0 * (f6 * f4) + 2^26 * (f6 * f5) + 2^51 * (f6 * f6) + 2^77 * (f6 * f7) + 2^102 * (f6 * f8) + 2^128 * (f6 * f9) + 2^1 * (f7 * f3) + 2^26 * (f7 * f4) + 2^52 * (f7 * f5) + 2^77 * (f7 * f6) + 2^103 * (f7 * f7) + 2^128 * (f7 * f8) + 2^154 * (f7 * f9) + 2^0 * (f8 * f2) + 2^26 * (f8 * f3) + 2^51 * (f8 * f4) + 2^77 * (f8 * f5) + 2^102 * (f8 * f6) + 2^128 * (f8 * f7) + 2^153 * (f8 * f8) + 2^179 * (f8 * f9) + 2^1 * (f9 * f1) + 2^26 * (f9 * f2) + 2^52 * (f9 * f3) + 2^77 * (f9 * f4) + 2^103 * (f9 * f5) + 2^128 * (f9 * f6) + 2^154 * (f9 * f7) + 2^179 * (f9 * f8) + 2^205 * (f9 * f9)). split; [reflexivity|]. split.
  { repeat split; (eapply Z.le_trans; [eassumption|discriminate]). }
  clear. unfold fval, p25519. ring.
Qed.

Lemma FeSquare_elim (P : fe -> Prop) f : loose165 f ->
  (forall r c, tight101 r -> fval r = fval f * fval f - c * p25519 -> P r) -> P (FeSquare f).
Proof.
  intros L HP. destruct (feSquare_ok f L) as (h0 & h1 & h2 & h3 & h4 & h5 & h6 & h7 & h8 & h9 & c & E & (K0 & K1 & K2 & K3 & K4 & K5 & K6 & K7 & K8 & K9) & V).
  unfold FeSquare. rewrite E.
  apply FeCombine_elim; try (eapply Z.le_trans; [eassumption|discriminate]).
  intros r c' T W. apply (HP r (c + c') T). rewrite W, V. ring.
Qed.

Lemma dbl64 h : Z.abs h <= 2^61 -> add64 h h = 2 * h /\ Z.abs (2 * h) <= 2^62.
Proof. intro H. unfold add64. rewrite i64_id by lia. lia. Qed.

Lemma FeSquare2_elim (P : fe -> Prop) f : loose165 f ->
  (forall r c, tight101 r -> fval r = 2 * (fval f * fval f) - c * p25519 -> P r) -> P (FeSquare2 f).
Proof.
  intros L HP. destruct (feSquare_ok f L) as (h0 & h1 & h2 & h3 & h4 & h5 & h6 & h7 & h8 & h9 & c & E & (K0 & K1 & K2 & K3 & K4 & K5 & K6 & K7 & K8 & K9) & V).
  unfold FeSquare2. rewrite E.
  destruct (dbl64 _ K0) as [-> M0], (dbl64 _ K1) as [-> M1], (dbl64 _ K2) as [-> M2], (dbl64 _ K3) as [-> M3], (dbl64 _ K4) as [-> M4],
    (dbl64 _ K5) as [-> M5], (dbl64 _ K6) as [-> M6], (dbl64 _ K7) as [-> M7], (dbl64 _ K8) as [-> M8], (dbl64 _ K9) as [-> M9].
  apply FeCombine_elim; try assumption.
  intros r c' T W. apply (HP r (2 * c + c') T). rewrite W.
  transitivity (2 * fval (Fe h0 h1 h2 h3 h4 h5 h6 h7 h8 h9) - c' * p25519); [unfold fval; ring|rewrite V; ring].
Qed.

(* ---- congruence forms ---- *)
Lemma eqp_sub_mult a b c : a = b - c * p25519 -> eqp a b.
Proof. intros ->. unfold eqp. replace (b - c * p25519) with (b + (- c) * p25519) by ring. apply Z.mod_add. discriminate. Qed.
Lemma FeMul_ok f g : loose165 f -> loose165 g -> tight101 (FeMul f g) /\ eqp (fval (FeMul f g)) (fval f * fval g).
Proof. intros F G. apply (FeMul_elim (fun r => tight101 r /\ eqp (fval r) (fval f * fval g)) f g F G). intros r c T E. split; [exact T|exact (eqp_sub_mult _ _ _ E)]. Qed.
Lemma FeSquare_ok f : loose165 f -> tight101 (FeSquare f) /\ eqp (fval (FeSquare f)) (fval f * fval f).
Proof. intros F. apply (FeSquare_elim (fun r => tight101 r /\ eqp (fval r) (fval f * fval f)) f F). intros r c T E. split; [exact T|exact (eqp_sub_mult _ _ _ E)]. Qed.
Lemma FeSquare2_ok f : loose165 f -> tight101 (FeSquare2 f) /\ eqp (fval (FeSquare2 f)) (2 * (fval f * fval f)).
Proof. intros F. apply (FeSquare2_elim (fun r => tight101 r /\ eqp (fval r) (2 * (fval f * fval f))) f F). intros r c T E. split; [exact T|exact (eqp_sub_mult _ _ _ E)]. Qed.
