(* Field elements to and from bytes. *)
From Verif Require Export FieldFacts.

(* ---- or of disjoint parts is a sum ---- *)
Lemma lor_add a b k : 0 <= k -> 0 <= a < 2^k -> Z.lor a (Z.shiftl b k) = a + 2^k * b.
Proof.
  intros Hk Ha.
  assert (L : Z.land a (Z.shiftl b k) = 0).
  { apply Z.bits_inj'. intros n Hn. rewrite Z.land_spec, Z.bits_0.
    destruct (Z.lt_ge_cases n k) as [C|C].
    - rewrite (Z.shiftl_spec_low b k n C). apply andb_false_r.
    - destruct (Z.eq_dec a 0) as [->|N]; [rewrite Z.bits_0; reflexivity|].
      rewrite Z.bits_above_log2; [reflexivity|lia|].
      assert (Z.log2 a < k) by (apply Z.log2_lt_pow2; lia). lia. }
  rewrite <- Z.lxor_lor by exact L. rewrite <- Z.add_nocarry_lxor by exact L.
  rewrite Z.shiftl_mul_pow2 by exact Hk. ring.
Qed.

Lemma load3_val l o : load3 l o = byte_at l o + 2^8 * byte_at l (o + 1) + 2^16 * byte_at l (o + 2).
Proof.
  unfold load3. pose proof (b2z_range (nth o l x00)). pose proof (b2z_range (nth (o+1) l x00)).
  fold (byte_at l o) in *. fold (byte_at l (o+1)) in *.
  rewrite (lor_add (byte_at l o) _ 8) by lia. rewrite (lor_add _ (byte_at l (o+2)) 16) by lia. reflexivity.
Qed.
Lemma load4_val l o : load4 l o = byte_at l o + 2^8 * byte_at l (o + 1) + 2^16 * byte_at l (o + 2) + 2^24 * byte_at l (o + 3).
Proof.
  unfold load4. rewrite load3_val. 
  pose proof (b2z_range (nth o l x00)). pose proof (b2z_range (nth (o+1) l x00)). pose proof (b2z_range (nth (o+2) l x00)).
  fold (byte_at l o) in *. fold (byte_at l (o+1)) in *. fold (byte_at l (o+2)) in *.
  rewrite (lor_add _ (byte_at l (o+3)) 24) by lia. reflexivity.
Qed.
Lemma load3_bounds l o : 0 <= load3 l o < 2^24.
Proof.
  rewrite load3_val. pose proof (b2z_range (nth o l x00)). pose proof (b2z_range (nth (o+1) l x00)). pose proof (b2z_range (nth (o+2) l x00)).
  unfold byte_at. lia.
Qed.
Lemma load4_bounds l o : 0 <= load4 l o < 2^32.
Proof.
  rewrite load4_val. pose proof (b2z_range (nth o l x00)). pose proof (b2z_range (nth (o+1) l x00)). pose proof (b2z_range (nth (o+2) l x00)). pose proof (b2z_range (nth (o+3) l x00)).
  unfold byte_at. lia.
Qed.
Lemma shl64_val a k : 0 <= a < 2^24 -> 0 <= k <= 8 -> shl64 a k = 2^k * a /\ Z.abs (2^k * a) <= 2^62.
Proof.
  intros Ha Hk. unfold shl64. rewrite Z.shiftl_mul_pow2 by lia.
  assert (2^k <= 2^8) by (apply Z.pow_le_mono_r; lia). assert (0 < 2^k) by (apply Z.pow_pos_nonneg; lia).
  assert (0 <= a * 2^k < 2^32) by nia. rewrite i64_id by lia. split; [ring|]. rewrite Z.mul_comm. lia.
Qed.
Lemma shl64_load3 l o k : (0 <=? k) && (k <=? 8) = true -> shl64 (load3 l o) k = 2^k * load3 l o /\ Z.abs (2^k * load3 l o) <= 2^62.
Proof. intro H. apply andb_true_iff in H. rewrite !Z.leb_le in H. apply shl64_val; [apply load3_bounds|lia]. Qed.

(* the number a 32-byte string stands for, its top bit ignored *)
Lemma FeFromBytes_elim (P : fe -> Prop) s : length s = 32%nat ->
  (forall r c, tight101 r -> fval r = le_val s mod 2^255 - c * p25519 -> P r) -> P (FeFromBytes s).
Proof.
  intros Hl HP. unfold FeFromBytes. cbv zeta.
  destruct (shl64_load3 s 4 6 eq_refl) as [-> B1], (shl64_load3 s 7 5 eq_refl) as [-> B2], (shl64_load3 s 10 3 eq_refl) as [-> B3],
    (shl64_load3 s 13 2 eq_refl) as [-> B4], (shl64_load3 s 20 7 eq_refl) as [-> B6], (shl64_load3 s 23 5 eq_refl) as [-> B7],
    (shl64_load3 s 26 4 eq_refl) as [-> B8].
  unfold and64. change 8388607 with (Z.ones 23). rewrite Z.land_ones by lia.
  pose proof (load3_bounds s 29) as R9. pose proof (load4_bounds s 0) as R0. pose proof (load4_bounds s 16) as R5.
  pose proof (Z.mod_pos_bound (load3 s 29) (2^23) ltac:(lia)) as M9.
  destruct (shl64_val (load3 s 29 mod 2^23) 2) as [-> B9]; [lia|lia|].
  apply FeCombine_elim; try assumption; [lia|lia|].
  clear B1 B2 B3 B4 B6 B7 B8 B9 R0 R5.
  intros r c T E. apply (HP r c T). rewrite E. clear HP E T. f_equal.
  pose proof (Z.div_mod (load3 s 29) (2^23) ltac:(lia)) as D9.
  set (t := load3 s 29 / 2^23) in *. set (m := load3 s 29 mod 2^23) in *.
  assert (V : le_val s = fval (Fe (load4 s 0) (2^6 * load3 s 4) (2^5 * load3 s 7) (2^3 * load3 s 10) (2^2 * load3 s 13)
     (load4 s 16) (2^7 * load3 s 20) (2^5 * load3 s 23) (2^4 * load3 s 26) (2^2 * m)) + 2^255 * t).
  { transitivity (fval (Fe (load4 s 0) (2^6 * load3 s 4) (2^5 * load3 s 7) (2^3 * load3 s 10) (2^2 * load3 s 13)
     (load4 s 16) (2^7 * load3 s 20) (2^5 * load3 s 23) (2^4 * load3 s 26) (2^2 * load3 s 29)));
    [|rewrite D9; unfold fval; ring].
    clear D9. rewrite !load3_val, !load4_val. unfold byte_at.
    do 32 (destruct s as [|? s]; [discriminate Hl|]). destruct s; [|discriminate Hl].
    cbn [nth Nat.add le_val]. unfold fval. ring. }
  rewrite V, (Z.mul_comm (2^255) t), Z.mod_add by discriminate. symmetry. apply Z.mod_small.
  pose proof (load4_bounds s 0). pose proof (load4_bounds s 16).
  pose proof (load3_bounds s 4). pose proof (load3_bounds s 7). pose proof (load3_bounds s 10). pose proof (load3_bounds s 13).
  pose proof (load3_bounds s 20). pose proof (load3_bounds s 23). pose proof (load3_bounds s 26).
  unfold fval. clear - M9 H H0 H1 H2 H3 H4 H5 H6 H7. lia.
Qed.

Lemma FeFromBytes_ok s : length s = 32%nat -> tight101 (FeFromBytes s) /\ eqp (fval (FeFromBytes s)) (le_val s mod 2^255).
Proof. intros L. apply (FeFromBytes_elim (fun r => tight101 r /\ eqp (fval r) (le_val s mod 2^255)) s L). intros r c T E. split; [exact T|exact (eqp_sub_mult _ _ _ E)]. Qed.

(* ---- to bytes ---- *)
Lemma floor_split h w : 0 <= w -> exists c r, Z.shiftr h w = c /\ h = 2^w * c + r /\ 0 <= r < 2^w.
Proof.
  intro Hw. assert (0 < 2^w) by (apply Z.pow_pos_nonneg; lia).
  exists (h / 2^w), (h mod 2^w). rewrite Z.shiftr_div_pow2 by exact Hw.
  split; [reflexivity|]. split; [apply Z.div_mod; lia|apply Z.mod_pos_bound; lia].
Qed.
Lemma floor_bound h w c r K : 0 < 2^w -> h = 2^w * c + r -> 0 <= r < 2^w -> Z.abs h <= K -> Z.abs c <= K / 2^w + 1.
Proof.
  intros W E R H. pose proof (Z.div_mod K (2^w) ltac:(lia)) as D. pose proof (Z.mod_pos_bound K (2^w) ltac:(lia)) as M.
  set (q := K / 2^w) in *. set (B := 2^w) in *. assert (Z.abs c < q + 2); [|lia]. nia.
Qed.

Lemma qstep {T} (P : T -> Prop) (F : Z -> T) w h q K L :
  (0 <=? w) && (K + L <? 2^31) = true -> Z.abs h <= K -> Z.abs q <= L ->
  (forall q' r, h + q = 2^w * q' + r -> 0 <= r < 2^w -> Z.abs q' <= (K + L) / 2^w + 1 -> P (F q')) ->
  P (let q' := shr32 (add32 h q) w in F q').
Proof.
  intros Hc Hh Hq H. rewrite andb_true_iff, Z.leb_le, Z.ltb_lt in Hc. destruct Hc as [Hw HK].
  unfold shr32, add32. rewrite i32_id by lia.
  destruct (floor_split (h + q) w Hw) as (c & r & -> & E & R). cbv zeta.
  apply (H c r E R). apply (floor_bound (h + q) w c r); [apply Z.pow_pos_nonneg; lia|exact E|exact R|lia].
Qed.
Lemma cstep {T} (P : T -> Prop) (F : Z -> Z -> T) w h g K L :
  (0 <=? w) && (K + 2^w <? 2^31) && (L + (K / 2^w + 1) <? 2^31) = true -> Z.abs h <= K -> Z.abs g <= L ->
  (forall c r, h = 2^w * c + r -> 0 <= r < 2^w -> Z.abs (g + c) <= L + (K / 2^w + 1) -> P (F (g + c) r)) ->
  P (let c := shr32 h w in let g' := add32 g c in let h' := sub32 h (shl32 c w) in F g' h').
Proof.
  intros Hc Hh Hg H. rewrite !andb_true_iff, Z.leb_le, !Z.ltb_lt in Hc. destruct Hc as [[Hw HK] HL].
  unfold shr32, add32, sub32, shl32.
  destruct (floor_split h w Hw) as (c & r & -> & E & R). cbv zeta.
  assert (W : 0 < 2^w) by (apply Z.pow_pos_nonneg; lia).
  pose proof (floor_bound h w c r K W E R Hh) as B.
  rewrite Z.shiftl_mul_pow2 by exact Hw.
  rewrite (i32_id (c * 2^w)) by lia. rewrite (i32_id (h - c * 2^w)) by lia. rewrite (i32_id (g + c)) by lia.
  replace (h - c * 2^w) with r by lia. apply (H c r E R). lia.
Qed.
Lemma cstep_last {T} (P : T -> Prop) (F : Z -> T) w h K :
  (0 <=? w) && (K + 2^w <? 2^31) = true -> Z.abs h <= K ->
  (forall c r, h = 2^w * c + r -> 0 <= r < 2^w -> P (F r)) ->
  P (let c := shr32 h w in let h' := sub32 h (shl32 c w) in F h').
Proof.
  intros Hc Hh H. rewrite !andb_true_iff, Z.leb_le, !Z.ltb_lt in Hc. destruct Hc as [Hw HK].
  unfold shr32, sub32, shl32.
  destruct (floor_split h w Hw) as (c & r & -> & E & R). cbv zeta.
  rewrite Z.shiftl_mul_pow2 by exact Hw.
  rewrite (i32_id (c * 2^w)) by lia. rewrite (i32_id (h - c * 2^w)) by lia.
  replace (h - c * 2^w) with r by lia. exact (H c r E R).
Qed.

Ltac nb H := lazymatch type of H with Z.abs _ <= ?B => let v := eval vm_compute in B in change B with v in H end.
Ltac do_q w h q q' :=
  lazymatch goal with H : Z.abs h <= ?K, Q : Z.abs q <= ?L |- _ =>
    lazymatch goal with |- ?P (let x := _ in @?F x) => apply (qstep P F w h q K L eq_refl H Q) end;
    let r := fresh "r" in let E := fresh "E" in let R := fresh "R" in let B := fresh "B" in
    intros q' r E R B; cbv beta; nb B end.
Ltac do_c w h g g' r' :=
  lazymatch goal with H : Z.abs h <= ?K, Q : Z.abs g <= ?L |- _ =>
    lazymatch goal with |- ?P (let c := _ in let a := _ in let b := _ in @?F c a b) =>
      let F' := eval cbv beta in (fun a b : Z => F 0%Z a b) in
      apply (cstep P F' w h g K L eq_refl H Q) end;
    let c := fresh "c" in let E := fresh "E" in let R := fresh "R" in let B := fresh "B" in let G := fresh "G" in
    intros c r' E R B; cbv beta; nb B; remember (g + c) as g' eqn:G end.
Ltac do_l w h r' :=
  lazymatch goal with H : Z.abs h <= ?K |- _ =>
    lazymatch goal with |- ?P (let c := _ in let b := _ in @?F c b) =>
      let F' := eval cbv beta in (fun b : Z => F 0%Z b) in
      apply (cstep_last P F' w h K eq_refl H) end;
    let c := fresh "c" in let E := fresh "E" in let R := fresh "R" in
    intros c r' E R; cbv beta end.

Lemma q_initial h9 : Z.abs h9 <= 55364812 ->
  exists q, shr32 (add32 (mul32 19 h9) (shl32 1 24)) 25 = q /\ 2^25 * q <= 19 * h9 + 2^24 < 2^25 * q + 2^25 /\ Z.abs q <= 33.
Proof.
  intro H. unfold mul32, add32, shl32, shr32. rewrite (i32_id (19 * h9)) by lia.
  change (i32 (Z.shiftl 1 24)) with (2^24). rewrite i32_id by lia.
  destruct (floor_split (19 * h9 + 2^24) 25) as (q & r & -> & E & R); [lia|].
  exists q. split; [reflexivity|]. lia.
Qed.

(* the quotient estimate is exact *)
Lemma q_exact V h9 rest q0 q R : V = 2^230 * h9 + rest -> Z.abs rest <= 2^231 ->
  2^25 * q0 <= 19 * h9 + 2^24 < 2^25 * q0 + 2^25 -> Z.abs q0 <= 33 ->
  V + q0 = 2^255 * q + R -> 0 <= R < 2^255 -> 0 <= V - q * p25519 < p25519.
Proof.
  intros EV Hr Hq B0 E HR. unfold p25519.
  assert (X : 2^255 * (V - q * (2^255 - 19)) = (2^255 - 19) * (R - q0) + 19 * V) by lia.
  set (Y := V - q * (2^255 - 19)) in *. clearbody Y.
  assert (0 <= 2^255 * Y + 2^254 + 2^240) by lia.
  assert (2^255 * Y <= 2^255 * (2^255 - 20) + 2^254 + 2^240) by lia.
  lia.
Qed.

Lemma b2z_shr h s : 0 <= s -> b2z (z2b (shr32 h s)) = (h / 2^s) mod 256.
Proof. intro H. rewrite b2z_z2b. unfold shr32. rewrite Z.shiftr_div_pow2 by exact H. reflexivity. Qed.
Lemma i32_mod_pow z k : 0 <= k <= 32 -> i32 z mod 2^k = z mod 2^k.
Proof.
  intro Hk. unfold i32. assert (P1 : 0 < 2^k) by (apply Z.pow_pos_nonneg; lia).
  assert (P2 : 4294967296 = 2^(32-k) * 2^k) by (rewrite <- Z.pow_add_r by lia; replace (32 - k + k) with 32 by lia; reflexivity).
  pose proof (Z.div_mod (z + 2147483648) 4294967296 ltac:(lia)) as D.
  replace ((z + 2147483648) mod 4294967296 - 2147483648) with (z + (- ((z + 2147483648) / 4294967296) * 2^(32-k)) * 2^k).
  - apply Z.mod_add. lia.
  - set (a := (z + 2147483648) / 4294967296) in *. set (b := (z + 2147483648) mod 4294967296) in *. 
    rewrite <- Z.mul_assoc, <- P2. lia.
Qed.
Lemma b2z_or a s b k : 0 <= s -> 0 < k < 8 -> 0 <= a < 2^(s+k) ->
  b2z (z2b (or32 (shr32 a s) (shl32 b k))) = a / 2^s + 2^k * (b mod 2^(8-k)).
Proof.
  intros Hs Hk Ha. rewrite b2z_z2b. unfold or32, shr32, shl32. rewrite Z.shiftr_div_pow2 by exact Hs.
  assert (P1 : 0 < 2^s) by (apply Z.pow_pos_nonneg; lia). assert (P2 : 0 < 2^k) by (apply Z.pow_pos_nonneg; lia).
  assert (A : 0 <= a / 2^s < 2^k).
  { split; [apply Z.div_pos; lia|]. apply Z.div_lt_upper_bound; [lia|]. rewrite <- Z.pow_add_r by lia. lia. }
  assert (P3 : 256 = 2^k * 2^(8-k)) by (rewrite <- Z.pow_add_r by lia; replace (k + (8 - k)) with 8 by lia; reflexivity).
  assert (P4 : 0 < 2^(8-k)) by (apply Z.pow_pos_nonneg; lia).
  change 256 with (2^8) at 1. rewrite <- Z.land_ones by lia. rewrite Z.land_lor_distr_l, !Z.land_ones by lia.
  rewrite (i32_mod_pow _ 8) by lia. rewrite Z.shiftl_mul_pow2 by lia.
  rewrite (Z.mod_small (a / 2^s) (2^8)) by (change (2^8) with 256; nia).
  change (2^8) with 256. rewrite P3, (Z.mul_comm (2^k) (2^(8-k))), Z.mul_mod_distr_r by lia.
  rewrite <- (Z.shiftl_mul_pow2 _ k) by lia. apply lor_add; [lia|exact A].
Qed.
Lemma shr0 h : shr32 h 0 = h.
Proof. reflexivity. Qed.

Lemma limb_split l h : 0 <= l ->
  h = h mod 2^l + 2^l * ((h / 2^l) mod 256) + 2^(l+8) * ((h / 2^(l+8)) mod 256) + 2^(l+16) * (h / 2^(l+16)).
Proof.
  intro Hl. assert (P : 0 < 2^l) by (apply Z.pow_pos_nonneg; lia).
  rewrite !Z.pow_add_r by lia. change (2^8) with 256. change (2^16) with (256 * 256). rewrite (Z.mul_assoc (2^l)).
  rewrite <- !Z.div_div by lia.
  pose proof (Z.div_mod h (2^l) ltac:(lia)) as D1. set (a := h / 2^l) in *.
  pose proof (Z.div_mod a 256 ltac:(lia)) as D2. set (b := a / 256) in *.
  pose proof (Z.div_mod b 256 ltac:(lia)) as D3. set (c := b / 256) in *.
  rewrite D1 at 1. rewrite D2 at 1. rewrite D3 at 1. ring.
Qed.

(* limbs all in [0, 2^26) / [0, 2^25) *)
Definition pack (f : fe) : bytes :=
  let '(Fe h_0_ h_1_ h_2_ h_3_ h_4_ h_5_ h_6_ h_7_ h_8_ h_9_) := f in
  [z2b (h_0_ >> 0)%i32;
    z2b (h_0_ >> 8)%i32;
    z2b (h_0_ >> 16)%i32;
    z2b ((h_0_ >> 24) || (h_1_ << 2))%i32;
    z2b (h_1_ >> 6)%i32;
    z2b (h_1_ >> 14)%i32;
    z2b ((h_1_ >> 22) || (h_2_ << 3))%i32;
    z2b (h_2_ >> 5)%i32;
    z2b (h_2_ >> 13)%i32;
    z2b ((h_2_ >> 21) || (h_3_ << 5))%i32;
    z2b (h_3_ >> 3)%i32;
    z2b (h_3_ >> 11)%i32;
    z2b ((h_3_ >> 19) || (h_4_ << 6))%i32;
    z2b (h_4_ >> 2)%i32;
    z2b (h_4_ >> 10)%i32;
    z2b (h_4_ >> 18)%i32;
    z2b (h_5_ >> 0)%i32;
    z2b (h_5_ >> 8)%i32;
    z2b (h_5_ >> 16)%i32;
    z2b ((h_5_ >> 24) || (h_6_ << 1))%i32;
    z2b (h_6_ >> 7)%i32;
    z2b (h_6_ >> 15)%i32;
    z2b ((h_6_ >> 23) || (h_7_ << 3))%i32;
    z2b (h_7_ >> 5)%i32;
    z2b (h_7_ >> 13)%i32;
    z2b ((h_7_ >> 21) || (h_8_ << 4))%i32;
    z2b (h_8_ >> 4)%i32;
    z2b (h_8_ >> 12)%i32;
    z2b ((h_8_ >> 20) || (h_9_ << 6))%i32;
    z2b (h_9_ >> 2)%i32;
    z2b (h_9_ >> 10)%i32;
    z2b (h_9_ >> 18)%i32].

Lemma pack_val f : canon_limbs f -> le_val (pack f) = fval f.
Proof.
  destruct f as [h0 h1 h2 h3 h4 h5 h6 h7 h8 h9]. cbn [canon_limbs].
  intros (H0 & H1 & H2 & H3 & H4 & H5 & H6 & H7 & H8 & H9).
  cbn [pack le_val].
  rewrite (b2z_or h0 24 h1 2), (b2z_or h1 22 h2 3), (b2z_or h2 21 h3 5), (b2z_or h3 19 h4 6),
    (b2z_or h5 24 h6 1), (b2z_or h6 23 h7 3), (b2z_or h7 21 h8 4), (b2z_or h8 20 h9 6) by (split; lia) || lia.
  rewrite !b2z_shr by lia.
  rewrite (Z.mod_small (h4 / 2^18)) by (split; [apply Z.div_pos; lia|apply Z.div_lt_upper_bound; lia]).
  rewrite (Z.mod_small (h9 / 2^18)) by (split; [apply Z.div_pos; lia|apply Z.div_lt_upper_bound; lia]).
  assert (S0 : h0 = h0 mod 2^8 + 2^8 * ((h0 / 2^8) mod 256) + 2^16 * ((h0 / 2^16) mod 256) + 2^24 * (h0 / 2^24)) by exact (limb_split 8 h0 ltac:(lia)).
  assert (S1 : h1 = h1 mod 2^6 + 2^6 * ((h1 / 2^6) mod 256) + 2^14 * ((h1 / 2^14) mod 256) + 2^22 * (h1 / 2^22)) by exact (limb_split 6 h1 ltac:(lia)).
  assert (S2 : h2 = h2 mod 2^5 + 2^5 * ((h2 / 2^5) mod 256) + 2^13 * ((h2 / 2^13) mod 256) + 2^21 * (h2 / 2^21)) by exact (limb_split 5 h2 ltac:(lia)).
  assert (S3 : h3 = h3 mod 2^3 + 2^3 * ((h3 / 2^3) mod 256) + 2^11 * ((h3 / 2^11) mod 256) + 2^19 * (h3 / 2^19)) by exact (limb_split 3 h3 ltac:(lia)).
  assert (S4 : h4 = h4 mod 2^2 + 2^2 * ((h4 / 2^2) mod 256) + 2^10 * ((h4 / 2^10) mod 256) + 2^18 * (h4 / 2^18)) by exact (limb_split 2 h4 ltac:(lia)).
  assert (S5 : h5 = h5 mod 2^8 + 2^8 * ((h5 / 2^8) mod 256) + 2^16 * ((h5 / 2^16) mod 256) + 2^24 * (h5 / 2^24)) by exact (limb_split 8 h5 ltac:(lia)).
  assert (S6 : h6 = h6 mod 2^7 + 2^7 * ((h6 / 2^7) mod 256) + 2^15 * ((h6 / 2^15) mod 256) + 2^23 * (h6 / 2^23)) by exact (limb_split 7 h6 ltac:(lia)).
  assert (S7 : h7 = h7 mod 2^5 + 2^5 * ((h7 / 2^5) mod 256) + 2^13 * ((h7 / 2^13) mod 256) + 2^21 * (h7 / 2^21)) by exact (limb_split 5 h7 ltac:(lia)).
  assert (S8 : h8 = h8 mod 2^4 + 2^4 * ((h8 / 2^4) mod 256) + 2^12 * ((h8 / 2^12) mod 256) + 2^20 * (h8 / 2^20)) by exact (limb_split 4 h8 ltac:(lia)).
  assert (S9 : h9 = h9 mod 2^2 + 2^2 * ((h9 / 2^2) mod 256) + 2^10 * ((h9 / 2^10) mod 256) + 2^18 * (h9 / 2^18)) by exact (limb_split 2 h9 ltac:(lia)).
  assert (M0 : (h0 / 2^0) mod 256 = h0 mod 2^8) by (rewrite Z.pow_0_r, Z.div_1_r; reflexivity).
  assert (M5 : (h5 / 2^0) mod 256 = h5 mod 2^8) by (rewrite Z.pow_0_r, Z.div_1_r; reflexivity).
  rewrite M0, M5.
  change (2 ^ (8 - 2)) with (2 ^ 6).
  change (2 ^ (8 - 3)) with (2 ^ 5).
  change (2 ^ (8 - 5)) with (2 ^ 3).
  change (2 ^ (8 - 6)) with (2 ^ 2).
  change (2 ^ (8 - 1)) with (2 ^ 7).
  change (2 ^ (8 - 4)) with (2 ^ 4).
  clear H0 H1 H2 H3 H4 H5 H6 H7 H8 H9 M0 M5. unfold fval.
  set (a0 := h0 mod 2^8) in *. set (b0 := (h0 / 2^8) mod 256) in *. set (c0 := (h0 / 2^16) mod 256) in *. set (d0 := h0 / 2^24) in *.
  set (a1 := h1 mod 2^6) in *.
  set (b1 := (h1 / 2^6) mod 256) in *. set (c1 := (h1 / 2^14) mod 256) in *. set (d1 := h1 / 2^22) in *.
  set (a2 := h2 mod 2^5) in *.
  set (b2 := (h2 / 2^5) mod 256) in *. set (c2 := (h2 / 2^13) mod 256) in *. set (d2 := h2 / 2^21) in *.
  set (a3 := h3 mod 2^3) in *.
  set (b3 := (h3 / 2^3) mod 256) in *. set (c3 := (h3 / 2^11) mod 256) in *. set (d3 := h3 / 2^19) in *.
  set (a4 := h4 mod 2^2) in *.
  set (b4 := (h4 / 2^2) mod 256) in *. set (c4 := (h4 / 2^10) mod 256) in *. set (d4 := h4 / 2^18) in *.
  set (a5 := h5 mod 2^8) in *. set (b5 := (h5 / 2^8) mod 256) in *. set (c5 := (h5 / 2^16) mod 256) in *. set (d5 := h5 / 2^24) in *.
  set (a6 := h6 mod 2^7) in *.
  set (b6 := (h6 / 2^7) mod 256) in *. set (c6 := (h6 / 2^15) mod 256) in *. set (d6 := h6 / 2^23) in *.
  set (a7 := h7 mod 2^5) in *.
  set (b7 := (h7 / 2^5) mod 256) in *. set (c7 := (h7 / 2^13) mod 256) in *. set (d7 := h7 / 2^21) in *.
  set (a8 := h8 mod 2^4) in *.
  set (b8 := (h8 / 2^4) mod 256) in *. set (c8 := (h8 / 2^12) mod 256) in *. set (d8 := h8 / 2^20) in *.
  set (a9 := h9 mod 2^2) in *.
  set (b9 := (h9 / 2^2) mod 256) in *. set (c9 := (h9 / 2^10) mod 256) in *. set (d9 := h9 / 2^18) in *.
  clearbody a0 b0 c0 d0 a1 b1 c1 d1 a2 b2 c2 d2 a3 b3 c3 d3 a4 b4 c4 d4 a5 b5 c5 d5 a6 b6 c6 d6 a7 b7 c7 d7 a8 b8 c8 d8 a9 b9 c9 d9.
  subst. ring.
Qed.

Lemma FeToBytes_elim (P : bytes * fe -> Prop) h : loose165 h ->
  (forall r, canon_limbs r -> fval r = fval h mod p25519 -> P (pack r, r)) -> P (FeToBytes h).
Proof.
  destruct h as [h0 h1 h2 h3 h4 h5 h6 h7 h8 h9]. unfold loose165. cbn [limbs].
  intros (F0 & F1 & F2 & F3 & F4 & F5 & F6 & F7 & F8 & F9) HP.
  cbv beta iota delta [FeToBytes].
  destruct (q_initial h9 F9) as (q & -> & Q1 & Q2).
  elim_let qq. subst qq.
  do_q 26 h0 q q0. do_q 25 h1 q0 q1. do_q 26 h2 q1 q2. do_q 25 h3 q2 q3. do_q 26 h4 q3 q4.
  do_q 25 h5 q4 q5. do_q 26 h6 q5 q6. do_q 25 h7 q6 q7. do_q 26 h8 q7 q8. do_q 25 h9 q8 q9.
  assert (X : 0 <= fval (Fe h0 h1 h2 h3 h4 h5 h6 h7 h8 h9) - q9 * p25519 < p25519).
  { apply (q_exact _ h9 (h0 + 2^26 * h1 + 2^51 * h2 + 2^77 * h3 + 2^102 * h4 + 2^128 * h5 + 2^153 * h6 + 2^179 * h7 + 2^204 * h8) q q9
      (r + 2^26 * r0 + 2^51 * r1 + 2^77 * r2 + 2^102 * r3 + 2^128 * r4 + 2^153 * r5 + 2^179 * r6 + 2^204 * r7 + 2^230 * r8)).
    - unfold fval. ring.
    - clear - F0 F1 F2 F3 F4 F5 F6 F7 F8. lia.
    - exact Q1.
    - exact Q2.
    - unfold fval. clear - E E0 E1 E2 E3 E4 E5 E6 E7 E8. lia.
    - clear - R R0 R1 R2 R3 R4 R5 R6 R7 R8. lia. }
  assert (B10 : Z.abs q9 <= 5) by (eapply Z.le_trans; [eassumption|discriminate]).
  clear - HP F0 F1 F2 F3 F4 F5 F6 F7 F8 F9 X B10.
  elim_let h0'. assert (E0 : h0' = h0 + 19 * q9) by (subst h0'; unfold add32, mul32; rewrite (i32_id (19 * q9)) by lia; apply i32_id; lia).
  clearbody h0'. assert (F0' : Z.abs h0' <= 110729725) by lia.
  do_c 26 h0' h1 h1' s0. do_c 25 h1' h2 h2' s1. do_c 26 h2' h3 h3' s2. do_c 25 h3' h4 h4' s3. do_c 26 h4' h5 h5' s4.
  do_c 25 h5' h6 h6' s5. do_c 26 h6' h7 h7' s6. do_c 25 h7' h8 h8' s7. do_c 26 h8' h9 h9' s8. do_l 25 h9' s9.
  assert (Y : fval (Fe s0 s1 s2 s3 s4 s5 s6 s7 s8 s9) = fval (Fe h0 h1 h2 h3 h4 h5 h6 h7 h8 h9) mod p25519).
  { assert (W : fval (Fe h0 h1 h2 h3 h4 h5 h6 h7 h8 h9) + 19 * q9 = fval (Fe s0 s1 s2 s3 s4 s5 s6 s7 s8 s9) + 2^255 * c8).
    { unfold fval. clear - E0 E E1 E2 E3 E4 E5 E6 E7 E8 E9 G G0 G1 G2 G3 G4 G5 G6 G7. lia. }
    assert (Rg : 0 <= fval (Fe s0 s1 s2 s3 s4 s5 s6 s7 s8 s9) < 2^255) by (unfold fval; clear - R R0 R1 R2 R3 R4 R5 R6 R7 R8; lia).
    set (V := fval (Fe h0 h1 h2 h3 h4 h5 h6 h7 h8 h9)) in *. set (U := fval (Fe s0 s1 s2 s3 s4 s5 s6 s7 s8 s9)) in *. clearbody U V.
    clear - X W Rg. assert (c8 = q9) by (unfold p25519 in X; lia). subst c8.
    apply (Z.mod_unique V p25519 q9 U); [left|]; unfold p25519 in *; lia. }
  apply (HP (Fe s0 s1 s2 s3 s4 s5 s6 s7 s8 s9)); [|exact Y].
  repeat split; lia.
Qed.

Lemma FeToBytes_ok h : loose165 h -> le_val (fst (FeToBytes h)) = fval h mod p25519 /\ length (fst (FeToBytes h)) = 32%nat /\
  canon_limbs (snd (FeToBytes h)) /\ fval (snd (FeToBytes h)) = fval h mod p25519.
Proof.
  intro L. apply (FeToBytes_elim (fun t => le_val (fst t) = fval h mod p25519 /\ length (fst t) = 32%nat /\ canon_limbs (snd t) /\ fval (snd t) = fval h mod p25519) h L).
  intros r C E. cbn [fst snd]. rewrite (pack_val r C). repeat split; auto. destruct r; reflexivity.
Qed.
