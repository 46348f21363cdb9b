(* Scalar multiplication: GeScalarMultBase and GeDoubleScalarMultVartime
   (edwards25519.go:875-1014) against multiples of points. *)
From Verif Require Export TableFacts SlideFacts.
From Verif Require Import FieldFacts Decode NumTheory OrderPrime.
Local Open Scope Z_scope.

(* ---- selectPoint ---- *)
Lemma FeCMove_0 f g : FeCMove f g 0 = f.
Proof. destruct f, g. cbn [FeCMove]. change (i32 (- 0)) with 0. rewrite !Z.land_0_l, !Z.lxor_0_r. reflexivity. Qed.
Lemma FeCMove_1 f g : FeCMove f g 1 = g.
Proof.
  destruct f, g. cbn [FeCMove]. change (i32 (- (1))) with (-1). rewrite !Z.land_m1_l, <- !Z.lxor_assoc, !Z.lxor_nilpotent, !Z.lxor_0_l. reflexivity.
Qed.
Lemma pc_cmove_0 t u : pc_cmove t u 0 = t.
Proof. unfold pc_cmove. rewrite !FeCMove_0. destruct t. reflexivity. Qed.
Lemma pc_cmove_1 t u : pc_cmove t u 1 = u.
Proof. unfold pc_cmove. rewrite !FeCMove_1. destruct u. reflexivity. Qed.
Definition select_abs (pos : nat) (k : Z) : PreComputedGE :=
  if (1 <=? k) && (k <=? 8) then nth (Z.to_nat (k - 1)) (nth pos base []) pc_zero else pc_zero.
Definition pc_neg (t : PreComputedGE) : PreComputedGE := PCGE (yMinusX t) (yPlusX t) (FeNeg (xy2d t)).
Lemma selectPoint_eq pos b : -16 <= b <= 16 ->
  selectPoint pos b = if b <? 0 then pc_neg (select_abs pos (- b)) else select_abs pos b.
Proof.
  intro H. unfold selectPoint, select_abs. generalize (nth pos base []) as row. intro row.
  assert (C : b = -16 \/ b = -15 \/ b = -14 \/ b = -13 \/ b = -12 \/ b = -11 \/ b = -10 \/ b = -9 \/ b = -8 \/ b = -7 \/ b = -6 \/ b = -5 \/ b = -4 \/ b = -3 \/ b = -2 \/ b = -1 \/
    b = 0 \/ b = 1 \/ b = 2 \/ b = 3 \/ b = 4 \/ b = 5 \/ b = 6 \/ b = 7 \/ b = 8 \/ b = 9 \/ b = 10 \/ b = 11 \/ b = 12 \/ b = 13 \/ b = 14 \/ b = 15 \/ b = 16) by lia.
  repeat (destruct C as [C|C]; [|]); subst b; cbv zeta; cbn [seq fold_left];
  repeat match goal with |- context [equal ?a ?b] => let v := eval vm_compute in (equal a b) in change (equal a b) with v end;
  match goal with |- context [negative ?a] => let v := eval vm_compute in (negative a) in change (negative a) with v end;
  rewrite ?pc_cmove_0, ?pc_cmove_1, ?pc_cmove_0; reflexivity.
Qed.
Lemma pc_zero_tight : pre_tight pc_zero pO.
Proof.
  destruct pc_zero_ok as (_ & _ & _ & E). split; [apply in_tight_ok; reflexivity|]. split; [apply in_tight_ok; reflexivity|]. split; [apply in_tight_ok; reflexivity|exact E].
Qed.
Lemma pc_neg_tight t P : pre_tight t P -> pre_tight (pc_neg t) (pneg P).
Proof.
  intros (A & B & C & E1 & E2 & E3). unfold pre_tight, pc_neg. cbn [yPlusX yMinusX xy2d]. destruct (FeNeg_F _ _ _ C) as [T E]; [lia|lia|].
  split; [exact B|]. split; [exact A|]. split; [exact T|]. unfold pneg. cbn [fst snd]. rewrite E, E1, E2, E3. split; [ring|]. split; ring.
Qed.
Lemma select_abs_ok pos k : (pos < 32)%nat -> 0 <= k <= 8 -> pre_tight (select_abs pos k) (zmul (k * 256 ^ Z.of_nat pos) pB).
Proof.
  intros Hp Hk. unfold select_abs. destruct (Z.leb_spec 1 k) as [L|L].
  - rewrite (proj2 (Z.leb_le k 8)) by lia. cbn [andb]. pose proof (base_ok pos (Z.to_nat (k - 1)) pc_zero Hp ltac:(lia)) as T.
    rewrite Z2Nat.id in T by lia. replace (k - 1 + 1) with k in T by lia. exact T.
  - replace k with 0 by lia. exact pc_zero_tight.
Qed.
Lemma selectPoint_ok pos b : (pos < 32)%nat -> -8 <= b <= 8 -> pre_rep (selectPoint pos b) (zmul (b * 256 ^ Z.of_nat pos) pB).
Proof.
  intros Hp Hb. apply pre_tight_rep. rewrite selectPoint_eq by lia. destruct (Z.ltb_spec b 0) as [L|L].
  - replace (b * 256 ^ Z.of_nat pos) with (- (- b * 256 ^ Z.of_nat pos)) by lia. rewrite zmul_opp. apply pc_neg_tight, select_abs_ok; [exact Hp|lia].
  - apply select_abs_ok; [exact Hp|lia].
Qed.

(* ---- the signed digits of GeScalarMultBase ---- *)
Lemma i8_small z : -128 <= z < 128 -> i8 z = z.
Proof. intro H. unfold i8. rewrite Z.mod_small; lia. Qed.
Definition nib (x : Z) : Prop := 0 <= x <= 15.
Lemma recode_ok n : forall c e, length e = Datatypes.S n -> Forall nib e -> 0 <= c <= 1 ->
  length (recode n c e) = Datatypes.S n /\ dval 16 (recode n c e) = dval 16 e + c /\
  Forall (fun d => -8 <= d <= 16) (recode n c e) /\ (last e 0 <= 7 -> Forall (fun d => -8 <= d <= 8) (recode n c e)).
Proof.
  induction n as [|n IH]; intros c e Hl HN Hc; (destruct e as [|x e]; [discriminate Hl|]); cbn [length] in Hl; injection Hl as Hl; pose proof (Forall_inv HN) as Hx; apply Forall_inv_tail in HN; unfold nib in Hx.
  - destruct e; [|discriminate Hl]. cbn [recode length dval last]. rewrite i8_small by lia. split; [reflexivity|]. split; [lia|]. split; [repeat constructor; lia|]. intro L. repeat constructor; lia.
  - cbn [recode]. cbv zeta. rewrite (i8_small (x + c)), (i8_small (x + c + 8)) by lia. set (c' := Z.shiftr (x + c + 8) 4).
    assert (Hc' : c' = (x + c + 8) / 16) by (unfold c'; rewrite Z.shiftr_div_pow2 by lia; reflexivity).
    assert (Rc : 0 <= c' <= 1) by (rewrite Hc'; pose proof (Z.div_le_lower_bound (x + c + 8) 16 0); pose proof (Z.div_lt_upper_bound (x + c + 8) 16 2); lia).
    assert (Sc : Z.shiftl c' 4 = 16 * c') by (rewrite Z.shiftl_mul_pow2 by lia; lia). rewrite Sc, (i8_small (16 * c')) by lia.
    assert (Rd : -8 <= x + c - 16 * c' <= 8) by (pose proof (Z.div_mod (x + c + 8) 16 ltac:(lia)); pose proof (Z.mod_pos_bound (x + c + 8) 16); lia).
    rewrite i8_small by lia. destruct (IH c' e Hl HN Rc) as (L & V & D & D'). cbn [length dval].
    split; [rewrite L; reflexivity|]. split; [rewrite V; lia|]. split; [constructor; [lia|exact D]|]. intro H. constructor; [exact Rd|]. apply D'.
    destruct e as [|y e]; [discriminate Hl|exact H].
Qed.
Lemma nibble_byte v : nib (i8 (Z.land (b2z v) 15)) /\ nib (i8 (Z.land (Z.shiftr (b2z v) 4) 15)) /\
  i8 (Z.land (b2z v) 15) + 16 * i8 (Z.land (Z.shiftr (b2z v) 4) 15) = b2z v.
Proof. destruct v; vm_compute; repeat split; discriminate. Qed.
Lemma nibbles_ok a : length (nibbles a) = (2 * length a)%nat /\ Forall nib (nibbles a) /\ dval 16 (nibbles a) = le_val a.
Proof.
  induction a as [|v a (L & N & V)]; [split; [reflexivity|]; split; [constructor|reflexivity]|].
  destruct (nibble_byte v) as (N1 & N2 & E). cbn [nibbles flat_map app length dval le_val]. fold (nibbles a). rewrite L, V.
  split; [lia|]. split; [repeat (constructor; [assumption|]); exact N|]. lia.
Qed.
Lemma last_nibble a : a <> [] -> b2z (last a x00) <= 127 -> last (nibbles a) 0 <= 7.
Proof.
  induction a as [|v a IH]; [congruence|]. intros _ H. destruct a as [|w a].
  - cbn [nibbles flat_map app last] in *. clear - H. destruct v; vm_compute; try discriminate; vm_compute in H; exfalso; apply H; reflexivity.
  - cbn [nibbles flat_map app]. fold (nibbles a). change (last (nibbles (w :: a)) 0 <= 7). apply IH; [discriminate|exact H].
Qed.

(* ---- sums over even and odd positions ---- *)
Definition osum (f : nat -> Z) (l : list nat) : Z := fold_right (fun i s => f i + s) 0 l.
Definition term (e : list Z) (i : nat) : Z := at_ e i * 256 ^ Z.of_nat (i / 2).
Lemma osum_scale f c l : osum (fun i => c * f i) l = c * osum f l.
Proof. induction l as [|i l IH]; cbn [osum fold_right]; [lia|]. fold (osum (fun i => c * f i) l). fold (osum f l). rewrite IH. lia. Qed.
Lemma osum_map f g l : osum f (map g l) = osum (fun i => f (g i)) l.
Proof. induction l as [|i l IH]; [reflexivity|]. cbn [map osum fold_right]. fold (osum f (map g l)). rewrite IH. reflexivity. Qed.
Lemma osum_ext f g l : (forall i, In i l -> f i = g i) -> osum f l = osum g l.
Proof. intro H. induction l as [|i l IH]; [reflexivity|]. cbn [osum fold_right]. fold (osum f l). fold (osum g l). rewrite H by (left; reflexivity). rewrite IH; [reflexivity|]. intros j Hj. apply H. right. exact Hj. Qed.
Lemma digits_sum n : forall e, length e = (2 * n)%nat ->
  16 * osum (term e) (map (fun k => 2 * k + 1)%nat (seq 0 n)) + osum (term e) (map (fun k => 2 * k)%nat (seq 0 n)) = dval 16 e.
Proof.
  induction n as [|n IH]; intros e H; [destruct e; [reflexivity|discriminate H]|].
  destruct e as [|x [|y e]]; [discriminate H|cbn [length] in H; lia|]. cbn [length] in H. assert (L : length e = (2 * n)%nat) by lia.
  specialize (IH e L). rewrite !osum_map in *. cbn [seq]. rewrite <- seq_shift. cbn [osum fold_right].
  fold (osum (fun i => term (x :: y :: e) (2 * i + 1)) (map Datatypes.S (seq 0 n))). fold (osum (fun i => term (x :: y :: e) (2 * i)) (map Datatypes.S (seq 0 n))).
  rewrite !osum_map. cbn [dval].
  rewrite (osum_ext (fun i => term (x :: y :: e) (2 * Datatypes.S i + 1)) (fun i => 256 * term e (2 * i + 1))).
  2:{ intros i _. unfold term. replace (2 * Datatypes.S i + 1)%nat with (Datatypes.S (Datatypes.S (2 * i + 1))) by lia. unfold at_. cbn [nth].
      replace (Datatypes.S (Datatypes.S (2 * i + 1))) with (2 * i + 1 + 1 * 2)%nat by lia. rewrite Nat.div_add by lia. rewrite Nat2Z.inj_add, Z.pow_add_r by lia. lia. }
  rewrite (osum_ext (fun i => term (x :: y :: e) (2 * Datatypes.S i)) (fun i => 256 * term e (2 * i))).
  2:{ intros i _. unfold term. replace (2 * Datatypes.S i)%nat with (Datatypes.S (Datatypes.S (2 * i))) by lia. unfold at_. cbn [nth].
      replace (Datatypes.S (Datatypes.S (2 * i))) with (2 * i + 1 * 2)%nat by lia. rewrite Nat.div_add by lia. rewrite Nat2Z.inj_add, Z.pow_add_r by lia. lia. }
  rewrite !osum_scale. change (term (x :: y :: e) (2 * 0 + 1)) with (y * 1). change (term (x :: y :: e) (2 * 0)) with (x * 1). rewrite <- IH. ring.
Qed.

(* ---- GeScalarMultBase ---- *)
Lemma base_fold e v is : (forall i, In i is -> pre_rep (selectPoint (i / 2) (at_ e i)) (zmul (v i) pB)) ->
  forall h k, ext_rep h (zmul k pB) -> ext_rep (fold_left (base_step e) is h) (zmul (k + osum v is) pB).
Proof.
  induction is as [|i is IH]; intros H h k Hh; [cbn [fold_left osum fold_right]; rewrite Z.add_0_r; exact Hh|].
  cbn [fold_left osum fold_right]. fold (osum v is). rewrite Z.add_assoc. apply IH; [intros j Hj; apply H; right; exact Hj|].
  unfold base_step. apply c_to_extended_ok. rewrite zmul_add by exact on_pB.
  apply geMixedAdd_ok; [exact Hh|apply H; left; reflexivity|apply on_zmul, on_pB|apply on_zmul, on_pB].
Qed.
Lemma four_doublings h k : ext_rep h (zmul k pB) ->
  ext_rep (c_to_extended (p_double (c_to_projective (p_double (c_to_projective (p_double (c_to_projective (e_double h)))))))) (zmul (16 * k) pB).
Proof.
  intro H. assert (D : forall m, padd (zmul m pB) (zmul m pB) = zmul (2 * m) pB) by (intro m; rewrite <- zmul_add by exact on_pB; f_equal; lia).
  assert (O : forall m, on (zmul m pB)) by (intro m; apply on_zmul, on_pB).
  replace (16 * k) with (2 * (2 * (2 * (2 * k)))) by lia. rewrite <- (D (2 * (2 * (2 * k)))). apply c_to_extended_ok, p_double_ok; [|apply O].
  rewrite <- (D (2 * (2 * k))). apply c_to_projective_ok, p_double_ok; [|apply O]. rewrite <- (D (2 * k)). apply c_to_projective_ok, p_double_ok; [|apply O].
  rewrite <- (D k). apply c_to_projective_ok, e_double_ok; [exact H|apply O].
Qed.
Lemma scalar_mult_base_gen a v : let e := recode 63 0 (nibbles a) in
  (forall i, (i < 64)%nat -> pre_rep (selectPoint (i / 2) (at_ e i)) (zmul (v i) pB)) ->
  ext_rep (GeScalarMultBase a) (zmul (16 * osum v (map (fun k => 2 * k + 1)%nat (seq 0 32)) + osum v (map (fun k => 2 * k)%nat (seq 0 32))) pB).
Proof.
  intros e H. unfold GeScalarMultBase. fold e. cbv zeta. apply base_fold.
  { intros i Hi. apply H. apply in_map_iff in Hi. destruct Hi as (k & <- & Hk). apply in_seq in Hk. lia. }
  apply four_doublings. rewrite <- (Z.add_0_l (osum v _)). apply base_fold; [|exact e_zero_ok].
  intros i Hi. apply H. apply in_map_iff in Hi. destruct Hi as (k & <- & Hk). apply in_seq in Hk. lia.
Qed.
Lemma scalar_mult_base_ok a : length a = 32%nat -> byte_at a 31 <= 127 -> ext_rep (GeScalarMultBase a) (zmul (le_val a) pB).
Proof.
  intros L H. destruct (nibbles_ok a) as (NL & NN & NV). rewrite L in NL.
  destruct (recode_ok 63 0 (nibbles a) NL NN ltac:(lia)) as (RL & RV & _ & RD).
  assert (H7 : last (nibbles a) 0 <= 7).
  { apply last_nibble; [destruct a; discriminate|]. unfold byte_at in H. clear - L H.
    do 32 (destruct a as [|? a]; [discriminate L|]). destruct a; [|discriminate L]. exact H. }
  specialize (RD H7). rewrite Forall_forall in RD.
  pose proof (scalar_mult_base_gen a (term (recode 63 0 (nibbles a)))) as G. cbv zeta in G.
  rewrite (digits_sum 32) in G by exact RL. rewrite RV, NV, Z.add_0_r in G. apply G. intros i Hi. apply selectPoint_ok.
  - apply Nat.div_lt_upper_bound; lia.
  - apply RD. apply nth_In. rewrite RL. exact Hi.
Qed.

(* ---- GeDoubleScalarMultVartime ---- *)
Lemma odd_multiples_ok A A2 d : on A -> ext_rep A2 (zmul 2 A) -> forall n c k, cached_rep c (zmul k A) ->
  forall j, (j <= n)%nat -> cached_rep (nth j (odd_multiples n A2 c) d) (zmul (k + 2 * Z.of_nat j) A).
Proof.
  intros O H2. induction n as [|n IH]; intros c k Hc j Hj.
  - replace j with 0%nat by lia. cbn [odd_multiples nth]. replace (k + 2 * Z.of_nat 0) with k by lia. exact Hc.
  - cbn [odd_multiples]. destruct j as [|j]; [cbn [nth]; replace (k + 2 * Z.of_nat 0) with k by lia; exact Hc|]. cbn [nth].
    replace (k + 2 * Z.of_nat (Datatypes.S j)) with ((2 + k) + 2 * Z.of_nat j) by lia. apply IH; [|lia].
    apply to_cached_ok, c_to_extended_ok. rewrite zmul_add by exact O. apply geAdd_ok; [exact H2|exact Hc|apply on_zmul; exact O|apply on_zmul; exact O].
Qed.
Lemma wdigit_cases d : wdigit d -> d = 0 \/ d = 1 \/ d = 3 \/ d = 5 \/ d = 7 \/ d = 9 \/ d = 11 \/ d = 13 \/ d = 15 \/
  d = -1 \/ d = -3 \/ d = -5 \/ d = -7 \/ d = -9 \/ d = -11 \/ d = -13 \/ d = -15.
Proof.
  intros [H|[H1 H2]]; [left; exact H|right]. apply Z.odd_spec in H1. destruct H1 as [m H1]. lia.
Qed.
Lemma add_a_ok Ai A t P d : on A -> on P -> (forall j, (j < 8)%nat -> cached_rep (nth j Ai ca_zero) (zmul (2 * Z.of_nat j + 1) A)) ->
  comp_rep t P -> wdigit d -> comp_rep (add_a Ai d t) (padd P (zmul d A)).
Proof.
  intros OA OP HA Ht Hd. apply wdigit_cases in Hd. destruct Hd as [->|Hd]; [cbn [add_a Z.ltb Z.compare]; rewrite zmul_0; unfold pO; rewrite padd_O_r; exact Ht|].
  assert (Pos : forall d j, d = 2 * Z.of_nat j + 1 -> (j < 8)%nat -> comp_rep (geAdd (c_to_extended t) (nth j Ai ca_zero)) (padd P (zmul d A))).
  { intros d' j -> Hj. apply geAdd_ok; [apply c_to_extended_ok; exact Ht|apply HA; exact Hj|exact OP|apply on_zmul; exact OA]. }
  assert (Neg : forall d j, d = - (2 * Z.of_nat j + 1) -> (j < 8)%nat -> comp_rep (geSub (c_to_extended t) (nth j Ai ca_zero)) (padd P (zmul d A))).
  { intros d' j -> Hj. rewrite zmul_opp. apply geSub_ok; [apply c_to_extended_ok; exact Ht|apply HA; exact Hj|exact OP|apply on_zmul; exact OA]. }
  clear HA. repeat (destruct Hd as [Hd|Hd]); subst d; (apply Pos || apply Neg); (reflexivity || (cbn; lia)).
Qed.
Lemma add_b_ok t P d : on P -> comp_rep t P -> wdigit d -> comp_rep (add_b d t) (padd P (zmul d pB)).
Proof.
  intros OP Ht Hd. pose proof bi_ok as HB. unfold add_b. specialize (fun j => HB j pc_zero). set (b := bi) in *. clearbody b. apply wdigit_cases in Hd. destruct Hd as [->|Hd]; [cbn [Z.ltb Z.compare]; rewrite zmul_0; unfold pO; rewrite padd_O_r; exact Ht|].
  assert (Pos : forall d j, d = 2 * Z.of_nat j + 1 -> (j < 8)%nat -> comp_rep (geMixedAdd (c_to_extended t) (nth j b pc_zero)) (padd P (zmul d pB))).
  { intros d' j -> Hj. apply geMixedAdd_ok; [apply c_to_extended_ok; exact Ht|apply pre_tight_rep, HB; exact Hj|exact OP|apply on_zmul, on_pB]. }
  assert (Neg : forall d j, d = - (2 * Z.of_nat j + 1) -> (j < 8)%nat -> comp_rep (geMixedSub (c_to_extended t) (nth j b pc_zero)) (padd P (zmul d pB))).
  { intros d' j -> Hj. rewrite zmul_opp. apply geMixedSub_ok; [apply c_to_extended_ok; exact Ht|apply pre_tight_rep, HB; exact Hj|exact OP|apply on_zmul, on_pB]. }
  clear HB. repeat (destruct Hd as [Hd|Hd]); subst d; (apply Pos || apply Neg); (reflexivity || (cbn; lia)).
Qed.

Lemma dval_firstn r i : (i < length r)%nat -> dval 2 (firstn (Datatypes.S i) r) = dval 2 (firstn i r) + 2 ^ Z.of_nat i * at_ r i.
Proof.
  revert i. induction r as [|x r IH]; intros i H; [cbn [length] in H; lia|]. destruct i as [|i].
  - cbn [firstn dval]. unfold at_. cbn [nth]. change (2 ^ Z.of_nat 0) with 1. lia.
  - cbn [length] in H. change (firstn (Datatypes.S (Datatypes.S i)) (x :: r)) with (x :: firstn (Datatypes.S i) r). change (firstn (Datatypes.S i) (x :: r)) with (x :: firstn i r).
    cbn [dval]. rewrite IH by lia. unfold at_. cbn [nth]. rewrite Nat2Z.inj_succ, Z.pow_succ_r by lia. lia.
Qed.
Lemma top_digit_ok ra rb i : (i <= length ra)%nat -> (i <= length rb)%nat -> (top_digit i ra rb <= i)%nat /\
  dval 2 (firstn (top_digit i ra rb) ra) = dval 2 (firstn i ra) /\ dval 2 (firstn (top_digit i ra rb) rb) = dval 2 (firstn i rb).
Proof.
  induction i as [|i IH]; intros Ha Hb; [split; [apply le_n|split; reflexivity]|]. cbn [top_digit].
  destruct (negb (at_ ra i =? 0) || negb (at_ rb i =? 0)) eqn:E; [split; [lia|split; reflexivity]|].
  apply orb_false_iff in E. destruct E as [E1 E2]. apply negb_false_iff, Z.eqb_eq in E1. apply negb_false_iff, Z.eqb_eq in E2.
  destruct IH as (L & A & B); [lia|lia|]. rewrite !dval_firstn by lia. rewrite E1, E2, A, B. split; [lia|]. split; lia.
Qed.
Lemma double_loop_ok Ai A ra rb : on A -> (forall j, (j < 8)%nat -> cached_rep (nth j Ai ca_zero) (zmul (2 * Z.of_nat j + 1) A)) ->
  Forall wdigit ra -> Forall wdigit rb -> forall i r P, (i <= length ra)%nat -> (i <= length rb)%nat -> on P -> proj_rep r P ->
  proj_rep (double_loop i Ai ra rb r) (padd (zmul (2 ^ Z.of_nat i) P) (padd (zmul (dval 2 (firstn i ra)) A) (zmul (dval 2 (firstn i rb)) pB))).
Proof.
  intros OA HA Da Db. rewrite Forall_forall in Da, Db. induction i as [|i IH]; intros r P La Lb OP Hr.
  - cbn [double_loop firstn dval]. change (2 ^ Z.of_nat 0) with 1. rewrite zmul_1, !zmul_0. unfold pO. rewrite !padd_O_r. exact Hr.
  - cbn [double_loop]. cbv zeta. set (Q := padd (padd (padd P P) (zmul (at_ ra i) A)) (zmul (at_ rb i) pB)).
    assert (O1 : on (padd P P)) by (apply on_padd; exact OP).
    assert (O2 : on (padd (padd P P) (zmul (at_ ra i) A))) by (apply on_padd; [exact O1|apply on_zmul; exact OA]).
    assert (OQ : on Q) by (apply on_padd; [exact O2|apply on_zmul, on_pB]).
    assert (HQ : proj_rep (c_to_projective (add_b (at_ rb i) (add_a Ai (at_ ra i) (p_double r)))) Q).
    { apply c_to_projective_ok, add_b_ok; [exact O2| |apply Db, nth_In; lia]. apply add_a_ok; [exact OA|exact O1|exact HA| |apply Da, nth_In; lia]. apply p_double_ok; [exact Hr|exact OP]. }
    specialize (IH _ Q ltac:(lia) ltac:(lia) OQ HQ).
    replace (padd (zmul (2 ^ Z.of_nat (Datatypes.S i)) P) (padd (zmul (dval 2 (firstn (Datatypes.S i) ra)) A) (zmul (dval 2 (firstn (Datatypes.S i) rb)) pB)))
      with (padd (zmul (2 ^ Z.of_nat i) Q) (padd (zmul (dval 2 (firstn i ra)) A) (zmul (dval 2 (firstn i rb)) pB))); [exact IH|].
    rewrite !dval_firstn by lia. unfold Q. clear IH HQ OQ Q.
    set (k := 2 ^ Z.of_nat i). rewrite !zmul_padd by (try apply on_zmul; try exact on_pB; assumption). rewrite !zmul_mul by (exact on_pB || assumption).
    replace (2 ^ Z.of_nat (Datatypes.S i)) with (k + k) by (unfold k; rewrite Nat2Z.inj_succ, Z.pow_succ_r by lia; lia).
    rewrite !zmul_add by (exact on_pB || assumption). set (u := zmul k P). set (va := zmul (k * at_ ra i) A). set (vb := zmul (k * at_ rb i) pB).
    assert (Ou : on u) by (apply on_zmul; exact OP). assert (Oa : on va) by (apply on_zmul; exact OA). assert (Ob : on vb) by (apply on_zmul, on_pB).
    assert (Ox : on (zmul (dval 2 (firstn i ra)) A)) by (apply on_zmul; exact OA). assert (Oy : on (zmul (dval 2 (firstn i rb)) pB)) by (apply on_zmul, on_pB).
    generalize dependent (zmul (dval 2 (firstn i ra)) A). generalize dependent (zmul (dval 2 (firstn i rb)) pB). intros y Oy x Ox. clearbody u va vb.
    rewrite (padd_comm x va), (padd_comm y vb).
    rewrite <- !padd_assoc by (repeat (apply on_padd; try assumption); assumption).
    f_equal. rewrite (padd_assoc _ vb), (padd_assoc _ x) by (repeat (apply on_padd; try assumption); assumption). f_equal. apply padd_comm.
Qed.

Lemma double_scalar_gen a b A PA : on PA -> ext_rep A PA ->
  proj_rep (GeDoubleScalarMultVartime a A b) (padd (zmul (dval 2 (slide a)) PA) (zmul (dval 2 (slide b)) pB)).
Proof.
  intros OA HA. unfold GeDoubleScalarMultVartime. cbv zeta. pose proof (slide_length a) as La. pose proof (slide_length b) as Lb.
  pose proof (slide_digits a) as Da. pose proof (slide_digits b) as Db.
  generalize dependent (slide a). generalize dependent (slide b). intros rb Lb Db ra La Da.
  destruct (top_digit_ok ra rb 256) as (T & Ta & Tb); [lia|lia|]. set (n := top_digit 256 ra rb) in *. clearbody n.
  rewrite !firstn_all2 with (n := 256%nat) in Ta, Tb by lia. rewrite <- Ta, <- Tb.
  assert (H2 : ext_rep (c_to_extended (e_double A)) (zmul 2 PA)) by (rewrite zmul_2 by exact OA; apply c_to_extended_ok, e_double_ok; [exact HA|exact OA]).
  assert (H1 : cached_rep (e_to_cached A) (zmul 1 PA)) by (rewrite zmul_1; apply to_cached_ok; exact HA).
  assert (HM : forall j, (j < 8)%nat -> cached_rep (nth j (odd_multiples 7 (c_to_extended (e_double A)) (e_to_cached A)) ca_zero) (zmul (2 * Z.of_nat j + 1) PA)).
  { intros j Hj. rewrite (Z.add_comm _ 1). apply odd_multiples_ok; [exact OA|exact H2|exact H1|lia]. }
  assert (OO : on pO) by exact on_pO.
  pose proof (double_loop_ok _ PA ra rb OA HM Da Db n p_zero pO ltac:(lia) ltac:(lia) OO p_zero_ok) as D.
  rewrite zmul_O, padd_O_l in D. exact D.
Qed.
Lemma double_scalar_ok a b A PA : on PA -> ext_rep A PA -> length a = 32%nat -> length b = 32%nat -> le_val a <= 2 ^ 255 -> le_val b <= 2 ^ 255 ->
  proj_rep (GeDoubleScalarMultVartime a A b) (padd (zmul (le_val a) PA) (zmul (le_val b) pB)).
Proof. intros OA HA La Lb Ra Rb. rewrite <- (slide_val a La Ra), <- (slide_val b Lb Rb). apply double_scalar_gen; assumption. Qed.

(* ---- the order of B ---- *)
Lemma pB_pO : pB <> pO.
Proof. intro H. pose proof (f_equal (fun P => rep (fst P)) H) as E. vm_compute in E. discriminate E. Qed.
Lemma B_order n : zmul n pB = pO <-> (ell | n).
Proof.
  split.
  - intro H. destruct (Zdivide_dec ell n) as [D|D]; [exact D|exfalso].
    assert (G : rel_prime ell n) by (apply prime_rel_prime; [exact prime_ell|exact D]). apply rel_prime_bezout in G. destruct G as [u v E].
    apply pB_pO. rewrite <- (zmul_1 pB) at 1. rewrite <- E, zmul_add, <- !zmul_mul, order_B, H, !zmul_O by exact on_pB. apply padd_O_l.
  - intros [k ->]. rewrite <- zmul_mul, order_B by exact on_pB. apply zmul_O.
Qed.
Lemma zmul_B_eq m n : zmul m pB = zmul n pB <-> m mod ell = n mod ell.
Proof.
  assert (E : zmul m pB = zmul n pB <-> zmul (m - n) pB = pO).
  { unfold Z.sub. rewrite zmul_add, zmul_opp by exact on_pB. split; intro H; [rewrite H; apply padd_neg_r, on_zmul, on_pB|].
    assert (O : on (zmul n pB)) by (apply on_zmul, on_pB).
    rewrite <- (padd_O_r (zmul m pB)). rewrite <- (padd_neg_r (zmul n pB)), (padd_comm (zmul n pB)), <- padd_assoc, H by (try apply on_pneg; try apply on_zmul; exact on_pB || assumption). apply padd_O_l. }
  rewrite E, B_order. symmetry. apply mod_divide_sub. reflexivity.
Qed.

(* representations determine the point *)
Lemma proj_rep_unique p P Q : proj_rep p P -> proj_rep p Q -> P = Q.
Proof.
  intros (_ & _ & _ & N & X1 & Y1) (_ & _ & _ & _ & X2 & Y2). rewrite X1 in X2. rewrite Y1 in Y2.
  rewrite (surjective_pairing P), (surjective_pairing Q). f_equal; [exact (F_mul_cancel _ _ _ N X2)|exact (F_mul_cancel _ _ _ N Y2)].
Qed.
Lemma ext_rep_unique p P Q : ext_rep p P -> ext_rep p Q -> P = Q.
Proof. intros H1 H2. exact (proj_rep_unique _ _ _ (proj_of_ext _ _ H1) (proj_of_ext _ _ H2)). Qed.

(* ---- outside the preconditions ---- *)
(* a[31] = 0x90: the top digit is 9, for which selectPoint leaves the zero point *)
Definition top_0x90 : bytes := repeat x00 31 ++ [z2b 144].
Lemma base_top_0x90 : ext_rep (GeScalarMultBase top_0x90) pO /\ zmul (le_val top_0x90) pB <> pO.
Proof.
  split.
  - pose proof (scalar_mult_base_gen top_0x90 (fun _ => 0)) as G. cbv zeta in G.
    assert (Z0 : forall l, osum (fun _ => 0) l = 0) by (induction l as [|i l IH]; [reflexivity|cbn [osum fold_right]; exact IH]).
    rewrite !Z0 in G. apply G. clear G Z0. intros i Hi.
    replace (selectPoint (i / 2) (at_ (recode 63 0 (nibbles top_0x90)) i)) with pc_zero; [exact pc_zero_ok|].
    assert (D : at_ (recode 63 0 (nibbles top_0x90)) i = 0 \/ at_ (recode 63 0 (nibbles top_0x90)) i = 9).
    { assert (E : recode 63 0 (nibbles top_0x90) = repeat 0 63 ++ [9]) by (vm_compute; reflexivity). rewrite E. unfold at_.
      destruct (Nat.lt_ge_cases i 63) as [L|L]; [left; rewrite app_nth1, nth_repeat by (rewrite repeat_length; exact L); reflexivity|].
      right. replace i with 63%nat by lia. reflexivity. }
    rewrite selectPoint_eq by (destruct D as [-> | ->]; lia). destruct D as [-> | ->]; reflexivity.
  - intro H. apply B_order in H. destruct H as [k H]. apply (f_equal (fun z => z mod ell)) in H. rewrite Z.mod_mul in H by discriminate. vm_compute in H. discriminate H.
Qed.
(* a = 2^256 - 1: the recoding drops the carry and yields -1 *)
Lemma double_all_ones b A : ext_rep A pB -> length b = 32%nat -> le_val b <= 2 ^ 255 ->
  proj_rep (GeDoubleScalarMultVartime all_ones A b) (zmul (le_val b - 1) pB) /\
  padd (zmul (le_val all_ones) pB) (zmul (le_val b) pB) <> zmul (le_val b - 1) pB.
Proof.
  intros HA Lb Rb. split.
  - pose proof (double_scalar_gen all_ones b A pB on_pB HA) as D. rewrite slide_all_ones, (slide_val b Lb Rb), <- zmul_add in D by exact on_pB.
    replace (le_val b - 1) with (-1 + le_val b) by lia. exact D.
  - rewrite <- zmul_add, zmul_B_eq by exact on_pB. intro H. apply mod_divide_sub in H; [|reflexivity]. destruct H as [k H].
    replace (le_val all_ones + le_val b - (le_val b - 1)) with (2 ^ 256) in H by (replace (le_val all_ones) with (2 ^ 256 - 1) by (vm_compute; reflexivity); lia).
    apply (f_equal (fun z => z mod ell)) in H. rewrite Z.mod_mul in H by discriminate. vm_compute in H. discriminate H.
Qed.
