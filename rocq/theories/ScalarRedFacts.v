(* Scalar reduction modulo the group order: ScMulAdd, ScReduce and ScMinimal of
   edwards25519.go:1016-1793.  The straight-line code is analysed by an interval
   interpreter, proved sound once and run on the two programs. *)
From Verif Require Export ScalarRed SpecScalar SpecField.
From Verif Require Import FieldFacts FieldBytes Decode SlideFacts.
Local Open Scope Z_scope.
Local Notation B21 := 2097152.

(* ---- arrays ---- *)
Lemma at_put_same l k v : (k < length l)%nat -> at_ (put l k v) k = v.
Proof. intro H. unfold at_, put. rewrite app_nth2; rewrite firstn_length_le by lia; [|lia]. rewrite Nat.sub_diag. reflexivity. Qed.
Lemma nth_firstn {A} (l : list A) d : forall k j, (j < k)%nat -> nth j (firstn k l) d = nth j l d.
Proof. induction l as [|x l IH]; intros [|k] [|j] H; cbn; try lia; try reflexivity. apply IH. lia. Qed.
Lemma nth_skipn {A} (l : list A) d : forall k j, nth j (skipn k l) d = nth (k + j) l d.
Proof. induction l as [|x l IH]; intros [|k] j; cbn; try reflexivity; [destruct j; reflexivity|apply IH]. Qed.
Lemma nth_upd {A} (l : list A) (d v : A) k j : (k < length l)%nat -> j <> k -> nth j (firstn k l ++ v :: skipn (k + 1) l) d = nth j l d.
Proof.
  intros H N. destruct (Nat.lt_ge_cases j k) as [L|L].
  - rewrite app_nth1 by (rewrite firstn_length_le; lia). apply nth_firstn, L.
  - rewrite app_nth2; rewrite firstn_length_le by lia; [|lia]. destruct (j - k)%nat as [|n] eqn:E; [lia|]. cbn [nth].
    rewrite nth_skipn. f_equal. lia.
Qed.
Lemma at_put_other l k v j : (k < length l)%nat -> j <> k -> at_ (put l k v) j = at_ l j.
Proof. apply nth_upd. Qed.
Lemma dval_put b v l : forall k, (k < length l)%nat -> dval b (put l k v) = dval b l + b ^ Z.of_nat k * (v - at_ l k).
Proof.
  induction l as [|x l IH]; intros [|k] H; cbn [length] in H; try lia.
  - unfold put, at_. cbn [firstn Nat.add skipn app dval nth]. change (Z.of_nat 0) with 0. rewrite Z.pow_0_r. ring.
  - unfold put. cbn [firstn Nat.add skipn app dval]. change (firstn k l ++ v :: skipn (k + 1) l) with (put l k v).
    rewrite IH by lia. unfold at_. cbn [nth]. rewrite Nat2Z.inj_succ, Z.pow_succ_r by lia. ring.
Qed.

(* ---- the interval interpreter ---- *)
Definition ival : Type := Z * Z.
Definition ivat (iv : list ival) (k : nat) : ival := nth k iv (0, 0).
Definition ivput (iv : list ival) (k : nat) (v : ival) : list ival := firstn k iv ++ v :: skipn (k + 1) iv.
Definition within (z : Z) (v : ival) : Prop := fst v <= z <= snd v.
Definition inside (s : list Z) (iv : list ival) : Prop := length s = length iv /\ forall k, within (at_ s k) (ivat iv k).
Definition fits (v : ival) : bool := (- 2 ^ 63 <=? fst v) && (snd v <? 2 ^ 63).
Definition iadd (u v : ival) : ival := (fst u + fst v, snd u + snd v).
Definition isub (u v : ival) : ival := (fst u - snd v, snd u - fst v).
Definition iscale (c : Z) (u : ival) : ival := (c * fst u, c * snd u).
Definition ishr (u : ival) : ival := (fst u / B21, snd u / B21).
Definition guard {A} (b : bool) (x : option A) : option A := if b then x else None.
Definition acarry (c : ival) (low : ival) (k : nat) (iv : list ival) : option (list ival) :=
  guard ((k + 1 <? length iv)%nat && fits (iscale B21 c) && fits (iadd (ivat iv (k + 1)) c))
        (Some (ivput (ivput iv (k + 1) (iadd (ivat iv (k + 1)) c)) k low)).
Definition amac (x : ival) (d : nat) (c : Z) (sub : bool) (o : option (list ival)) : option (list ival) :=
  match o with
  | None => None
  | Some iv =>
      let r := if sub then isub (ivat iv d) (iscale c x) else iadd (ivat iv d) (iscale c x) in
      guard ((d <? length iv)%nat && (0 <=? c) && fits (iscale c x) && fits r) (Some (ivput iv d r))
  end.
Definition aexec (iv : list ival) (o : sop) : option (list ival) :=
  match o with
  | Carry k => let u := iadd (ivat iv k) (2 ^ 20, 2 ^ 20) in guard (fits u) (acarry (ishr u) (- 2 ^ 20, 2 ^ 20 - 1) k iv)
  | Floor k => acarry (ishr (ivat iv k)) (0, 2 ^ 21 - 1) k iv
  | Fold k =>
      let x := ivat iv k in
      guard ((12 <=? k)%nat && (k <? length iv)%nat)
        (match amac x (k - 7) 683901 true (amac x (k - 8) 136657 false (amac x (k - 9) 997805 true
           (amac x (k - 10) 654183 false (amac x (k - 11) 470296 false (amac x (k - 12) 666643 false (Some iv)))))) with
         | Some iv => Some (ivput iv k (0, 0))
         | None => None
         end)
  end.
Fixpoint arun (p : list sop) (iv : list ival) : option (list ival) :=
  match p with [] => Some iv | o :: p => match aexec iv o with Some iv => arun p iv | None => None end end.

Lemma ivat_same l k v : (k < length l)%nat -> ivat (ivput l k v) k = v.
Proof. intro H. unfold ivat, ivput. rewrite app_nth2; rewrite firstn_length_le by lia; [|lia]. rewrite Nat.sub_diag. reflexivity. Qed.
Lemma ivat_other l k v j : (k < length l)%nat -> j <> k -> ivat (ivput l k v) j = ivat l j.
Proof. apply nth_upd. Qed.
Lemma ivput_length l k v : (k < length l)%nat -> length (ivput l k v) = length l.
Proof. intro H. unfold ivput. rewrite app_length, firstn_length_le by lia. cbn [length]. rewrite skipn_length. lia. Qed.
Lemma inside_put s iv k z v : inside s iv -> (k < length iv)%nat -> within z v -> inside (put s k z) (ivput iv k v).
Proof.
  intros [L H] K W. split; [rewrite put_length, ivput_length by lia; exact L|]. intro j.
  destruct (Nat.eq_dec j k) as [-> | N]; [rewrite at_put_same, ivat_same by lia; exact W|rewrite at_put_other, ivat_other by lia; apply H].
Qed.
Lemma fits_ok z v : fits v = true -> within z v -> - 2 ^ 63 <= z < 2 ^ 63.
Proof. unfold fits, within. rewrite andb_true_iff, Z.leb_le, Z.ltb_lt. lia. Qed.
Lemma guard_some {A} b (x : option A) y : guard b x = Some y -> b = true /\ x = Some y.
Proof. destruct b; [auto|discriminate]. Qed.
Lemma w_add a b u v : within a u -> within b v -> within (a + b) (iadd u v).
Proof. unfold within, iadd. cbn. lia. Qed.
Lemma w_sub a b u v : within a u -> within b v -> within (a - b) (isub u v).
Proof. unfold within, isub. cbn. lia. Qed.
Lemma w_scale c a u : 0 <= c -> within a u -> within (c * a) (iscale c u).
Proof. unfold within, iscale. cbn. nia. Qed.
Lemma w_shr a u : within a u -> within (a / B21) (ishr u).
Proof. unfold within, ishr. cbn. intros [? ?]. split; apply Z.div_le_mono; lia. Qed.

Lemma carry_sound c ci low k s iv iv' : acarry ci low k iv = Some iv' -> inside s iv -> within c ci ->
  within (at_ s k - B21 * c) low -> fits low = true ->
  inside (carry_with c k s) iv' /\ dval B21 (carry_with c k s) = dval B21 s.
Proof.
  intros A I C W F. apply guard_some in A. destruct A as [G A]. rewrite !andb_true_iff, Nat.ltb_lt in G. destruct G as [[G1 G2] G3].
  injection A as <-. unfold carry_with.
  pose proof (proj2 I (k + 1)%nat) as I1. pose proof (proj1 I) as L.
  unfold add64, sub64, shl64. rewrite Z.shiftl_mul_pow2 by lia. change (2 ^ 21) with B21. rewrite (Z.mul_comm c B21).
  rewrite (i64_id (B21 * c)) by (eapply fits_ok; [exact G2|apply w_scale; [lia|exact C]]).
  rewrite (i64_id (at_ s (k + 1) + c)) by (eapply fits_ok; [exact G3|apply w_add; assumption]).
  rewrite (at_put_other s (k + 1) _ k) by lia.
  rewrite (i64_id (at_ s k - _)) by (eapply fits_ok; [exact F|exact W]).
  split.
  - apply inside_put; [apply inside_put; [exact I|exact G1|apply w_add; assumption]|rewrite ivput_length; lia|exact W].
  - rewrite dval_put by (rewrite put_length; lia). rewrite dval_put by lia. rewrite (at_put_other s (k + 1) _ k) by lia.
    rewrite Nat2Z.inj_add, Z.pow_add_r by lia. change (Z.of_nat 1) with 1. rewrite Z.pow_1_r. ring.
Qed.

Lemma amac_sound x xi d c (sub : bool) s iv iv' : amac xi d c sub (Some iv) = Some iv' -> inside s iv -> within x xi ->
  let s' := put s d (if sub then at_ s d - x * c else at_ s d + x * c)%i64 in
  inside s' iv' /\ dval B21 s' = dval B21 s + B21 ^ Z.of_nat d * (if sub then - (c * x) else c * x)
  /\ (forall k, k <> d -> at_ s' k = at_ s k) /\ length s' = length s.
Proof.
  intros A I X. cbn [amac] in A. apply guard_some in A. destruct A as [G A]. rewrite !andb_true_iff, Nat.ltb_lt, Z.leb_le in G. destruct G as [[[G1 G2] G3] G4].
  injection A as <-. cbv zeta. pose proof (proj1 I) as L. pose proof (proj2 I d) as ID.
  pose proof (w_scale c x xi G2 X) as WS. unfold mul64. rewrite (Z.mul_comm x c). rewrite (i64_id (c * x)) by exact (fits_ok _ _ G3 WS).
  destruct sub; unfold add64, sub64.
  - pose proof (w_sub _ _ _ _ ID WS) as W. rewrite i64_id by exact (fits_ok _ _ G4 W). split; [apply inside_put; assumption|].
    split; [rewrite dval_put by lia; ring|]. split; [intros k N; apply at_put_other; lia|apply put_length; lia].
  - pose proof (w_add _ _ _ _ ID WS) as W. rewrite i64_id by exact (fits_ok _ _ G4 W). split; [apply inside_put; assumption|].
    split; [rewrite dval_put by lia; ring|]. split; [intros k N; apply at_put_other; lia|apply put_length; lia].
Qed.

Definition subtracted (s : list Z) (o : sop) : Z :=
  match o with Fold k => B21 ^ Z.of_nat (k - 12) * at_ s k | _ => 0 end.

Lemma amac_none x d c b iv' : amac x d c b None = Some iv' -> False.
Proof. discriminate. Qed.

Lemma exec_sound s iv iv' o : aexec iv o = Some iv' -> inside s iv ->
  inside (exec s o) iv' /\ dval B21 (exec s o) = dval B21 s - subtracted s o * ell.
Proof.
  intros A I. destruct o as [k|k|k]; cbn [aexec exec subtracted] in *.
  - apply guard_some in A. destruct A as [G A]. pose proof (proj2 I k) as IK.
    change (1 << 20)%i64 with (2 ^ 20). change (add64 (at_ s k) (2 ^ 20)) with (i64 (at_ s k + 2 ^ 20)).
    assert (W : within (at_ s k + 2 ^ 20) (iadd (ivat iv k) (2 ^ 20, 2 ^ 20))) by (apply w_add; [exact IK|unfold within; cbn [fst snd]; lia]).
    rewrite i64_id by (eapply fits_ok; eassumption). unfold shr64. rewrite Z.shiftr_div_pow2 by lia. change (2 ^ 21) with B21.
    replace (dval B21 s - 0 * ell) with (dval B21 s) by ring.
    eapply carry_sound; [exact A|exact I|apply w_shr, W| |reflexivity].
    pose proof (Z.div_mod (at_ s k + 2 ^ 20) B21 ltac:(lia)). pose proof (Z.mod_pos_bound (at_ s k + 2 ^ 20) B21 ltac:(lia)).
    unfold within. cbn [fst snd]. lia.
  - pose proof (proj2 I k) as IK. unfold shr64. rewrite Z.shiftr_div_pow2 by lia. change (2 ^ 21) with B21.
    replace (dval B21 s - 0 * ell) with (dval B21 s) by ring.
    eapply carry_sound; [exact A|exact I|apply w_shr, IK| |reflexivity].
    pose proof (Z.div_mod (at_ s k) B21 ltac:(lia)). pose proof (Z.mod_pos_bound (at_ s k) B21 ltac:(lia)).
    unfold within. cbn [fst snd]. lia.
  - apply guard_some in A. destruct A as [G A]. rewrite andb_true_iff, Nat.leb_le, Nat.ltb_lt in G. destruct G as [G1 G2].
    pose proof (proj2 I k) as X. pose proof (proj1 I) as L. set (x := at_ s k) in *. set (xi := ivat iv k) in *.
    destruct (amac xi (k - 12) 666643 false (Some iv)) as [iv1|] eqn:A1; [|discriminate].
    destruct (amac xi (k - 11) 470296 false (Some iv1)) as [iv2|] eqn:A2; [|discriminate].
    destruct (amac xi (k - 10) 654183 false (Some iv2)) as [iv3|] eqn:A3; [|discriminate].
    destruct (amac xi (k - 9) 997805 true (Some iv3)) as [iv4|] eqn:A4; [|discriminate].
    destruct (amac xi (k - 8) 136657 false (Some iv4)) as [iv5|] eqn:A5; [|discriminate].
    destruct (amac xi (k - 7) 683901 true (Some iv5)) as [iv6|] eqn:A6; [|discriminate].
    injection A as <-. clearbody xi.
    destruct (amac_sound x xi _ _ _ s iv iv1 A1 I X) as (I1 & V1 & O1 & L1). cbv iota in I1, V1, O1, L1.
    set (s1 := put s (k - 12) _) in *. clearbody s1.
    destruct (amac_sound x xi _ _ _ s1 iv1 iv2 A2 I1 X) as (I2 & V2 & O2 & L2). cbv iota in I2, V2, O2, L2.
    set (s2 := put s1 (k - 11) _) in *. clearbody s2.
    destruct (amac_sound x xi _ _ _ s2 iv2 iv3 A3 I2 X) as (I3 & V3 & O3 & L3). cbv iota in I3, V3, O3, L3.
    set (s3 := put s2 (k - 10) _) in *. clearbody s3.
    destruct (amac_sound x xi _ _ _ s3 iv3 iv4 A4 I3 X) as (I4 & V4 & O4 & L4). cbv iota in I4, V4, O4, L4.
    set (s4 := put s3 (k - 9) _) in *. clearbody s4.
    destruct (amac_sound x xi _ _ _ s4 iv4 iv5 A5 I4 X) as (I5 & V5 & O5 & L5). cbv iota in I5, V5, O5, L5.
    set (s5 := put s4 (k - 8) _) in *. clearbody s5.
    destruct (amac_sound x xi _ _ _ s5 iv5 iv6 A6 I5 X) as (I6 & V6 & O6 & L6). cbv iota in I6, V6, O6, L6.
    set (s6 := put s5 (k - 7) _) in *. clearbody s6.
    split.
    + apply inside_put; [exact I6|destruct I6; lia|unfold within; cbn [fst snd]; lia].
    + rewrite dval_put by lia. rewrite (O6 k), (O5 k), (O4 k), (O3 k), (O2 k), (O1 k) by lia. fold x.
      rewrite V6, V5, V4, V3, V2, V1.
      destruct (Nat.le_exists_sub 12 k G1) as (m & -> & _).
      replace (m + 12 - 12)%nat with m by lia. replace (m + 12 - 11)%nat with (m + 1)%nat by lia. replace (m + 12 - 10)%nat with (m + 2)%nat by lia.
      replace (m + 12 - 9)%nat with (m + 3)%nat by lia. replace (m + 12 - 8)%nat with (m + 4)%nat by lia. replace (m + 12 - 7)%nat with (m + 5)%nat by lia.
      rewrite !Nat2Z.inj_add, !Z.pow_add_r by lia. set (P := B21 ^ Z.of_nat m).
      change (B21 ^ Z.of_nat 1) with (2 ^ 21). change (B21 ^ Z.of_nat 2) with (2 ^ 42). change (B21 ^ Z.of_nat 3) with (2 ^ 63).
      change (B21 ^ Z.of_nat 4) with (2 ^ 84). change (B21 ^ Z.of_nat 5) with (2 ^ 105). change (B21 ^ Z.of_nat 12) with (2 ^ 252).
      unfold ell. ring.
Qed.

Lemma run_cons o p s : run_ops (o :: p) s = run_ops p (exec s o).
Proof. reflexivity. Qed.
Lemma run_app p q s : run_ops (p ++ q) s = run_ops q (run_ops p s).
Proof. apply fold_left_app. Qed.
Lemma run_sound p : forall s iv iv', arun p iv = Some iv' -> inside s iv ->
  inside (run_ops p s) iv' /\ exists q, dval B21 (run_ops p s) = dval B21 s - q * ell.
Proof.
  induction p as [|o p IH]; intros s iv iv' A I; cbn [arun] in A.
  - injection A as <-. split; [exact I|]. exists 0. cbn [run_ops fold_left]. ring.
  - destruct (aexec iv o) as [iv1|] eqn:E; [|discriminate]. destruct (exec_sound s iv iv1 o E I) as [I1 V1].
    destruct (IH _ _ _ A I1) as [I2 [q V2]]. rewrite run_cons. split; [exact I2|]. exists (q + subtracted s o). rewrite V2, V1. ring.
Qed.
(* carries alone keep the value *)
Definition is_carry (o : sop) : bool := match o with Fold _ => false | _ => true end.
Lemma run_carries p : forall s iv iv', forallb is_carry p = true -> arun p iv = Some iv' -> inside s iv ->
  inside (run_ops p s) iv' /\ dval B21 (run_ops p s) = dval B21 s.
Proof.
  induction p as [|o p IH]; intros s iv iv' C A I; cbn [arun] in A.
  - injection A as <-. split; [exact I|reflexivity].
  - cbn [forallb] in C. apply andb_true_iff in C. destruct C as [C1 C2].
    destruct (aexec iv o) as [iv1|] eqn:E; [|discriminate]. destruct (exec_sound s iv iv1 o E I) as [I1 V1].
    destruct (IH _ _ _ C2 A I1) as [I2 V2]. rewrite run_cons. split; [exact I2|]. rewrite V2, V1. destruct o; [cbn [subtracted]; ring..|discriminate C1].
Qed.

(* ---- the last folding and the last carries ---- *)
Definition carry_tail : list sop :=
  [Floor 0; Floor 1; Floor 2; Floor 3; Floor 4; Floor 5; Floor 6; Floor 7; Floor 8; Floor 9; Floor 10].
Definition tail_ops : list sop := Fold 12 :: carry_tail.
Definition limb_iv : ival := (0, 2097151).
Definition before_tail : list ival := repeat limb_iv 12 ++ (-1, 0) :: repeat (0, 0) 11.
Definition after_tail : list ival := repeat limb_iv 11 ++ (-1, 2097152) :: repeat (0, 0) 12.
Definition mid_tail : list ival := Eval vm_compute in match aexec before_tail (Fold 12) with Some iv => iv | None => [] end.
Definition stored (s : list Z) : Prop :=
  length s = 24%nat /\ (forall k, (k < 11)%nat -> 0 <= at_ s k < 2 ^ 21) /\ 0 <= at_ s 11 <= 2 ^ 21 /\ (forall k, (12 <= k)%nat -> at_ s k = 0).
Lemma split24 (s : list Z) : length s = 24%nat ->
  s = [at_ s 0; at_ s 1; at_ s 2; at_ s 3; at_ s 4; at_ s 5; at_ s 6; at_ s 7; at_ s 8; at_ s 9; at_ s 10; at_ s 11;
       at_ s 12; at_ s 13; at_ s 14; at_ s 15; at_ s 16; at_ s 17; at_ s 18; at_ s 19; at_ s 20; at_ s 21; at_ s 22; at_ s 23].
Proof. intro H. do 24 (destruct s as [|? s]; [discriminate H|]). destruct s; [reflexivity|discriminate H]. Qed.
Lemma dval24 s : length s = 24%nat -> (forall k, (13 <= k)%nat -> at_ s k = 0) ->
  dval B21 s = dval B21 [at_ s 0; at_ s 1; at_ s 2; at_ s 3; at_ s 4; at_ s 5; at_ s 6; at_ s 7; at_ s 8; at_ s 9; at_ s 10; at_ s 11] + 2 ^ 252 * at_ s 12.
Proof.
  intros L Z. rewrite (split24 s L) at 1. rewrite (Z 13%nat), (Z 14%nat), (Z 15%nat), (Z 16%nat), (Z 17%nat), (Z 18%nat), (Z 19%nat), (Z 20%nat), (Z 21%nat), (Z 22%nat), (Z 23%nat) by lia.
  cbn [dval]. ring.
Qed.
Lemma dval_range b l : 0 < b -> Forall (fun x => 0 <= x < b) l -> 0 <= dval b l < b ^ Z.of_nat (length l).
Proof.
  intros Hb. induction l as [|x l IH]; intro F; [cbn; lia|]. inversion_clear F. cbn [dval length].
  rewrite Nat2Z.inj_succ, Z.pow_succ_r by lia. specialize (IH ltac:(assumption)). nia.
Qed.
Lemma mid_ok : aexec before_tail (Fold 12) = Some mid_tail.
Proof. vm_compute. reflexivity. Qed.
Lemma after_ok : arun carry_tail mid_tail = Some after_tail.
Proof. vm_compute. reflexivity. Qed.
Lemma carry_tail_carries : forallb is_carry carry_tail = true.
Proof. reflexivity. Qed.
Lemma tail_value s : inside s before_tail -> dval B21 (run_ops tail_ops s) = dval B21 s - at_ s 12 * ell /\ inside (run_ops tail_ops s) after_tail.
Proof.
  intro I. destruct (exec_sound s before_tail mid_tail (Fold 12) mid_ok I) as [I1 V1].
  destruct (run_carries carry_tail (exec s (Fold 12)) mid_tail after_tail carry_tail_carries after_ok I1) as [I2 V2].
  unfold tail_ops. rewrite run_cons. split; [|exact I2].
  rewrite V2, V1. cbn [subtracted Nat.sub]. change (B21 ^ Z.of_nat 0) with 1. ring.
Qed.
Lemma tail_shape s r : inside s before_tail -> inside r after_tail -> dval B21 r = dval B21 s - at_ s 12 * ell ->
  stored r /\ 0 <= dval B21 r < ell /\ exists q, dval B21 r = dval B21 s - q * ell.
Proof.
  intros [L W] I2 D. change (length before_tail) with 24%nat in L.
  assert (R : 0 <= dval B21 r < ell).
  { rewrite D, (dval24 s L).
    - assert (F : 0 <= dval B21 [at_ s 0; at_ s 1; at_ s 2; at_ s 3; at_ s 4; at_ s 5; at_ s 6; at_ s 7; at_ s 8; at_ s 9; at_ s 10; at_ s 11] < B21 ^ Z.of_nat 12).
      { apply (dval_range B21 [_; _; _; _; _; _; _; _; _; _; _; _]); [lia|].
        pose proof (W 0%nat); pose proof (W 1%nat); pose proof (W 2%nat); pose proof (W 3%nat); pose proof (W 4%nat); pose proof (W 5%nat);
        pose proof (W 6%nat); pose proof (W 7%nat); pose proof (W 8%nat); pose proof (W 9%nat); pose proof (W 10%nat); pose proof (W 11%nat).
        unfold within in *. cbn [ivat before_tail repeat app nth limb_iv fst snd] in *. repeat constructor; lia. }
      change (B21 ^ Z.of_nat 12) with (2 ^ 252) in F. pose proof (W 12%nat) as W12. unfold within in W12. cbn [ivat before_tail repeat app nth limb_iv fst snd] in W12.
      set (v := dval _ _) in *. clearbody v. assert (C : at_ s 12 = -1 \/ at_ s 12 = 0) by lia. unfold ell. destruct C as [-> | ->]; lia.
    - intros k K. pose proof (W k) as Wk. unfold within in Wk. destruct (Nat.lt_ge_cases k 24) as [K2|K2].
      + do 13 (destruct k as [|k]; [lia|]). do 11 (destruct k as [|k]; [cbn [ivat before_tail repeat app nth fst snd] in Wk; lia|]). lia.
      + unfold at_. rewrite nth_overflow by lia. reflexivity. }
  destruct I2 as [L2 W2]. change (length after_tail) with 24%nat in L2.
  assert (Z12 : forall k, (12 <= k)%nat -> at_ r k = 0).
  { intros k K. pose proof (W2 k) as Wk. unfold within in Wk. destruct (Nat.lt_ge_cases k 24) as [K2|K2].
    + do 12 (destruct k as [|k]; [lia|]). do 12 (destruct k as [|k]; [cbn [ivat after_tail repeat app nth fst snd] in Wk; lia|]). lia.
    + unfold at_. rewrite nth_overflow by lia. reflexivity. }
  assert (B : forall k, (k < 11)%nat -> 0 <= at_ r k < 2 ^ 21).
  { intros k K. pose proof (W2 k) as Wk. unfold within in Wk.
    do 11 (destruct k as [|k]; [cbn [ivat after_tail repeat app nth fst snd limb_iv] in Wk; lia|]). lia. }
  split; [|split; [exact R|exists (at_ s 12); exact D]].
  split; [exact L2|]. split; [exact B|]. split; [|exact Z12].
  rewrite (dval24 r L2) in R by (intros; apply Z12; lia). rewrite (Z12 12%nat) in R by lia.
  assert (F : 0 <= dval B21 [at_ r 0; at_ r 1; at_ r 2; at_ r 3; at_ r 4; at_ r 5; at_ r 6; at_ r 7; at_ r 8; at_ r 9; at_ r 10] < B21 ^ Z.of_nat 11).
  { apply (dval_range B21 [_; _; _; _; _; _; _; _; _; _; _]); [lia|]. change B21 with (2 ^ 21). repeat (constructor; [apply B; lia|]). constructor. }
  replace (dval B21 [at_ r 0; at_ r 1; at_ r 2; at_ r 3; at_ r 4; at_ r 5; at_ r 6; at_ r 7; at_ r 8; at_ r 9; at_ r 10; at_ r 11])
    with (dval B21 [at_ r 0; at_ r 1; at_ r 2; at_ r 3; at_ r 4; at_ r 5; at_ r 6; at_ r 7; at_ r 8; at_ r 9; at_ r 10] + 2 ^ 231 * at_ r 11) in R by (cbn [dval]; ring).
  change (B21 ^ Z.of_nat 11) with (2 ^ 231) in F. unfold ell in R. set (v := dval _ _) in *. clearbody v. lia.
Qed.

Lemma tail_ok s : inside s before_tail -> stored (run_ops tail_ops s) /\ 0 <= dval B21 (run_ops tail_ops s) < ell /\
  exists q, dval B21 (run_ops tail_ops s) = dval B21 s - q * ell.
Proof. intro I. destruct (tail_value s I) as [D I2]. exact (tail_shape s _ I I2 D). Qed.

(* ---- the stores ---- *)
Lemma b2z_shr64 h s : 0 <= s -> b2z (z2b (shr64 h s)) = (h / 2^s) mod 256.
Proof. intro H. rewrite b2z_z2b. unfold shr64. rewrite Z.shiftr_div_pow2 by exact H. reflexivity. Qed.
Lemma i64_mod_256 z : i64 z mod 2 ^ 8 = z mod 2 ^ 8.
Proof.
  unfold i64. pose proof (Z.div_mod (z + 9223372036854775808) 18446744073709551616 ltac:(lia)) as D.
  set (q := (z + 9223372036854775808) / 18446744073709551616) in *. set (r := (z + 9223372036854775808) mod 18446744073709551616) in *. clearbody q r.
  replace (r - 9223372036854775808) with (z + (- q * 2 ^ 56) * 2 ^ 8) by lia. apply Z.mod_add. lia.
Qed.
Lemma b2z_or64 a s b k : 0 <= s -> 0 < k < 8 -> 0 <= a < 2^(s+k) ->
  b2z (z2b (or64 (shr64 a s) (shl64 b k))) = a / 2^s + 2^k * (b mod 2^(8-k)).
Proof.
  intros Hs Hk Ha. rewrite b2z_z2b. unfold or64, shr64, shl64. rewrite Z.shiftr_div_pow2 by exact Hs.
  assert (P1 : 0 < 2^s) by (apply Z.pow_pos_nonneg; lia). assert (P2 : 0 < 2^k) by (apply Z.pow_pos_nonneg; lia).
  assert (A : 0 <= a / 2^s < 2^k).
  { split; [apply Z.div_pos; lia|]. apply Z.div_lt_upper_bound; [lia|]. rewrite <- Z.pow_add_r by lia. lia. }
  assert (P3 : 256 = 2^k * 2^(8-k)) by (rewrite <- Z.pow_add_r by lia; replace (k + (8 - k)) with 8 by lia; reflexivity).
  assert (P4 : 0 < 2^(8-k)) by (apply Z.pow_pos_nonneg; lia).
  change 256 with (2^8) at 1. rewrite <- Z.land_ones by lia. rewrite Z.land_lor_distr_l, !Z.land_ones by lia.
  rewrite i64_mod_256. rewrite Z.shiftl_mul_pow2 by lia.
  rewrite (Z.mod_small (a / 2^s) (2^8)) by (change (2^8) with 256; nia).
  change (2^8) with 256. rewrite P3, (Z.mul_comm (2^k) (2^(8-k))), Z.mul_mod_distr_r by lia.
  rewrite <- (Z.shiftl_mul_pow2 _ k) by lia. apply lor_add; [lia|exact A].
Qed.
Lemma limb_split2 l h : 0 <= l -> h = h mod 2^l + 2^l * ((h / 2^l) mod 256) + 2^(l+8) * (h / 2^(l+8)).
Proof.
  intro Hl. assert (P : 0 < 2^l) by (apply Z.pow_pos_nonneg; lia).
  rewrite !Z.pow_add_r by lia. change (2^8) with 256. rewrite <- !Z.div_div by lia.
  pose proof (Z.div_mod h (2^l) ltac:(lia)) as D1. set (a := h / 2^l) in *.
  pose proof (Z.div_mod a 256 ltac:(lia)) as D2. set (b := a / 256) in *.
  rewrite D1 at 1. rewrite D2 at 1. ring.
Qed.
Lemma store_length s : length (store_limbs s) = 32%nat.
Proof. reflexivity. Qed.
Lemma store_val s : stored s -> le_val (store_limbs s) = dval B21 s.
Proof.
  intros (L & B & B11 & Z12). rewrite (dval24 s L) by (intros; apply Z12; lia). rewrite (Z12 12%nat) by lia. rewrite Z.mul_0_r, Z.add_0_r.
  pose proof (B 0%nat ltac:(lia)) as H0.
  pose proof (B 1%nat ltac:(lia)) as H1.
  pose proof (B 2%nat ltac:(lia)) as H2.
  pose proof (B 3%nat ltac:(lia)) as H3.
  pose proof (B 4%nat ltac:(lia)) as H4.
  pose proof (B 5%nat ltac:(lia)) as H5.
  pose proof (B 6%nat ltac:(lia)) as H6.
  pose proof (B 7%nat ltac:(lia)) as H7.
  pose proof (B 8%nat ltac:(lia)) as H8.
  pose proof (B 9%nat ltac:(lia)) as H9.
  pose proof (B 10%nat ltac:(lia)) as H10.
  unfold store_limbs. set (h0 := at_ s 0) in *. set (h1 := at_ s 1) in *. set (h2 := at_ s 2) in *. set (h3 := at_ s 3) in *. set (h4 := at_ s 4) in *. set (h5 := at_ s 5) in *. set (h6 := at_ s 6) in *. set (h7 := at_ s 7) in *. set (h8 := at_ s 8) in *. set (h9 := at_ s 9) in *. set (h10 := at_ s 10) in *. set (h11 := at_ s 11) in *. clearbody h0 h1 h2 h3 h4 h5 h6 h7 h8 h9 h10 h11. clear s L B Z12.
  cbn [le_val dval].
  rewrite (b2z_or64 h0 16 h1 5), (b2z_or64 h1 19 h2 2), (b2z_or64 h2 14 h3 7), (b2z_or64 h3 17 h4 4), (b2z_or64 h4 20 h5 1), (b2z_or64 h5 15 h6 6), (b2z_or64 h6 18 h7 3), (b2z_or64 h8 16 h9 5), (b2z_or64 h9 19 h10 2), (b2z_or64 h10 14 h11 7) by (split; lia) || lia.
  rewrite !b2z_shr64 by lia.
  rewrite (Z.mod_small (h7 / 2^13)) by (split; [apply Z.div_pos; lia|apply Z.div_lt_upper_bound; lia]).
  rewrite (Z.mod_small (h11 / 2^17)) by (split; [apply Z.div_pos; lia|apply Z.div_lt_upper_bound; lia]).
  assert (S0 : h0 = h0 mod 2^8 + 2^8 * ((h0 / 2^8) mod 256) + 2^16 * (h0 / 2^16)) by exact (limb_split2 8 h0 ltac:(lia)).
  assert (S1 : h1 = h1 mod 2^3 + 2^3 * ((h1 / 2^3) mod 256) + 2^11 * ((h1 / 2^11) mod 256) + 2^19 * (h1 / 2^19)) by exact (limb_split 3 h1 ltac:(lia)).
  assert (S2 : h2 = h2 mod 2^6 + 2^6 * ((h2 / 2^6) mod 256) + 2^14 * (h2 / 2^14)) by exact (limb_split2 6 h2 ltac:(lia)).
  assert (S3 : h3 = h3 mod 2^1 + 2^1 * ((h3 / 2^1) mod 256) + 2^9 * ((h3 / 2^9) mod 256) + 2^17 * (h3 / 2^17)) by exact (limb_split 1 h3 ltac:(lia)).
  assert (S4 : h4 = h4 mod 2^4 + 2^4 * ((h4 / 2^4) mod 256) + 2^12 * ((h4 / 2^12) mod 256) + 2^20 * (h4 / 2^20)) by exact (limb_split 4 h4 ltac:(lia)).
  assert (S5 : h5 = h5 mod 2^7 + 2^7 * ((h5 / 2^7) mod 256) + 2^15 * (h5 / 2^15)) by exact (limb_split2 7 h5 ltac:(lia)).
  assert (S6 : h6 = h6 mod 2^2 + 2^2 * ((h6 / 2^2) mod 256) + 2^10 * ((h6 / 2^10) mod 256) + 2^18 * (h6 / 2^18)) by exact (limb_split 2 h6 ltac:(lia)).
  assert (S7 : h7 = h7 mod 2^5 + 2^5 * ((h7 / 2^5) mod 256) + 2^13 * (h7 / 2^13)) by exact (limb_split2 5 h7 ltac:(lia)).
  assert (S8 : h8 = h8 mod 2^8 + 2^8 * ((h8 / 2^8) mod 256) + 2^16 * (h8 / 2^16)) by exact (limb_split2 8 h8 ltac:(lia)).
  assert (S9 : h9 = h9 mod 2^3 + 2^3 * ((h9 / 2^3) mod 256) + 2^11 * ((h9 / 2^11) mod 256) + 2^19 * (h9 / 2^19)) by exact (limb_split 3 h9 ltac:(lia)).
  assert (S10 : h10 = h10 mod 2^6 + 2^6 * ((h10 / 2^6) mod 256) + 2^14 * (h10 / 2^14)) by exact (limb_split2 6 h10 ltac:(lia)).
  assert (S11 : h11 = h11 mod 2^1 + 2^1 * ((h11 / 2^1) mod 256) + 2^9 * ((h11 / 2^9) mod 256) + 2^17 * (h11 / 2^17)) by exact (limb_split 1 h11 ltac:(lia)).
  assert (M0 : (h0 / 2^0) mod 256 = h0 mod 2^8) by (rewrite Z.pow_0_r, Z.div_1_r; reflexivity). rewrite M0. clear M0.
  assert (M8 : (h8 / 2^0) mod 256 = h8 mod 2^8) by (rewrite Z.pow_0_r, Z.div_1_r; reflexivity). rewrite M8. clear M8.
  change (2 ^ (8 - 1)) with (2 ^ 7).
  change (2 ^ (8 - 2)) with (2 ^ 6).
  change (2 ^ (8 - 3)) with (2 ^ 5).
  change (2 ^ (8 - 4)) with (2 ^ 4).
  change (2 ^ (8 - 5)) with (2 ^ 3).
  change (2 ^ (8 - 6)) with (2 ^ 2).
  change (2 ^ (8 - 7)) with (2 ^ 1).
  clear H0 H1 H2 H3 H4 H5 H6 H7 H8 H9 H10 B11.
  set (a0 := h0 mod 2^8) in *. set (b0 := (h0 / 2^8) mod 256) in *. set (d0 := h0 / 2^16) in *.
  set (a1 := h1 mod 2^3) in *. set (b1 := (h1 / 2^3) mod 256) in *. set (c1 := (h1 / 2^11) mod 256) in *. set (d1 := h1 / 2^19) in *.
  set (a2 := h2 mod 2^6) in *. set (b2 := (h2 / 2^6) mod 256) in *. set (d2 := h2 / 2^14) in *.
  set (a3 := h3 mod 2^1) in *. set (b3 := (h3 / 2^1) mod 256) in *. set (c3 := (h3 / 2^9) mod 256) in *. set (d3 := h3 / 2^17) in *.
  set (a4 := h4 mod 2^4) in *. set (b4 := (h4 / 2^4) mod 256) in *. set (c4 := (h4 / 2^12) mod 256) in *. set (d4 := h4 / 2^20) in *.
  set (a5 := h5 mod 2^7) in *. set (b5 := (h5 / 2^7) mod 256) in *. set (d5 := h5 / 2^15) in *.
  set (a6 := h6 mod 2^2) in *. set (b6 := (h6 / 2^2) mod 256) in *. set (c6 := (h6 / 2^10) mod 256) in *. set (d6 := h6 / 2^18) in *.
  set (a7 := h7 mod 2^5) in *. set (b7 := (h7 / 2^5) mod 256) in *. set (d7 := h7 / 2^13) in *.
  set (a8 := h8 mod 2^8) in *. set (b8 := (h8 / 2^8) mod 256) in *. set (d8 := h8 / 2^16) in *.
  set (a9 := h9 mod 2^3) in *. set (b9 := (h9 / 2^3) mod 256) in *. set (c9 := (h9 / 2^11) mod 256) in *. set (d9 := h9 / 2^19) in *.
  set (a10 := h10 mod 2^6) in *. set (b10 := (h10 / 2^6) mod 256) in *. set (d10 := h10 / 2^14) in *.
  set (a11 := h11 mod 2^1) in *. set (b11 := (h11 / 2^1) mod 256) in *. set (c11 := (h11 / 2^9) mod 256) in *. set (d11 := h11 / 2^17) in *.
  clearbody a0 b0 d0 a1 b1 c1 d1 a2 b2 d2 a3 b3 c3 d3 a4 b4 c4 d4 a5 b5 d5 a6 b6 c6 d6 a7 b7 d7 a8 b8 d8 a9 b9 c9 d9 a10 b10 d10 a11 b11 c11 d11.
  subst. ring.
Qed.

(* ---- the loads ---- *)
Lemma le_val_skip q : forall s, le_val (skipn q s) = le_val s / 2 ^ (8 * Z.of_nat q).
Proof.
  induction q as [|q IH]; intro s.
  - rewrite Z.mul_0_r, Z.pow_0_r, Z.div_1_r. reflexivity.
  - destruct s as [|b s]; [cbn [skipn le_val]; rewrite Z.div_0_l; [reflexivity|apply Z.pow_nonzero; lia]|].
    cbn [skipn le_val]. rewrite IH. rewrite Nat2Z.inj_succ. replace (8 * Z.succ (Z.of_nat q)) with (8 + 8 * Z.of_nat q) by lia.
    rewrite Z.pow_add_r by lia. rewrite <- Z.div_div by (try apply Z.pow_nonzero; try apply Z.pow_pos_nonneg; lia). f_equal.
    pose proof (b2z_range b). change (2 ^ 8) with 256. rewrite Z.mul_comm, Z.div_add by lia. rewrite Z.div_small by lia. lia.
Qed.
Lemma byte_at_skip s q i : byte_at s (q + i) = byte_at (skipn q s) i.
Proof. unfold byte_at. rewrite nth_skipn. reflexivity. Qed.
Lemma le_val_byte s : le_val s = byte_at s 0 + 256 * le_val (skipn 1 s).
Proof. destruct s; [reflexivity|reflexivity]. Qed.
Lemma byte_at_range s i : 0 <= byte_at s i < 256.
Proof. apply b2z_range. Qed.
Lemma load3_mod s q : load3 s q = (le_val s / 2 ^ (8 * Z.of_nat q)) mod 2 ^ 24.
Proof.
  rewrite load3_val, <- le_val_skip. rewrite <- (Nat.add_0_r q) at 1. rewrite !byte_at_skip. set (t := skipn q s).
  rewrite (le_val_byte t), (le_val_byte (skipn 1 t)), (le_val_byte (skipn 1 (skipn 1 t))).
  replace (byte_at (skipn 1 (skipn 1 t)) 0) with (byte_at t 2) by (unfold byte_at; rewrite !nth_skipn; reflexivity).
  replace (byte_at (skipn 1 t) 0) with (byte_at t 1) by (unfold byte_at; rewrite !nth_skipn; reflexivity).
  pose proof (byte_at_range t 0). pose proof (byte_at_range t 1). pose proof (byte_at_range t 2).
  set (v := le_val _). clearbody v.
  replace (byte_at t 0 + 256 * (byte_at t 1 + 256 * (byte_at t 2 + 256 * v))) with (byte_at t 0 + 2 ^ 8 * byte_at t 1 + 2 ^ 16 * byte_at t 2 + v * 2 ^ 24) by ring.
  rewrite Z.mod_add by lia. rewrite Z.mod_small by lia. reflexivity.
Qed.
Lemma load4_mod s q : load4 s q = (le_val s / 2 ^ (8 * Z.of_nat q)) mod 2 ^ 32.
Proof.
  rewrite load4_val. rewrite <- le_val_skip. rewrite <- (Nat.add_0_r q) at 1. rewrite !byte_at_skip. set (t := skipn q s).
  rewrite (le_val_byte t), (le_val_byte (skipn 1 t)), (le_val_byte (skipn 1 (skipn 1 t))), (le_val_byte (skipn 1 (skipn 1 (skipn 1 t)))).
  replace (byte_at (skipn 1 (skipn 1 (skipn 1 t))) 0) with (byte_at t 3) by (unfold byte_at; rewrite !nth_skipn; reflexivity).
  replace (byte_at (skipn 1 (skipn 1 t)) 0) with (byte_at t 2) by (unfold byte_at; rewrite !nth_skipn; reflexivity).
  replace (byte_at (skipn 1 t) 0) with (byte_at t 1) by (unfold byte_at; rewrite !nth_skipn; reflexivity).
  pose proof (byte_at_range t 0). pose proof (byte_at_range t 1). pose proof (byte_at_range t 2). pose proof (byte_at_range t 3).
  set (v := le_val _). clearbody v.
  replace (byte_at t 0 + 256 * (byte_at t 1 + 256 * (byte_at t 2 + 256 * (byte_at t 3 + 256 * v)))) with (byte_at t 0 + 2 ^ 8 * byte_at t 1 + 2 ^ 16 * byte_at t 2 + 2 ^ 24 * byte_at t 3 + v * 2 ^ 32) by ring.
  rewrite Z.mod_add by lia. rewrite Z.mod_small by lia. reflexivity.
Qed.
Lemma mask21 z : and64 2097151 z = z mod 2 ^ 21.
Proof. unfold and64. rewrite Z.land_comm. change 2097151 with (Z.ones 21). apply Z.land_ones. lia. Qed.
Lemma div_mod_pow x N r : 0 <= r <= N -> (x mod 2 ^ N) / 2 ^ r = (x / 2 ^ r) mod 2 ^ (N - r).
Proof.
  intro H. apply Z.bits_inj'. intros n Hn. rewrite Z.div_pow2_bits by lia. destruct (Z.lt_ge_cases n (N - r)) as [C|C].
  - rewrite !Z.mod_pow2_bits_low by lia. rewrite Z.div_pow2_bits by lia. reflexivity.
  - rewrite !Z.mod_pow2_bits_high by lia. reflexivity.
Qed.
Lemma mod_mod_pow x M N : 0 <= M <= N -> (x mod 2 ^ N) mod 2 ^ M = x mod 2 ^ M.
Proof.
  intro H. apply Z.bits_inj'. intros n Hn. destruct (Z.lt_ge_cases n M) as [C|C].
  - rewrite !Z.mod_pow2_bits_low by lia. reflexivity.
  - rewrite !(Z.mod_pow2_bits_high _ M) by lia. reflexivity.
Qed.
Lemma field21 V o N r : 0 <= o -> 0 <= r -> r + 21 <= N -> ((V / 2 ^ o) mod 2 ^ N) / 2 ^ r mod 2 ^ 21 = (V / 2 ^ (o + r)) mod 2 ^ 21.
Proof.
  intros. rewrite div_mod_pow by lia. rewrite mod_mod_pow by lia. rewrite Z.div_div by (try apply Z.pow_nonzero; try apply Z.pow_pos_nonneg; lia).
  rewrite <- Z.pow_add_r by lia. reflexivity.
Qed.
Lemma limb3 s q r : 0 <= r <= 3 -> and64 2097151 (shr64 (load3 s q) r) = (le_val s / 2 ^ (8 * Z.of_nat q + r)) mod 2 ^ 21.
Proof. intro H. rewrite mask21. unfold shr64. rewrite Z.shiftr_div_pow2 by lia. rewrite load3_mod. apply field21; lia. Qed.
Lemma limb3_0 s q : and64 2097151 (load3 s q) = (le_val s / 2 ^ (8 * Z.of_nat q + 0)) mod 2 ^ 21.
Proof. rewrite <- limb3 by lia. reflexivity. Qed.
Lemma limb4 s q r : 0 <= r <= 11 -> and64 2097151 (shr64 (load4 s q) r) = (le_val s / 2 ^ (8 * Z.of_nat q + r)) mod 2 ^ 21.
Proof. intro H. rewrite mask21. unfold shr64. rewrite Z.shiftr_div_pow2 by lia. rewrite load4_mod. apply field21; lia. Qed.
Lemma limb4_top s q r : 0 <= r -> le_val s < 2 ^ (8 * Z.of_nat (q + 4)) -> shr64 (load4 s q) r = le_val s / 2 ^ (8 * Z.of_nat q + r).
Proof.
  intros Hr H. unfold shr64. rewrite Z.shiftr_div_pow2 by lia. rewrite load4_mod.
  assert (P : 0 < 2 ^ (8 * Z.of_nat q)) by (apply Z.pow_pos_nonneg; lia).
  assert (P2 : 0 < 2 ^ r) by (apply Z.pow_pos_nonneg; lia).
  rewrite Z.mod_small.
  - rewrite Z.div_div by lia. rewrite <- Z.pow_add_r by lia. reflexivity.
  - split; [apply Z.div_pos; [apply le_val_range|lia]|]. apply Z.div_lt_upper_bound; [lia|]. rewrite <- Z.pow_add_r by lia.
    replace (8 * Z.of_nat q + 32) with (8 * Z.of_nat (q + 4)) by lia. exact H.
Qed.
Fixpoint digs (n : nat) (V : Z) : list Z := match n with O => [V] | S n => V mod 2 ^ 21 :: digs n (V / 2 ^ 21) end.
Lemma digs_val n : forall V, dval B21 (digs n V) = V.
Proof.
  induction n as [|n IH]; intro V; cbn [digs dval]; [ring|]. rewrite IH. change (2 ^ 21) with B21. pose proof (Z.div_mod V B21 ltac:(lia)). lia.
Qed.
Lemma limbs12_digs s : length s = 32%nat -> limbs12 s = digs 11 (le_val s).
Proof.
  intro L. unfold limbs12. pose proof (le_val_range s) as R. rewrite L in R. change (256 ^ Z.of_nat 32) with (2 ^ 256) in R.
  rewrite !limb3_0, !limb3, !limb4 by lia. rewrite (limb4_top s 28 7) by (try (change (8 * Z.of_nat (28 + 4)) with 256); lia).
  cbn [digs]. rewrite !Z.div_div by lia. set (v := le_val s). clearbody v. clear.
  repeat match goal with |- _ :: _ = _ :: _ => apply (f_equal2 cons) end; try reflexivity.
  change (2 ^ (8 * Z.of_nat 0 + 0)) with 1. rewrite Z.div_1_r. reflexivity.
Qed.
Lemma limbs24_digs s : length s = 64%nat -> limbs24 s = digs 23 (le_val s).
Proof.
  intro L. unfold limbs24. pose proof (le_val_range s) as R. rewrite L in R. change (256 ^ Z.of_nat 64) with (2 ^ 512) in R.
  rewrite !limb3_0, !limb3, !limb4 by lia. rewrite (limb4_top s 60 3) by (try (change (8 * Z.of_nat (60 + 4)) with 512); lia).
  cbn [digs]. rewrite !Z.div_div by lia. set (v := le_val s). clearbody v. clear.
  repeat match goal with |- _ :: _ = _ :: _ => apply (f_equal2 cons) end; try reflexivity.
  change (2 ^ (8 * Z.of_nat 0 + 0)) with 1. rewrite Z.div_1_r. reflexivity.
Qed.
Lemma inside_nil : inside [] [].
Proof. split; [reflexivity|]. intro k. unfold within, at_, ivat. destruct k; cbn; lia. Qed.
Lemma inside_cons x s v iv : within x v -> inside s iv -> inside (x :: s) (v :: iv).
Proof. intros W [L H]. split; [cbn; lia|]. intros [|k]; [exact W|exact (H k)]. Qed.
Lemma digs_inside n T : forall V, 0 <= V < 2 ^ (21 * Z.of_nat n) * (T + 1) -> inside (digs n V) (repeat limb_iv n ++ [(0, T)]).
Proof.
  induction n as [|n IH]; intros V H; cbn [digs repeat app].
  - apply inside_cons; [|apply inside_nil]. rewrite Z.mul_0_r, Z.pow_0_r in H. unfold within. cbn [fst snd]. lia.
  - apply inside_cons.
    + pose proof (Z.mod_pos_bound V (2 ^ 21) ltac:(lia)). unfold within, limb_iv. cbn [fst snd]. lia.
    + apply IH. split; [apply Z.div_pos; lia|]. apply Z.div_lt_upper_bound; [lia|].
      replace (21 * Z.of_nat (S n)) with (21 + 21 * Z.of_nat n) in H by lia. rewrite Z.pow_add_r in H by lia. lia.
Qed.

(* ---- ScReduce ---- *)
Definition reduce_main : list sop := Eval vm_compute in firstn 48 reduce_ops.
Lemma reduce_split : reduce_ops = reduce_main ++ tail_ops.
Proof. reflexivity. Qed.
Lemma reduce_main_ok : arun reduce_main (repeat limb_iv 23 ++ [(0, 2 ^ 29 - 1)]) = Some before_tail.
Proof. vm_compute. reflexivity. Qed.
Lemma unique_mod x V q m : 0 <= x < m -> x = V - q * m -> x = V mod m.
Proof. intros R E. apply Z.mod_unique with q; [left; lia|lia]. Qed.
Lemma finish main iv s : arun main iv = Some before_tail -> inside s iv ->
  le_val (store_limbs (run_ops (main ++ tail_ops) s)) = dval B21 s mod ell.
Proof.
  intros A I. rewrite run_app. destruct (run_sound main s iv before_tail A I) as [I1 [q1 V1]].
  destruct (tail_ok _ I1) as (S & R & q2 & V2). rewrite (store_val _ S). rewrite V1 in V2.
  apply (unique_mod _ _ (q1 + q2)); [exact R|rewrite V2; ring].
Qed.
Theorem ScReduce_ok s : length s = 64%nat -> le_val (ScReduce s) = le_val s mod ell.
Proof.
  intro L. unfold ScReduce. rewrite limbs24_digs, reduce_split by exact L.
  rewrite (finish reduce_main _ _ reduce_main_ok).
  - rewrite digs_val. reflexivity.
  - apply digs_inside. pose proof (le_val_range s) as R. rewrite L in R. change (256 ^ Z.of_nat 64) with (2 ^ 512) in R.
    change (21 * Z.of_nat 23) with 483. lia.
Qed.

(* ---- the products of ScMulAdd ---- *)
Definition pproduct (a b : list Z) (k : nat) (c : Z) : Z :=
  fold_left (fun s i => s + at_ a i * at_ b (k - i)) (filter (fun i => (i <=? k) && (k - i <=? 11))%nat (seq 0 12)) c.
Definition pproducts (a b c : list Z) : list Z :=
  map (fun k => pproduct a b k (if (k <? 12)%nat then at_ c k else 0)) (seq 0 23) ++ [0].
Lemma product_fold a b k l : (forall i, 0 <= at_ a i < 2 ^ 25) -> (forall i, 0 <= at_ b i < 2 ^ 25) ->
  forall acc, 0 <= acc -> acc + Z.of_nat (length l) * 2 ^ 50 < 2 ^ 63 ->
  let r := fold_left (fun s i => s + at_ a i * at_ b (k - i)) l acc in
  fold_left (fun s i => (s + at_ a i * at_ b (k - i))%i64) l acc = r /\ 0 <= r <= acc + Z.of_nat (length l) * 2 ^ 50.
Proof.
  intros A B. induction l as [|i l IH]; intros acc H0 H; cbn [fold_left length].
  - split; [reflexivity|cbn; lia].
  - cbn [length] in H. rewrite Nat2Z.inj_succ in *. pose proof (A i). pose proof (B (k - i)%nat).
    assert (M : 0 <= at_ a i * at_ b (k - i) <= 2 ^ 50) by nia.
    unfold add64 at 2, mul64 at 2. rewrite (i64_id (at_ a i * at_ b (k - i))) by lia. rewrite i64_id by lia.
    destruct (IH (acc + at_ a i * at_ b (k - i)) ltac:(lia) ltac:(lia)) as [-> R]. split; [reflexivity|]. cbv zeta in R. lia.
Qed.
Lemma filter_len {A} (f : A -> bool) l : (length (filter f l) <= length l)%nat.
Proof. induction l as [|x l IH]; cbn; [lia|]. destruct (f x); cbn; lia. Qed.
Lemma product_ok a b k c : (forall i, 0 <= at_ a i < 2 ^ 25) -> (forall i, 0 <= at_ b i < 2 ^ 25) -> 0 <= c < 2 ^ 25 ->
  product a b k c = pproduct a b k c /\ 0 <= pproduct a b k c <= 12 * 2 ^ 50 + 2 ^ 25.
Proof.
  intros A B C. unfold product, pproduct. set (l := filter _ _).
  assert (N : (length l <= 12)%nat) by (apply (filter_len _ (seq 0 12))).
  destruct (product_fold a b k l A B c ltac:(lia) ltac:(lia)) as [E R]. cbv zeta in R. split; [exact E|]. lia.
Qed.
Lemma inside_map (f : nat -> Z) v t tv l : (forall k, within (f k) v) -> inside t tv -> inside (map f l ++ t) (repeat v (length l) ++ tv).
Proof. intros H I. induction l as [|x l IH]; [exact I|]. cbn [map length repeat app]. apply inside_cons; [apply H|exact IH]. Qed.
Lemma products_ok a b c : (forall i, 0 <= at_ a i < 2 ^ 25) -> (forall i, 0 <= at_ b i < 2 ^ 25) -> (forall i, 0 <= at_ c i < 2 ^ 25) ->
  products a b c = pproducts a b c /\ inside (pproducts a b c) (repeat (0, 12 * 2 ^ 50 + 2 ^ 25) 23 ++ [(0, 0)]).
Proof.
  intros A B C. assert (P : forall k, let x := if (k <? 12)%nat then at_ c k else 0 in
    product a b k x = pproduct a b k x /\ 0 <= pproduct a b k x <= 12 * 2 ^ 50 + 2 ^ 25).
  { intro k. apply product_ok; [exact A|exact B|]. destruct (k <? 12)%nat; [apply C|lia]. }
  split.
  - unfold products, pproducts. f_equal. apply map_ext. intro k. apply P.
  - unfold pproducts. apply (inside_map _ (0, 12 * 2 ^ 50 + 2 ^ 25) [0] [(0, 0)] (seq 0 23)).
    + intro k. apply P.
    + apply inside_cons; [unfold within; cbn [fst snd]; lia|apply inside_nil].
Qed.
Lemma split12 (s : list Z) : length s = 12%nat ->
  s = [at_ s 0; at_ s 1; at_ s 2; at_ s 3; at_ s 4; at_ s 5; at_ s 6; at_ s 7; at_ s 8; at_ s 9; at_ s 10; at_ s 11].
Proof. intro H. do 12 (destruct s as [|? s]; [discriminate H|]). destruct s; [reflexivity|discriminate H]. Qed.
Lemma pproducts_val a b c : length a = 12%nat -> length b = 12%nat -> length c = 12%nat ->
  dval B21 (pproducts a b c) = dval B21 a * dval B21 b + dval B21 c.
Proof.
  intros A B C. rewrite (split12 a A), (split12 b B), (split12 c C).
  set (a0 := at_ a 0). set (a1 := at_ a 1). set (a2 := at_ a 2). set (a3 := at_ a 3). set (a4 := at_ a 4). set (a5 := at_ a 5).
  set (a6 := at_ a 6). set (a7 := at_ a 7). set (a8 := at_ a 8). set (a9 := at_ a 9). set (a10 := at_ a 10). set (a11 := at_ a 11).
  set (b0 := at_ b 0). set (b1 := at_ b 1). set (b2 := at_ b 2). set (b3 := at_ b 3). set (b4 := at_ b 4). set (b5 := at_ b 5).
  set (b6 := at_ b 6). set (b7 := at_ b 7). set (b8 := at_ b 8). set (b9 := at_ b 9). set (b10 := at_ b 10). set (b11 := at_ b 11).
  set (c0 := at_ c 0). set (c1 := at_ c 1). set (c2 := at_ c 2). set (c3 := at_ c 3). set (c4 := at_ c 4). set (c5 := at_ c 5).
  set (c6 := at_ c 6). set (c7 := at_ c 7). set (c8 := at_ c 8). set (c9 := at_ c 9). set (c10 := at_ c 10). set (c11 := at_ c 11).
  clearbody a0 a1 a2 a3 a4 a5 a6 a7 a8 a9 a10 a11 b0 b1 b2 b3 b4 b5 b6 b7 b8 b9 b10 b11 c0 c1 c2 c3 c4 c5 c6 c7 c8 c9 c10 c11. clear.
  cbv [pproducts pproduct map seq filter fold_left Nat.leb Nat.ltb Nat.sub andb app at_ nth dval].
  ring.
Qed.

(* ---- ScMulAdd ---- *)
Definition muladd_main : list sop := Eval vm_compute in firstn 71 muladd_ops.
Lemma muladd_split : muladd_ops = muladd_main ++ tail_ops.
Proof. reflexivity. Qed.
Lemma muladd_main_ok : arun muladd_main (repeat (0, 12 * 2 ^ 50 + 2 ^ 25) 23 ++ [(0, 0)]) = Some before_tail.
Proof. vm_compute. reflexivity. Qed.
Lemma digs_length n : forall V, length (digs n V) = S n.
Proof. induction n as [|n IH]; intro V; [reflexivity|]. cbn [digs length]. rewrite IH. reflexivity. Qed.
Lemma limbs12_range s : length s = 32%nat -> forall i, 0 <= at_ (limbs12 s) i < 2 ^ 25.
Proof.
  intros L i. rewrite limbs12_digs by exact L. pose proof (le_val_range s) as R. rewrite L in R. change (256 ^ Z.of_nat 32) with (2 ^ 256) in R.
  destruct (digs_inside 11 (2 ^ 25 - 1) (le_val s)) as [_ H]; [change (21 * Z.of_nat 11) with 231; lia|].
  specialize (H i). unfold within in H. do 12 (destruct i as [|i]; [cbn [ivat repeat app nth limb_iv fst snd] in H; lia|]).
  unfold at_. rewrite nth_overflow by (rewrite digs_length; lia). lia.
Qed.
Theorem ScMulAdd_ok a b c : length a = 32%nat -> length b = 32%nat -> length c = 32%nat ->
  le_val (ScMulAdd a b c) = (le_val a * le_val b + le_val c) mod ell.
Proof.
  intros A B C. unfold ScMulAdd. rewrite muladd_split.
  destruct (products_ok (limbs12 a) (limbs12 b) (limbs12 c) (limbs12_range a A) (limbs12_range b B) (limbs12_range c C)) as [-> I].
  rewrite (finish muladd_main _ _ muladd_main_ok I). rewrite !limbs12_digs by assumption.
  rewrite pproducts_val by (apply digs_length). rewrite !digs_val. reflexivity.
Qed.

(* ---- ScMinimal ---- *)
Lemma load4_skip s q i : load4 s (q + i) = load4 (skipn q s) i.
Proof. unfold load4, load3. rewrite <- !Nat.add_assoc, !byte_at_skip. reflexivity. Qed.
Lemma uint64_mod s q : uint64_at s q = (le_val s / 2 ^ (8 * Z.of_nat q)) mod 2 ^ 64.
Proof.
  unfold uint64_at. rewrite lor_add by (try lia; apply load4_bounds). rewrite !load4_mod.
  replace (8 * Z.of_nat (q + 4)) with (8 * Z.of_nat q + 32) by lia. rewrite Z.pow_add_r by lia.
  rewrite <- Z.div_div by (try apply Z.pow_nonzero; try apply Z.pow_pos_nonneg; lia).
  set (v := le_val s / 2 ^ (8 * Z.of_nat q)). clearbody v.
  pose proof (Z.div_mod v (2 ^ 32) ltac:(lia)) as D1. pose proof (Z.mod_pos_bound v (2 ^ 32) ltac:(lia)) as M1.
  set (w := v / 2 ^ 32) in *. pose proof (Z.div_mod w (2 ^ 32) ltac:(lia)) as D2. pose proof (Z.mod_pos_bound w (2 ^ 32) ltac:(lia)) as M2.
  set (x := w / 2 ^ 32) in *. set (y := w mod 2 ^ 32) in *. set (z := v mod 2 ^ 32) in *. clearbody w x y z.
  apply Z.mod_unique with x; [left; lia|]. lia.
Qed.
Theorem ScMinimal_ok s : length s = 32%nat -> ScMinimal s = (le_val s <? ell).
Proof.
  intro L. pose proof (le_val_range s) as R. rewrite L in R. change (256 ^ Z.of_nat 32) with (2 ^ 256) in R.
  unfold ScMinimal. cbn [sc_minimal at_ order nth Nat.mul Nat.add Nat.eqb]. rewrite !uint64_mod.
  change (8 * Z.of_nat 0) with 0. change (8 * Z.of_nat 8) with 64. change (8 * Z.of_nat 16) with 128. change (8 * Z.of_nat 24) with 192.
  rewrite Z.pow_0_r, Z.div_1_r.
  set (V := le_val s) in *. clearbody V.
  pose proof (Z.div_mod V (2 ^ 64) ltac:(lia)) as D0. pose proof (Z.mod_pos_bound V (2 ^ 64) ltac:(lia)) as M0.
  replace (V / 2 ^ 128) with (V / 2 ^ 64 / 2 ^ 64) by (rewrite Z.div_div by lia; reflexivity).
  replace (V / 2 ^ 192) with (V / 2 ^ 64 / 2 ^ 64 / 2 ^ 64) by (rewrite !Z.div_div by lia; reflexivity).
  set (v0 := V mod 2 ^ 64) in *. set (W := V / 2 ^ 64) in *.
  pose proof (Z.div_mod W (2 ^ 64) ltac:(lia)) as D1. pose proof (Z.mod_pos_bound W (2 ^ 64) ltac:(lia)) as M1.
  set (v1 := W mod 2 ^ 64) in *. set (X := W / 2 ^ 64) in *.
  pose proof (Z.div_mod X (2 ^ 64) ltac:(lia)) as D2. pose proof (Z.mod_pos_bound X (2 ^ 64) ltac:(lia)) as M2.
  set (v2 := X mod 2 ^ 64) in *. set (Y := X / 2 ^ 64) in *.
  clearbody v0 W v1 X v2 Y.
  assert (EY : Y mod 2 ^ 64 = Y) by (apply Z.mod_small; lia). rewrite EY. clear EY.
  unfold ell.
  destruct (Z.ltb_spec 1152921504606846976 Y); [symmetry; apply Z.ltb_ge; lia|].
  destruct (Z.ltb_spec Y 1152921504606846976); [symmetry; apply Z.ltb_lt; lia|].
  destruct (Z.ltb_spec 0 v2); [symmetry; apply Z.ltb_ge; lia|].
  destruct (Z.ltb_spec v2 0); [lia|].
  destruct (Z.ltb_spec 1503914060200516822 v1); [symmetry; apply Z.ltb_ge; lia|].
  destruct (Z.ltb_spec v1 1503914060200516822); [symmetry; apply Z.ltb_lt; lia|].
  destruct (Z.ltb_spec 6346243789798364141 v0); [symmetry; apply Z.ltb_ge; lia|].
  destruct (Z.ltb_spec v0 6346243789798364141); [symmetry; apply Z.ltb_lt; lia|].
  symmetry; apply Z.ltb_ge; lia.
Qed.
