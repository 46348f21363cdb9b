From Verif Require Import PointerFacts CodeFacts CodeBytes SlideFacts.
From Verif Require Export SpecCode.
Local Open Scope string_scope.
Local Open Scope list_scope.
Local Open Scope Z_scope.

Lemma seq_state c d s : fst (crun (CSeq c d) s) = fst (crun d (fst (crun c s))).
Proof. cbn [crun]. destruct (crun c s) as [s1 t1]. cbn [fst]. now destruct (crun d s1). Qed.
Lemma set_state x k e s : fst (crun (CSet x k e) s) = set_var x k (cval e s) s.
Proof. reflexivity. Qed.
Lemma put_state a i e s : fst (crun (CPut a i e) s) = set_cell (ptrs s a) (cval i s) (cval e s) s.
Proof. reflexivity. Qed.

(* ---- bytes in arrays ---- *)
Lemma bytes_get m l b k : has_bytes m l b -> (k < length b)%nat -> m l (Z.of_nat k) = byte_at b k.
Proof.
  unfold has_bytes, contains. rewrite map_length. intros E L.
  apply (f_equal (fun z => nth k z 0)) in E. unfold byte_at. rewrite <- (map_nth b2z). change (b2z x00) with 0. rewrite <- E.
  rewrite (nth_indep _ _ (m l (Z.of_nat 0))) by now rewrite map_length, seq_length.
  rewrite (map_nth (fun i => m l (Z.of_nat i))). now rewrite seq_nth.
Qed.
Lemma byte_at_range b k : 0 <= byte_at b k < 256.
Proof. apply b2z_range. Qed.
Lemma i64_small z : - 2^63 <= z < 2^63 -> i64 z = z.
Proof. intro R. unfold i64. rewrite Z.mod_small; lia. Qed.
Lemma shifted b k n : 0 <= n <= 24 -> i64 (Z.shiftl (byte_at b k) n) = Z.shiftl (byte_at b k) n.
Proof.
  intro R. pose proof (byte_at_range b k) as B. apply i64_small. rewrite Z.shiftl_mul_pow2 by lia.
  assert (0 < 2^n <= 2^24) by (split; [apply Z.pow_pos_nonneg; lia|apply Z.pow_le_mono_r; lia]). nia.
Qed.
Lemma load3_val a s b (o : nat) x y z : has_bytes (cells s) (ptrs s a) b -> (o + 2 < length b)%nat ->
  x = Z.of_nat o -> y = Z.of_nat (o + 1) -> z = Z.of_nat (o + 2) -> cval (load3_of a x y z) s = load3 b o.
Proof.
  intros H L -> -> ->. unfold load3_of, load3. cbn [cval calc wrap].
  rewrite !(bytes_get _ _ b) by (assumption || lia). now rewrite !shifted by lia.
Qed.
Lemma load4_val a s b (o : nat) x y z w : has_bytes (cells s) (ptrs s a) b -> (o + 3 < length b)%nat ->
  x = Z.of_nat o -> y = Z.of_nat (o + 1) -> z = Z.of_nat (o + 2) -> w = Z.of_nat (o + 3) -> cval (load4_of a x y z w) s = load4 b o.
Proof.
  intros H L -> -> -> ->. unfold load4_of, load4. cbn [cval calc wrap].
  change (cval (load3_of ?a ?x ?y ?z) ?s) with (cval (load3_of a x y z) s).
  rewrite (load3_val a s b o) by (assumption || lia || reflexivity).
  rewrite !(bytes_get _ _ b) by (assumption || lia). now rewrite !shifted by lia.
Qed.

Lemma combine_code s l : as_fe (cells (fst (crun FeCombine_code s))) l =
  put (as_fe (cells s)) (ptrs s "h") (FeCombine (vars s "h" 0%nat) (vars s "h" 1%nat) (vars s "h" 2%nat) (vars s "h" 3%nat) (vars s "h" 4%nat)
    (vars s "h" 5%nat) (vars s "h" 6%nat) (vars s "h" 7%nat) (vars s "h" 8%nat) (vars s "h" 9%nat)) l.
Proof. unfold put. revert s l. leaf. Qed.

Lemma from_bytes_code s b : length b = 32%nat -> has_bytes (cells s) (ptrs s "src") b ->
  let m := cells (fst (crun FeFromBytes_code s)) in
  as_fe m (ptrs s "h") = FeFromBytes b /\ only_at [ptrs s "h"] (cells s) m.
Proof.
  intros L H. split; [|apply kept; inc]. unfold FeFromBytes_code. rewrite seq_state, combine_code.
  set (c := block _). rewrite (crun_ptrs c s). unfold put. rewrite eqb_self.
  unfold FeFromBytes, shl64, and64.
  rewrite <- (load4_val "src" s b 0 0 1 2 3) by (assumption || lia || reflexivity).
  rewrite <- (load3_val "src" s b 4 4 5 6) by (assumption || lia || reflexivity).
  rewrite <- (load3_val "src" s b 7 7 8 9) by (assumption || lia || reflexivity).
  rewrite <- (load3_val "src" s b 10 10 11 12) by (assumption || lia || reflexivity).
  rewrite <- (load3_val "src" s b 13 13 14 15) by (assumption || lia || reflexivity).
  rewrite <- (load4_val "src" s b 16 16 17 18 19) by (assumption || lia || reflexivity).
  rewrite <- (load3_val "src" s b 20 20 21 22) by (assumption || lia || reflexivity).
  rewrite <- (load3_val "src" s b 23 23 24 25) by (assumption || lia || reflexivity).
  rewrite <- (load3_val "src" s b 26 26 27 28) by (assumption || lia || reflexivity).
  rewrite <- (load3_val "src" s b 29 29 30 31) by (assumption || lia || reflexivity).
  f_equal; destruct s as [v p m]; go; reflexivity.
Qed.

(* ---- signs and digits ---- *)
Lemma to_bytes_length f : length (fst (FeToBytes f)) = 32%nat.
Proof. now destruct f. Qed.
(* what a routine does that reads the bytes another one has left *)
Definition leaves (c : code) (s : state) (b : bytes) (f : fe) : Prop :=
  has_bytes (cells (fst (crun c s))) (ptrs s "s") b /\ as_fe (cells (fst (crun c s))) (ptrs s "h") = f /\
  only_at [ptrs s "s"; ptrs s "h"] (cells s) (cells (fst (crun c s))).
Lemma to_bytes_leaves s : ptrs s "s" <> ptrs s "h" ->
  leaves FeToBytes_code s (fst (FeToBytes (as_fe (cells s) (ptrs s "h")))) (snd (FeToBytes (as_fe (cells s) (ptrs s "h")))).
Proof. intro N. pose proof (to_bytes_code s N) as G. cbv zeta in G. unfold leaves. destruct (FeToBytes (as_fe (cells s) (ptrs s "h"))). exact G. Qed.
Lemma after_negative c s b f : length b = 32%nat -> leaves c s b f ->
  let s' := fst (crun (CSeq c (CSet "result" 0 (EBin U8 OAnd (EElem "s" (ELit 0)) (ELit 1)))) s) in
  vars s' "result" 0%nat = Z.land (byte_at b 0) 1 /\ as_fe (cells s') (ptrs s "h") = f /\ only_at [ptrs s "s"; ptrs s "h"] (cells s) (cells s').
Proof.
  intros L (G1 & G2 & G3). cbv zeta. rewrite seq_state. pose proof (crun_ptrs c s) as Ep.
  set (s1 := fst (crun c s)) in *. clearbody s1. rewrite set_state.
  split; [|now split]. cbn [vars set_var cval calc]. rewrite Ep.
  change (cells s1 (ptrs s "s") 0) with (cells s1 (ptrs s "s") (Z.of_nat 0)). rewrite (bytes_get _ _ b) by (assumption || lia). reflexivity.
Qed.
Lemma is_negative_code s : ptrs s "s" <> ptrs s "h" ->
  let s' := fst (crun FeIsNegative_code s) in let '(r, f) := FeIsNegative (as_fe (cells s) (ptrs s "h")) in
  vars s' "result" 0%nat = r /\ as_fe (cells s') (ptrs s "h") = f /\ only_at [ptrs s "s"; ptrs s "h"] (cells s) (cells s').
Proof.
  intro N. pose proof (after_negative _ s _ _ (to_bytes_length _) (to_bytes_leaves s N)) as G. cbv zeta in G |- *.
  unfold FeIsNegative, FeIsNegative_code. destruct (FeToBytes (as_fe (cells s) (ptrs s "h"))) as [b f]. exact G.
Qed.
Lemma ors n : forall i s, 
  let s' := fst (rounds "i" 0 (crun (CSet "x" 0 (EBin U8 OOr (EVar "x" 0) (EElem "s" (EVar "i" 0))))) i n s) in
  cells s' = cells s /\ vars s' "x" 0%nat = fold_left (fun x z => Z.lor x z) (map (fun k => cells s (ptrs s "s") (i + Z.of_nat k)) (seq 0 n)) (vars s "x" 0%nat).
Proof.
  induction n as [|n IH]; intros i s; cbn [rounds]; [now split|].
  pose proof (set_state "x" 0 (EBin U8 OOr (EVar "x" 0) (EElem "s" (EVar "i" 0))) (set_var "i" 0 i s)) as E1.
  destruct (crun (CSet "x" 0 _) (set_var "i" 0 i s)) as [s1 t1]. cbn [fst] in E1. specialize (IH (i + 1) s1).
  destruct (rounds "i" 0 _ (i + 1) n s1) as [s2 t2]. cbn [fst] in IH |- *. cbv zeta in IH. destruct IH as [E2 E3]. subst s1. split; [exact E2|]. rewrite E3.
  cbn [set_var vars cells ptrs cval calc Nat.eqb String.eqb Ascii.eqb Bool.eqb andb]. 
  cbn [seq map fold_left]. rewrite <- seq_shift, map_map. rewrite Z.add_0_r. f_equal. apply map_ext. intro k. f_equal. lia.
Qed.
Lemma fold_map {A B} (f : A -> B -> A) {C} (g : C -> B) l : forall x, fold_left f (map g l) x = fold_left (fun x c => f x (g c)) l x.
Proof. induction l as [|c l IH]; intro x; [reflexivity|]. cbn [map fold_left]. apply IH. Qed.
Definition nonzero_code (n : nat) : code := block [
    CSet "x" 0 (ELit 0); CFor "i" 0 n (CSet "x" 0 (EBin U8 OOr (EVar "x" 0) (EElem "s" (EVar "i" 0))));
    CSet "x" 0 (EBin U8 OOr (EVar "x" 0) (EBin U8 OShr (EVar "x" 0) (ELit 4)));
    CSet "x" 0 (EBin U8 OOr (EVar "x" 0) (EBin U8 OShr (EVar "x" 0) (ELit 2)));
    CSet "x" 0 (EBin U8 OOr (EVar "x" 0) (EBin U8 OShr (EVar "x" 0) (ELit 1)));
    CSet "result" 0 (EBin U8 OAnd (EVar "x" 0) (ELit 1))].
Lemma after_nonzero n c s b f : length b = n -> leaves c s b f ->
  let s' := fst (crun (CSeq c (nonzero_code n)) s) in
  vars s' "result" 0%nat = (let x := fold_left (fun x b => Z.lor x (b2z b)) b 0 in let x := Z.lor x (Z.shiftr x 4) in
    let x := Z.lor x (Z.shiftr x 2) in let x := Z.lor x (Z.shiftr x 1) in Z.land x 1) /\
  as_fe (cells s') (ptrs s "h") = f /\ only_at [ptrs s "s"; ptrs s "h"] (cells s) (cells s').
Proof.
  intros L (G1 & G2 & G3). cbv zeta. rewrite seq_state. pose proof (crun_ptrs c s) as Ep.
  set (s1 := fst (crun c s)) in *. clearbody s1. unfold nonzero_code. cbn [block]. rewrite !seq_state, set_state, crun_for.
  pose proof (ors n 0 (set_var "x" 0 (cval (ELit 0) s1) s1)) as O. cbv zeta in O.
  set (s2 := fst (rounds _ _ _ _ _ _)) in *. clearbody s2. destruct O as [O1 O2]. rewrite !set_state. cbn [set_var cells] in O1 |- *. rewrite O1.
  split; [|now split]. cbn [vars set_var cval calc Nat.eqb String.eqb Ascii.eqb Bool.eqb andb].
  rewrite O2. cbn [set_var vars cells ptrs cval Nat.eqb String.eqb Ascii.eqb Bool.eqb andb]. rewrite Ep.
  assert (E : map (fun k => cells s1 (ptrs s "s") (0 + Z.of_nat k)) (seq 0 n) = map b2z b).
  { unfold has_bytes, contains in G1. rewrite map_length, L in G1. exact G1. }
  rewrite E. rewrite fold_map. reflexivity.
Qed.
Lemma is_nonzero_code s : ptrs s "s" <> ptrs s "h" ->
  let s' := fst (crun FeIsNonZero_code s) in let '(r, f) := FeIsNonZero (as_fe (cells s) (ptrs s "h")) in
  vars s' "result" 0%nat = r /\ as_fe (cells s') (ptrs s "h") = f /\ only_at [ptrs s "s"; ptrs s "h"] (cells s) (cells s').
Proof.
  intro N. pose proof (after_nonzero 32 _ s _ _ (to_bytes_length _) (to_bytes_leaves s N)) as G. cbv zeta in G |- *.
  unfold FeIsNonZero, FeIsNonZero_code. change (CSeq FeToBytes_code (block _)) with (CSeq FeToBytes_code (nonzero_code 32)). destruct (FeToBytes (as_fe (cells s) (ptrs s "h"))) as [b f]. exact G.
Qed.
Lemma equal_code_ok s : vars (fst (crun equal_code s)) "result" 0%nat = equal (vars s "b" 0%nat) (vars s "c" 0%nat) /\ cells (fst (crun equal_code s)) = cells s.
Proof. split; reflexivity. Qed.
Lemma negative_code_ok s : vars (fst (crun negative_code s)) "result" 0%nat = negative (vars s "b" 0%nat) /\ cells (fst (crun negative_code s)) = cells s.
Proof. split; reflexivity. Qed.
Lemma bAbs_code_ok s :
  let b := vars s "b" 0%nat in
  vars (fst (crun bAbs_code s)) "bAbs" 0%nat = (b - (((0 - negative b) && b) << 1))%i32 /\
  vars (fst (crun bAbs_code s)) "bNegative" 0%nat = negative b /\ cells (fst (crun bAbs_code s)) = cells s.
Proof. repeat split; reflexivity. Qed.

Definition reads (m : arrays) (l : loc) (i : Z) (n : nat) : list Z := map (fun k => m l (i + Z.of_nat k)) (seq 0 n).
Lemma reads_S m l i n : reads m l i (S n) = m l i :: reads m l (i + 1) n.
Proof.
  unfold reads. cbn [seq map]. rewrite Z.add_0_r. f_equal. rewrite <- seq_shift, map_map. apply map_ext. intro k. f_equal. lia.
Qed.
Lemma reads_ext m m' l i n : (forall j, i <= j -> m' l j = m l j) -> reads m' l i n = reads m l i n.
Proof. intro E. apply map_ext. intro k. apply E. lia. Qed.
Definition digit_round : code := block [
    CPut "e" (EVar "i" 0) (EBin W8 OAdd (EElem "e" (EVar "i" 0)) (EVar "carry" 0));
    CSet "carry" 0 (EBin W8 OShr (EBin W8 OAdd (EElem "e" (EVar "i" 0)) (ELit 8)) (ELit 4));
    CPut "e" (EVar "i" 0) (EBin W8 OSub (EElem "e" (EVar "i" 0)) (EBin W8 OShl (EVar "carry" 0) (ELit 4)))].
Lemma digit_round_ok i s :
  let s' := fst (crun digit_round (set_var "i" 0 i s)) in
  let x := i8 (cells s (ptrs s "e") i + vars s "carry" 0%nat) in
  let c := Z.shiftr (i8 (x + 8)) 4 in
  vars s' "carry" 0%nat = c /\ cells s' (ptrs s "e") i = i8 (x - i8 (Z.shiftl c 4)) /\ forall j, j <> i -> cells s' (ptrs s "e") j = cells s (ptrs s "e") j.
Proof.
  cbv zeta. unfold digit_round. cbn [block]. rewrite !seq_state, !put_state, !set_state.
  cbn [set_var set_cell vars cells ptrs cval calc wrap Nat.eqb String.eqb Ascii.eqb Bool.eqb andb].
  rewrite ?Z.eqb_refl, ?eqb_self. cbn [andb]. repeat split. intros j N.
  apply Z.eqb_neq in N. now rewrite N.
Qed.
Lemma digits n : forall i s L, reads (cells s) (ptrs s "e") i (S n) = L ->
  let s' := fst (rounds "i" 0 (crun digit_round) i n s) in
  reads (cells s') (ptrs s "e") i n ++ [i8 (cells s' (ptrs s "e") (i + Z.of_nat n) + vars s' "carry" 0%nat)] = recode n (vars s "carry" 0%nat) L /\
  forall j, j < i -> cells s' (ptrs s "e") j = cells s (ptrs s "e") j.
Proof.
  induction n as [|n IH]; intros i s L E; cbn [rounds].
  - cbn [fst]. rewrite reads_S in E. subst L. cbn [recode]. rewrite Z.add_0_r. now split.
  - pose proof (digit_round_ok i s) as (E1 & E2 & E3). pose proof (crun_ptrs digit_round (set_var "i" 0 i s)) as Ep.
    destruct (crun digit_round (set_var "i" 0 i s)) as [s1 t1]. cbn [fst] in E1, E2, E3, Ep. cbn [set_var ptrs] in Ep.
    rewrite reads_S in E. subst L.
    specialize (IH (i + 1) s1 (reads (cells s) (ptrs s "e") (i + 1) (S n))). rewrite Ep in IH.
    specialize (IH (reads_ext _ _ _ _ _ (fun j (H : i + 1 <= j) => E3 j ltac:(lia)))). cbv zeta in IH.
    destruct (rounds "i" 0 (crun digit_round) (i + 1) n s1) as [s2 t2]. cbn [fst] in IH |- *. destruct IH as [I1 I2]. split.
    + rewrite reads_S. cbn [app recode]. rewrite I2, E2 by lia. f_equal. rewrite <- E1, <- I1. now replace (i + Z.of_nat (S n)) with (i + 1 + Z.of_nat n) by lia.
    + intros j J. rewrite I2 by lia. apply E3. lia.
Qed.
Definition nibble_round : code := block [
    CPut "e" (EBin WInt OMul (ELit 2) (EVar "i" 0)) (EConv W8 (EBin U8 OAnd (EElem "a" (EVar "i" 0)) (ELit 15)));
    CPut "e" (EBin WInt OAdd (EBin WInt OMul (ELit 2) (EVar "i" 0)) (ELit 1)) (EConv W8 (EBin U8 OAnd (EBin U8 OShr (EElem "a" (EVar "i" 0)) (ELit 4)) (ELit 15)))].
Lemma nibble_round_ok i s : 0 <= i < 1000 -> ptrs s "e" <> ptrs s "a" ->
  let s' := fst (crun nibble_round (set_var "i" 0 i s)) in let v := cells s (ptrs s "a") i in
  cells s' (ptrs s "e") (2 * i) = i8 (Z.land v 15) /\ cells s' (ptrs s "e") (2 * i + 1) = i8 (Z.land (Z.shiftr v 4) 15) /\
  (forall j, j < 2 * i -> cells s' (ptrs s "e") j = cells s (ptrs s "e") j) /\ forall j, cells s' (ptrs s "a") j = cells s (ptrs s "a") j.
Proof.
  intros R N. cbv zeta. unfold nibble_round. cbn [block]. rewrite !seq_state, !put_state.
  cbn [set_var set_cell vars cells ptrs cval calc wrap Nat.eqb String.eqb Ascii.eqb Bool.eqb andb].
  rewrite !(i64_small (2 * i)) by lia. rewrite !(i64_small (2 * i + 1)) by lia.
  rewrite ?eqb_self, ?(neqb _ _ (not_eq_sym N)), ?Bool.andb_false_r, ?Bool.andb_true_r, ?Z.eqb_refl.
  replace (2 * i =? 2 * i + 1) with false by (symmetry; apply Z.eqb_neq; lia).
  repeat split; intros j; [intro J|].
  - replace (j =? 2 * i + 1) with false by (symmetry; apply Z.eqb_neq; lia).
    now replace (j =? 2 * i) with false by (symmetry; apply Z.eqb_neq; lia).
  - rewrite ?(neqb _ _ (not_eq_sym N)), ?Bool.andb_false_r. reflexivity.
Qed.
Lemma nibble_rounds n : forall i s b, 0 <= i -> i + Z.of_nat n < 1000 -> ptrs s "e" <> ptrs s "a" ->
  reads (cells s) (ptrs s "a") i n = map b2z b ->
  let s' := fst (rounds "i" 0 (crun nibble_round) i n s) in
  reads (cells s') (ptrs s "e") (2 * i) (2 * n) = nibbles b /\ forall j, j < 2 * i -> cells s' (ptrs s "e") j = cells s (ptrs s "e") j.
Proof.
  induction n as [|n IH]; intros i s b R1 R2 N E; cbn [rounds].
  - destruct b; [now split|discriminate].
  - rewrite reads_S in E. destruct b as [|v b]; [discriminate|]. cbn [map] in E. injection E as Ev E.
    pose proof (nibble_round_ok i s ltac:(lia) N) as (E1 & E2 & E3 & E4). pose proof (crun_ptrs nibble_round (set_var "i" 0 i s)) as Ep.
    destruct (crun nibble_round (set_var "i" 0 i s)) as [s1 t1]. cbn [fst] in E1, E2, E3, E4, Ep. cbn [set_var ptrs] in Ep.
    specialize (IH (i + 1) s1 b ltac:(lia) ltac:(lia)). rewrite Ep in IH. specialize (IH N).
    rewrite (reads_ext (cells s) (cells s1)) in IH by (intros j _; apply E4). specialize (IH E). cbv zeta in IH.
    destruct (rounds "i" 0 (crun nibble_round) (i + 1) n s1) as [s2 t2]. cbn [fst] in IH |- *. destruct IH as [I1 I2]. split.
    + replace (2 * S n)%nat with (S (S (2 * n))) by lia. rewrite !reads_S, !I2, E1, E2, Ev by lia.
      replace (2 * i + 1 + 1) with (2 * (i + 1)) by lia. rewrite I1. reflexivity.
    + intros j J. rewrite I2 by lia. now apply E3.
Qed.
Definition recode_n (n k : nat) (z : Z) : code :=
  block [CFor "i" 0 n nibble_round; CSet "carry" 0 (ELit 0); CFor "i" 0 k digit_round;
         CPut "e" (ELit z) (EBin W8 OAdd (EElem "e" (ELit z)) (EVar "carry" 0))].
Lemma recode_n_ok n k z s b : length b = n -> (2 * n = S k)%nat -> Z.of_nat n < 1000 -> z = Z.of_nat k ->
  ptrs s "e" <> ptrs s "a" -> has_bytes (cells s) (ptrs s "a") b ->
  contains (cells (fst (crun (recode_n n k z) s))) (ptrs s "e") (recode k 0 (nibbles b)).
Proof.
  intros L En R -> N H. unfold recode_n. cbn [block]. rewrite !seq_state, !crun_for.
  unfold has_bytes, contains in H. rewrite map_length, L in H.
  pose proof (nibble_rounds n 0 s b ltac:(lia) ltac:(lia) N H) as [G _].
  assert (Ep : ptrs (fst (rounds "i" 0 (crun nibble_round) 0 n s)) = ptrs s) by (apply rounds_ptrs, crun_ptrs).
  set (s1 := fst (rounds "i" 0 (crun nibble_round) 0 n s)) in *. clearbody s1. rewrite set_state. cbn [cval].
  set (s2 := set_var "carry" 0 0 s1). rewrite En in G.
  assert (G2 : reads (cells s2) (ptrs s2 "e") 0 (S k) = nibbles b) by (cbn [s2 set_var cells ptrs]; rewrite Ep; exact G).
  pose proof (digits k 0 s2 _ G2) as [D _].
  assert (Ep2 : ptrs (fst (rounds "i" 0 (crun digit_round) 0 k s2)) = ptrs s2) by (apply rounds_ptrs, crun_ptrs).
  change (vars s2 "carry" 0%nat) with 0 in D. change (ptrs s2) with (ptrs s1) in D, Ep2. rewrite Ep in D, Ep2.
  set (s3 := fst (rounds "i" 0 (crun digit_round) 0 k s2)) in *. clearbody s3. rewrite put_state. cbn [cval calc wrap]. rewrite Ep2.
  rewrite <- D. unfold contains. rewrite app_length. unfold reads at 1. rewrite map_length, seq_length. change (length [_]) with 1%nat.
  rewrite seq_app, map_app. cbn [set_cell cells]. apply (f_equal2 (@app Z)).
  - apply map_ext_in. intros j J. apply in_seq in J.
    replace (Z.of_nat j =? Z.of_nat k) with false by (symmetry; apply Z.eqb_neq; lia). reflexivity.
  - cbn [seq map]. change (0 + k)%nat with k. now rewrite eqb_self, Z.eqb_refl.
Qed.
Lemma recode_code_ok s b : length b = 32%nat -> ptrs s "e" <> ptrs s "a" -> has_bytes (cells s) (ptrs s "a") b ->
  contains (cells (fst (crun recode_code s))) (ptrs s "e") (recode 63 0 (nibbles b)) /\ only_at [ptrs s "e"] (cells s) (cells (fst (crun recode_code s))).
Proof.
  intros L N H. split; [|apply kept; inc]. change recode_code with (recode_n 32 63 63).
  now apply recode_n_ok.
Qed.
