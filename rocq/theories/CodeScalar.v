From Verif Require Import ScalarRedFacts PointerFacts CodeFacts CodeBytes CodeLeaf.
From Verif Require Export SpecCode.
Local Open Scope string_scope.
Local Open Scope list_scope.
Local Open Scope Z_scope.

(* ---- a program as a list of statements ---- *)
Fixpoint statements (c : code) : list code :=
  match c with CSeq c d => statements c ++ statements d | c => [c] end.
Definition runs (l : list code) (s : state) : state := fold_left (fun s c => fst (crun c s)) l s.
Lemma runs_app l k s : runs (l ++ k) s = runs k (runs l s).
Proof. apply fold_left_app. Qed.
Lemma run_statements c : forall s, fst (crun c s) = runs (statements c) s.
Proof.
  induction c as [|c IHc d IHd|x k e|a i e|e c IHc d IHd|x k n c IHc]; intro s; try reflexivity.
  cbn [statements]. now rewrite seq_state, runs_app, IHc, IHd.
Qed.

(* ---- the carries ---- *)
Definition var (k : nat) : expr := EVar "s" k.
Definition carried (k : nat) (e : expr) : list code :=
  [CSet "carry" k (EBin W64 OShr e (ELit 21)); CSet "s" (k + 1) (EBin W64 OAdd (var (k + 1)) (EVar "carry" k));
   CSet "s" k (EBin W64 OSub (var k) (EBin W64 OShl (EVar "carry" k) (ELit 21)))].
Definition folded (k j : nat) (o : arith) (z : Z) : code := CSet "s" (k - j) (EBin W64 o (var (k - j)) (EBin W64 OMul (var k) (ELit z))).
Definition sop_code (o : sop) : list code :=
  match o with
  | Carry k => carried k (EBin W64 OAdd (var k) (EBin W64 OShl (ELit 1) (ELit 20)))
  | Floor k => carried k (var k)
  | Fold k => [folded k 12 OAdd 666643; folded k 11 OAdd 470296; folded k 10 OAdd 654183;
               folded k 9 OSub 997805; folded k 8 OAdd 136657; folded k 7 OSub 683901; CSet "s" k (ELit 0)]
  end.
Definition in_range (o : sop) : bool := match o with Carry k | Floor k => (k <? 23)%nat | Fold k => (12 <=? k)%nat && (k <? 24)%nat end.
Definition holds (s : state) (L : list Z) : Prop := length L = 24%nat /\ forall k, (k < 24)%nat -> vars s "s" k = at_ L k.
Lemma holds_at s L k : holds s L -> (k < 24)%nat -> vars s "s" k = at_ L k.
Proof. intros H. apply H. Qed.
Lemma put_len (L : list Z) i z : (i < length L)%nat -> length (ScalarMult.put L i z) = length L.
Proof. intro H. unfold ScalarMult.put. rewrite app_length, firstn_length. cbn [length]. rewrite skipn_length. lia. Qed.
Lemma holds_set s L i z : holds s L -> (i < 24)%nat -> holds (set_var "s" i z s) (ScalarMult.put L i z).
Proof.
  intros [Len H] I. split; [rewrite put_len; lia|]. intros k K. cbn [set_var vars]. rewrite String.eqb_refl, Bool.andb_true_r.
  destruct (Nat.eqb_spec k i) as [-> |N]; [now rewrite at_put_same by lia|]. rewrite at_put_other by lia. now apply H.
Qed.
Lemma holds_carry s L k z : holds s L -> holds (set_var "carry" k z s) L.
Proof. intros [Len H]. split; [exact Len|]. intros j J. cbn [set_var vars]. replace (String.eqb "s" "carry") with false by reflexivity. rewrite Bool.andb_false_r. now apply H. Qed.
Lemma carried_ok s L k e c : holds s L -> (k < 23)%nat -> Z.shiftr (cval e s) 21 = c ->
  let s' := runs (carried k e) s in holds s' (carry_with c k L) /\ cells s' = cells s /\ ptrs s' = ptrs s.
Proof.
  intros H K E. cbv zeta. unfold runs, carried. cbn [fold_left]. rewrite !set_state.
  split; [|split; reflexivity]. unfold carry_with. cbn [cval calc]. rewrite E.
  set (s1 := set_var "carry" k c s). pose proof (holds_carry s L k c H : holds s1 L) as H1.
  assert (C1 : vars s1 "carry" k = c) by (cbn [s1 set_var vars]; now rewrite Nat.eqb_refl).
  rewrite C1. cbn [var cval]. rewrite (holds_at s1 L (k + 1) H1) by lia. cbn [wrap].
  set (v := i64 (at_ L (k + 1) + c)). set (s2 := set_var "s" (k + 1) v s1).
  pose proof (holds_set s1 L (k + 1) v H1 ltac:(lia) : holds s2 _) as H2.
  assert (C2 : vars s2 "carry" k = c) by (cbn [s2 set_var vars]; replace (String.eqb "carry" "s") with false by reflexivity; rewrite Bool.andb_false_r; exact C1).
  rewrite C2, (holds_at s2 _ k H2) by lia. apply (holds_set s2 _ k _ H2). lia.
Qed.
Definition fstep (x : Z) (k j : nat) (o : arith) (z : Z) (L : list Z) : list Z := ScalarMult.put L (k - j) (calc W64 o (at_ L (k - j)) (i64 (x * z))).
Lemma fstep_add x k j z L : ScalarMult.put L (k - j) (at_ L (k - j) + (x * z))%i64 = fstep x k j OAdd z L.
Proof. reflexivity. Qed.
Lemma fstep_sub x k j z L : ScalarMult.put L (k - j) (at_ L (k - j) - (x * z))%i64 = fstep x k j OSub z L.
Proof. reflexivity. Qed.
Lemma exec_fold L k : ScalarRed.exec L (Fold k) =
  ScalarMult.put (fstep (at_ L k) k 7 OSub 683901 (fstep (at_ L k) k 8 OAdd 136657 (fstep (at_ L k) k 9 OSub 997805
    (fstep (at_ L k) k 10 OAdd 654183 (fstep (at_ L k) k 11 OAdd 470296 (fstep (at_ L k) k 12 OAdd 666643 L)))))) k 0.
Proof.
  unfold ScalarRed.exec. cbv zeta.
  rewrite (fstep_add (at_ L k) k 12), (fstep_add (at_ L k) k 11), (fstep_add (at_ L k) k 10), (fstep_sub (at_ L k) k 9), (fstep_add (at_ L k) k 8), (fstep_sub (at_ L k) k 7).
  reflexivity.
Qed.
Lemma folded_ok s L k j o z x : holds s L -> (12 <= k < 24)%nat -> (7 <= j <= 12)%nat -> at_ L k = x ->
  let s' := runs [folded k j o z] s in
  let L' := fstep x k j o z L in
  holds s' L' /\ at_ L' k = x /\ cells s' = cells s /\ ptrs s' = ptrs s.
Proof.
  intros H K J E. cbv zeta. unfold runs, folded, fstep. cbn [fold_left]. rewrite set_state. cbn [var cval calc wrap].
  rewrite !(holds_at s L) by (assumption || lia). rewrite E.
  split; [apply holds_set; [exact H|lia]|]. split; [|split; reflexivity]. destruct H as [Len _]. rewrite at_put_other by lia. exact E.
Qed.
Lemma sop_ok o s L : in_range o = true -> holds s L ->
  let s' := runs (sop_code o) s in holds s' (ScalarRed.exec L o) /\ cells s' = cells s /\ ptrs s' = ptrs s.
Proof.
  intros R H. cbv zeta. destruct o as [k|k|k]; cbn [in_range] in R.
  - cbn [sop_code ScalarRed.exec]. apply Nat.ltb_lt in R. apply carried_ok; [exact H|exact R|]. cbn [cval calc var]. rewrite (holds_at s L k H) by lia. reflexivity.
  - cbn [sop_code ScalarRed.exec]. apply Nat.ltb_lt in R. apply carried_ok; [exact H|exact R|]. cbn [cval calc var]. rewrite (holds_at s L k H) by lia. reflexivity.
  - apply andb_prop in R. destruct R as [R1 R2]. apply Nat.leb_le in R1. apply Nat.ltb_lt in R2.
    assert (K : (12 <= k < 24)%nat) by lia. clear R1 R2.
    rewrite exec_fold. cbn [sop_code]. set (x := at_ L k). change (?a :: ?b :: ?c :: ?d :: ?e :: ?f :: ?g :: []) with ([a] ++ [b] ++ [c] ++ [d] ++ [e] ++ [f] ++ [g]).
    rewrite !runs_app.
    destruct (folded_ok s L k 12 OAdd 666643 x H K ltac:(lia) eq_refl) as (H1 & X1 & C1 & P1).
    set (s1 := runs [folded k 12 OAdd 666643] s) in *. clearbody s1.
    destruct (folded_ok s1 _ k 11 OAdd 470296 x H1 K ltac:(lia) X1) as (H2 & X2 & C2 & P2).
    set (s2 := runs [folded k 11 OAdd 470296] s1) in *. clearbody s2.
    destruct (folded_ok s2 _ k 10 OAdd 654183 x H2 K ltac:(lia) X2) as (H3 & X3 & C3 & P3).
    set (s3 := runs [folded k 10 OAdd 654183] s2) in *. clearbody s3.
    destruct (folded_ok s3 _ k 9 OSub 997805 x H3 K ltac:(lia) X3) as (H4 & X4 & C4 & P4).
    set (s4 := runs [folded k 9 OSub 997805] s3) in *. clearbody s4.
    destruct (folded_ok s4 _ k 8 OAdd 136657 x H4 K ltac:(lia) X4) as (H5 & X5 & C5 & P5).
    set (s5 := runs [folded k 8 OAdd 136657] s4) in *. clearbody s5.
    destruct (folded_ok s5 _ k 7 OSub 683901 x H5 K ltac:(lia) X5) as (H6 & X6 & C6 & P6).
    set (s6 := runs [folded k 7 OSub 683901] s5) in *. clearbody s6.
    split; [|split].
    + unfold runs. cbn [fold_left]. rewrite set_state. cbn [cval]. apply (holds_set s6 _ k 0 H6). lia.
    + change (cells s6 = cells s). congruence.
    + change (ptrs s6 = ptrs s). congruence.
Qed.
Lemma sops_ok ops : forall s L, forallb in_range ops = true -> holds s L ->
  let s' := runs (flat_map sop_code ops) s in holds s' (run_ops ops L) /\ cells s' = cells s /\ ptrs s' = ptrs s.
Proof.
  induction ops as [|o ops IH]; intros s L R H; [split; [exact H|split; reflexivity]|].
  cbn [forallb] in R. apply andb_prop in R. destruct R as [R1 R2]. cbv zeta. cbn [flat_map]. rewrite runs_app.
  destruct (sop_ok o s L R1 H) as (H1 & C1 & P1). set (s1 := runs (sop_code o) s) in *. clearbody s1.
  destruct (IH s1 _ R2 H1) as (H2 & C2 & P2). repeat split; [apply H2|apply H2|congruence|congruence].
Qed.

(* ---- the stores ---- *)
Definition renamed (d : string) (c : code) : code := match c with CPut _ i e => CPut d i e | c => c end.
Definition stores (d : string) : list code := map (renamed d) (skipn (24 + length (flat_map sop_code reduce_ops)) (statements ScReduce_code)).
Lemma runs_ptrs l : forall s, ptrs (runs l s) = ptrs s.
Proof. induction l as [|c l IH]; intro s; [reflexivity|]. change (runs (c :: l) s) with (runs l (fst (crun c s))). now rewrite IH, crun_ptrs. Qed.
Definition first12 (v : string -> nat -> Z) : list Z := map (v "s") (seq 0 12).
Lemma stores_run d v p m :
  map (fun i => cells (runs (stores d) (State v p m)) (p d) (Z.of_nat i)) (seq 0 32) = map b2z (store_limbs (first12 v)).
Proof.
  cbv -[loc_eqb i64 Z.shiftl Z.shiftr Z.lor Z.modulo b2z z2b].
  generalize (eqb_self (p d)). set (a := p d). clearbody a. intro E. repeat rewrite E. repeat (apply cons_same; [symmetry; apply b2z_z2b|]). reflexivity.
Qed.
Lemma store_first12 s L : holds s L -> store_limbs (first12 (vars s)) = store_limbs L.
Proof.
  intros H. unfold store_limbs. unfold first12. cbn [seq map].
  rewrite !(holds_at s L) by (assumption || lia). reflexivity.
Qed.
Lemma stores_ok d s L : holds s L -> has_bytes (cells (runs (stores d) s)) (ptrs s d) (store_limbs L).
Proof.
  intro H. rewrite <- (store_first12 s L H). destruct s as [v p m]. exact (stores_run d v p m).
Qed.

(* ---- the loads ---- *)
Ltac loaded a s b :=
  repeat match goal with
  | |- context [load3 b ?o] => rewrite <- (load3_val a s b o (Z.of_nat o) (Z.of_nat (o + 1)) (Z.of_nat (o + 2))) by (assumption || lia || reflexivity)
  | |- context [load4 b ?o] => rewrite <- (load4_val a s b o (Z.of_nat o) (Z.of_nat (o + 1)) (Z.of_nat (o + 2)) (Z.of_nat (o + 3))) by (assumption || lia || reflexivity)
  end.
Definition loads24 : list code := firstn 24 (statements ScReduce_code).
Lemma loads24_ok s b : length b = 64%nat -> has_bytes (cells s) (ptrs s "s") b ->
  let s' := runs loads24 s in holds s' (limbs24 b) /\ cells s' = cells s /\ ptrs s' = ptrs s.
Proof.
  intros Len H. cbv zeta. split; [|split; reflexivity]. split; [reflexivity|]. intros k K.
  do 24 (destruct k as [|k]; [cbn [at_ nth limbs24]; unfold and64, shr64; loaded "s" s b; destruct s as [v p m]; go; reflexivity|]). lia.
Qed.
Definition loads36 : list code := firstn 36 (statements ScMulAdd_code).
Definition bound (s : state) (x : string) (L : list Z) : Prop := map (vars s x) (seq 0 12) = L.
Lemma loads36_ok s a b c : length a = 32%nat -> length b = 32%nat -> length c = 32%nat ->
  has_bytes (cells s) (ptrs s "a") a -> has_bytes (cells s) (ptrs s "b") b -> has_bytes (cells s) (ptrs s "c") c ->
  let s' := runs loads36 s in
  (bound s' "a" (limbs12 a) /\ bound s' "b" (limbs12 b) /\ bound s' "c" (limbs12 c)) /\ cells s' = cells s /\ ptrs s' = ptrs s.
Proof.
  intros La Lb Lc Ha Hb Hc. cbv zeta. split; [|split; reflexivity]. unfold bound, limbs12, and64, shr64.
  split; [loaded "a" s a|split; [loaded "b" s b|loaded "c" s c]]; destruct s as [v p m]; go; reflexivity.
Qed.
Definition sums : list code := firstn 24 (skipn 36 (statements ScMulAdd_code)).
Lemma i64_i64 z : i64 (i64 z) = i64 z.
Proof. unfold i64. rewrite Z.sub_add. now rewrite Z.mod_mod. Qed.
Lemma sums_run v p m : map (vars (runs sums (State v p m)) "s") (seq 0 24) =
  products (map (v "a") (seq 0 12)) (map (v "b") (seq 0 12)) (map (v "c") (seq 0 12)).
Proof. cbv -[i64 Z.add Z.mul]. rewrite ?Z.add_0_l, ?i64_i64. reflexivity. Qed.
Lemma sums_ok s a b c : bound s "a" a -> bound s "b" b -> bound s "c" c ->
  let s' := runs sums s in holds s' (products a b c) /\ cells s' = cells s /\ ptrs s' = ptrs s.
Proof.
  intros <- <- <-. cbv zeta. destruct s as [v p m]. split; [|split; reflexivity]. cbn [vars]. rewrite <- (sums_run v p m).
  split; [reflexivity|]. intros k K. unfold at_. rewrite (nth_indep _ _ (vars (runs sums (State v p m)) "s" 0%nat)) by now rewrite map_length, seq_length.
  rewrite (map_nth (vars (runs sums (State v p m)) "s")). now rewrite seq_nth.
Qed.

(* ---- the routines ---- *)
Lemma reduce_parts : statements ScReduce_code = loads24 ++ flat_map sop_code reduce_ops ++ stores "out".
Proof. vm_compute. reflexivity. Qed.
Lemma muladd_parts : statements ScMulAdd_code = loads36 ++ sums ++ flat_map sop_code muladd_ops ++ stores "s".
Proof. vm_compute. reflexivity. Qed.
Lemma reduce_code s b : length b = 64%nat -> has_bytes (cells s) (ptrs s "s") b ->
  let m := cells (fst (crun ScReduce_code s)) in has_bytes m (ptrs s "out") (ScReduce b) /\ only_at [ptrs s "out"] (cells s) m.
Proof.
  intros L H. split.
  - rewrite run_statements, reduce_parts, !runs_app. destruct (loads24_ok s b L H) as (H1 & C1 & P1).
    set (s1 := runs loads24 s) in *. clearbody s1.
    destruct (sops_ok reduce_ops s1 _ eq_refl H1) as (H2 & C2 & P2). set (s2 := runs (flat_map sop_code reduce_ops) s1) in *. clearbody s2.
    rewrite <- P1, <- P2. unfold ScReduce. apply stores_ok. exact H2.
  - apply kept. intros x I. apply in_map_iff in I. destruct I as (y & <- & I). left. f_equal.
    revert I. assert (E : forallb (String.eqb "out") (targets ScReduce_code) = true) by (vm_compute; reflexivity).
    rewrite forallb_forall in E. intro I. now apply String.eqb_eq, E.
Qed.
Lemma muladd_code s a b c : length a = 32%nat -> length b = 32%nat -> length c = 32%nat ->
  has_bytes (cells s) (ptrs s "a") a -> has_bytes (cells s) (ptrs s "b") b -> has_bytes (cells s) (ptrs s "c") c ->
  let m := cells (fst (crun ScMulAdd_code s)) in has_bytes m (ptrs s "s") (ScMulAdd a b c) /\ only_at [ptrs s "s"] (cells s) m.
Proof.
  intros La Lb Lc Ha Hb Hc. split.
  - rewrite run_statements, muladd_parts, !runs_app. destruct (loads36_ok s a b c La Lb Lc Ha Hb Hc) as ((B1 & B2 & B3) & C0 & P0).
    set (s0 := runs loads36 s) in *. clearbody s0. destruct (sums_ok s0 _ _ _ B1 B2 B3) as (H1 & C1 & P1).
    set (s1 := runs sums s0) in *. clearbody s1.
    destruct (sops_ok muladd_ops s1 _ eq_refl H1) as (H2 & C2 & P2). set (s2 := runs (flat_map sop_code muladd_ops) s1) in *. clearbody s2.
    rewrite <- P0, <- P1, <- P2. unfold ScMulAdd. apply stores_ok. exact H2.
  - apply kept. intros x I. apply in_map_iff in I. destruct I as (y & <- & I). left. f_equal.
    revert I. assert (E : forallb (String.eqb "s") (targets ScMulAdd_code) = true) by (vm_compute; reflexivity).
    rewrite forallb_forall in E. intro I. now apply String.eqb_eq, E.
Qed.

(* ---- ScMinimal ---- *)
Lemma shifted64 b k n : 0 <= n <= 56 -> Z.shiftl (byte_at b k) n mod 18446744073709551616 = Z.shiftl (byte_at b k) n.
Proof.
  intro R. pose proof (b2z_range (nth k b x00)) as B. fold (byte_at b k) in B. apply Z.mod_small. rewrite Z.shiftl_mul_pow2 by lia.
  assert (0 < 2^n <= 2^56) by (split; [apply Z.pow_pos_nonneg; lia|apply Z.pow_le_mono_r; lia]). nia.
Qed.
Lemma load8_val a s b (o : nat) : has_bytes (cells s) (ptrs s a) b -> (o + 7 < length b)%nat -> cval (load8_of a (Z.of_nat o)) s = uint64_at b o.
Proof.
  intros H L. unfold load8_of. cbn [fold_left cval calc wrap Z.mul Pos.mul Pos.add].
  change (Z.of_nat o + 1) with (Z.of_nat o + Z.of_nat 1). change (Z.of_nat o + 2) with (Z.of_nat o + Z.of_nat 2).
  change (Z.of_nat o + 3) with (Z.of_nat o + Z.of_nat 3). change (Z.of_nat o + 4) with (Z.of_nat o + Z.of_nat 4).
  change (Z.of_nat o + 5) with (Z.of_nat o + Z.of_nat 5). change (Z.of_nat o + 6) with (Z.of_nat o + Z.of_nat 6).
  change (Z.of_nat o + 7) with (Z.of_nat o + Z.of_nat 7). rewrite <- !Nat2Z.inj_add.
  rewrite !(bytes_get _ _ b) by (assumption || lia). rewrite !shifted64 by lia.
  unfold uint64_at, load4, load3. rewrite !Z.shiftl_lor, !Z.shiftl_shiftl by lia. rewrite !Z.lor_assoc. rewrite <- !Nat.add_assoc. reflexivity.
Qed.
Lemma if_state e c d s : fst (crun (CIf e c d) s) = fst (crun (if cval e s =? 0 then d else c) s).
Proof. cbn [crun]. destruct (cval e s =? 0); cbn [negb]; now destruct (crun _ s). Qed.
Lemma less_zero (a b : Z) : ((if a <? b then 1 else 0) =? 0) = negb (a <? b).
Proof. now destruct (a <? b). Qed.
Lemma order_at m l i : contains m l order -> (i < 4)%nat -> m l (Z.of_nat i) = at_ order i.
Proof.
  unfold contains. change (length order) with 4%nat. cbn [seq map order]. intros E I. injection E as E0 E1 E2 E3.
  do 4 (destruct i as [|i]; [assumption|]). lia.
Qed.
Lemma minimal_ok b : length b = 32%nat -> forall n s, (0 < n <= 4)%nat ->
  has_bytes (cells s) (ptrs s "scalar") b -> contains (cells s) (ptrs s "order") order ->
  vars (fst (crun (minimal_code n) s)) "result" 0%nat = (if sc_minimal n b then 1 else 0).
Proof.
  intro L. induction n as [|i IH]; intros s R Hb Ho; [lia|]. cbn [minimal_code sc_minimal]. rewrite seq_state, set_state.
  replace (8 * Z.of_nat i) with (Z.of_nat (i * 8)) by lia. rewrite (load8_val _ _ b) by (assumption || lia).
  set (v := uint64_at b (i * 8)). set (s1 := set_var "v" 0 v s).
  assert (V : vars s1 "v" 0%nat = v) by reflexivity.
  rewrite if_state. cbn [cval calc]. rewrite V. change (cells s1) with (cells s). change (ptrs s1) with (ptrs s).
  rewrite (order_at _ _ i Ho) by lia. rewrite less_zero. destruct (at_ order i <? v); [reflexivity|]. cbn [negb].
  rewrite if_state. cbn [cval calc]. rewrite V. change (cells s1) with (cells s). change (ptrs s1) with (ptrs s).
  rewrite (order_at _ _ i Ho) by lia. rewrite less_zero. destruct (v <? at_ order i); [reflexivity|]. cbn [negb].
  destruct i as [|i]; [reflexivity|]. apply (IH s1); [lia|exact Hb|exact Ho].
Qed.
Lemma minimal_code_ok s b : length b = 32%nat -> has_bytes (cells s) (ptrs s "scalar") b -> contains (cells s) (ptrs s "order") order ->
  vars (fst (crun ScMinimal_code s)) "result" 0%nat = (if ScMinimal b then 1 else 0).
Proof. intros L Hb Ho. unfold ScMinimal_code, ScMinimal. apply minimal_ok; [exact L|lia|exact Hb|exact Ho]. Qed.

(* ---- what the routines show ---- *)
Lemma oblivious_fe : Forall oblivious [FeZero_code; FeOne_code; FeCopy_code; FeAdd_code; FeSub_code; FeNeg_code; FeCMove_code; FeMul_code;
  FeSquare_code; FeSquare2_code; FeFromBytes_code; FeToBytes_code; FeIsNegative_code; FeIsNonZero_code].
Proof. repeat (constructor; [obl|]). constructor. Qed.
Lemma oblivious_scalar : Forall oblivious [equal_code; negative_code; bAbs_code; recode_code; ScMulAdd_code; ScReduce_code].
Proof. repeat (constructor; [obl|]). constructor. Qed.
(* a store with this much at one place, zeros elsewhere *)
Definition filled (l : loc) (z : list Z) : arrays := fun m i => if loc_eqb m l then nth (Z.to_nat i) z 0 else 0.
Definition under (x : string) (l : loc) (m : arrays) : state := State (fun _ _ => 0) (fun y => if String.eqb y x then l else (9, 0%nat)) m.
Lemma minimal_shows : ~ oblivious ScMinimal_code.
Proof.
  intro O. specialize (O (under "scalar" (1, 0%nat) (filled (1, 0%nat) [])) (under "scalar" (1, 0%nat) (filled (1, 0%nat) (repeat 255 32))) eq_refl).
  vm_compute in O. discriminate.
Qed.
