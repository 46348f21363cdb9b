(* The precomputed tables hold the multiples of the base point they should hold,
   and the base point has order l.  The checks are computations modulo 2^255-19
   on affine coordinates (TableCert.v). *)
From Verif Require Export Table ZMul PointBytes GroupFacts SpecScalar.
From Verif Require Import TableCert.
Local Open Scope Z_scope.

(* ---- arithmetic modulo p by folding ---- *)
Definition m255 : Z := 57896044618658097711785492504343953926634992332820282019728792003956564819967.
Definition fold255 (n : Z) : Z := Z.land n m255 + 19 * Z.shiftr n 255.
Definition red (n : Z) : Z := fold255 (fold255 n).
Definition isz (n : Z) : bool :=
  let r := fold255 (red n) in
  (r =? 0) || (r =? 57896044618658097711785492504343953926634992332820282019728792003956564819949).
Lemma fold255_F n : toF (fold255 n) = toF n.
Proof.
  apply toF_eq. unfold fold255. change m255 with (Z.ones 255). rewrite Z.land_ones, Z.shiftr_div_pow2 by lia.
  unfold eqp. pose proof (Z.div_mod n (2 ^ 255) ltac:(lia)) as D.
  replace (n mod 2 ^ 255 + 19 * (n / 2 ^ 255)) with (n + (- (n / 2 ^ 255)) * p25519) by (unfold p25519; lia).
  apply Z.mod_add. discriminate.
Qed.
Lemma red_F n : toF (red n) = toF n.
Proof. unfold red. rewrite !fold255_F. reflexivity. Qed.
Lemma isz_F n : isz n = true -> toF n = F0.
Proof.
  unfold isz. cbv zeta. intro H. rewrite <- red_F, <- fold255_F. apply orb_true_iff in H. destruct H as [H|H]; apply Z.eqb_eq in H; rewrite H; [reflexivity|].
  apply F_eq. vm_compute. reflexivity.
Qed.
Lemma isz_eq a b : isz (a - b) = true -> toF a = toF b.
Proof. intro H. apply F_sub_0. rewrite <- toF_sub. apply isz_F. exact H. Qed.

Definition d2c : Z := 16295367250680780974490674513165176452449235426866156013048779062215315747161.
Lemma d2c_F : toF d2c = (toF 2 * curve_d)%F.
Proof. rewrite <- fe_d2_F. F_eq_compute. Qed.

Definition toP (q : Z * Z) : point := (toF (fst q), toF (snd q)).

(* sum with a point whose 2dxy is u0; s = xy *)
Definition add_check (x0 y0 u0 x y s x' y' : Z) : bool :=
  let t := red (u0 * s) in
  let a := (y0 - x0) * (y - x) in
  let b := (y0 + x0) * (y + x) in
  isz (x' * (2 + t) - (b - a)) && isz (y' * (2 - t) - (b + a)).
Definition dbl_check (x y x' y' : Z) : bool :=
  let xx := x * x in
  let yy := y * y in
  let v := red (yy - xx) in
  isz (x' * v - 2 * x * y) && isz (y' * (2 - v) - (yy + xx)).
Lemma add_check_ok x0 y0 u0 x y s x' y' : add_check x0 y0 u0 x y s x' y' = true ->
  toF u0 = (toF 2 * curve_d * toF x0 * toF y0)%F -> toF s = (toF x * toF y)%F ->
  on (toP (x0, y0)) -> on (toP (x, y)) -> padd (toP (x0, y0)) (toP (x, y)) = toP (x', y').
Proof.
  intros H Hu Hs O0 O1. unfold add_check in H. cbv zeta in H. apply andb_true_iff in H. destruct H as [HX HY].
  apply isz_eq in HX, HY.
  repeat rewrite ?toF_sub, ?toF_mul, ?toF_add, ?red_F in HX; repeat rewrite ?toF_sub, ?toF_mul, ?toF_add, ?red_F in HY. rewrite Hu, Hs in HX, HY.
  unfold on, toP in *. cbn [fst snd] in *.
  pose proof (den_plus _ _ _ _ O0 O1) as DP. pose proof (den_minus _ _ _ _ O0 O1) as DM.
  pose proof (sum_x _ _ _ _ O0 O1) as SX. pose proof (sum_y _ _ _ _ O0 O1) as SY.
  rewrite (surjective_pairing (padd _ _)). f_equal.
  - apply (F_mul_cancel _ _ (toF 2 * (F1 + curve_d * toF x0 * toF x * toF y0 * toF y))%F); [apply F_mul_nz; [exact F2_nz|exact DP]|].
    transitivity (toF 2 * (toF x0 * toF y + toF x * toF y0))%F; [rewrite <- SX; ring|]. symmetry.
    etransitivity; [|etransitivity; [exact HX|]]; ring.
  - apply (F_mul_cancel _ _ (toF 2 * (F1 - curve_d * toF x0 * toF x * toF y0 * toF y))%F); [apply F_mul_nz; [exact F2_nz|exact DM]|].
    transitivity (toF 2 * (toF y0 * toF y + toF x0 * toF x))%F; [rewrite <- SY; ring|]. symmetry.
    etransitivity; [|etransitivity; [exact HY|]]; ring.
Qed.
Lemma dbl_check_ok x y x' y' : dbl_check x y x' y' = true -> on (toP (x, y)) -> padd (toP (x, y)) (toP (x, y)) = toP (x', y').
Proof.
  intros H O. unfold dbl_check in H. cbv zeta in H. apply andb_true_iff in H. destruct H as [HX HY].
  apply isz_eq in HX, HY.
  repeat rewrite ?toF_sub, ?toF_mul, ?toF_add, ?red_F in HX; repeat rewrite ?toF_sub, ?toF_mul, ?toF_add, ?red_F in HY.
  unfold on, toP in *. cbn [fst snd] in *.
  pose proof (den_plus _ _ _ _ O O) as DP. pose proof (den_minus _ _ _ _ O O) as DM.
  pose proof (sum_x _ _ _ _ O O) as SX. pose proof (sum_y _ _ _ _ O O) as SY. unfold on_curve in O.
  rewrite (surjective_pairing (padd _ _)). f_equal.
  - apply (F_mul_cancel _ _ _ DP). rewrite SX. symmetry.
    replace (F1 + curve_d * toF x * toF x * toF y * toF y)%F with (toF y * toF y - toF x * toF x)%F by (rewrite O; ring).
    etransitivity; [exact HX|ring].
  - apply (F_mul_cancel _ _ _ DM). rewrite SY. symmetry.
    replace (F1 - curve_d * toF x * toF x * toF y * toF y)%F with (toF 2 - (toF y * toF y - toF x * toF x))%F by (rewrite O; ring).
    exact HY.
Qed.

(* ---- table entries ---- *)
Definition in_tight (f : fe) : bool :=
  let '(Fe f0 f1 f2 f3 f4 f5 f6 f7 f8 f9) := f in
  (Z.abs f0 <=? 33890959) && (Z.abs f1 <=? 16945479) && (Z.abs f2 <=? 33890959) && (Z.abs f3 <=? 16945479) && (Z.abs f4 <=? 33890959) &&
  (Z.abs f5 <=? 16945479) && (Z.abs f6 <=? 33890959) && (Z.abs f7 <=? 16945479) && (Z.abs f8 <=? 33890959) && (Z.abs f9 <=? 16945479).
Lemma in_tight_ok f : in_tight f = true -> tight101 f.
Proof. destruct f. cbn [in_tight]. rewrite !andb_true_iff, !Z.leb_le. unfold tight101. cbn [limbs]. tauto. Qed.
Definition pre_tight (p : PreComputedGE) (P : point) : Prop :=
  tight101 (yPlusX p) /\ tight101 (yMinusX p) /\ tight101 (xy2d p) /\
  FV (yPlusX p) = (snd P + fst P)%F /\ FV (yMinusX p) = (snd P - fst P)%F /\
  FV (xy2d p) = (toF 2 * curve_d * fst P * snd P)%F.
Lemma pre_tight_rep p P : pre_tight p P -> pre_rep p P.
Proof. intros (A & B & C & D). repeat (split; [apply tight_loose; assumption|]). exact D. Qed.
(* u = 2dxy *)
Definition entry_check (e : PreComputedGE) (x y u : Z) : bool :=
  in_tight (yPlusX e) && in_tight (yMinusX e) && in_tight (xy2d e) &&
  isz (fval (yPlusX e) - (y + x)) && isz (fval (yMinusX e) - (y - x)) && isz (fval (xy2d e) - u).
Lemma entry_check_ok e x y u : entry_check e x y u = true -> toF u = (toF 2 * curve_d * toF x * toF y)%F -> pre_tight e (toP (x, y)).
Proof.
  unfold entry_check. rewrite !andb_true_iff. intros [[[[[T1 T2] T3] E1] E2] E3] Hu. apply isz_eq in E1, E2, E3.
  unfold pre_tight, toP. cbn [fst snd]. do 3 (split; [apply in_tight_ok; assumption|]). unfold FV.
  rewrite E1, E2, E3, toF_add, toF_sub, Hu. auto.
Qed.

(* entries e, points q, each the previous one plus (x0,y0) *)
Fixpoint run_check (x0 y0 u0 : Z) (es : list PreComputedGE) (qs : list (Z * Z)) : bool :=
  match es, qs with
  | [], [] => true
  | e :: es, (x, y) :: qs =>
      let s := red (x * y) in
      let u := red (d2c * s) in
      entry_check e x y u &&
      match qs with
      | [] => true
      | (x', y') :: _ => add_check x0 y0 u0 x y s x' y'
      end && run_check x0 y0 u0 es qs
  | _, _ => false
  end.
Lemma toF_u x y : toF (red (d2c * red (x * y))) = (toF 2 * curve_d * toF x * toF y)%F.
Proof. rewrite red_F, toF_mul, red_F, toF_mul, d2c_F. ring. Qed.
Lemma run_check_ok x0 y0 u0 P0 es : toF u0 = (toF 2 * curve_d * toF x0 * toF y0)%F -> toP (x0, y0) = P0 -> on P0 ->
  forall qs, run_check x0 y0 u0 es qs = true -> forall x y rest, qs = (x, y) :: rest -> forall n R, on R -> P0 = zmul n R -> forall k, toP (x, y) = zmul k R ->
  forall j d, (j < length es)%nat -> pre_tight (nth j es d) (zmul (k + n * Z.of_nat j) R) /\ toP (nth j qs (0, 0)) = zmul (k + n * Z.of_nat j) R.
Proof.
  intros Hu E0 O0. induction es as [|e es IH]; intros qs H x y rest -> n R OR EP k EK j d Hj; [cbn [length] in Hj; lia|].
  cbn [run_check] in H. apply andb_true_iff in H. destruct H as [H HR]. apply andb_true_iff in H. destruct H as [HE HA].
  pose proof (entry_check_ok _ _ _ _ HE (toF_u x y)) as T.
  destruct j as [|j]; [cbn [nth]; rewrite Z.mul_0_r, Z.add_0_r, <- EK; split; [exact T|reflexivity]|]. cbn [nth].
  destruct rest as [|[x' y'] rest]; [destruct es; [cbn [length] in Hj; lia|discriminate HR]|].
  assert (O1 : on (toP (x, y))) by (rewrite EK; apply on_zmul; exact OR).
  assert (S1 : toF (red (x * y)) = (toF x * toF y)%F) by (rewrite red_F; apply toF_mul).
  assert (O0' : on (toP (x0, y0))) by (rewrite E0; exact O0).
  pose proof (add_check_ok _ _ _ _ _ _ _ _ HA Hu S1 O0' O1) as A.
  replace (k + n * Z.of_nat (Datatypes.S j)) with (n + k + n * Z.of_nat j) by lia.
  apply (IH _ HR x' y' rest eq_refl n R OR EP (n + k)); [|cbn [length] in Hj; lia].
  rewrite zmul_add, <- EP, <- EK, <- E0 by exact OR. symmetry. exact A.
Qed.

(* a run of doublings *)
Fixpoint dbls_check (q : Z * Z) (qs : list (Z * Z)) : bool :=
  match qs with [] => true | q' :: r => dbl_check (fst q) (snd q) (fst q') (snd q') && dbls_check q' r end.
Lemma toP_eta q : toP (fst q, snd q) = toP q. Proof. reflexivity. Qed.
Lemma dbls_check_ok qs : forall q n R, on R -> dbls_check q qs = true -> toP q = zmul n R ->
  toP (last qs q) = zmul (2 ^ Z.of_nat (length qs) * n) R.
Proof.
  induction qs as [|q' qs IH]; intros q n R OR H E; [cbn [last length]; rewrite Z.mul_1_l; exact E|].
  cbn [dbls_check] in H. apply andb_true_iff in H. destruct H as [H1 H2].
  assert (O : on (toP (fst q, snd q))) by (rewrite toP_eta, E; apply on_zmul; exact OR).
  pose proof (dbl_check_ok _ _ _ _ H1 O) as A. rewrite !toP_eta in A.
  assert (E' : toP q' = zmul (2 * n) R).
  { rewrite <- A, E, <- zmul_mul by exact OR. rewrite zmul_2 by (apply on_zmul; exact OR). reflexivity. }
  replace (last (q' :: qs) q) with (last qs q') by (destruct qs as [|a qs]; [reflexivity|cbn [last]; clear; revert a; induction qs as [|b qs IHq]; intro a; [reflexivity|exact (IHq b)]]).
  rewrite (IH q' (2 * n) R OR H2 E'). cbn [length]. rewrite Nat2Z.inj_succ, Z.pow_succ_r by lia. f_equal. lia.
Qed.

(* all rows *)
Fixpoint rows_check (q0 : Z * Z) (ess : list (list PreComputedGE)) (rs : list (list (Z * Z) * list (Z * Z))) : bool :=
  match ess, rs with
  | [], [] => true
  | es :: ess, (qs, ds) :: rs =>
      let '(x0, y0) := q0 in
      (length es =? 8)%nat && match qs with q :: _ => (fst q =? x0) && (snd q =? y0) | [] => false end &&
      run_check x0 y0 (red (d2c * red (x0 * y0))) es qs &&
      match rs with
      | [] => match ess with [] => true | _ => false end
      | (qs', _) :: _ =>
          let q' := hd (0, 0) qs' in
          (length ds =? 4)%nat && dbls_check (nth 7 qs (0, 0)) (ds ++ [q']) && rows_check q' ess rs
      end
  | _, _ => false
  end.
Lemma rows_check_ok ess : forall rs q0 n, rows_check q0 ess rs = true -> toP q0 = zmul n pB ->
  forall i j d, (i < length ess)%nat -> (j < 8)%nat ->
  pre_tight (nth j (nth i ess []) d) (zmul ((Z.of_nat j + 1) * (256 ^ Z.of_nat i * n)) pB) /\
  toP (nth j (fst (nth i rs ([], []))) (0, 0)) = zmul ((Z.of_nat j + 1) * (256 ^ Z.of_nat i * n)) pB.
Proof.
  induction ess as [|es ess IH]; intros rs q0 n H E i j d Hi Hj; [cbn [length] in Hi; lia|].
  destruct rs as [|[qs ds] rs]; [discriminate H|]. cbn [rows_check] in H. destruct q0 as [x0 y0].
  rewrite !andb_true_iff in H. destruct H as [[[HL HQ] HR] HN]. apply Nat.eqb_eq in HL.
  destruct qs as [|[x y] qs]; [discriminate HQ|]. cbn [fst snd] in HQ. rewrite andb_true_iff, !Z.eqb_eq in HQ. destruct HQ as [-> ->].
  assert (O0 : on (toP (x0, y0))) by (rewrite E; apply on_zmul; exact on_pB).
  pose proof (run_check_ok _ _ _ _ es (toF_u x0 y0) eq_refl O0 _ HR _ _ _ eq_refl n pB on_pB E n E) as T.
  destruct i as [|i].
  - cbn [nth fst]. destruct (T j d ltac:(lia)) as [T1 T2].
    replace ((Z.of_nat j + 1) * (256 ^ Z.of_nat 0 * n)) with (n + n * Z.of_nat j) by (change (256 ^ Z.of_nat 0) with 1; lia).
    split; [exact T1|exact T2].
  - destruct rs as [|[qs' ds'] rs]; [destruct ess; [cbn [length] in Hi; lia|discriminate HN]|].
    cbv zeta in HN. rewrite !andb_true_iff in HN. destruct HN as [[HL4 HD] HN]. apply Nat.eqb_eq in HL4.
    destruct (T 7%nat d ltac:(lia)) as [_ T7].
    pose proof (dbls_check_ok _ _ _ _ on_pB HD T7) as D. rewrite last_last, app_length, HL4 in D.
    replace (2 ^ Z.of_nat (4 + length [hd (0, 0) qs']) * (n + n * Z.of_nat 7)) with (256 * n) in D by (cbn [length]; lia).
    cbn [nth]. replace (256 ^ Z.of_nat (Datatypes.S i) * n) with (256 ^ Z.of_nat i * (256 * n)) by (rewrite Nat2Z.inj_succ, Z.pow_succ_r by lia; lia).
    apply (IH _ _ _ HN D); [cbn [length] in Hi; lia|exact Hj].
Qed.

Lemma toP_B : toP (nth 0 (fst (nth 0 cert_rows ([], []))) (0, 0)) = zmul 1 pB.
Proof. rewrite zmul_1. unfold toP, pB. f_equal; F_eq_compute. Qed.
Lemma rows_ok : rows_check (nth 0 (fst (nth 0 cert_rows ([], []))) (0, 0)) base cert_rows = true.
Proof. vm_cast_no_check (eq_refl true). Qed.
Lemma base_cert i j d : (i < 32)%nat -> (j < 8)%nat ->
  pre_tight (nth j (nth i base []) d) (zmul ((Z.of_nat j + 1) * 256 ^ Z.of_nat i) pB) /\
  toP (nth j (fst (nth i cert_rows ([], []))) (0, 0)) = zmul ((Z.of_nat j + 1) * 256 ^ Z.of_nat i) pB.
Proof.
  intros Hi Hj. rewrite <- (Z.mul_1_r (256 ^ Z.of_nat i)). apply (rows_check_ok _ _ _ _ rows_ok toP_B); [exact Hi|exact Hj].
Qed.
(* base[i][j] is (j+1) * 256^i * B *)
Lemma base_ok i j d : (i < 32)%nat -> (j < 8)%nat -> pre_tight (nth j (nth i base []) d) (zmul ((Z.of_nat j + 1) * 256 ^ Z.of_nat i) pB).
Proof. intros Hi Hj. exact (proj1 (base_cert i j d Hi Hj)). Qed.
(* bi[j] is (2j+1) * B *)
Lemma bi_run : run_check (fst cert_2B) (snd cert_2B) (red (d2c * red (fst cert_2B * snd cert_2B))) bi cert_odd = true.
Proof. vm_cast_no_check (eq_refl true). Qed.
Lemma bi_2B : dbls_check (nth 0 cert_odd (0, 0)) [cert_2B] = true.
Proof. vm_cast_no_check (eq_refl true). Qed.
Lemma odd_B : toP (nth 0 cert_odd (0, 0)) = zmul 1 pB.
Proof. rewrite zmul_1. unfold toP, pB. f_equal; F_eq_compute. Qed.
Lemma bi_ok j d : (j < 8)%nat -> pre_tight (nth j bi d) (zmul (2 * Z.of_nat j + 1) pB).
Proof.
  intro Hj. pose proof (dbls_check_ok _ _ _ _ on_pB bi_2B odd_B) as D. cbn [last length] in D.
  assert (O : on (toP cert_2B)) by (rewrite D; apply on_zmul; exact on_pB).
  pose proof (run_check_ok _ _ _ _ bi (toF_u _ _) (toP_eta _) O _ bi_run) as R.
  specialize (R _ _ _ eq_refl 2 pB on_pB D 1 odd_B j d Hj). rewrite (Z.add_comm _ 1). exact (proj1 R).
Qed.

(* ---- the order of B ---- *)
Definition row_point (i : nat) (d : Z) : Z * Z :=
  let q := nth (Z.to_nat (Z.abs d - 1)) (fst (nth i cert_rows ([], []))) (0, 0) in
  if d <? 0 then (- fst q, snd q) else q.
Definition same (a b : Z * Z) : bool := (fst a =? fst b) && (snd a =? snd b).
Fixpoint sum_check (i : nat) (acc : Z * Z) (l : list (Z * (Z * Z))) : bool :=
  match l with
  | [] => true
  | (d, q) :: r =>
      (if d =? 0 then same acc q
       else (Z.abs d <=? 8) && (i <? 32)%nat &&
            let t := row_point i d in
            add_check (fst t) (snd t) (red (d2c * red (fst t * snd t))) (fst acc) (snd acc) (red (fst acc * snd acc)) (fst q) (snd q)) &&
      sum_check (Datatypes.S i) q r
  end.
Fixpoint sum_val (i : nat) (l : list (Z * (Z * Z))) : Z :=
  match l with [] => 0 | (d, _) :: r => d * 256 ^ Z.of_nat i + sum_val (Datatypes.S i) r end.
Definition sum_end (acc : Z * Z) (l : list (Z * (Z * Z))) : Z * Z := last (map snd l) acc.
Lemma row_point_ok i d : (i < 32)%nat -> d <> 0 -> Z.abs d <= 8 -> toP (row_point i d) = zmul (d * 256 ^ Z.of_nat i) pB.
Proof.
  intros Hi Hd H8. unfold row_point.
  destruct (base_cert i (Z.to_nat (Z.abs d - 1)) (PCGE FeZero FeZero FeZero) Hi ltac:(lia)) as [_ T].
  rewrite Z2Nat.id in T by lia. replace (Z.abs d - 1 + 1) with (Z.abs d) in T by lia.
  destruct (Z.ltb_spec d 0) as [L|L].
  - replace (d * 256 ^ Z.of_nat i) with (- (Z.abs d * 256 ^ Z.of_nat i)) by (rewrite Z.abs_neq by lia; lia).
    rewrite zmul_opp, <- T. unfold toP, pneg. cbn [fst snd]. rewrite <- toF_opp. reflexivity.
  - rewrite Z.abs_eq in T by lia. rewrite Z.abs_eq by lia. exact T.
Qed.
Lemma last_cons_eq (A : Type) (l : list A) : forall (d a : A), last (a :: l) d = last l a.
Proof. induction l as [|b l IH]; intros d a; [reflexivity|]. change (last (a :: b :: l) d) with (last (b :: l) d). rewrite !IH. reflexivity. Qed.
Lemma sum_check_ok l : forall i acc k, sum_check i acc l = true -> toP acc = zmul k pB -> toP (sum_end acc l) = zmul (k + sum_val i l) pB.
Proof.
  induction l as [|[d q] l IH]; intros i acc k H E; [unfold sum_end; cbn [map last sum_val]; rewrite Z.add_0_r; exact E|].
  cbn [sum_check] in H. apply andb_true_iff in H. destruct H as [HD HR].
  unfold sum_end. cbn [map snd]. rewrite last_cons_eq. fold (sum_end q l). cbn [sum_val]. rewrite Z.add_assoc. apply (IH _ _ _ HR).
  destruct (Z.eqb_spec d 0) as [Z0|Nz].
  - unfold same in HD. rewrite andb_true_iff, !Z.eqb_eq in HD. destruct HD as [HX HY]. unfold toP. rewrite <- HX, <- HY, Z0, Z.mul_0_l, Z.add_0_r. exact E.
  - cbv zeta in HD. rewrite !andb_true_iff in HD. destruct HD as [[H8 H32] HA]. apply Z.leb_le in H8. apply Nat.ltb_lt in H32.
    pose proof (row_point_ok i d H32 Nz H8) as T.
    assert (O0 : on (toP (fst (row_point i d), snd (row_point i d)))) by (rewrite toP_eta, T; apply on_zmul; exact on_pB).
    assert (O1 : on (toP (fst acc, snd acc))) by (rewrite toP_eta, E; apply on_zmul; exact on_pB).
    assert (S1 : toF (red (fst acc * snd acc)) = (toF (fst acc) * toF (snd acc))%F) by (rewrite red_F; apply toF_mul).
    pose proof (add_check_ok _ _ _ _ _ _ _ _ HA (toF_u _ _) S1 O0 O1) as A. rewrite !toP_eta in A.
    rewrite <- A, T, E, <- zmul_add by exact on_pB. f_equal. lia.
Qed.
Lemma order_odd_ok : sum_check 0 (0, 1) order_odd = true.
Proof. vm_cast_no_check (eq_refl true). Qed.
Lemma order_mid_ok : dbls_check (sum_end (0, 1) order_odd) order_mid = true.
Proof. vm_cast_no_check (eq_refl true). Qed.
Lemma order_even_ok : sum_check 0 (last order_mid (sum_end (0, 1) order_odd)) order_even = true.
Proof. vm_cast_no_check (eq_refl true). Qed.
Lemma order_end : sum_end (last order_mid (sum_end (0, 1) order_odd)) order_even = (0, 1).
Proof. vm_cast_no_check (eq_refl (0, 1)). Qed.
Lemma order_val : 2 ^ Z.of_nat (length order_mid) * (0 + sum_val 0 order_odd) + sum_val 0 order_even = ell.
Proof. vm_cast_no_check (eq_refl ell). Qed.
Lemma order_B : zmul ell pB = pO.
Proof.
  assert (Z0 : toP (0, 1) = zmul 0 pB) by reflexivity.
  pose proof (sum_check_ok _ _ _ _ order_odd_ok Z0) as A.
  pose proof (dbls_check_ok _ _ _ _ on_pB order_mid_ok A) as D.
  pose proof (sum_check_ok _ _ _ _ order_even_ok D) as E. rewrite order_end, order_val in E.
  rewrite <- E. reflexivity.
Qed.
