(* Encoding, decoding and multiples of points on a memory (Pointers.v).  Proofs. *)
From Coq Require Import Lia.
From Verif Require Import SlideFacts ScalarKeys ScalarMult Pointers SpecPointers PointerFacts PointerGroup.
Open Scope Z_scope.

Lemma only_get_e r fr m m' p : only r fr m m' -> p <> r -> p < fr -> get_e m' p = get_e m p.
Proof. intros O N L. unfold get_e, f0, f1, f2, f3. now rewrite !O by assumption. Qed.
Lemma only_get_p r fr m m' p : only r fr m m' -> p <> r -> p < fr -> get_p m' p = get_p m p.
Proof. intros O N L. unfold get_p, f0, f1, f2, f3. now rewrite !O by assumption. Qed.
Lemma only_get_c r fr m m' p : only r fr m m' -> p <> r -> p < fr -> get_c m' p = get_c m p.
Proof. intros O N L. unfold get_c, f0, f1, f2, f3. now rewrite !O by assumption. Qed.
Lemma only_get_pc r fr m m' p : only r fr m m' -> p <> r -> p < fr -> get_pc m' p = get_pc m p.
Proof. intros O N L. unfold get_pc, f0, f1, f2, f3. now rewrite !O by assumption. Qed.
Lemma only_get_ca r fr m m' p : only r fr m m' -> p <> r -> p < fr -> get_ca m' p = get_ca m p.
Proof. intros O N L. unfold get_ca, f0, f1, f2, f3. now rewrite !O by assumption. Qed.
Lemma only_globals r fr m m' : only r fr m m' -> 0 <= r -> 0 <= fr -> globals m -> globals m'.
Proof.
  intros O Hr Hf (G1 & G2 & G3 & G4 & G5 & G6). unfold globals.
  rewrite !O by (cbn; lia). split; [assumption|]. split; [assumption|]. split; [assumption|]. split; [assumption|].
  split.
  - intros i Hi. rewrite (only_get_pc r fr m m') by (assumption || (unfold g_bi; lia)). now apply G5.
  - intros pos i Hp Hi. rewrite (only_get_pc r fr m m') by (assumption || (unfold g_base; lia)). now apply G6.
Qed.
Lemma only_mono r fr fr' m m' : only r fr m m' -> fr' <= fr -> only r fr' m m'.
Proof. intros O L x N H. apply O; [assumption|lia]. Qed.
(* a variable that did not exist before does not count *)
Lemma only_new v r fr fr' m m' : only v fr' m m' -> fr <= v -> fr <= fr' -> only r fr m m'.
Proof. intros O L L' x N H. apply O; lia. Qed.
Lemma only_trans r fr m m' m'' : only r fr m m' -> only r fr m' m'' -> only r fr m m''.
Proof. intros O O' x N H. rewrite O' by assumption. now apply O. Qed.
Lemma only_refl r fr m : only r fr m m.
Proof. now intros x N H. Qed.

Lemma e_double_at_ok fr p r m : m g_zero = FeZero -> 0 <= r < fr -> p < fr -> r <> p ->
  get_c (e_double_at fr p r m) r = e_double (get_e m p) /\ only r fr m (e_double_at fr p r m).
Proof.
  intros G Hr Hp N. unfold e_double_at.
  destruct (e_to_projective_at_ok m G (fr + 1) p fr ltac:(lia) ltac:(lia)) as [E1 O1].
  set (m1 := e_to_projective_at p fr m) in *.
  assert (G1 : m1 g_zero = FeZero) by (rewrite O1 by (cbn; lia); exact G).
  destruct (p_double_at_ok m1 G1 (fr + 1) fr r ltac:(lia) ltac:(lia) ltac:(lia)) as [E2 O2].
  split.
  - rewrite E2, E1. reflexivity.
  - apply (only_trans r fr m m1).
    + apply (only_new fr r fr (fr + 1)); [exact O1|lia|lia].
    + apply (only_mono r (fr + 1)); [exact O2|lia].
Qed.

(* encoding *)
Lemma xyz_to_bytes_at_ok fr p m : m g_zero = FeZero -> 0 <= fr -> p < fr ->
  fst (xyz_to_bytes_at fr p m) = xyz_to_bytes (m (f0 p)) (m (f1 p)) (m (f2 p)) /\
  forall x, fst x < fr -> snd (xyz_to_bytes_at fr p m) x = m x.
Proof.
  intros G Hf Hp. unfold xyz_to_bytes_at.
  pose proof (FeInvert_at_ok (fr + 3) (f0 fr) (f2 p) m G ltac:(lia) ltac:(cbn; lia) ltac:(cbn; lia)) as I.
  set (m1 := FeInvert_at (fr + 3) (f0 fr) (f2 p) m) in *.
  assert (G1 : m1 g_zero = FeZero) by (rewrite I, put_other by (try (cbn; lia); intro E; injection E; lia); exact G).
  assert (K1 : forall x, fst x < fr -> m1 x = m x).
  { intros x Hx. rewrite I by lia. apply put_other. intros ->. cbn in Hx. lia. }
  assert (V1 : m1 (f0 fr) = FeInvert (m (f2 p))) by (rewrite I by (cbn; lia); apply put_same).
  set (ls := [f0 p; f1 p; f0 fr; f0 (fr + 1); f0 (fr + 2)]).
  set (prog := [Mul 3 0 2; Mul 4 1 2]%nat).
  change [Mul (f0 (fr + 1)) (f0 p) (f0 fr); Mul (f0 (fr + 2)) (f1 p) (f0 fr)] with (map (op_map (at_loc ls)) prog).
  destruct (sim ls prog ltac:(unfold prog, ls; solve_okop) m1 _ G1 eq_refl) as (R & R2 & K).
  set (m2 := run _ m1) in *.
  pose proof (f_equal (fun l => nth 3 l FeZero) R) as Rx. pose proof (f_equal (fun l => nth 4 l FeZero) R) as Ry.
  clear R. unfold ls, prog in Rx, Ry. sym Rx. sym Ry.
  assert (K2 : forall x, fst x < fr -> m2 x = m x).
  { intros x Hx. rewrite <- K1 by exact Hx. apply K. unfold prog, ls. outside. }
  clear K. unfold FeToBytes_at, FeIsNegative_at.
  change (m2 (f0 (fr + 2))) with (m2 (fr + 2, 0%nat)). rewrite Ry. unfold f0 in V1. rewrite V1, (K1 (p, 1%nat)) by (cbn; lia).
  unfold xyz_to_bytes, f1, f2, f0. destruct (FeToBytes _) as [s y'].
  rewrite put_other by (intro E; injection E; lia). rewrite Rx, V1, (K1 (p, 0%nat)) by (cbn; lia).
  destruct (FeIsNegative _) as [neg x']. cbn [fst snd]. split; [reflexivity|].
  intros x Hx. rewrite !put_other by (intros ->; cbn in Hx; lia). now apply K2.
Qed.

(* decoding *)
Definition fb_u (s : bytes) : fe := FeSub (FeSquare (FeFromBytes s)) FeOne.
Definition fb_v (s : bytes) : fe := FeAdd (FeMul (FeSquare (FeFromBytes s)) fe_d) FeOne.
Definition fb_v3 (s : bytes) : fe := FeMul (FeSquare (fb_v s)) (fb_v s).
Definition fb_pre (s : bytes) : fe := FeMul (FeMul (FeSquare (fb_v3 s)) (fb_v s)) (fb_u s).
Definition fb_X (s : bytes) : fe := FeMul (FeMul (fePow22523 (fb_pre s)) (fb_v3 s)) (fb_u s).
Definition fb_vxx (s : bytes) : fe := FeMul (FeSquare (fb_X s)) (fb_v s).
Definition fb_finish (s : bytes) (X : fe) : ExtendedGE :=
  let '(neg, X) := FeIsNegative X in
  let X := if neg =? Z.shiftr (byte_at s 31) 7 then X else FeNeg X in
  EGE X (FeFromBytes s) FeOne (FeMul X (FeFromBytes s)).
Lemma fb_eq s : e_from_bytes s =
  if fst (FeIsNonZero (FeSub (fb_vxx s) (fb_u s))) =? 1 then
    if fst (FeIsNonZero (FeAdd (fb_vxx s) (fb_u s))) =? 1 then None
    else Some (fb_finish s (snd (FeToBytes (FeMul (fb_X s) fe_SqrtM1))))
  else Some (fb_finish s (fb_X s)).
Proof.
  unfold e_from_bytes, fb_finish. cbv zeta.
  change (FeSub (FeSquare (FeFromBytes s)) FeOne) with (fb_u s).
  change (FeAdd (FeMul (FeSquare (FeFromBytes s)) fe_d) FeOne) with (fb_v s).
  change (FeMul (FeSquare (fb_v s)) (fb_v s)) with (fb_v3 s).
  change (FeMul (FeMul (FeSquare (fb_v3 s)) (fb_v s)) (fb_u s)) with (fb_pre s).
  change (FeMul (FeMul (fePow22523 (fb_pre s)) (fb_v3 s)) (fb_u s)) with (fb_X s).
  change (FeMul (FeSquare (fb_X s)) (fb_v s)) with (fb_vxx s).
  destruct (fst (FeIsNonZero (FeSub (fb_vxx s) (fb_u s))) =? 1).
  - destruct (fst (FeIsNonZero (FeAdd (fb_vxx s) (fb_u s))) =? 1); [reflexivity|].
    destruct (FeToBytes (FeMul (fb_X s) fe_SqrtM1)) as [b X]. cbn [snd].
    now destruct (FeIsNegative X).
  - now destruct (FeIsNegative (fb_X s)).
Qed.

Section FromBytes.
  Variables (fr p : Z) (s : bytes) (m : mem).
  Hypotheses (G : m g_zero = FeZero) (Gd : m g_d = fe_d) (Gs : m g_SqrtM1 = fe_SqrtM1) (Hp : 0 <= p < fr).

  Let u := f0 fr.
  Let v := f0 (fr + 1).
  Let v3 := f0 (fr + 2).
  Let vxx := f0 (fr + 3).
  Let check := f0 (fr + 4).
  Let X := f0 p.
  Let Y := f1 p.
  Let Z' := f2 p.
  Let T := f3 p.
  Let mA : mem := FeFromBytes_at Y s m.
  Let mB : mem := run [ One Z'; Square u Y; Mul v u g_d; Sub u u Z'; Add v v Z';
                 Square v3 v; Mul v3 v3 v; Square X v3; Mul X X v; Mul X X u ] mA.
  Let mC : mem := fePow22523_at (fr + 5) X X mB.
  Let mD : mem := run [ Mul X X v3; Mul X X u; Square vxx X; Mul vxx vxx v; Sub check vxx u ] mC.

  Lemma fb_prefix : mD X = fb_X s /\ mD Y = FeFromBytes s /\ mD Z' = FeOne /\ mD T = m T /\ mD u = fb_u s /\
    mD vxx = fb_vxx s /\ mD check = FeSub (fb_vxx s) (fb_u s) /\
    forall x, fst x <> p -> fst x < fr -> mD x = m x.
  Proof.
    assert (A : forall x, mA x = put m Y (FeFromBytes s) x) by (intro x; apply store_all_ok).
    assert (GA : mA g_zero = FeZero) by (rewrite A, put_other by locne; exact G).
    set (ls := [X; Y; Z'; u; v; v3; vxx; check; g_d]).
    set (prog := [ One 2; Square 3 1; Mul 4 3 8; Sub 3 3 2; Add 4 4 2; Square 5 4; Mul 5 5 4; Square 0 5; Mul 0 0 4; Mul 0 0 3 ]%nat).
    assert (OKB : forall o, In o prog -> okop ls o)
      by (unfold ls, prog, X, Y, Z', u, v, v3, vxx, check; solve_okop).
    destruct (sim ls prog OKB mA _ GA eq_refl) as (RB & GB & KB).
    change (run (map (op_map (at_loc ls)) prog) mA) with mB in *.
    set (prog2 := [ Mul 0 0 5; Mul 0 0 3; Square 6 0; Mul 6 6 4; Sub 7 6 3]%nat).
    assert (OKD : forall o, In o prog2 -> okop ls o)
      by (unfold ls, prog2, X, Y, Z', u, v, v3, vxx, check; solve_okop).
    assert (C : forall x, fst x < fr + 5 -> mC x = put mB X (fePow22523 (mB X)) x).
    { intros x Hx. apply fePow22523_at_ok; [exact GB|lia|cbn; lia|cbn; lia|exact Hx]. }
    assert (GC : mC g_zero = FeZero).
    { rewrite C by (cbn; lia). rewrite put_other by (unfold X; locne). exact GB. }
    destruct (sim ls prog2 OKD mC _ GC eq_refl) as (RD & _ & KD).
    change (run (map (op_map (at_loc ls)) prog2) mC) with mD in *.
    clearbody mD mC mB mA.
    assert (EA : map mA ls = [m X; FeFromBytes s; m Z'; m u; m v; m v3; m vxx; m check; fe_d]).
    { unfold ls. cbn [map]. rewrite !A. unfold X, Y, Z', u, v, v3, vxx, check.
      rewrite put_same, !put_other by locne. now rewrite Gd. }
    rewrite EA in RB.
    assert (EB : map mB ls = [fb_pre s; FeFromBytes s; FeOne; fb_u s; fb_v s; fb_v3 s; m vxx; m check; fe_d]).
    { rewrite RB. cbv [arun fold_left aexec set_at dst val nth prog]. reflexivity. }
    assert (XB : mB X = fb_pre s) by exact (f_equal (fun l => nth 0 l FeZero) EB).
    assert (EC : map mC ls = [fePow22523 (fb_pre s); FeFromBytes s; FeOne; fb_u s; fb_v s; fb_v3 s; m vxx; m check; fe_d]).
    { transitivity (fePow22523 (fb_pre s) :: tl (map mB ls)); [|rewrite EB; cbn [tl]; reflexivity].
      unfold ls. cbn [map tl]. rewrite !C by (cbn; lia). rewrite XB. unfold X, Y, Z', u, v, v3, vxx, check.
      rewrite put_same, !put_other by locne. reflexivity. }
    rewrite EC in RD.
    assert (ED : map mD ls = [fb_X s; FeFromBytes s; FeOne; fb_u s; fb_v s; fb_v3 s; fb_vxx s;
                              FeSub (fb_vxx s) (fb_u s); fe_d]).
    { rewrite RD. cbv [arun fold_left aexec set_at dst val nth prog2]. reflexivity. }
    assert (KT : forall x, fst x < fr -> x <> X -> x <> Y -> x <> Z' -> mD x = m x).
    { intros x Hx NX NY NZ.
      transitivity (mC x).
      { apply KD. unfold prog2, ls. intros o Ho. cbn [In] in Ho.
        repeat (destruct Ho as [<- | Ho]; [cbv [dst at_loc nth]; first [assumption | intros ->; cbn in Hx; lia]|]). destruct Ho. }
      rewrite C by lia. rewrite put_other by exact NX.
      transitivity (mA x).
      { apply KB. unfold prog, ls. intros o Ho. cbn [In] in Ho.
        repeat (destruct Ho as [<- | Ho]; [cbv [dst at_loc nth]; first [assumption | intros ->; cbn in Hx; lia]|]). destruct Ho. }
      rewrite A. now apply put_other. }
    split; [exact (f_equal (fun l => nth 0 l FeZero) ED)|].
    split; [exact (f_equal (fun l => nth 1 l FeZero) ED)|].
    split; [exact (f_equal (fun l => nth 2 l FeZero) ED)|].
    split; [apply KT; [cbn; lia| | |]; unfold T, X, Y, Z'; locne|].
    split; [exact (f_equal (fun l => nth 3 l FeZero) ED)|].
    split; [exact (f_equal (fun l => nth 6 l FeZero) ED)|].
    split; [exact (f_equal (fun l => nth 7 l FeZero) ED)|].
    intros x N L. apply KT; [exact L| | |]; intros ->; apply N; reflexivity.
  Qed.

  Lemma e_from_bytes_at_ok :
    match e_from_bytes s with
    | Some A => fst (e_from_bytes_at fr p s m) = true /\ get_e (snd (e_from_bytes_at fr p s m)) p = A
    | None => fst (e_from_bytes_at fr p s m) = false /\
        let m' := snd (e_from_bytes_at fr p s m) in
        m' (f0 p) = fb_X s /\ m' (f1 p) = FeFromBytes s /\ m' (f2 p) = FeOne /\ m' (f3 p) = m (f3 p)
    end /\ only p fr m (snd (e_from_bytes_at fr p s m)).
  Proof.
    pose (fin := fun m : mem =>
      let '(neg, m) := FeIsNegative_at X m in
      let m := if neg =? Z.shiftr (byte_at s 31) 7 then m else FeNeg_at X X m in
      (true, FeMul_at T X Y m)).
    assert (E : e_from_bytes_at fr p s m =
      let '(c, m) := FeIsNonZero_at check mD in
      if c =? 1 then
        let m := FeAdd_at check vxx u m in
        let '(c, m) := FeIsNonZero_at check m in
        if c =? 1 then (false, m)
        else
          let m := FeMul_at X X g_SqrtM1 m in
          let '(_, m) := FeToBytes_at X m in
          fin m
      else fin m) by reflexivity.
    set (res := e_from_bytes_at fr p s m) in *. clearbody res. destruct fb_prefix as (VX & VY & VZ & VT & Vu & Vv & Vc & K). clearbody mD.
    assert (F : forall k : mem, k Y = FeFromBytes s -> k Z' = FeOne ->
      (forall x, fst x <> p -> fst x < fr -> k x = m x) ->
      fst (fin k) = true /\ get_e (snd (fin k)) p = fb_finish s (k X) /\ only p fr m (snd (fin k))).
    { clear E. intros k kY kZ kK. unfold fin, FeIsNegative_at, fb_finish. destruct (FeIsNegative (k X)) as [neg X'].
      set (k1 := put k X X').
      set (X2 := if neg =? Z.shiftr (byte_at s 31) 7 then X' else FeNeg X').
      assert (E : forall x, (if neg =? Z.shiftr (byte_at s 31) 7 then k1 else FeNeg_at X X k1) x = put k X X2 x).
      { intro x. unfold X2. destruct (neg =? _); [reflexivity|]. rewrite FeNeg_at_ok. unfold k1. rewrite put_same.
        unfold put. now destruct (loc_eqb x X). }
      set (k2 := if neg =? _ then k1 else FeNeg_at X X k1) in *. clearbody k2. cbn [fst snd].
      assert (P : forall x, FeMul_at T X Y k2 x = put (put k X X2) T (FeMul X2 (FeFromBytes s)) x).
      { intro x. unfold FeMul_at. rewrite store_all_ok, !E, put_same, (put_other _ X _ Y), kY by (unfold X, Y; locne).
        apply put_ext. exact E. }
      split; [reflexivity|]. split.
      - unfold get_e. fold X Y Z' T. rewrite !P, put_same.
        rewrite !(put_other _ T) by (unfold X, Y, Z', T; locne).
        rewrite put_same, !put_other, kY, kZ by (unfold X, Y, Z', T; locne). reflexivity.
      - intros x N L. rewrite P, !put_other by (unfold T, X; intros ->; now apply N). now apply kK. }
    rewrite fb_eq. unfold FeIsNonZero_at in E. rewrite Vc in E.
    destruct (FeIsNonZero (FeSub (fb_vxx s) (fb_u s))) as [c1 g1]. cbn [fst].
    set (k1 := put mD check g1) in *.
    assert (K1 : forall x, x <> check -> k1 x = mD x) by (intros x N; now apply put_other).
    assert (K1' : forall x, fst x <> p -> fst x < fr -> k1 x = m x).
    { intros x N L. rewrite K1 by (intros ->; cbn in L; lia). now apply K. }
    clearbody k1.
    destruct (c1 =? 1).
    - cbv zeta in E.
      assert (E2 : FeAdd_at check vxx u k1 check = FeAdd (fb_vxx s) (fb_u s)).
      { rewrite FeAdd_at_ok, put_same, !K1 by (unfold vxx, u, check; locne). rewrite Vv, Vu. reflexivity. }
      rewrite E2 in E. destruct (FeIsNonZero (FeAdd (fb_vxx s) (fb_u s))) as [c2 g2]. cbn [fst].
      set (k2 := put (FeAdd_at check vxx u k1) check g2) in *.
      assert (K2 : forall x, x <> check -> k2 x = mD x).
      { intros x N. unfold k2. rewrite put_other, FeAdd_at_ok, put_other by exact N. now apply K1. }
      assert (K2' : forall x, fst x <> p -> fst x < fr -> k2 x = m x).
      { intros x N L. rewrite K2 by (intros ->; cbn in L; lia). now apply K. }
      clearbody k2.
      destruct (c2 =? 1).
      + subst res. cbn [fst snd]. split; [|exact K2'].
        split; [reflexivity|]. fold X Y Z' T. rewrite !K2 by (unfold X, Y, Z', T, check; locne). tauto.
      + unfold FeToBytes_at in E.
        assert (E4 : forall x, FeMul_at X X g_SqrtM1 k2 x = put k2 X (FeMul (fb_X s) fe_SqrtM1) x).
        { intro x. unfold FeMul_at. rewrite store_all_ok. rewrite (K2 X), VX by (unfold X, check; locne).
          rewrite (K2' g_SqrtM1), Gs by (cbn; lia). reflexivity. }
        rewrite E4, put_same in E. destruct (FeToBytes (FeMul (fb_X s) fe_SqrtM1)) as [b X3]. cbn [snd].
        set (k3 := put (FeMul_at X X g_SqrtM1 k2) X X3) in *. subst res.
        assert (K3 : forall x, x <> X -> k3 x = k2 x).
        { intros x N. unfold k3. rewrite put_other, E4, put_other by exact N. reflexivity. }
        destruct (F k3) as (F1 & F2 & F3).
        * rewrite K3, K2 by (unfold X, Y, check; locne). exact VY.
        * rewrite K3, K2 by (unfold X, Z', check; locne). exact VZ.
        * intros x N L. rewrite K3 by (unfold X; intros ->; now apply N). now apply K2'.
        * split; [split; [exact F1|]|exact F3]. rewrite F2. unfold k3. now rewrite put_same.
    - subst res. destruct (F k1) as (F1 & F2 & F3).
      + rewrite K1 by (unfold Y, check; locne). exact VY.
      + rewrite K1 by (unfold Z', check; locne). exact VZ.
      + exact K1'.
      + split; [split; [exact F1|]|exact F3]. rewrite F2, K1, VX by (unfold X, check; locne). reflexivity.
  Qed.
End FromBytes.

Lemma ToBox_at_ok fr key m : m g_zero = FeZero -> m g_d = fe_d -> m g_SqrtM1 = fe_SqrtM1 -> 0 <= fr ->
  fst (ToBox_at fr key m) = match e_from_bytes key with Some A => Some (montgomery_u (eY A)) | None => None end /\
  forall x, fst x < fr -> snd (ToBox_at fr key m) x = m x.
Proof.
  intros G Gd Gs Hf. unfold ToBox_at.
  destruct (e_from_bytes_at_ok (fr + 3) fr key m G Gd Gs ltac:(lia)) as [B O].
  destruct (e_from_bytes_at (fr + 3) fr key m) as [ok m1]. cbn [fst snd] in B, O.
  assert (K1 : forall x, fst x < fr -> m1 x = m x) by (intros x Hx; apply O; lia).
  assert (G1 : m1 g_zero = FeZero) by (rewrite K1 by (cbn; lia); exact G).
  destruct (e_from_bytes key) as [A|].
  - destruct B as [-> B].
    set (ls := [f1 fr; f0 (fr + 1); f0 (fr + 2)]).
    set (prog := [One 1; Sub 1 1 0; One 2; Add 2 2 0]%nat).
    change [One (f0 (fr + 1)); Sub (f0 (fr + 1)) (f0 (fr + 1)) (f1 fr); One (f0 (fr + 2));
            Add (f0 (fr + 2)) (f0 (fr + 2)) (f1 fr)] with (map (op_map (at_loc ls)) prog).
    destruct (sim ls prog ltac:(unfold prog, ls; solve_okop) m1 _ G1 eq_refl) as (R & G2 & K).
    set (m2 := run _ m1) in *.
    assert (K2 : forall x, fst x < fr -> m2 x = m1 x) by (intros x Hx; apply K; unfold prog, ls; outside).
    pose proof (f_equal (fun l => nth 1 l FeZero) R) as Ro. pose proof (f_equal (fun l => nth 2 l FeZero) R) as Rx.
    clear R K. unfold ls, prog in Ro, Rx. sym Ro. sym Rx. clearbody m2. clear ls prog.
    assert (BY : m1 (fr, 1%nat) = eY A) by (rewrite <- B; reflexivity). rewrite BY in Ro, Rx.
    pose proof (FeInvert_at_ok (fr + 3) (f0 (fr + 1)) (f0 (fr + 1)) m2 G2 ltac:(lia) ltac:(cbn; lia) ltac:(cbn; lia)) as I.
    set (m3 := FeInvert_at _ _ _ m2) in *. clearbody m3.
    assert (V1 : m3 (f0 (fr + 1)) = FeInvert (FeSub FeOne (eY A))).
    { rewrite I, put_same by (cbn; lia). unfold f0. rewrite Ro. reflexivity. }
    assert (V2 : m3 (f0 (fr + 2)) = FeAdd FeOne (eY A)).
    { rewrite I, put_other by first [cbn; lia | locne]. unfold f0. rewrite Rx. reflexivity. }
    unfold FeToBytes_at, FeMul_at. rewrite store_all_ok, put_same, V1, V2. unfold montgomery_u.
    destruct (FeToBytes _) as [s h]. cbn [fst snd]. split; [reflexivity|].
    intros x Hx. rewrite put_other by (intros ->; cbn in Hx; lia). rewrite store_all_ok.
    rewrite put_other by (intros ->; cbn in Hx; lia). rewrite I by lia.
    rewrite put_other by (intros ->; cbn in Hx; lia). rewrite K2 by exact Hx. now apply K1.
  - destruct B as [-> _]. cbn [fst snd]. split; [reflexivity|]. exact K1.
Qed.

(* selectPoint *)
Lemma fold_sim {M T} (step : M -> nat -> M) (astep : T -> nat -> T) (view : M -> T) (inv : M -> Prop) l :
  (forall m i, In i l -> inv m -> view (step m i) = astep (view m) i /\ inv (step m i)) ->
  forall m, inv m -> view (fold_left step l m) = fold_left astep l (view m) /\ inv (fold_left step l m).
Proof.
  induction l as [|i l IH]; intros H m I; cbn [fold_left]; [now split|].
  destruct (H m i (or_introl eq_refl) I) as [E I1].
  destruct (IH (fun m' j Hj => H m' j (or_intror Hj)) _ I1) as [E2 I2]. split; [now rewrite E2, E|exact I2].
Qed.
Lemma cmove_fold fr t pos g tab : 0 <= t -> 0 <= fr -> forall l m, m g_zero = FeZero ->
  (forall i, In i l -> get_pc m (g_base pos i) = tab i) ->
  get_pc (fold_left (fun m i => pc_cmove_at t (g_base pos i) (g i) m) l m) t =
    fold_left (fun t i => pc_cmove t (tab i) (g i)) l (get_pc m t) /\
  only t fr m (fold_left (fun m i => pc_cmove_at t (g_base pos i) (g i) m) l m).
Proof.
  intros Ht Hf l m G Hl.
  refine (fold_sim (fun m i => pc_cmove_at t (g_base pos i) (g i) m) (fun t i => pc_cmove t (tab i) (g i))
            (fun m => get_pc m t) (fun m' => only t fr m m') l _ m (only_refl t fr m)).
  intros k i Hi O.
  assert (Gk : k g_zero = FeZero) by (rewrite O by (cbn; lia); exact G).
  destruct (pc_cmove_at_ok k Gk fr t (g_base pos i) (g i) Ht ltac:(unfold g_base; lia)) as [E1 O1].
  split; [|exact (only_trans _ _ _ _ _ O O1)].
  refine (eq_trans E1 _). f_equal.
  rewrite (only_get_pc t fr m k) by (assumption || (unfold g_base; lia)). now apply Hl.
Qed.

Lemma selectPoint_at_ok fr t pos b m : globals m -> (pos < 32)%nat -> 0 <= t < fr ->
  get_pc (selectPoint_at fr t pos b m) t = selectPoint pos b /\ only t fr m (selectPoint_at fr t pos b m).
Proof.
  intros GM Hpos Ht. unfold selectPoint_at, selectPoint. cbv zeta.
  set (bAbs := (b - (((0 - negative b) && b) << 1))%i32). clearbody bAbs.
  destruct (pc_zero_at_ok m (proj1 GM) t (fr + 1) ltac:(lia)) as [E0 O0].
  set (m0 := pc_zero_at t m) in *. clearbody m0.
  assert (GM0 : globals m0) by (apply (only_globals t (fr + 1) m); [exact O0|lia|lia|exact GM]).
  destruct (cmove_fold (fr + 1) t pos (fun i => equal bAbs (i32 (Z.of_nat i + 1))) (fun i => nth i (nth pos base []) pc_zero)
    ltac:(lia) ltac:(lia) (seq 0 8) m0 (proj1 GM0)
    (fun i Hi => proj2 (proj2 (proj2 (proj2 (proj2 GM0)))) pos i Hpos (proj2 (proj1 (in_seq 8 0 i) Hi)))) as (E1 & O1).
  assert (GM1 := only_globals t (fr + 1) m0 _ O1 ltac:(lia) ltac:(lia) GM0).
  rewrite E0 in E1.
  set (m1 := fold_left _ (seq 0 8) m0) in *. set (T := fold_left _ (seq 0 8) pc_zero) in *. clearbody m1 T.
  set (ls := [f0 t; f1 t; f2 t; f0 fr; f1 fr; f2 fr]). set (prog := [Copy 3 1; Copy 4 0; Neg 5 2]%nat).
  change [Copy (f0 fr) (f1 t); Copy (f1 fr) (f0 t); Neg (f2 fr) (f2 t)] with (map (op_map (at_loc ls)) prog).
  destruct (sim ls prog ltac:(unfold prog, ls; solve_okop) m1 _ (proj1 GM1) eq_refl) as (R & G2 & K).
  set (m2 := run _ m1) in *.
  assert (K2 : forall x, fst x < fr -> m2 x = m1 x) by (intros x Hx; apply K; unfold prog, ls; outside).
  pose proof (f_equal (fun l => nth 3 l FeZero) R) as R3. pose proof (f_equal (fun l => nth 4 l FeZero) R) as R4.
  pose proof (f_equal (fun l => nth 5 l FeZero) R) as R5.
  clear R K. unfold ls, prog in R3, R4, R5. sym R3. sym R4. sym R5. clearbody m2. clear ls prog.
  destruct (pc_cmove_at_ok m2 G2 fr t fr (negative b) ltac:(lia) ltac:(lia)) as [E3 O3].
  split.
  - rewrite E3. f_equal.
    + rewrite <- E1. unfold get_pc, f0, f1, f2. now rewrite !K2 by (cbn; lia).
    + rewrite <- E1. unfold get_pc, f0, f1, f2. rewrite R3, R4, R5. reflexivity.
  - intros x N L. rewrite O3 by assumption. rewrite K2 by exact L. rewrite O1 by (assumption || lia). apply O0; [assumption|lia].
Qed.

(* GeScalarMultBase *)
Section BaseMult.
  Variables (fr h : Z) (m0 : mem).
  Hypotheses (Hh : 0 <= h < fr).
  Let inv (m : mem) : Prop := globals m /\ only h fr m0 m.

  Lemma inv_new v fr' m m' : inv m -> only v fr' m m' -> fr <= v -> fr <= fr' -> inv m'.
  Proof.
    intros [GM O] O' L L'. split.
    - apply (only_globals v fr' m); [exact O'|lia|lia|exact GM].
    - apply (only_trans h fr m0 m); [exact O|]. exact (only_new v h fr fr' m m' O' L L').
  Qed.
  Lemma inv_h fr' m m' : inv m -> only h fr' m m' -> fr <= fr' -> inv m'.
  Proof.
    intros [GM O] O' L. split.
    - apply (only_globals h fr' m); [exact O'|lia|lia|exact GM].
    - apply (only_trans h fr m0 m); [exact O|]. exact (only_mono h fr' fr m m' O' L).
  Qed.
  Lemma inv_zero m : inv m -> m g_zero = FeZero.
  Proof. now intros [[G _] _]. Qed.

  Lemma base_step_at_ok e m i : inv m -> (i < 64)%nat ->
    get_e (base_step_at fr h e m i) h = base_step e (get_e m h) i /\ inv (base_step_at fr h e m i).
  Proof.
    intros I Hi. unfold base_step_at, base_step.
    assert (Hpos : (i / 2 < 32)%nat) by (apply Nat.div_lt_upper_bound; lia).
    destruct (selectPoint_at_ok (fr + 3) fr (i / 2) (at_ e i) m (proj1 I) Hpos ltac:(lia)) as [E1 O1].
    set (m1 := selectPoint_at _ _ _ _ m) in *. clearbody m1.
    assert (I1 : inv m1) by (apply (inv_new fr (fr + 3) m); [exact I|exact O1|lia|lia]).
    destruct (geMixedAdd_at_ok m1 (inv_zero _ I1) (fr + 3) (fr + 1) h fr ltac:(lia) ltac:(lia) ltac:(lia) ltac:(lia) ltac:(lia)) as [E2 O2].
    set (m2 := geMixedAdd_at _ _ _ _ m1) in *. clearbody m2.
    assert (I2 : inv m2) by (apply (inv_new (fr + 1) (fr + 3) m1); [exact I1|exact O2|lia|lia]).
    destruct (c_to_extended_at_ok m2 (inv_zero _ I2) fr (fr + 1) h ltac:(lia) ltac:(lia)) as [E3 O3].
    split.
    - rewrite E3, E2, E1. now rewrite (only_get_e fr (fr + 3) m m1) by (assumption || lia).
    - apply (inv_h fr m2); [exact I2|exact O3|lia].
  Qed.
  Lemma base_fold e l : (forall i, In i l -> (i < 64)%nat) -> forall m, inv m ->
    get_e (fold_left (base_step_at fr h e) l m) h = fold_left (base_step e) l (get_e m h) /\
    inv (fold_left (base_step_at fr h e) l m).
  Proof.
    induction l as [|i l IH]; intros Hl m I; cbn [fold_left]; [now split|].
    destruct (base_step_at_ok e m i I (Hl i (or_introl eq_refl))) as [E I1].
    destruct (IH (fun j Hj => Hl j (or_intror Hj)) _ I1) as [E2 I2].
    split; [|exact I2]. now rewrite E2, E.
  Qed.

  Lemma base_at_ok a : globals m0 ->
    get_e (GeScalarMultBase_at fr h a m0) h = GeScalarMultBase a /\ only h fr m0 (GeScalarMultBase_at fr h a m0).
  Proof.
    intro GM. unfold GeScalarMultBase_at, GeScalarMultBase. cbv zeta.
    set (e := recode 63 0 (nibbles a)). clearbody e.
    assert (I0 : inv m0) by (split; [exact GM|apply only_refl]).
    destruct (e_zero_at_ok m0 (inv_zero _ I0) h fr ltac:(lia)) as [E1 O1].
    set (m1 := e_zero_at h m0) in *. clearbody m1.
    assert (I1 : inv m1) by (apply (inv_h fr m0); [exact I0|exact O1|lia]).
    destruct (base_fold e (map (fun k => 2 * k + 1)%nat (seq 0 32))
      ltac:(intros i Hi; apply in_map_iff in Hi; destruct Hi as (k & <- & Hk); apply in_seq in Hk; lia) m1 I1) as [E2 I2].
    set (m2 := fold_left _ _ m1) in *. clearbody m2. rewrite E1 in E2. set (h2 := fold_left _ _ e_zero) in *. clearbody h2.
    destruct (e_double_at_ok (fr + 3) h (fr + 1) m2 (inv_zero _ I2) ltac:(lia) ltac:(lia) ltac:(lia)) as [E3 O3].
    set (m3 := e_double_at _ _ _ m2) in *. clearbody m3. rewrite E2 in E3.
    assert (I3 : inv m3) by (apply (inv_new (fr + 1) (fr + 3) m2); [exact I2|exact O3|lia|lia]).
    destruct (c_to_projective_at_ok m3 (inv_zero _ I3) fr (fr + 1) (fr + 2) ltac:(lia) ltac:(lia)) as [E4 O4].
    set (m4 := c_to_projective_at _ _ m3) in *. clearbody m4. rewrite E3 in E4.
    assert (I4 : inv m4) by (apply (inv_new (fr + 2) fr m3); [exact I3|exact O4|lia|lia]).
    destruct (p_double_at_ok m4 (inv_zero _ I4) (fr + 3) (fr + 2) (fr + 1) ltac:(lia) ltac:(lia) ltac:(lia)) as [E5 O5].
    set (m5 := p_double_at _ _ _ m4) in *. clearbody m5. rewrite E4 in E5.
    assert (I5 : inv m5) by (apply (inv_new (fr + 1) (fr + 3) m4); [exact I4|exact O5|lia|lia]).
    destruct (c_to_projective_at_ok m5 (inv_zero _ I5) fr (fr + 1) (fr + 2) ltac:(lia) ltac:(lia)) as [E6 O6].
    set (m6 := c_to_projective_at _ _ m5) in *. clearbody m6. rewrite E5 in E6.
    assert (I6 : inv m6) by (apply (inv_new (fr + 2) fr m5); [exact I5|exact O6|lia|lia]).
    destruct (p_double_at_ok m6 (inv_zero _ I6) (fr + 3) (fr + 2) (fr + 1) ltac:(lia) ltac:(lia) ltac:(lia)) as [E7 O7].
    set (m7 := p_double_at _ _ _ m6) in *. clearbody m7. rewrite E6 in E7.
    assert (I7 : inv m7) by (apply (inv_new (fr + 1) (fr + 3) m6); [exact I6|exact O7|lia|lia]).
    destruct (c_to_projective_at_ok m7 (inv_zero _ I7) fr (fr + 1) (fr + 2) ltac:(lia) ltac:(lia)) as [E8 O8].
    set (m8 := c_to_projective_at _ _ m7) in *. clearbody m8. rewrite E7 in E8.
    assert (I8 : inv m8) by (apply (inv_new (fr + 2) fr m7); [exact I7|exact O8|lia|lia]).
    destruct (p_double_at_ok m8 (inv_zero _ I8) (fr + 3) (fr + 2) (fr + 1) ltac:(lia) ltac:(lia) ltac:(lia)) as [E9 O9].
    set (m9 := p_double_at _ _ _ m8) in *. clearbody m9. rewrite E8 in E9.
    assert (I9 : inv m9) by (apply (inv_new (fr + 1) (fr + 3) m8); [exact I8|exact O9|lia|lia]).
    destruct (c_to_extended_at_ok m9 (inv_zero _ I9) fr (fr + 1) h ltac:(lia) ltac:(lia)) as [Ea Oa].
    set (ma := c_to_extended_at _ _ m9) in *. clearbody ma. rewrite E9 in Ea.
    assert (Ia : inv ma) by (apply (inv_h fr m9); [exact I9|exact Oa|lia]).
    destruct (base_fold e (map (fun k => 2 * k)%nat (seq 0 32))
      ltac:(intros i Hi; apply in_map_iff in Hi; destruct Hi as (k & <- & Hk); apply in_seq in Hk; lia) ma Ia) as [Eb Ib].
    rewrite Ea in Eb. split; [exact Eb|exact (proj2 Ib)].
  Qed.
End BaseMult.

(* GeDoubleScalarMultVartime *)
Lemma odd_next n A2 : forall c j, (j < n)%nat ->
  nth (S j) (odd_multiples n A2 c) ca_zero = e_to_cached (c_to_extended (geAdd A2 (nth j (odd_multiples n A2 c) ca_zero))).
Proof.
  induction n as [|n IH]; intros c j Hj; [lia|].
  destruct j as [|j].
  - cbn [odd_multiples nth]. now destruct n.
  - change (nth (S j) (odd_multiples n A2 (e_to_cached (c_to_extended (geAdd A2 c)))) ca_zero =
      e_to_cached (c_to_extended (geAdd A2 (nth j (odd_multiples n A2 (e_to_cached (c_to_extended (geAdd A2 c)))) ca_zero)))).
    apply IH. lia.
Qed.
Lemma odd_first n A2 c : nth 0 (odd_multiples n A2 c) ca_zero = c.
Proof. now destruct n. Qed.

Lemma digit_range a i : -15 <= at_ (slide a) i <= 15.
Proof.
  unfold at_. destruct (slide_shape a) as (L & D & _).
  destruct (Nat.lt_ge_cases i (length (slide a))) as [H | H].
  - destruct (D _ (nth_In (slide a) 0 H)) as [E | [_ B]]; [rewrite E; lia|exact B].
  - rewrite nth_overflow by exact H. lia.
Qed.
Lemma half_digit d : 0 < d <= 15 -> 0 <= Z.quot d 2 < 8.
Proof. intro H. split; [apply Z.quot_pos; lia|apply Z.quot_lt_upper_bound; lia]. Qed.
Lemma i8_neg d : -15 <= d < 0 -> i8 (- d) = - d.
Proof. intro H. unfold i8. rewrite Z.mod_small by lia. lia. Qed.

Section DoubleMult.
  Variables (fr r A : Z) (m0 : mem).
  Hypotheses (Hr : 0 <= r < fr) (HA : A < fr) (Hne : r <> A).
  Let inv (m : mem) : Prop := globals m /\ only r fr m0 m.

  Lemma dinv_new v fr' m m' : inv m -> only v fr' m m' -> fr <= v -> fr <= fr' -> inv m'.
  Proof. exact (inv_new fr r m0 Hr v fr' m m'). Qed.
  Lemma dinv_r fr' m m' : inv m -> only r fr' m m' -> fr <= fr' -> inv m'.
  Proof. exact (inv_h fr r m0 Hr fr' m m'). Qed.
  Lemma dinv_zero m : inv m -> m g_zero = FeZero.
  Proof. now intros [[G _] _]. Qed.
  Lemma dinv_d2 m : inv m -> m g_d2 = fe_d2.
  Proof. now intros [(_ & _ & G & _) _]. Qed.

  Section Loops.
    Variable Ai : list CachedGE.
    Let table (n : nat) (m : mem) : Prop :=
      forall i, (i < n)%nat -> get_ca m (v_Ai fr (Z.of_nat i)) = nth i Ai ca_zero.
    Lemma table_kept n v fr' m m' : table n m -> (n <= 8)%nat -> only v fr' m m' -> v < fr + 3 -> fr + 11 <= fr' -> table n m'.
    Proof.
      intros T Hn O Hv Hf i Hi. rewrite (only_get_ca v fr' m m') by (assumption || (unfold v_Ai; lia)). now apply T.
    Qed.

    Lemma odd_at_ok A2 k m : inv m -> (k < 7)%nat -> get_e m (v_A2 fr) = A2 -> table (S k) m ->
      nth (S k) Ai ca_zero = e_to_cached (c_to_extended (geAdd A2 (nth k Ai ca_zero))) ->
      inv (odd_at fr m k) /\ get_e (odd_at fr m k) (v_A2 fr) = A2 /\ table (S (S k)) (odd_at fr m k).
    Proof.
      intros I Hk EA T En. unfold odd_at. cbv zeta. unfold v_t, v_u, v_A2, v_end in *.
      assert (HT := T k ltac:(lia)). unfold v_Ai in *.
      destruct (geAdd_at_ok m (dinv_zero _ I) (fr + 11) fr (fr + 2) (fr + 3 + Z.of_nat k)
                  ltac:(lia) ltac:(lia) ltac:(lia) ltac:(lia) ltac:(lia)) as [E1 O1].
      set (m1 := geAdd_at _ _ _ _ m) in *. clearbody m1.
      assert (I1 : inv m1) by (apply (dinv_new fr (fr + 11) m); [exact I|exact O1|lia|lia]).
      destruct (c_to_extended_at_ok m1 (dinv_zero _ I1) (fr + 11) fr (fr + 1) ltac:(lia) ltac:(lia)) as [E2 O2].
      set (m2 := c_to_extended_at _ _ m1) in *. clearbody m2.
      assert (I2 : inv m2) by (apply (dinv_new (fr + 1) (fr + 11) m1); [exact I1|exact O2|lia|lia]).
      destruct (e_to_cached_at_ok m2 (dinv_zero _ I2) (fr + 11) (fr + 1) (fr + 3 + (Z.of_nat k + 1)) (dinv_d2 _ I2)
                  ltac:(lia) ltac:(lia)) as [E3 O3].
      set (m3 := e_to_cached_at _ _ m2) in *. clearbody m3.
      split; [apply (dinv_new (fr + 3 + (Z.of_nat k + 1)) (fr + 11) m2); [exact I2|exact O3|lia|lia]|].
      split.
      - rewrite (only_get_e _ _ _ _ (fr + 2) O3), (only_get_e _ _ _ _ (fr + 2) O2), (only_get_e _ _ _ _ (fr + 2) O1) by lia. exact EA.
      - intros i Hi. destruct (Nat.eq_dec i (S k)) as [-> | N].
        + replace (Z.of_nat (S k)) with (Z.of_nat k + 1) by lia. unfold v_Ai. rewrite E3, E2, E1, EA, HT. now rewrite En.
        + unfold v_Ai. rewrite (only_get_ca _ _ _ _ (fr + 3 + Z.of_nat i) O3), (only_get_ca _ _ _ _ (fr + 3 + Z.of_nat i) O2),
            (only_get_ca _ _ _ _ (fr + 3 + Z.of_nat i) O1) by lia. apply T. lia.
    Qed.

    Lemma add_a_at_ok d m : inv m -> table 8 m -> -15 <= d <= 15 ->
      get_c (add_a_at fr d m) (v_t fr) = add_a Ai d (get_c m (v_t fr)) /\ inv (add_a_at fr d m) /\
      table 8 (add_a_at fr d m) /\ get_p (add_a_at fr d m) r = get_p m r.
    Proof.
      intros I T Hd. unfold add_a_at, add_a, v_t, v_u, v_end.
      destruct (c_to_extended_at_ok m (dinv_zero _ I) (fr + 11) fr (fr + 1) ltac:(lia) ltac:(lia)) as [E1 O1].
      set (m1 := c_to_extended_at _ _ m) in *. clearbody m1.
      assert (I1 : inv m1) by (apply (dinv_new (fr + 1) (fr + 11) m); [exact I|exact O1|lia|lia]).
      assert (T1 : table 8 m1) by (apply (table_kept 8 (fr + 1) (fr + 11) m); [exact T|lia|exact O1|lia|lia]).
      destruct (Z.ltb_spec 0 d) as [Hp | Hp].
      - pose proof (half_digit d ltac:(lia)) as HQ. unfold v_Ai.
        destruct (geAdd_at_ok m1 (dinv_zero _ I1) (fr + 11) fr (fr + 1) (fr + 3 + Z.quot d 2)
                    ltac:(lia) ltac:(lia) ltac:(lia) ltac:(lia) ltac:(lia)) as [E2 O2].
        set (m2 := geAdd_at _ _ _ _ m1) in *. clearbody m2.
        split; [|split; [apply (dinv_new fr (fr + 11) m1); [exact I1|exact O2|lia|lia]|split]].
        + rewrite E2, E1. rewrite <- (T1 (Z.to_nat (Z.quot d 2))) by lia. unfold v_Ai. rewrite Z2Nat.id by lia. reflexivity.
        + apply (table_kept 8 fr (fr + 11) m1); [exact T1|lia|exact O2|lia|lia].
        + rewrite (only_get_p _ _ _ _ r O2), (only_get_p _ _ _ _ r O1) by lia. reflexivity.
      - destruct (Z.ltb_spec d 0) as [Hn | Hn].
        + rewrite i8_neg by lia. pose proof (half_digit (- d) ltac:(lia)) as HQ. unfold v_Ai.
          destruct (geSub_at_ok m1 (dinv_zero _ I1) (fr + 11) fr (fr + 1) (fr + 3 + Z.quot (- d) 2)
                      ltac:(lia) ltac:(lia) ltac:(lia) ltac:(lia) ltac:(lia)) as [E2 O2].
          set (m2 := geSub_at _ _ _ _ m1) in *. clearbody m2.
          split; [|split; [apply (dinv_new fr (fr + 11) m1); [exact I1|exact O2|lia|lia]|split]].
          * rewrite E2, E1. rewrite <- (T1 (Z.to_nat (Z.quot (- d) 2))) by lia. unfold v_Ai. rewrite Z2Nat.id by lia. reflexivity.
          * apply (table_kept 8 fr (fr + 11) m1); [exact T1|lia|exact O2|lia|lia].
          * rewrite (only_get_p _ _ _ _ r O2), (only_get_p _ _ _ _ r O1) by lia. reflexivity.
        + split; [reflexivity|]. split; [exact I|]. split; [exact T|reflexivity].
    Qed.

    Lemma add_b_at_ok d m : inv m -> table 8 m -> -15 <= d <= 15 ->
      get_c (add_b_at fr d m) (v_t fr) = add_b d (get_c m (v_t fr)) /\ inv (add_b_at fr d m) /\
      table 8 (add_b_at fr d m) /\ get_p (add_b_at fr d m) r = get_p m r.
    Proof.
      intros I T Hd. unfold add_b_at, add_b, v_t, v_u, v_end.
      destruct (c_to_extended_at_ok m (dinv_zero _ I) (fr + 11) fr (fr + 1) ltac:(lia) ltac:(lia)) as [E1 O1].
      set (m1 := c_to_extended_at _ _ m) in *. clearbody m1.
      assert (I1 : inv m1) by (apply (dinv_new (fr + 1) (fr + 11) m); [exact I|exact O1|lia|lia]).
      assert (T1 : table 8 m1) by (apply (table_kept 8 (fr + 1) (fr + 11) m); [exact T|lia|exact O1|lia|lia]).
      pose proof (proj1 (proj2 (proj2 (proj2 (proj2 (proj1 I1)))))) as B1.
      destruct (Z.ltb_spec 0 d) as [Hp | Hp].
      - pose proof (half_digit d ltac:(lia)) as HQ.
        destruct (geMixedAdd_at_ok m1 (dinv_zero _ I1) (fr + 11) fr (fr + 1) (g_bi (Z.to_nat (Z.quot d 2)))
                    ltac:(lia) ltac:(lia) ltac:(unfold g_bi; lia) ltac:(lia) ltac:(unfold g_bi; lia)) as [E2 O2].
        set (m2 := geMixedAdd_at _ _ _ _ m1) in *. clearbody m2.
        split; [|split; [apply (dinv_new fr (fr + 11) m1); [exact I1|exact O2|lia|lia]|split]].
        + rewrite E2, E1, B1 by lia. reflexivity.
        + apply (table_kept 8 fr (fr + 11) m1); [exact T1|lia|exact O2|lia|lia].
        + rewrite (only_get_p _ _ _ _ r O2), (only_get_p _ _ _ _ r O1) by lia. reflexivity.
      - destruct (Z.ltb_spec d 0) as [Hn | Hn].
        + rewrite i8_neg by lia. pose proof (half_digit (- d) ltac:(lia)) as HQ.
          destruct (geMixedSub_at_ok m1 (dinv_zero _ I1) (fr + 11) fr (fr + 1) (g_bi (Z.to_nat (Z.quot (- d) 2)))
                      ltac:(lia) ltac:(lia) ltac:(unfold g_bi; lia) ltac:(lia) ltac:(unfold g_bi; lia)) as [E2 O2].
          set (m2 := geMixedSub_at _ _ _ _ m1) in *. clearbody m2.
          split; [|split; [apply (dinv_new fr (fr + 11) m1); [exact I1|exact O2|lia|lia]|split]].
          * rewrite E2, E1, B1 by lia. reflexivity.
          * apply (table_kept 8 fr (fr + 11) m1); [exact T1|lia|exact O2|lia|lia].
          * rewrite (only_get_p _ _ _ _ r O2), (only_get_p _ _ _ _ r O1) by lia. reflexivity.
        + split; [reflexivity|]. split; [exact I|]. split; [exact T|reflexivity].
    Qed.

    Lemma double_loop_at_ok ra rb : (forall i, -15 <= at_ ra i <= 15) -> (forall i, -15 <= at_ rb i <= 15) -> forall i m, inv m -> table 8 m ->
      get_p (double_loop_at fr r i ra rb m) r = double_loop i Ai ra rb (get_p m r) /\
      inv (double_loop_at fr r i ra rb m).
    Proof.
      intros Da Db. induction i as [|i IH]; intros m I T; cbn [double_loop_at double_loop]; [now split|]. cbv zeta.
      destruct (p_double_at_ok m (dinv_zero _ I) (fr + 11) r fr ltac:(lia) ltac:(lia) ltac:(lia)) as [E1 O1].
      change (p_double_at (v_end fr) r (v_t fr) m) with (p_double_at (fr + 11) r fr m).
      set (m1 := p_double_at (fr + 11) r fr m) in *. clearbody m1.
      assert (I1 : inv m1) by (apply (dinv_new fr (fr + 11) m); [exact I|exact O1|lia|lia]).
      assert (T1 : table 8 m1) by (apply (table_kept 8 fr (fr + 11) m); [exact T|lia|exact O1|lia|lia]).
      destruct (add_a_at_ok (at_ ra i) m1 I1 T1 (Da i)) as (E2 & I2 & T2 & _).
      set (m2 := add_a_at fr (at_ ra i) m1) in *. clearbody m2.
      destruct (add_b_at_ok (at_ rb i) m2 I2 T2 (Db i)) as (E3 & I3 & T3 & _).
      set (m3 := add_b_at fr (at_ rb i) m2) in *. clearbody m3.
      destruct (c_to_projective_at_ok m3 (dinv_zero _ I3) (fr + 11) fr r ltac:(lia) ltac:(lia)) as [E4 O4].
      change (c_to_projective_at (v_t fr) r m3) with (c_to_projective_at fr r m3).
      set (m4 := c_to_projective_at fr r m3) in *. clearbody m4.
      assert (I4 : inv m4) by (apply (dinv_r (fr + 11) m3); [exact I3|exact O4|lia]).
      assert (T4 : table 8 m4) by (apply (table_kept 8 r (fr + 11) m3); [exact T3|lia|exact O4|lia|lia]).
      destruct (IH m4 I4 T4) as [E5 I5]. split; [|exact I5].
      rewrite E5. f_equal. unfold v_t in *. rewrite E4, E3, E2, E1. reflexivity.
    Qed.
  End Loops.

  Lemma double_at_ok a b : globals m0 ->
    get_p (GeDoubleScalarMultVartime_at fr r a A b m0) r = GeDoubleScalarMultVartime a (get_e m0 A) b /\
    only r fr m0 (GeDoubleScalarMultVartime_at fr r a A b m0).
  Proof.
    intro GM. unfold GeDoubleScalarMultVartime_at, GeDoubleScalarMultVartime. cbv zeta.
    assert (I0 : inv m0) by (split; [exact GM|apply only_refl]).
    destruct (e_to_cached_at_ok m0 (dinv_zero _ I0) (fr + 11) A (v_Ai fr 0) (dinv_d2 _ I0)
                ltac:(unfold v_Ai; lia) ltac:(unfold v_Ai; lia)) as [E1 O1].
    set (m1 := e_to_cached_at A (v_Ai fr 0) m0) in *. clearbody m1.
    assert (I1 : inv m1) by (apply (dinv_new (v_Ai fr 0) (fr + 11) m0); [exact I0|exact O1|unfold v_Ai; lia|lia]).
    destruct (e_double_at_ok (fr + 11) A fr m1 (dinv_zero _ I1) ltac:(lia) ltac:(lia) ltac:(lia)) as [E2 O2].
    change (e_double_at (v_end fr) A (v_t fr) m1) with (e_double_at (fr + 11) A fr m1).
    set (m2 := e_double_at (fr + 11) A fr m1) in *. clearbody m2.
    assert (I2 : inv m2) by (apply (dinv_new fr (fr + 11) m1); [exact I1|exact O2|lia|lia]).
    destruct (c_to_extended_at_ok m2 (dinv_zero _ I2) (fr + 11) fr (fr + 2) ltac:(lia) ltac:(lia)) as [E3 O3].
    change (c_to_extended_at (v_t fr) (v_A2 fr) m2) with (c_to_extended_at fr (fr + 2) m2).
    set (m3 := c_to_extended_at fr (fr + 2) m2) in *. clearbody m3.
    assert (I3 : inv m3) by (apply (dinv_new (fr + 2) (fr + 11) m2); [exact I2|exact O3|lia|lia]).
    rewrite (only_get_e _ _ _ _ A O1) in E2 by (unfold v_Ai; lia). rewrite E2 in E3.
    set (A2 := c_to_extended (e_double (get_e m0 A))) in *.
    set (c0 := e_to_cached (get_e m0 A)) in *.
    set (Ai := odd_multiples 7 A2 c0).
    assert (J : forall n, (n <= 7)%nat -> let k := fold_left (odd_at fr) (seq 0 n) m3 in
      inv k /\ get_e k (v_A2 fr) = A2 /\
      forall i, (i < S n)%nat -> get_ca k (v_Ai fr (Z.of_nat i)) = nth i Ai ca_zero).
    { induction n as [|n IH]; intro Hn; cbn zeta.
      - split; [exact I3|]. split; [exact E3|]. intros i Hi. replace i with 0%nat by lia.
        unfold Ai. rewrite odd_first. cbn [seq fold_left]. change (Z.of_nat 0) with 0.
        rewrite (only_get_ca _ _ _ _ (v_Ai fr 0) O3), (only_get_ca _ _ _ _ (v_Ai fr 0) O2) by (unfold v_Ai; lia). exact E1.
      - rewrite seq_S, fold_left_app. cbn [fold_left Nat.add].
        destruct (IH ltac:(lia)) as (Ik & Ek & Tk).
        apply odd_at_ok; [exact Ik|lia|exact Ek|exact Tk|]. unfold Ai. apply odd_next. lia. }
    destruct (J 7%nat ltac:(lia)) as (I4 & _ & T4). clear J.
    set (m4 := fold_left (odd_at fr) (seq 0 7) m3) in *. clearbody m4.
    destruct (p_zero_at_ok m4 (dinv_zero _ I4) r (fr + 11) ltac:(lia)) as [E5 O5].
    set (m5 := p_zero_at r m4) in *. clearbody m5.
    assert (I5 : inv m5) by (apply (dinv_r (fr + 11) m4); [exact I4|exact O5|lia]).
    assert (T5 : forall i, (i < 8)%nat -> get_ca m5 (v_Ai fr (Z.of_nat i)) = nth i Ai ca_zero).
    { intros i Hi. rewrite (only_get_ca _ _ _ _ (v_Ai fr (Z.of_nat i)) O5) by (unfold v_Ai; lia). now apply T4. }
    destruct (double_loop_at_ok Ai _ _ (digit_range a) (digit_range b) (top_digit 256 (slide a) (slide b)) m5 I5 T5) as [E6 I6].
    rewrite E5 in E6. split; [exact E6|exact (proj2 I6)].
  Qed.
End DoubleMult.
