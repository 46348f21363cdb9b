(* Point routines on a memory (Pointers.v).  Proofs. *)
From Coq Require Import Lia.
From Verif Require Import SlideFacts ScalarMult Pointers SpecPointers PointerFacts.
Open Scope Z_scope.

Ltac locne :=
  let E := fresh "E" in
  cbv [at_loc nth f0 f1 f2 f3 g_zero g_d g_d2 g_SqrtM1]; intro E;
  first [discriminate E | injection E; intros; lia].
Ltac solve_solo :=
  let n := fresh "n" in let Hn := fresh "Hn" in let Hd := fresh "Hd" in
  split; [cbn [length]; lia|]; split; [locne|];
  intros n Hn Hd; cbn [length] in Hn;
  repeat (first [exfalso; clear Hd; lia
    | destruct n as [|n]; [first [exfalso; apply Hd; reflexivity | clear Hd Hn; locne]|]]).
Ltac solve_okop :=
  let o := fresh "o" in let H := fresh "H" in
  intros o H; cbn [In] in H;
  repeat (destruct H as [<- | H]; [split; [cbn [dst]; solve_solo
    | let a := fresh "a" in let Ha := fresh "Ha" in
      intros a Ha; cbn [args In length] in *; repeat (destruct Ha as [<- | Ha]; [lia|]); destruct Ha]|]);
  destruct H.
Ltac outside :=
  match goal with |- forall o, In o ?p -> _ => try unfold p end; (* x is none of the destinations *)
  let o := fresh "o" in let H := fresh "H" in
  intros o H; cbn [In] in H;
  repeat (destruct H as [<- | H]; [let E := fresh "E" in
    cbv [dst at_loc nth f0 f1 f2 f3]; intro E; subst; cbn [fst] in *; lia|]); destruct H.

Ltac sym R := cbv [arun fold_left aexec set_at dst val nth map f0 f1 f2 f3] in R.

(* only an order of unfolding: keep the field routines folded *)
Strategy 1000 [run exec FeAdd FeSub FeNeg FeCMove FeMul FeSquare FeSquare2 sqn].

Section Invert.
  Variables (fr : Z) (out z : loc) (m : mem).
  Hypotheses (G : m g_zero = FeZero) (Hf : 0 <= fr) (Ho : fst out < fr) (Hz : fst z < fr).

  Lemma fst_ne (x : loc) k n : fst x < fr -> 0 <= k -> x <> (fr + k, n).
  Proof. intros H K E. subst x. cbn [fst] in H. lia. Qed.

  Lemma FeInvert_at_ok x : fst x < fr -> FeInvert_at fr out z m x = put m out (FeInvert (m z)) x.
  Proof.
    intro Hx. destruct z as [zb zi], out as [ob oi]. cbn [fst] in *.
    set (ls := [(zb, zi); (fr, 0%nat); (fr + 1, 0%nat); (fr + 2, 0%nat); (fr + 3, 0%nat)]).
    set (prog := [ Square 1 0; Square 2 1; Squares 1 2; Mul 2 0 2; Mul 1 1 2; Square 3 1; Mul 2 2 3;
        Square 3 2; Squares 4 3; Mul 2 3 2; Square 3 2; Squares 9 3; Mul 3 3 2;
        Square 4 3; Squares 19 4; Mul 3 4 3; Square 3 3; Squares 9 3; Mul 2 3 2;
        Square 3 2; Squares 49 3; Mul 3 3 2; Square 4 3; Squares 99 4; Mul 3 4 3;
        Square 3 3; Squares 49 3; Mul 2 3 2; Square 2 2; Squares 4 2 ]%nat).
    assert (E : FeInvert_at fr (ob, oi) (zb, zi) m =
                exec (Mul (ob, oi) (fr + 1, 0%nat) (fr, 0%nat)) (run (map (op_map (at_loc ls)) prog) m)) by reflexivity.
    destruct (sim ls prog ltac:(unfold prog, ls; solve_okop) m _ G eq_refl) as (R & R2 & K). rewrite E. clear E.
    set (m' := run _ m) in *. rewrite exec_ok by exact R2. cbn [dst val].
    pose proof (f_equal (fun l => nth 1 l FeZero) R) as R0. pose proof (f_equal (fun l => nth 2 l FeZero) R) as R1.
    clear R. subst ls prog. sym R0. sym R1. rewrite R0, R1.
    unfold put. destruct (loc_eqb_spec x (ob, oi)) as [-> | N].
    - cbv [FeInvert]. reflexivity.
    - apply K. outside.
  Qed.

  Lemma fePow22523_at_ok x : fst x < fr -> fePow22523_at fr out z m x = put m out (fePow22523 (m z)) x.
  Proof.
    intro Hx. destruct z as [zb zi], out as [ob oi]. cbn [fst] in *.
    set (ls := [(zb, zi); (fr, 0%nat); (fr + 1, 0%nat); (fr + 2, 0%nat)]).
    set (prog := [ Square 1 0; Squares 0 1; Square 2 1; Squares 1 2; Mul 2 0 2; Mul 1 1 2;
        Square 1 1; Squares 0 1; Mul 1 2 1; Square 2 1; Squares 4 2; Mul 1 2 1;
        Square 2 1; Squares 9 2; Mul 2 2 1; Square 3 2; Squares 19 3; Mul 2 3 2;
        Square 2 2; Squares 9 2; Mul 1 2 1; Square 2 1; Squares 49 2; Mul 2 2 1;
        Square 3 2; Squares 99 3; Mul 2 3 2; Square 2 2; Squares 49 2; Mul 1 2 1;
        Square 1 1; Squares 1 1 ]%nat).
    assert (E : fePow22523_at fr (ob, oi) (zb, zi) m =
                exec (Mul (ob, oi) (fr, 0%nat) (zb, zi)) (run (map (op_map (at_loc ls)) prog) m)) by reflexivity.
    destruct (sim ls prog ltac:(unfold prog, ls; solve_okop) m _ G eq_refl) as (R & R2 & K). rewrite E. clear E.
    set (m' := run _ m) in *. rewrite exec_ok by exact R2. cbn [dst val].
    pose proof (f_equal (fun l => nth 0 l FeZero) R) as R0. pose proof (f_equal (fun l => nth 1 l FeZero) R) as R1.
    clear R. subst ls prog. sym R0. sym R1. rewrite R0, R1.
    unfold put. destruct (loc_eqb_spec x (ob, oi)) as [-> | N].
    - cbv [fePow22523]. reflexivity.
    - apply K. outside.
  Qed.
End Invert.

Ltac go ls prog :=
  intros; cbn zeta;
  match goal with
  | G : ?m g_zero = FeZero |- context [?f ?m] =>
    let OK := fresh "OK" in
    assert (OK : forall o, In o prog -> okop ls o) by solve_okop;
    let R := fresh "R" in let K := fresh "K" in
    destruct (sim ls prog OK m _ G eq_refl) as (R & _ & K); clear OK;
    change (run (map (op_map (at_loc ls)) prog) m) with (f m) in R, K;
    set (m' := f m) in *;
    let R0 := fresh "R" in let R1 := fresh "R" in let R2 := fresh "R" in let R3 := fresh "R" in
    pose proof (f_equal (fun l => nth 0 l FeZero) R) as R0; pose proof (f_equal (fun l => nth 1 l FeZero) R) as R1;
    pose proof (f_equal (fun l => nth 2 l FeZero) R) as R2; pose proof (f_equal (fun l => nth 3 l FeZero) R) as R3;
    clear R; sym R0; sym R1; sym R2; sym R3
  end.
Ltac only_tac K := let x := fresh "x" in intros x ? ?; apply K; outside.

Section Routines.
  Variable m : mem.
  Hypothesis G : m g_zero = FeZero.

  Lemma p_zero_at_ok r fr : 0 <= r -> get_p (p_zero_at r m) r = p_zero /\ only r fr m (p_zero_at r m).
  Proof.
    go [f0 r; f1 r; f2 r] [Zero 0; One 1; One 2]%nat. split; [|only_tac K].
    unfold get_p, f0, f1, f2. rewrite R0, R1, R2. reflexivity.
  Qed.
  Lemma e_zero_at_ok r fr : 0 <= r -> get_e (e_zero_at r m) r = e_zero /\ only r fr m (e_zero_at r m).
  Proof.
    go [f0 r; f1 r; f2 r; f3 r] [Zero 0; One 1; One 2; Zero 3]%nat. split; [|only_tac K].
    unfold get_e, f0, f1, f2, f3. rewrite R0, R1, R2, R3. reflexivity.
  Qed.
  Lemma pc_zero_at_ok r fr : 0 <= r -> get_pc (pc_zero_at r m) r = pc_zero /\ only r fr m (pc_zero_at r m).
  Proof.
    go [f0 r; f1 r; f2 r] [One 0; One 1; Zero 2]%nat. split; [|only_tac K].
    unfold get_pc, f0, f1, f2. rewrite R0, R1, R2. reflexivity.
  Qed.

  Lemma p_double_at_ok fr p r : 0 <= r < fr -> p < fr -> r <> p ->
    get_c (p_double_at fr p r m) r = p_double (get_p m p) /\ only r fr m (p_double_at fr p r m).
  Proof.
    go [f0 r; f1 r; f2 r; f3 r; f0 p; f1 p; f2 p; f0 fr]
       [Square 0 4; Square 2 5; Square2 3 6; Add 1 4 5; Square 7 1; Add 1 2 0; Sub 2 2 0; Sub 0 7 1; Sub 3 3 2]%nat.
    split; [|only_tac K].
    unfold get_c, f0, f1, f2, f3. rewrite R0, R1, R2, R3. reflexivity.
  Qed.
  Lemma e_to_projective_at_ok fr p r : 0 <= r -> r <> p ->
    get_p (e_to_projective_at p r m) r = e_to_projective (get_e m p) /\ only r fr m (e_to_projective_at p r m).
  Proof.
    go [f0 r; f1 r; f2 r; f0 p; f1 p; f2 p] [Copy 0 3; Copy 1 4; Copy 2 5]%nat. split; [|only_tac K].
    unfold get_p, f0, f1, f2, f3. rewrite R0, R1, R2. reflexivity.
  Qed.
  Lemma e_to_cached_at_ok fr p r : m g_d2 = fe_d2 -> 0 <= r -> r <> p ->
    get_ca (e_to_cached_at p r m) r = e_to_cached (get_e m p) /\ only r fr m (e_to_cached_at p r m).
  Proof.
    intro D. go [f0 r; f1 r; f2 r; f3 r; f0 p; f1 p; f2 p; f3 p; g_d2]
                [Add 0 5 4; Sub 1 5 4; Copy 2 6; Mul 3 7 8]%nat. split; [|only_tac K].
    unfold get_ca, f0, f1, f2, f3. rewrite D in *. rewrite R0, R1, R2, R3. reflexivity.
  Qed.
  Lemma c_to_projective_at_ok fr p r : 0 <= r -> r <> p ->
    get_p (c_to_projective_at p r m) r = c_to_projective (get_c m p) /\ only r fr m (c_to_projective_at p r m).
  Proof.
    go [f0 r; f1 r; f2 r; f0 p; f1 p; f2 p; f3 p] [Mul 0 3 6; Mul 1 4 5; Mul 2 5 6]%nat. split; [|only_tac K].
    unfold get_p, f0, f1, f2, f3. rewrite R0, R1, R2. reflexivity.
  Qed.
  Lemma c_to_extended_at_ok fr p r : 0 <= r -> r <> p ->
    get_e (c_to_extended_at p r m) r = c_to_extended (get_c m p) /\ only r fr m (c_to_extended_at p r m).
  Proof.
    go [f0 r; f1 r; f2 r; f3 r; f0 p; f1 p; f2 p; f3 p] [Mul 0 4 7; Mul 1 5 6; Mul 2 6 7; Mul 3 4 5]%nat.
    split; [|only_tac K].
    unfold get_e, f0, f1, f2, f3. rewrite R0, R1, R2, R3. reflexivity.
  Qed.

  Lemma geAdd_at_ok fr r p q : 0 <= r < fr -> p < fr -> q < fr -> r <> p -> r <> q ->
    get_c (geAdd_at fr r p q m) r = geAdd (get_e m p) (get_ca m q) /\ only r fr m (geAdd_at fr r p q m).
  Proof.
    go [f0 r; f1 r; f2 r; f3 r; f0 p; f1 p; f2 p; f3 p; f0 q; f1 q; f2 q; f3 q; f0 fr]
       [Add 0 5 4; Sub 1 5 4; Mul 2 0 8; Mul 1 1 9; Mul 3 11 7; Mul 0 6 10; Add 12 0 0; Sub 0 2 1; Add 1 2 1;
        Add 2 12 3; Sub 3 12 3]%nat.
    split; [|only_tac K].
    unfold get_c, f0, f1, f2, f3. rewrite R0, R1, R2, R3. reflexivity.
  Qed.
  Lemma geSub_at_ok fr r p q : 0 <= r < fr -> p < fr -> q < fr -> r <> p -> r <> q ->
    get_c (geSub_at fr r p q m) r = geSub (get_e m p) (get_ca m q) /\ only r fr m (geSub_at fr r p q m).
  Proof.
    go [f0 r; f1 r; f2 r; f3 r; f0 p; f1 p; f2 p; f3 p; f0 q; f1 q; f2 q; f3 q; f0 fr]
       [Add 0 5 4; Sub 1 5 4; Mul 2 0 9; Mul 1 1 8; Mul 3 11 7; Mul 0 6 10; Add 12 0 0; Sub 0 2 1; Add 1 2 1;
        Sub 2 12 3; Add 3 12 3]%nat.
    split; [|only_tac K].
    unfold get_c, f0, f1, f2, f3. rewrite R0, R1, R2, R3. reflexivity.
  Qed.
  Lemma geMixedAdd_at_ok fr r p q : 0 <= r < fr -> p < fr -> q < fr -> r <> p -> r <> q ->
    get_c (geMixedAdd_at fr r p q m) r = geMixedAdd (get_e m p) (get_pc m q) /\ only r fr m (geMixedAdd_at fr r p q m).
  Proof.
    go [f0 r; f1 r; f2 r; f3 r; f0 p; f1 p; f2 p; f3 p; f0 q; f1 q; f2 q; f0 fr]
       [Add 0 5 4; Sub 1 5 4; Mul 2 0 8; Mul 1 1 9; Mul 3 10 7; Add 11 6 6; Sub 0 2 1; Add 1 2 1;
        Add 2 11 3; Sub 3 11 3]%nat.
    split; [|only_tac K].
    unfold get_c, f0, f1, f2, f3. rewrite R0, R1, R2, R3. reflexivity.
  Qed.
  Lemma geMixedSub_at_ok fr r p q : 0 <= r < fr -> p < fr -> q < fr -> r <> p -> r <> q ->
    get_c (geMixedSub_at fr r p q m) r = geMixedSub (get_e m p) (get_pc m q) /\ only r fr m (geMixedSub_at fr r p q m).
  Proof.
    go [f0 r; f1 r; f2 r; f3 r; f0 p; f1 p; f2 p; f3 p; f0 q; f1 q; f2 q; f0 fr]
       [Add 0 5 4; Sub 1 5 4; Mul 2 0 9; Mul 1 1 8; Mul 3 10 7; Add 11 6 6; Sub 0 2 1; Add 1 2 1;
        Sub 2 11 3; Add 3 11 3]%nat.
    split; [|only_tac K].
    unfold get_c, f0, f1, f2, f3. rewrite R0, R1, R2, R3. reflexivity.
  Qed.
  Lemma pc_cmove_at_ok fr t u b : 0 <= t -> t <> u ->
    get_pc (pc_cmove_at t u b m) t = pc_cmove (get_pc m t) (get_pc m u) b /\ only t fr m (pc_cmove_at t u b m).
  Proof.
    go [f0 t; f1 t; f2 t; f0 u; f1 u; f2 u] [CMove 0 3 b; CMove 1 4 b; CMove 2 5 b]%nat. split; [|only_tac K].
    unfold get_pc, f0, f1, f2. rewrite R0, R1, R2. reflexivity.
  Qed.
End Routines.
