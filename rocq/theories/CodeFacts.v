From Verif Require Import PointerFacts StepFacts SpecSteps.
From Verif Require Export SpecCode.
Local Open Scope string_scope.
Local Open Scope list_scope.
Local Open Scope Z_scope.

(* ---- a check that finds programs oblivious ---- *)
Definition name : Type := string * nat.
Definition name_eqb (a b : name) : bool := (Nat.eqb (snd a) (snd b) && String.eqb (fst a) (fst b))%bool.
Definition known (P : list name) (a : name) : bool := existsb (name_eqb a) P.
(* the value depends on known variables only *)
Fixpoint fixed (P : list name) (e : expr) : bool :=
  match e with
  | ELit _ => true
  | EVar x k => known P (x, k)
  | EElem _ _ => false
  | EBin _ _ a b => fixed P a && fixed P b
  | EConv _ a => fixed P a
  end.
(* all indices are fixed *)
Fixpoint steady (P : list name) (e : expr) : bool :=
  match e with
  | ELit _ | EVar _ _ => true
  | EElem _ i => fixed P i
  | EBin _ _ a b => steady P a && steady P b
  | EConv _ a => steady P a
  end.
Definition drop (a : name) (P : list name) : list name := filter (fun b => negb (name_eqb b a)) P.
Definition subset (P Q : list name) : bool := forallb (known Q) P.
Fixpoint assigned (c : code) : list name :=
  match c with
  | CSkip | CPut _ _ _ => []
  | CSeq c d | CIf _ c d => assigned c ++ assigned d
  | CSet x k _ => [(x, k)]
  | CFor x k _ c => (x, k) :: assigned c
  end.
(* what a loop over c with the counter a leaves alone *)
Definition through (a : name) (c : code) (P : list name) : list name := filter (fun b => negb (known (assigned c) b)) (drop a P).
Fixpoint check (P : list name) (c : code) : option (list name) :=
  match c with
  | CSkip => Some P
  | CSeq c d => match check P c with Some P => check P d | None => None end
  | CSet x k e => if steady P e then Some (if fixed P e then (x, k) :: P else drop (x, k) P) else None
  | CPut _ i e => if (fixed P i && steady P e)%bool then Some P else None
  | CIf _ _ _ => None
  | CFor x k n c =>
      match check ((x, k) :: through (x, k) c P) c with
      | Some Q => if subset (through (x, k) c P) Q then Some (through (x, k) c P) else None
      | None => None
      end
  end.

Definition agree (P : list name) (s s' : state) : Prop :=
  ptrs s = ptrs s' /\ forall x k, known P (x, k) = true -> vars s x k = vars s' x k.
Lemma name_eqb_eq a b : name_eqb a b = true <-> a = b.
Proof.
  destruct a as [x k], b as [y j]. unfold name_eqb. cbn [fst snd]. rewrite Bool.andb_true_iff, Nat.eqb_eq, String.eqb_eq.
  split; [now intros [-> ->]|]. intro E. now inversion E.
Qed.
Lemma known_in P a : known P a = true <-> In a P.
Proof.
  unfold known. rewrite existsb_exists. split.
  - intros (b & I & E). apply name_eqb_eq in E. now subst.
  - intro I. exists a. split; [exact I|]. now apply name_eqb_eq.
Qed.
Lemma drop_in P a b : In b (drop a P) <-> In b P /\ b <> a.
Proof.
  unfold drop. rewrite filter_In, Bool.negb_true_iff. split; intros [I N]; (split; [exact I|]).
  - intros ->. rewrite (proj2 (name_eqb_eq a a) eq_refl) in N. discriminate.
  - destruct (name_eqb b a) eqn:E; [|reflexivity]. now apply name_eqb_eq in E.
Qed.
Lemma fixed_val P e s s' : agree P s s' -> fixed P e = true -> cval e s = cval e s'.
Proof.
  intros [Ep Ev]. induction e as [| | |w o a IHa b IHb|w a IHa]; cbn [fixed cval]; intro F; try congruence.
  - now apply Ev.
  - apply andb_prop in F. destruct F as [Fa Fb]. now rewrite (IHa Fa), (IHb Fb).
  - now rewrite (IHa F).
Qed.
Lemma fixed_steady P e : fixed P e = true -> steady P e = true.
Proof.
  induction e; cbn [fixed steady]; intro F; try congruence; try discriminate; auto.
  apply andb_prop in F. destruct F. rewrite IHe1, IHe2; auto.
Qed.
Lemma steady_seen P e s s' : agree P s s' -> steady P e = true -> cseen e s = cseen e s'.
Proof.
  intros A. pose proof (proj1 A) as Ep. induction e as [| |a i IHi|w o a IHa b IHb|w a IHa]; cbn [steady cseen]; intro F; try reflexivity.
  - rewrite (fixed_val _ _ _ _ A F), Ep. now rewrite (IHi (fixed_steady _ _ F)).
  - apply andb_prop in F. destruct F as [Fa Fb]. now rewrite (IHa Fa), (IHb Fb).
  - now rewrite (IHa F).
Qed.
Lemma set_var_at x k z s y j : vars (set_var x k z s) y j = if name_eqb (y, j) (x, k) then z else vars s y j.
Proof. reflexivity. Qed.
Lemma agree_set P x k z z' s s' : agree P s s' -> agree (drop (x, k) P) (set_var x k z s) (set_var x k z' s').
Proof.
  intros [Ep Ev]. split; [exact Ep|]. intros y j K. apply known_in, drop_in in K. destruct K as [I N].
  rewrite !set_var_at. destruct (name_eqb (y, j) (x, k)) eqn:E; [now apply name_eqb_eq in E|]. apply Ev. now apply known_in.
Qed.
Lemma agree_known P x k z s s' : agree P s s' -> agree ((x, k) :: P) (set_var x k z s) (set_var x k z s').
Proof.
  intros [Ep Ev]. split; [exact Ep|]. intros y j K.
  rewrite !set_var_at. destruct (name_eqb (y, j) (x, k)) eqn:E; [reflexivity|].
  apply Ev. apply known_in in K. destruct K as [K|K]; [|now apply known_in].
  rewrite (proj2 (name_eqb_eq (y, j) (x, k)) (eq_sym K)) in E. discriminate.
Qed.
Lemma agree_sub P Q s s' : subset P Q = true -> agree Q s s' -> agree P s s'.
Proof.
  intros Su [Ep Ev]. split; [exact Ep|]. intros y j K. apply Ev. apply known_in in K.
  unfold subset in Su. rewrite forallb_forall in Su. exact (Su _ K).
Qed.
Lemma agree_cells P s s' l i z l' i' z' : agree P s s' -> agree P (set_cell l i z s) (set_cell l' i' z' s').
Proof. exact (fun A => A). Qed.

Definition same_run (Q : list name) (r r' : state * list sight) : Prop := agree Q (fst r) (fst r') /\ snd r = snd r'.
Lemma rounds_same x k P Q f : subset P Q = true -> ~ In (x, k) P ->
  (forall s s', agree ((x, k) :: P) s s' -> same_run Q (f s) (f s')) ->
  forall n i s s', agree P s s' -> same_run P (rounds x k f i n s) (rounds x k f i n s').
Proof.
  intros Su N F n. induction n as [|n IH]; intros i s s' A; cbn [rounds]; [now split|].
  destruct (F _ _ (agree_known P x k i s s' A)) as [A1 T1].
  destruct (f (set_var x k i s)) as [s1 t1], (f (set_var x k i s')) as [s1' t1']. cbn [fst snd] in A1, T1.
  destruct (IH (i + 1) s1 s1' (agree_sub _ _ _ _ Su A1)) as [A2 T2].
  destruct (rounds x k f (i + 1) n s1) as [s2 t2], (rounds x k f (i + 1) n s1') as [s2' t2']. cbn [fst snd] in A2, T2 |- *.
  split; [exact A2|]. cbn [snd]. now rewrite T1, T2.
Qed.
Lemma check_same c : forall P Q s s', check P c = Some Q -> agree P s s' -> same_run Q (crun c s) (crun c s').
Proof.
  induction c as [|c IHc d IHd|x k e|a i e|e c IHc d IHd|x k n c IHc]; intros P Q s s' E A; cbn [check] in E; cbn [crun].
  - injection E as <-. now split.
  - destruct (check P c) as [P1|] eqn:E1; [|discriminate].
    destruct (IHc _ _ _ _ E1 A) as [A1 T1]. destruct (crun c s) as [s1 t1], (crun c s') as [s1' t1']. cbn [fst snd] in A1, T1.
    destruct (IHd _ _ _ _ E A1) as [A2 T2]. destruct (crun d s1) as [s2 t2], (crun d s1') as [s2' t2']. cbn [fst snd] in A2, T2 |- *.
    split; [exact A2|]. cbn [snd]. now rewrite T1, T2.
  - destruct (steady P e) eqn:St; [|discriminate]. split; [|exact (steady_seen _ _ _ _ A St)]. cbn [fst].
    destruct (fixed P e) eqn:F; injection E as <-; [rewrite (fixed_val _ _ _ _ A F); now apply agree_known|now apply agree_set].
  - destruct (fixed P i && steady P e)%bool eqn:F; [|discriminate]. injection E as <-. apply andb_prop in F. destruct F as [F St].
    split; [now apply agree_cells|]. cbn [snd].
    rewrite (steady_seen _ _ _ _ A St), (steady_seen _ _ _ _ A (fixed_steady _ _ F)), (fixed_val _ _ _ _ A F). now rewrite (proj1 A).
  - discriminate.
  - destruct (check _ c) as [P1|] eqn:E1; [|discriminate]. destruct (subset _ P1) eqn:Su; [|discriminate]. injection E as <-.
    apply rounds_same with (Q := P1).
    + exact Su.
    + intro I. apply filter_In in I. destruct I as [I _]. apply drop_in in I. now apply (proj2 I).
    + intros u u' Au. exact (IHc _ _ _ _ E1 Au).
    + refine (agree_sub _ _ _ _ _ A). apply forallb_forall. intros b I. apply filter_In in I. destruct I as [I _]. apply known_in. now apply drop_in in I.
Qed.
Lemma check_oblivious c Q : check [] c = Some Q -> oblivious c.
Proof. intros E s s' Ep. apply (check_same c [] Q s s' E). split; [exact Ep|]. discriminate. Qed.
Ltac obl := eapply check_oblivious; vm_compute; reflexivity.

(* ---- the field routines ---- *)
Ltac go := cbv -[loc_eqb i32 i64 i8 Z.add Z.sub Z.mul Z.shiftl Z.shiftr Z.land Z.lor Z.lxor Z.opp Z.modulo b2z z2b byte_at].
Ltac leaf := let v := fresh in let p := fresh in let m := fresh in intros [v p m] ?; go; destruct (loc_eqb _ _); reflexivity.
Definition gives (c : code) (d : string) (f : state -> fe) : Prop :=
  forall s l, as_fe (cells (fst (crun c s))) l = put (as_fe (cells s)) (ptrs s d) (f s) l.
Definition arg (a : string) (s : state) : fe := as_fe (cells s) (ptrs s a).
Lemma zero_code : gives FeZero_code "fe" (arg "zero").
Proof. unfold gives, put, arg. leaf. Qed.
Lemma one_code : gives FeOne_code "fe" (fun s => set_limb 0 1 (arg "zero" s)).
Proof. unfold gives, put, arg. leaf. Qed.
Lemma copy_code : gives FeCopy_code "dst" (arg "src").
Proof. unfold gives, put, arg. leaf. Qed.
Lemma add_code : gives FeAdd_code "dst" (fun s => FeAdd (arg "a" s) (arg "b" s)).
Proof. unfold gives, put, arg. leaf. Qed.
Lemma sub_code : gives FeSub_code "dst" (fun s => FeSub (arg "a" s) (arg "b" s)).
Proof. unfold gives, put, arg. leaf. Qed.
Lemma neg_code : gives FeNeg_code "h" (fun s => FeNeg (arg "f" s)).
Proof. unfold gives, put, arg. leaf. Qed.
Lemma cmove_code : gives FeCMove_code "f" (fun s => FeCMove (arg "f" s) (arg "g" s) (vars s "b" 0%nat)).
Proof. unfold gives, put, arg. leaf. Qed.
Lemma mul_code : gives FeMul_code "h" (fun s => FeMul (arg "f" s) (arg "g" s)).
Proof. unfold gives, put, arg. leaf. Qed.
Lemma square_code : gives FeSquare_code "h" (fun s => FeSquare (arg "f" s)).
Proof. unfold gives, put, arg. leaf. Qed.
Lemma square2_code : gives FeSquare2_code "h" (fun s => FeSquare2 (arg "f" s)).
Proof. unfold gives, put, arg. leaf. Qed.

(* ---- calls ---- *)
Lemma rounds_ptrs x k f : (forall s, ptrs (fst (f s)) = ptrs s) -> forall n i s, ptrs (fst (rounds x k f i n s)) = ptrs s.
Proof.
  intros F n. induction n as [|n IH]; intros i s; cbn [rounds]; [reflexivity|].
  specialize (F (set_var x k i s)). destruct (f (set_var x k i s)) as [s1 t1]. cbn [fst] in F.
  specialize (IH (i + 1) s1). destruct (rounds x k f (i + 1) n s1) as [s2 t2]. cbn [fst] in IH |- *. now rewrite IH, F.
Qed.
Lemma crun_ptrs c : forall s, ptrs (fst (crun c s)) = ptrs s.
Proof.
  induction c as [|c IHc d IHd|x k e|a i e|e c IHc d IHd|x k n c IHc]; intro s; cbn [crun]; try reflexivity.
  - specialize (IHc s). destruct (crun c s) as [s1 t1]. cbn [fst] in IHc. specialize (IHd s1). destruct (crun d s1) as [s2 t2].
    cbn [fst] in IHd |- *. now rewrite IHd, IHc.
  - destruct (negb (cval e s =? 0)); [specialize (IHc s); destruct (crun c s)|specialize (IHd s); destruct (crun d s)]; assumption.
  - now apply rounds_ptrs.
Qed.

Definition val0 (m : mem) (o : call) : fe :=
  match o with Zero _ => m g_zero | One _ => set_limb 0 1 (m g_zero) | o => val m o end.
Lemma exec_put o m x : exec o m x = put m (dst o) (val0 m o) x.
Proof.
  destruct o; cbn [exec dst val0 val].
  - reflexivity.
  - unfold FeOne_at, store, FeZero_at. rewrite put_same. unfold put. now destruct (loc_eqb x d).
  - reflexivity.
  - apply FeAdd_at_ok.
  - apply FeSub_at_ok.
  - apply FeNeg_at_ok.
  - apply FeCMove_at_ok.
  - apply store_all_ok.
  - apply store_all_ok.
  - apply store_all_ok.
  - apply squares_ok.
Qed.
Lemma val0_ext o m m' : (forall y, m y = m' y) -> val0 m o = val0 m' o.
Proof. intro E. destruct o; cbn [val0 val]; now rewrite ?E. Qed.
Lemma exec_ext o m m' : (forall y, m y = m' y) -> forall x, exec o m x = exec o m' x.
Proof. intros E x. rewrite !exec_put, (val0_ext o m m' E). now apply put_ext. Qed.
Lemma run_ext l : forall m m', (forall y, m y = m' y) -> forall x, run l m x = run l m' x.
Proof.
  induction l as [|o l IH]; intros m m' E x; [apply E|].
  change (run l (exec o m) x = run l (exec o m') x). apply IH. intro y. now apply exec_ext.
Qed.

Lemma sqn_shift n x : sqn (S n) x = sqn n (FeSquare x).
Proof. induction n as [|n IH]; [reflexivity|]. change (FeSquare (sqn (S n) x) = FeSquare (sqn n (FeSquare x))). now rewrite IH. Qed.
Lemma squares_code n : forall i s l, ptrs s "f" = ptrs s "h" ->
  as_fe (cells (fst (rounds "i" 0 (crun FeSquare_code) i n s))) l = put (as_fe (cells s)) (ptrs s "h") (sqn n (arg "h" s)) l.
Proof.
  induction n as [|n IH]; intros i s l E; cbn [rounds].
  - cbn [fst]. unfold put, arg. change (sqn 0 ?z) with z. destruct (loc_eqb_spec l (ptrs s "h")) as [-> |]; reflexivity.
  - pose proof (square_code (set_var "i" 0 i s)) as G. pose proof (crun_ptrs FeSquare_code (set_var "i" 0 i s)) as Ep.
    destruct (crun FeSquare_code (set_var "i" 0 i s)) as [s1 t1]. cbn [fst] in G, Ep. cbn [set_var ptrs cells] in G, Ep.
    assert (E1 : ptrs s1 "f" = ptrs s1 "h") by now rewrite Ep.
    specialize (IH (i + 1) s1 l E1). destruct (rounds "i" 0 (crun FeSquare_code) (i + 1) n s1) as [s2 t2]. cbn [fst] in IH |- *.
    rewrite IH, Ep. unfold arg. rewrite Ep, (G (ptrs s "h")), put_same. unfold arg. cbn [set_var ptrs cells]. rewrite E.
    unfold put. rewrite G. unfold put. cbn [set_var cells]. rewrite sqn_shift. now destruct (loc_eqb l (ptrs s "h")).
Qed.
Lemma perform_run c m : fst (perform c m) = cells (fst (crun (code_of c) (State (value_params c) (params c) m))).
Proof. unfold perform. now destruct (crun (code_of c) _). Qed.
Lemma gives_at c d f v p m x l e : gives c d f -> p d = l -> f (State v p m) = e ->
  as_fe (cells (fst (crun c (State v p m)))) x = put (as_fe m) l e x.
Proof. intros G <- <-. exact (G (State v p m) x). Qed.
Lemma crun_for x k n c s : crun (CFor x k n c) s = rounds x k (crun c) 0 n s.
Proof. reflexivity. Qed.
Lemma loop_code n v p m x l : p "f" = l -> p "h" = l ->
  as_fe (cells (fst (crun (CFor "i" 0 n FeSquare_code) (State v p m)))) x = put (as_fe m) l (sqn n (as_fe m l)) x.
Proof.
  intros E1 E2. rewrite crun_for. rewrite squares_code by (cbn [ptrs]; now rewrite E1, E2).
  unfold arg. cbn [ptrs cells]. now rewrite E2.
Qed.
Lemma perform_fe c m x : as_fe (fst (perform c m)) x = exec c (as_fe m) x.
Proof.
  rewrite exec_put, perform_run. destruct c; cbn [code_of dst val0 val].
  - now apply (gives_at _ _ _ _ _ _ _ _ _ zero_code).
  - now apply (gives_at _ _ _ _ _ _ _ _ _ one_code).
  - now apply (gives_at _ _ _ _ _ _ _ _ _ copy_code).
  - now apply (gives_at _ _ _ _ _ _ _ _ _ add_code).
  - now apply (gives_at _ _ _ _ _ _ _ _ _ sub_code).
  - now apply (gives_at _ _ _ _ _ _ _ _ _ neg_code).
  - now apply (gives_at _ _ _ _ _ _ _ _ _ cmove_code).
  - now apply (gives_at _ _ _ _ _ _ _ _ _ mul_code).
  - now apply (gives_at _ _ _ _ _ _ _ _ _ square_code).
  - now apply (gives_at _ _ _ _ _ _ _ _ _ square2_code).
  - now apply loop_code.
Qed.
Lemma perform_all_fe l : forall m x, as_fe (fst (perform_all l m)) x = run l (as_fe m) x.
Proof.
  induction l as [|c l IH]; intros m x; [reflexivity|]. cbn [perform_all].
  pose proof (perform_fe c m) as G. destruct (perform c m) as [m1 t1]. cbn [fst] in G.
  specialize (IH m1 x). destruct (perform_all l m1) as [m2 t2]. cbn [fst] in IH |- *. rewrite IH.
  change (run (c :: l) (as_fe m)) with (run l (exec c (as_fe m))). now apply run_ext.
Qed.

Lemma obl_call c : oblivious (code_of c).
Proof. destruct c; cbn [code_of]; obl. Qed.
Lemma perform_seen c m m' : snd (perform c m) = snd (perform (seen c) m').
Proof.
  unfold perform.
  transitivity (snd (crun (code_of c) (State (value_params c) (params c) m))). { now destruct (crun (code_of c) _). }
  transitivity (snd (crun (code_of (seen c)) (State (value_params (seen c)) (params (seen c)) m'))). 2:{ now destruct (crun (code_of (seen c)) _). }
  replace (code_of (seen c)) with (code_of c) by now destruct c.
  apply (obl_call c). cbn [ptrs]. now destruct c.
Qed.
Lemma perform_all_view l : forall l' m m', view l = view l' -> snd (perform_all l m) = snd (perform_all l' m').
Proof.
  induction l as [|c l IH]; intros [|c' l'] m m' E; try discriminate; [reflexivity|]. cbn [perform_all].
  cbn [view map] in E. injection E as E1 E2.
  assert (T : snd (perform c m) = snd (perform c' m')).
  { rewrite (perform_seen c m m), (perform_seen c' m' m). now rewrite E1. }
  destruct (perform c m) as [m1 t1], (perform c' m') as [m1' t1']. cbn [snd] in T. subst t1'.
  specialize (IH l' m1 m1' E2). destruct (perform_all l m1) as [m2 t2], (perform_all l' m1') as [m2' t2']. cbn [snd] in IH |- *. now rewrite IH.
Qed.
Lemma base_sights fr h a a' m m' :
  snd (perform_all (GeScalarMultBase_calls fr h a) m) = snd (perform_all (GeScalarMultBase_calls fr h a') m').
Proof. apply perform_all_view, base_view. Qed.
Lemma base_result fr h a m x :
  as_fe (fst (perform_all (GeScalarMultBase_calls fr h a) m)) x = GeScalarMultBase_at fr h a (as_fe m) x.
Proof. rewrite perform_all_fe. now rewrite base_run. Qed.
