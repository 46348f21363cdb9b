From Verif Require Import PointerFacts CodeFacts.
From Verif Require Export SpecCode.
Local Open Scope string_scope.
Local Open Scope list_scope.
Local Open Scope Z_scope.

(* ---- where a program writes ---- *)
Fixpoint targets (c : code) : list string :=
  match c with
  | CSkip | CSet _ _ _ => []
  | CSeq c d | CIf _ c d => targets c ++ targets d
  | CPut a _ _ => [a]
  | CFor _ _ _ c => targets c
  end.
Lemma rounds_cells x k f l z : (forall s, cells (fst (f s)) l z = cells s l z) -> forall n i s, cells (fst (rounds x k f i n s)) l z = cells s l z.
Proof.
  intros F n. induction n as [|n IH]; intros i s; cbn [rounds]; [reflexivity|].
  specialize (F (set_var x k i s)). destruct (f (set_var x k i s)) as [s1 t1]. cbn [fst] in F.
  specialize (IH (i + 1) s1). destruct (rounds x k f (i + 1) n s1) as [s2 t2]. cbn [fst] in IH |- *. now rewrite IH, F.
Qed.
Lemma rounds_cells_if x k f (P : state -> Prop) l z :
  (forall s y j v, P s -> P (set_var y j v s)) -> (forall s, P s -> P (fst (f s)) /\ cells (fst (f s)) l z = cells s l z) ->
  forall n i s, P s -> cells (fst (rounds x k f i n s)) l z = cells s l z.
Proof.
  intros V F n. induction n as [|n IH]; intros i s H; cbn [rounds]; [reflexivity|].
  destruct (F _ (V _ x k i H)) as [P1 E1]. destruct (f (set_var x k i s)) as [s1 t1]. cbn [fst] in P1, E1.
  specialize (IH (i + 1) s1 P1). destruct (rounds x k f (i + 1) n s1) as [s2 t2]. cbn [fst] in IH |- *. now rewrite IH, E1.
Qed.
Lemma cells_kept c : forall s l z, ~ In l (map (ptrs s) (targets c)) -> cells (fst (crun c s)) l z = cells s l z.
Proof.
  induction c as [|c IHc d IHd|x k e|a i e|e c IHc d IHd|x k n c IHc]; intros s l z N; cbn [crun]; cbn [targets] in N; try reflexivity.
  - rewrite map_app, in_app_iff in N. specialize (IHc s l z (fun I => N (or_introl I))). pose proof (crun_ptrs c s) as Ep.
    destruct (crun c s) as [s1 t1]. cbn [fst] in IHc, Ep.
    assert (N1 : ~ In l (map (ptrs s1) (targets d))) by (rewrite Ep; exact (fun I => N (or_intror I))).
    specialize (IHd s1 l z N1). destruct (crun d s1) as [s2 t2]. cbn [fst] in IHd |- *. now rewrite IHd, IHc.
  - cbn [fst]. unfold set_cell. cbn [cells]. destruct (loc_eqb_spec l (ptrs s a)) as [-> |]; [|now rewrite Bool.andb_false_r].
    exfalso. apply N. now left.
  - rewrite map_app, in_app_iff in N. destruct (negb (cval e s =? 0)).
    + specialize (IHc s l z (fun I => N (or_introl I))). now destruct (crun c s).
    + specialize (IHd s l z (fun I => N (or_intror I))). now destruct (crun d s).
  - apply rounds_cells_if with (P := fun s => ~ In l (map (ptrs s) (targets c))); [now intros| |exact N].
    intros u H. split; [rewrite crun_ptrs; exact H|]. now apply IHc.
Qed.
Lemma kept c s l : incl (map (ptrs s) (targets c)) l -> only_at l (cells s) (cells (fst (crun c s))).
Proof. intros I x z N. apply cells_kept. intro H. now apply N, I. Qed.
Ltac inc := intro; cbn; intuition (subst; auto).

Lemma neqb a b : a <> b -> loc_eqb a b = false.
Proof. intro N. destruct (loc_eqb_spec a b); [contradiction|reflexivity]. Qed.
Lemma eqb_self a : loc_eqb a a = true.
Proof. now destruct (loc_eqb_spec a a). Qed.
Lemma cons_same {A} (a b : A) l k : a = b -> l = k -> a :: l = b :: k.
Proof. now intros -> ->. Qed.
Lemma to_bytes_run v p m : p "s" <> p "h" ->
  as_fe (cells (fst (crun FeToBytes_code (State v p m)))) (p "h") = snd (FeToBytes (as_fe m (p "h"))) /\
  map (fun i => cells (fst (crun FeToBytes_code (State v p m))) (p "s") (Z.of_nat i)) (seq 0 32) = map b2z (fst (FeToBytes (as_fe m (p "h")))).
Proof.
  intro N. split; go.
  - generalize (neqb _ _ N) (neqb _ _ (not_eq_sym N)) (eqb_self (p "s")) (eqb_self (p "h")). clear N.
    set (a := p "s"). set (b := p "h"). clearbody a b. intros E1 E2 E3 E4. repeat (rewrite ?E1, ?E2, ?E3, ?E4). reflexivity.
  - generalize (neqb _ _ N) (neqb _ _ (not_eq_sym N)) (eqb_self (p "s")) (eqb_self (p "h")). clear N.
    set (a := p "s"). set (b := p "h"). clearbody a b. intros E1 E2 E3 E4. repeat (rewrite ?E1, ?E2, ?E3, ?E4). repeat (apply cons_same; [symmetry; apply b2z_z2b|]). reflexivity.
Qed.
Lemma to_bytes_code s : ptrs s "s" <> ptrs s "h" ->
  let m := cells (fst (crun FeToBytes_code s)) in let '(b, f) := FeToBytes (as_fe (cells s) (ptrs s "h")) in
  has_bytes m (ptrs s "s") b /\ as_fe m (ptrs s "h") = f /\ only_at [ptrs s "s"; ptrs s "h"] (cells s) m.
Proof.
  destruct s as [v p m]. cbn [ptrs cells]. intro N. destruct (to_bytes_run v p m N) as [E1 E2].
  assert (L : length (fst (FeToBytes (as_fe m (p "h")))) = 32%nat) by reflexivity.
  destruct (FeToBytes (as_fe m (p "h"))) as [b f]. cbn [fst snd] in E1, E2, L.
  split; [|split; [exact E1|apply kept; inc]]. unfold has_bytes, contains. now rewrite map_length, L.
Qed.
